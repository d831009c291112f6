(** C118: tables of stations: joining, comparing and sorting. *)

From Coq Require Import Ascii String List Bool Arith Lia Permutation Sorted.
From Verif Require Import Time_Model Time_Proofs Io_Model Io_Proofs Template_Model Bundle_Model Bundle_Props Collate_Model Collate_Props Join_Model.
Import ListNotations.
Local Open Scope string_scope.

(** ** What is asked *)

(** a line of a table: the cells with tabs between them, and a newline *)
Definition row_line (r : list string) : string := joined r ++ nl.
Definition table (h : list string) (rows : list (list string)) : list string := row_line h :: map row_line rows.
(** the cell of a row under a heading *)
Fixpoint cell (h r : list string) (name : string) : string :=
  match h, r with k :: hs, v :: vs => if String.eqb k name then v else cell hs vs name | _, _ => "" end.
Definition clean (s : string) : Prop := nosep tab_char s = true.
Definition well_formed (h : list string) (rows : list (list string)) : Prop :=
  NoDup h /\ In "STAID" h /\ Forall (fun k => clean k /\ strip k = k) h /\ Forall (fun r => length r = length h /\ Forall clean r) rows.
Definition id_of (h r : list string) : string := cell h r "STAID".
(** the list is what is left of the other after some are taken out *)
Inductive sublist {A} : list A -> list A -> Prop :=
| sub_nil l : sublist [] l
| sub_take x l m : sublist l m -> sublist (x :: l) (x :: m)
| sub_skip x l m : sublist l m -> sublist l (x :: m).
(** the cells that are added to a row: those of the row of the same station, or dashes *)
Definition added (h1 h2 : list string) (rows2 : list (list string)) (r : list string) : list string :=
  match find (fun r2 => String.eqb (id_of h2 r2) (id_of h1 r)) rows2 with
  | Some r2 => map (cell h2 r2) new_headings
  | None => map (fun _ => "-") new_headings
  end.

(** ** Reading a row *)

Lemma rmap_ok {A B} (f : A -> res B) g l : (forall x, In x l -> f x = Ok (g x)) -> rmap f l = Ok (map g l).
Proof.
  induction l as [|a l IH]; intros H; [reflexivity|]. cbn [rmap map]. rewrite (H a (or_introl eq_refl)). cbn [rbind]. rewrite IH; [reflexivity|].
  intros x X. apply H. now right.
Qed.
Lemma val_dict_ok h : forall r, length r = length h -> val_dict h r = Ok (combine h r).
Proof.
  induction h as [|k h IH]; intros [|v r] L; try discriminate L; [reflexivity|]. cbn [val_dict combine]. rewrite IH by (cbn in L; lia). reflexivity.
Qed.
Lemma get_val_none h : forall r name, ~ In name h -> get_val (combine h r) name = None.
Proof.
  induction h as [|k h IH]; intros [|v r] name N; try reflexivity. cbn [combine get_val]. rewrite IH by (intros X; apply N; now right).
  destruct (String.eqb_spec k name) as [->|]; [exfalso; apply N; now left|reflexivity].
Qed.
Lemma val_ok h : forall r name, NoDup h -> length r = length h -> In name h -> get_val (combine h r) name = Some (cell h r name).
Proof.
  induction h as [|k h IH]; intros [|v r] name ND L I; try discriminate L; [destruct I|]. inversion_clear ND as [|? ? NI ND']. cbn [combine get_val cell].
  destruct (String.eqb_spec k name) as [->|E].
  - now rewrite get_val_none.
  - destruct I as [I|I]; [contradiction|]. rewrite (IH r name ND') by (cbn in L; auto; lia). reflexivity.
Qed.
Lemma cells_all h : forall r, NoDup h -> length r = length h -> map (cell h r) h = r.
Proof.
  induction h as [|k h IH]; intros [|v r] ND L; try discriminate L; [reflexivity|]. inversion_clear ND as [|? ? NI ND']. cbn [map cell]. rewrite String.eqb_refl. f_equal.
  transitivity (map (cell h r) h); [|apply IH; [exact ND'|cbn in L; lia]]. apply map_ext_in. intros x X. destruct (String.eqb_spec k x) as [->|]; [contradiction|reflexivity].
Qed.
Lemma row_cells r : r <> [] -> Forall clean r -> split tab_char (but_last (row_line r)) = r.
Proof. intros N C. unfold row_line, nl. rewrite but_last_app. destruct r as [|v r]; [congruence|]. rewrite <- tsv_joined. now apply tsv_split. Qed.
Lemma read_ok h (rows : list (list string)) r : well_formed h rows -> In r rows -> read_row h (row_line r) = Ok (id_of h r, combine h r).
Proof.
  intros (ND & ST & _ & W) I. rewrite Forall_forall in W. destruct (W r I) as [L C]. unfold read_row.
  rewrite row_cells; [|intros ->; destruct h; [destruct ST|discriminate L]|exact C]. rewrite val_dict_ok by exact L. cbn [rbind]. unfold val. now rewrite val_ok.
Qed.
Lemma vals_ok h (rows : list (list string)) r : well_formed h rows -> In r rows -> rmap (val (combine h r)) h = Ok r.
Proof.
  intros (ND & _ & _ & W) I. rewrite Forall_forall in W. destruct (W r I) as [L _]. rewrite (rmap_ok _ (cell h r)).
  - now rewrite cells_all.
  - intros x X. unfold val. now rewrite val_ok.
Qed.
Lemma new_ok h rows r : well_formed h rows -> In r rows -> incl new_headings h -> rmap (val (combine h r)) new_headings = Ok (map (cell h r) new_headings).
Proof.
  intros (ND & _ & _ & W) I S. rewrite Forall_forall in W. destruct (W r I) as [L _]. apply rmap_ok. intros x X. unfold val. rewrite val_ok; auto.
Qed.
Lemma out_ok h1 rows1 r (same : bool) d2 new : well_formed h1 rows1 -> In r rows1 ->
  (if same then rmap (val d2) new_headings else Ok (map (fun _ => "-") new_headings)) = Ok new ->
  out_line h1 (combine h1 r) same d2 = Ok (row_line (r ++ new)).
Proof.
  intros W I E. unfold out_line. rewrite (vals_ok h1 rows1) by auto. cbn [rbind]. rewrite E. cbn [rbind]. unfold row_line.
  destruct W as (_ & ST & _ & W). rewrite Forall_forall in W. destruct (W r I) as [L _]. destruct r as [|v r]; [destruct h1; [destruct ST|discriminate L]|].
  cbn [app]. now rewrite tsv_joined.
Qed.
Lemma headings_ok h rows : well_formed h rows -> get_csv_headings (row_line h) = h.
Proof.
  intros (_ & ST & H & _). unfold get_csv_headings, row_line. destruct h as [|v l]; [destruct ST|]. clear ST. revert v H.
  assert (N : nosep tab_char nl = true) by reflexivity.
  assert (NA : forall s, nosep tab_char s = true -> nosep tab_char (s ++ nl) = true) by (induction s as [|c s IH]; [reflexivity|]; cbn; rewrite !andb_true_iff; intros [A B]; auto).
  induction l as [|w l IH]; intros v H; apply Forall_cons_iff in H as [[H1 H2] H3].
  - cbn [joined]. rewrite split_last by (now apply NA). cbn [map]. f_equal. unfold nl. etransitivity; [apply (strip_newline v)|exact H2].
  - change (joined (v :: w :: l)) with (v ++ String tab_char (joined (w :: l))). replace ((v ++ String tab_char (joined (w :: l))) ++ nl) with (v ++ String tab_char (joined (w :: l) ++ nl)).
    + rewrite split_app by exact H1. cbn [map]. rewrite H2. f_equal. now apply IH.
    + rewrite Collate_Props.app_assoc_s. reflexivity.
Qed.

(** ** Joining two files *)

Lemma find_none_other (h1 h2 : list string) rows2 r c rest : rows2 = c :: rest -> id_of h2 c <> id_of h1 r ->
  added h1 h2 rows2 r = added h1 h2 rest r.
Proof. intros -> N. unfold added. cbn [find]. destruct (String.eqb_spec (id_of h2 c) (id_of h1 r)); [contradiction|reflexivity]. Qed.
Lemma no_match (h1 h2 : list string) rows2 r : ~ In (id_of h1 r) (map (id_of h2) rows2) -> added h1 h2 rows2 r = map (fun _ => "-") new_headings.
Proof.
  intros N. unfold added. destruct (find _ rows2) as [r2|] eqn:F; [|reflexivity]. apply find_some in F as [F1 F2]. apply String.eqb_eq in F2.
  exfalso. apply N. rewrite <- F2. now apply in_map.
Qed.
Lemma sub_in {A} (l m : list A) x : sublist l m -> In x l -> In x m.
Proof. induction 1; cbn; intros I; [destruct I|destruct I as [->|I]; auto|auto]. Qed.
(** a row that matches nothing: dashes to the end *)
Lemma stray h1 h2 all1 : well_formed h1 all1 -> forall rows1 d2 id2 lines2, incl rows1 all1 -> ~ In id2 (map (id_of h1) rows1) ->
  combine_loop h1 h2 id2 d2 (map row_line rows1) lines2 = Ok (map (fun r => row_line (r ++ map (fun _ => "-") new_headings)) rows1).
Proof.
  intros W. induction rows1 as [|r rows1 IH]; intros d2 id2 lines2 I N; [reflexivity|]. cbn [map combine_loop].
  assert (RI : In r all1) by (apply I; now left). rewrite (read_ok h1 all1 r W RI). cbn [rbind fst snd].
  destruct (String.eqb_spec id2 (id_of h1 r)) as [E|E]; [exfalso; apply N; cbn; now left|].
  rewrite (out_ok h1 all1 r false d2 (map (fun _ => "-") new_headings) W RI eq_refl). cbn [rbind].
  rewrite IH; [reflexivity|intros x X; apply I; now right|intros X; apply N; now right].
Qed.
Lemma loop_ok h1 h2 all1 all2 : well_formed h1 all1 -> well_formed h2 all2 -> incl new_headings h2 ->
  forall rows1 c rest2, incl rows1 all1 -> incl (c :: rest2) all2 -> NoDup (map (id_of h1) rows1) ->
  sublist (map (id_of h2) (c :: rest2)) (map (id_of h1) rows1) ->
  combine_loop h1 h2 (id_of h2 c) (combine h2 c) (map row_line rows1) (map row_line rest2) =
    Ok (map (fun r => row_line (r ++ added h1 h2 (c :: rest2) r)) rows1).
Proof.
  intros W1 W2 NH. induction rows1 as [|r rows1 IH]; intros c rest2 I1 I2 ND S; [cbn [map] in S; inversion S|]. cbn [map combine_loop].
  assert (RI : In r all1) by (apply I1; now left). assert (CI : In c all2) by (apply I2; now left).
  rewrite (read_ok h1 all1 r W1 RI). cbn [rbind fst snd]. cbn [map] in ND. inversion_clear ND as [|? ? NI ND'].
  destruct (String.eqb_spec (id_of h2 c) (id_of h1 r)) as [E|E].
  - rewrite (out_ok h1 all1 r true (combine h2 c) (map (cell h2 c) new_headings) W1 RI (new_ok h2 all2 c W2 CI NH)). cbn [rbind].
    assert (A : added h1 h2 (c :: rest2) r = map (cell h2 c) new_headings) by (unfold added; cbn [find]; rewrite E, String.eqb_refl; reflexivity). rewrite A.
    assert (S' : sublist (map (id_of h2) rest2) (map (id_of h1) rows1)).
    { cbn [map] in S. inversion S as [|x l m S1|x l m S1]; subst; [exact S1|]. exfalso. apply NI. rewrite <- E. apply (sub_in _ _ _ S1). now left. }
    assert (OTHER : forall r', In r' rows1 -> added h1 h2 (c :: rest2) r' = added h1 h2 rest2 r').
    { intros r' R'. apply (find_none_other h1 h2 _ r' c rest2 eq_refl). rewrite E. intros X. apply NI. rewrite X. now apply in_map. }
    rewrite (map_ext_in (fun r0 => row_line (r0 ++ added h1 h2 (c :: rest2) r0)) (fun r0 => row_line (r0 ++ added h1 h2 rest2 r0))) by (intros x X; now rewrite OTHER).
    destruct rest2 as [|c' rest2]; cbn [map].
    + rewrite (stray h1 h2 all1 W1); [reflexivity|intros x X; apply I1; now right|now rewrite E].
    + rewrite (read_ok h2 all2 c' W2) by (apply I2; right; now left). cbn [rbind fst snd]. rewrite IH; [reflexivity|intros x X; apply I1; now right|intros x X; apply I2; now right|exact ND'|exact S'].
  - assert (S' : sublist (map (id_of h2) (c :: rest2)) (map (id_of h1) rows1)) by (cbn [map] in *; inversion S; subst; [congruence|assumption]).
    assert (A : added h1 h2 (c :: rest2) r = map (fun _ => "-") new_headings).
    { apply no_match. intros X. apply NI. apply (sub_in _ _ _ S' X). }
    rewrite (out_ok h1 all1 r false (combine h2 c) (map (fun _ => "-") new_headings) W1 RI eq_refl). cbn [rbind]. rewrite A.
    rewrite IH; [reflexivity|intros x X; apply I1; now right|exact I2|exact ND'|exact S'].
Qed.

(** If the stations of the second table are among those of the first, in the same order, every row of the first is written once, in its
    order, with the indicators of the row of its station, or dashes if it has none. *)
(** the columns that are added, in this order *)
Definition indicators : list string :=
  ["LONG_CENT"; "LAT_CENT"; "ARIDITY_INDEX"; "PRECIP_TIMING_INDEX"; "SNOW_PRECIP_FRACTION"; "SWB2_CLASS"; "KNOBEN_ARIDITY"; "KNOBEN_SEASONALITY"; "KNOBEN_SNOW_FRAC"].
Theorem C118_combine : forall h1 h2 rows1 rows2, well_formed h1 rows1 -> well_formed h2 rows2 -> incl indicators h2 -> rows2 <> [] ->
  NoDup (map (id_of h1) rows1) -> sublist (map (id_of h2) rows2) (map (id_of h1) rows1) ->
  combine_tsv_files (table h1 rows1) (table h2 rows2) = Ok (table (h1 ++ indicators) (map (fun r => (r ++ added h1 h2 rows2 r)%list) rows1)).
Proof.
  change indicators with new_headings.
  intros h1 h2 rows1 rows2 W1 W2 NH NE ND S. destruct rows2 as [|c rest2]; [congruence|]. unfold combine_tsv_files, table. cbn [first_line map].
  rewrite (headings_ok h1 rows1 W1), (headings_ok h2 _ W2). rewrite (read_ok h2 _ c W2) by now left. cbn [rbind fst snd].
  rewrite (loop_ok h1 h2 rows1 (c :: rest2) W1 W2 NH) by (auto using incl_refl). cbn [rbind]. rewrite map_map. f_equal. f_equal. unfold row_line.
  destruct h1 as [|v h1]; [destruct W1 as (_ & [] & _)|]. cbn [app]. now rewrite tsv_joined.
Qed.
Print Assumptions C118_combine.

(** Sorted tables, all stations of the second being in the first, are such tables. *)
Theorem C118_sorted : forall a b : list string, StronglySorted lt_s a -> StronglySorted lt_s b -> incl b a -> sublist b a /\ NoDup a.
Proof.
  intros a b A B I. split.
  - revert b B I. induction A as [|x a A IH F]; intros b B I; [destruct b as [|y b]; [constructor|destruct (I y (or_introl eq_refl))]|].
    destruct b as [|y b]; [constructor|]. inversion_clear B as [|? ? B' G]. rewrite Forall_forall in F, G. destruct (I y (or_introl eq_refl)) as [E|Y].
    + subst y. constructor. apply IH; [exact B'|]. intros z Z. destruct (I z (or_intror Z)) as [<-|J]; [exfalso; apply (lt_irrefl x); now apply G|exact J].
    + apply sub_skip. apply IH; [now constructor; auto; apply Forall_forall|]. intros z [<-|Z]; [exact Y|]. destruct (I z (or_intror Z)) as [<-|J]; [|exact J].
      exfalso. apply (lt_irrefl x). apply (compare_lt_trans x y x); [now apply F|now apply G].
  - clear B I. induction A as [|x a A IH F]; constructor; [|exact IH]. intros X. rewrite Forall_forall in F. apply (lt_irrefl x). now apply F.
Qed.
Print Assumptions C118_sorted.

(** Refuted: every row gets the indicators of its station.  A station of the second table that is not in the first (or is out of order)
    leaves all later ones without theirs. *)
Theorem C118_stray_refuted : forall h1 h2 rows1 c rest2, well_formed h1 rows1 -> well_formed h2 (c :: rest2) -> ~ In (id_of h2 c) (map (id_of h1) rows1) ->
  combine_tsv_files (table h1 rows1) (table h2 (c :: rest2)) =
    Ok (table (h1 ++ new_headings) (map (fun r => (r ++ ["-"; "-"; "-"; "-"; "-"; "-"; "-"; "-"; "-"])%list) rows1)).
Proof.
  intros h1 h2 rows1 c rest2 W1 W2 N. unfold combine_tsv_files, table. cbn [first_line map].
  rewrite (headings_ok h1 rows1 W1), (headings_ok h2 _ W2). rewrite (read_ok h2 _ c W2) by now left. cbn [rbind fst snd].
  rewrite (stray h1 h2 rows1 W1) by (auto using incl_refl). cbn [rbind]. rewrite map_map. f_equal. f_equal. unfold row_line.
  destruct h1 as [|v h1]; [destruct W1 as (_ & [] & _)|]. cbn [app]. now rewrite tsv_joined.
Qed.
Print Assumptions C118_stray_refuted.
(** A second table without rows is an error. *)
Theorem C118_no_rows_refuted : forall file1 h2, well_formed h2 [] -> 1 < length h2 -> combine_tsv_files file1 (table h2 []) = Err IndexError.
Proof.
  intros file1 h2 W L. unfold combine_tsv_files, table. destruct (first_line file1) as [header1 lines1]. cbn [first_line map]. rewrite (headings_ok h2 [] W).
  destruct h2 as [|a [|b h2]]; cbn in L; try lia. reflexivity.
Qed.
Print Assumptions C118_no_rows_refuted.

(** ** Lists of stations *)

Lemma isin_spec l x : isin l x = true <-> In x l.
Proof.
  unfold isin. rewrite existsb_exists. split; [intros (y & Y & E); apply String.eqb_eq in E; now subst|intros I; exists x; split; [exact I|apply String.eqb_refl]].
Qed.
Lemma both_spec a b x : In x (both a b) <-> In x a /\ In x b.
Proof. unfold both. rewrite filter_In, nodup_In, isin_spec. tauto. Qed.
Lemma minus_spec a b x : In x (minus a b) <-> In x a /\ ~ In x b.
Proof. unfold minus. rewrite filter_In, nodup_In, negb_true_iff, <- not_true_iff_false, isin_spec. tauto. Qed.
Lemma sort_strict l : NoDup l -> StronglySorted lt_s (sort l).
Proof. intros H. apply sites_nodup_sorted; [|apply sort_sorted]. eapply Permutation_NoDup; [apply Permutation_sym, sort_perm|exact H]. Qed.
Lemma sort_in l x : In x (sort l) <-> In x l.
Proof. split; apply Permutation_in; [apply sort_perm|apply Permutation_sym, sort_perm]. Qed.

(** The stations in common are those in both lists, the others those in the first only; each once, sorted. *)
Theorem C118_common : forall a b,
  (forall x, In x (get_common_site_ids Common a b) <-> In x a /\ In x b) /\ (forall x, In x (get_common_site_ids In1not2 a b) <-> In x a /\ ~ In x b) /\
  StronglySorted lt_s (get_common_site_ids Common a b) /\ StronglySorted lt_s (get_common_site_ids In1not2 a b) /\
  get_common_site_ids Common a b = get_common_site_ids Common b a.
Proof.
  intros a b. cbn [get_common_site_ids]. assert (NB : forall a b, NoDup (both a b)) by (intros; apply NoDup_filter, NoDup_nodup).
  assert (NM : NoDup (minus a b)) by (apply NoDup_filter, NoDup_nodup).
  refine (conj _ (conj _ (conj _ (conj _ _)))).
  - intros x. now rewrite sort_in, both_spec.
  - intros x. now rewrite sort_in, minus_spec.
  - now apply sort_strict.
  - now apply sort_strict.
  - apply sorted_unique; [apply sort_sorted|apply sort_sorted|]. rewrite !sort_perm. apply NoDup_Permutation; auto. intros x. rewrite !both_spec. tauto.
Qed.
Print Assumptions C118_common.

(** The numbers of the comparison add up. *)
Theorem C118_numbers : forall a b, let '(n1, n2, n12, d1, d2) := compare_basin_ids a b in
  n1 = n12 + d1 /\ n2 = n12 + d2 /\ (d1 = 0 <-> incl a b).
Proof.
  intros a b. cbn [compare_basin_ids]. unfold compare_basin_ids.
  assert (S : forall (f : string -> bool) l, length l = length (filter f l) + length (filter (fun x => negb (f x)) l)).
  { intros f l. induction l as [|x l IH]; [reflexivity|]. cbn [filter]. destruct (f x); cbn [negb length]; lia. }
  assert (C : length (both a b) = length (both b a)).
  { apply Permutation_length, NoDup_Permutation; [apply NoDup_filter, NoDup_nodup|apply NoDup_filter, NoDup_nodup|]. intros x. rewrite !both_spec. tauto. }
  refine (conj _ (conj _ _)).
  - apply (S (isin b)).
  - rewrite C. apply (S (isin a)).
  - split.
    + intros E x X. apply length_zero_iff_nil in E. destruct (in_dec string_dec x b) as [I|I]; [exact I|]. exfalso.
      assert (J : In x (minus a b)) by (now apply minus_spec). rewrite E in J. destruct J.
    + intros I. destruct (minus a b) as [|x l] eqn:E; [reflexivity|]. exfalso. assert (J : In x (minus a b)) by (rewrite E; now left). apply minus_spec in J as [J1 J2]. auto.
Qed.
Print Assumptions C118_numbers.

(** The stations of a file are those of its column, blanks at the ends removed, sorted, none lost; only those of digits if asked. *)
Theorem C118_site_ids : forall delim col header rows, (forall r, In r rows -> col < length r) ->
  forall lines, Forall2 (fun r line => split delim (but_last line) = r) rows lines ->
  exists ids, get_site_ids delim col false (header :: lines) = Ok ids /\ Permutation ids (map (fun r => strip (nth col r "")) rows) /\ StronglySorted le ids /\
    exists nums, get_site_ids delim col true (header :: lines) = Ok nums /\ StronglySorted le nums /\ Permutation nums (filter isdigit ids).
Proof.
  intros delim col header rows L lines F. unfold get_site_ids. cbn [first_line snd].
  assert (E : rmap (fun line => let! v := item (split delim (but_last line)) col in Ok (strip v)) lines = Ok (map (fun r => strip (nth col r "")) rows)).
  { induction F as [|r line rows lines E F IH]; [reflexivity|]. cbn [rmap map]. rewrite E. unfold item at 1. rewrite (nth_error_nth' r "") by (apply L; now left). cbn [rbind].
    rewrite IH by (intros x X; apply L; now right). reflexivity. }
  rewrite E. cbn [rbind]. eexists. split; [reflexivity|]. split; [apply sort_perm|]. split; [apply sort_sorted|]. eexists. split; [reflexivity|]. split; [apply sort_sorted|].
  rewrite sort_perm. generalize (map (fun r => strip (nth col r "")) rows) as l. intros l. pose proof (Permutation_sym (sort_perm l)) as P. revert P. generalize (sort l) as m. clear.
  intros m P. induction P as [|x l m P IH|x y l|l m k P1 IH1 P2 IH2]; cbn [filter]; [constructor|destruct (isdigit x); auto|destruct (isdigit x), (isdigit y); auto using perm_swap|now transitivity (filter isdigit m)].
Qed.
Print Assumptions C118_site_ids.

(** ** Sorting of files *)

Lemma app_assoc_j (a b c : string) : (a ++ b) ++ c = a ++ (b ++ c).
Proof. apply Collate_Props.app_assoc_s. Qed.
Lemma row_line_cons v w l : row_line (v :: w :: l) = v ++ String tab_char (row_line (w :: l)).
Proof. unfold row_line. change (joined (v :: w :: l)) with (v ++ String tab_char (joined (w :: l))). now rewrite app_assoc_j. Qed.
Lemma text_app a b : text (a ++ b) = text a ++ text b.
Proof. induction a as [|x a IH]; [reflexivity|]. cbn [app text fold_right]. fold (text (a ++ b)). fold (text a). now rewrite IH, app_assoc_j. Qed.
Lemma digits_clean s : all_digits s = true -> nosep tab_char s = true.
Proof.
  induction s as [|c s IH]; [reflexivity|]. cbn [all_digits nosep]. intros H. apply andb_true_iff in H as [H1 H2]. rewrite IH by exact H2. rewrite andb_true_r.
  destruct (Ascii.eqb_spec c tab_char) as [->|]; [discriminate H1|reflexivity].
Qed.
Lemma digits_not_space c : is_digit c = true -> is_space c = false.
Proof. destruct c as [[] [] [] [] [] [] [] []]; cbn; intros H; try discriminate H; reflexivity. Qed.
Lemma digits_strip_id s : all_digits s = true -> strip s = s.
Proof.
  intros H. unfold strip. assert (L : lstrip s = s).
  { destruct s as [|c s]; [reflexivity|]. cbn [all_digits] in H. apply andb_true_iff in H as [H _]. cbn [lstrip]. now rewrite (digits_not_space c H). }
  assert (R : rstrip s = s).
  { clear L. induction s as [|c s IH]; [reflexivity|]. cbn [all_digits] in H. apply andb_true_iff in H as [H1 H2]. cbn [rstrip]. rewrite IH by exact H2.
    rewrite (digits_not_space c H1). now destruct s. }
  now rewrite R, L.
Qed.
Lemma le_ids : forall a b s t, all_digits a = true -> all_digits b = true -> le (a ++ String tab_char s) (b ++ String tab_char t) -> le a b.
Proof.
  unfold le, String.leb. induction a as [|x a IH]; intros [|y b] s t A B; try reflexivity.
  - cbn [append String.compare]. cbn [all_digits] in A. apply andb_true_iff in A as [A _]. intros H. exfalso. revert A H. clear. destruct x as [[] [] [] [] [] [] [] []]; vm_compute; congruence.
  - cbn [append String.compare]. cbn [all_digits] in A, B. apply andb_true_iff in A as [_ A], B as [_ B]. destruct (Ascii.compare x y); [now apply IH|reflexivity|discriminate].
Qed.

(** A file of rows that begin with the number of the station: the lines at the top stay, every row stays once, 7 digits become 8, and the rows are
    in the order of the numbers. *)
Definition pad_id (r : list string) : list string := match r with i :: v => (if Nat.eqb (String.length i) 7 then "0" ++ i else i) :: v | [] => [] end.
Definition numbered (r : list string) : Prop := exists i v rest, r = i :: v :: rest /\ all_digits i = true.
Lemma padded_row r : numbered r -> padded (row_line r) = row_line (pad_id r) /\ numbered (pad_id r).
Proof.
  intros (i & v & rest & -> & D). rewrite row_line_cons. unfold padded. rewrite split_app by (now apply digits_clean). rewrite digits_strip_id by exact D. cbn [pad_id].
  destruct (Nat.eqb (String.length i) 7).
  - split; [now rewrite row_line_cons|]. exists ("0" ++ i), v, rest. split; [reflexivity|exact D].
  - split; [now rewrite row_line_cons|]. now exists i, v, rest.
Qed.
Lemma sorted_rows rows : Forall numbered rows -> StronglySorted le (map row_line rows) -> StronglySorted le (map (hd "") rows).
Proof.
  induction rows as [|r rows IH]; intros N S; [constructor|]. apply Forall_cons_iff in N as [N1 N2]. cbn [map] in *. inversion_clear S as [|? ? S' F]. constructor; [now apply IH|].
  rewrite Forall_forall in F, N2 |- *. intros i I. apply in_map_iff in I as (r' & <- & R'). specialize (F (row_line r') (in_map _ _ _ R')).
  destruct N1 as (a & v & l & -> & A), (N2 r' R') as (b & w & m & -> & B). rewrite !row_line_cons in F. cbn [hd]. eapply le_ids; eauto.
Qed.
Theorem C118_sort_file : forall header rows, Forall numbered rows -> exists rows',
  sort_tsv_by_site_id (length header) (header ++ map row_line rows) = text header ++ text (map row_line rows') /\
  Permutation rows' (map pad_id rows) /\ StronglySorted le (map (hd "") rows').
Proof.
  intros header rows N. unfold sort_tsv_by_site_id. rewrite firstn_app, firstn_all, Nat.sub_diag. cbn [firstn]. rewrite app_nil_r. rewrite skipn_app, skipn_all, Nat.sub_diag. cbn [skipn app].
  rewrite map_map. rewrite (map_ext_in _ (fun r => row_line (pad_id r))) by (intros r R; rewrite Forall_forall in N; now apply padded_row, N). rewrite <- (map_map pad_id row_line).
  destruct (Permutation_map_inv row_line (map pad_id rows) (sort_perm (map row_line (map pad_id rows)))) as (rows' & E & P).
  exists rows'. rewrite text_app, E. split; [reflexivity|]. split; [now apply Permutation_sym|]. apply sorted_rows.
  - rewrite Forall_forall in *. intros r R. apply (Permutation_in r (Permutation_sym P)), in_map_iff in R as (q & <- & Q). now apply padded_row, N.
  - rewrite <- E. apply sort_sorted.
Qed.
Print Assumptions C118_sort_file.

(** Refuted: the rows stay apart.  A last line without a newline is joined to the row that comes after it. *)
Theorem C118_newline_refuted : forall header x y, numbered x -> numbered y -> String.length (hd "" x) <> 7 -> String.length (hd "" y) <> 7 -> lt_s (joined y) (row_line x) ->
  sort_tsv_by_site_id (length header) (header ++ [row_line x; joined y]) = text header ++ (joined y ++ row_line x).
Proof.
  intros header x y X Y LX LY L. unfold sort_tsv_by_site_id. rewrite firstn_app, firstn_all, Nat.sub_diag. cbn [firstn]. rewrite app_nil_r. rewrite skipn_app, skipn_all, Nat.sub_diag. cbn [skipn app map].
  rewrite (proj1 (padded_row x X)). assert (PX : pad_id x = x).
  { destruct X as (i & v & r & -> & _). cbn [pad_id hd] in *. apply Nat.eqb_neq in LX. now rewrite LX. }
  rewrite PX. assert (PY : padded (joined y) = joined y).
  { destruct Y as (i & v & r & -> & D). cbn [hd] in LY. unfold padded. change (joined (i :: v :: r)) with (i ++ String tab_char (joined (v :: r))).
    rewrite split_app by (now apply digits_clean). rewrite digits_strip_id by exact D. apply Nat.eqb_neq in LY. now rewrite LY. }
  rewrite PY. unfold sort. cbn [fold_right insert]. replace (String.leb (row_line x) (joined y)) with false.
  - rewrite text_app. cbn [text fold_right]. now rewrite app_nil_s.
  - symmetry. apply not_true_iff_false. intros H. apply leb_cases in H as [H|H]; [|rewrite H in L; now apply lt_irrefl in L].
    apply (lt_irrefl (joined y)). unfold lt_s in *. eapply compare_lt_trans; eauto.
Qed.
Print Assumptions C118_newline_refuted.

Lemma tab_pos_app a s : nosep tab_char a = true -> tab_pos (a ++ String tab_char s) = Some (String.length a).
Proof.
  induction a as [|c a IH]; intros H; [reflexivity|]. cbn [nosep] in H. apply andb_true_iff in H as [H1 H2]. cbn [append tab_pos String.length].
  apply negb_true_iff in H1. rewrite H1, IH by exact H2. reflexivity.
Qed.
Lemma tab_pos_none a : nosep tab_char a = true -> tab_pos a = None.
Proof.
  induction a as [|c a IH]; intros H; [reflexivity|]. cbn [nosep] in H. apply andb_true_iff in H as [H1 H2]. cbn [tab_pos].
  apply negb_true_iff in H1. now rewrite H1, IH by exact H2.
Qed.
Lemma take_len a s : take (String.length a) (a ++ s) = a.
Proof. induction a as [|c a IH]; [now destruct s|]. cbn. now rewrite IH. Qed.
Lemma drop_len a c s : drop (S (String.length a)) (a ++ String c s) = s.
Proof. induction a as [|d a IH]; [reflexivity|]. cbn [append String.length]. exact IH. Qed.
Lemma cut a s : clean a -> upto (a ++ String tab_char s) = a /\ after (a ++ String tab_char s) = s.
Proof. intros C. unfold upto, after. rewrite tab_pos_app by exact C. now rewrite take_len, drop_len. Qed.

(** Rows of three columns or more: the first two change places, nothing else does, and the rows are sorted. *)
Definition swapped (r : list string) : list string := match r with a :: b :: l => b :: a :: l | _ => r end.
Definition wide (r : list string) : Prop := exists a b c l, r = a :: b :: c :: l /\ clean a /\ clean b.
Theorem C118_swap : forall h rows, wide h -> Forall wide rows -> exists rows',
  sort_by_site_code (table h rows) = Ok (table (swapped h) rows') /\ Permutation rows' (map swapped rows) /\ StronglySorted le (map row_line rows').
Proof.
  intros h rows H R. assert (S : forall r, wide r -> swap_columns (row_line r) = row_line (swapped r)).
  { intros r (a & b & c & l & -> & A & B). unfold swap_columns. rewrite !row_line_cons. destruct (cut a (b ++ String tab_char (row_line (c :: l))) A) as [-> ->].
    destruct (cut b (row_line (c :: l)) B) as [-> ->]. cbn [swapped]. now rewrite !row_line_cons. }
  unfold sort_by_site_code, table. cbn [map]. rewrite (S h H), map_map. rewrite (map_ext_in _ (fun r => row_line (swapped r))) by (intros r I; rewrite Forall_forall in R; apply S; auto).
  rewrite <- (map_map swapped row_line). destruct (Permutation_map_inv row_line (map swapped rows) (sort_perm (map row_line (map swapped rows)))) as (rows' & E & P).
  exists rows'. rewrite E. split; [reflexivity|]. split; [now apply Permutation_sym|]. rewrite <- E. apply sort_sorted.
Qed.
Print Assumptions C118_swap.
(** Refuted: so do the columns of a table that has only two.  The second is written twice. *)
Theorem C118_two_columns_refuted : forall a b, clean a -> clean b -> swap_columns (row_line [a; b]) = row_line [b; a; b].
Proof.
  intros a b A B. unfold swap_columns. rewrite row_line_cons. destruct (cut a (row_line [b]) A) as [-> ->].
  assert (N : nosep tab_char (row_line [b]) = true).
  { unfold row_line. cbn [joined]. unfold clean in B. revert B. clear. induction b as [|c b IH]; [reflexivity|]. cbn [append nosep]. rewrite !andb_true_iff. intros [X Y]. auto. }
  unfold upto, after. rewrite tab_pos_none by exact N. rewrite !row_line_cons. f_equal. unfold row_line, nl. now rewrite but_last_app.
Qed.
Print Assumptions C118_two_columns_refuted.

(** The stations of a table: the cells of the column, blanks removed, 7 characters made 8, in the order of the rows. *)
Lemma split_row r : r <> [] -> Forall clean r -> map strip (split tab_char (row_line r)) = map strip r.
Proof.
  intros N. destruct r as [|v l]; [congruence|]. clear N. revert v.
  assert (NA : forall s, nosep tab_char s = true -> nosep tab_char (s ++ nl) = true) by (induction s as [|c s IH]; [reflexivity|]; cbn; rewrite !andb_true_iff; intros [A B]; auto).
  induction l as [|w l IH]; intros v H; apply Forall_cons_iff in H as [H1 H3].
  - unfold row_line. cbn [joined]. rewrite split_last by (now apply NA). cbn [map]. f_equal. apply (strip_newline v).
  - rewrite row_line_cons, split_app by exact H1. change (map strip (v :: w :: l)) with (strip v :: map strip (w :: l)). rewrite <- IH by exact H3. reflexivity.
Qed.
Theorem C118_basin_ids : forall col rows, Forall (fun r => col < length r /\ Forall clean r) rows ->
  get_basin_ids tab_char col false (map row_line rows) = Ok (map (fun r => let i := strip (nth col r "") in if Nat.eqb (String.length i) 7 then "0" ++ i else i) rows).
Proof.
  intros col rows H. rewrite Forall_forall in H. unfold get_basin_ids. induction rows as [|r rows IH]; [reflexivity|]. cbn [map rmap].
  destruct (H r (or_introl eq_refl)) as [L C]. assert (N : r <> []) by (intros ->; cbn in L; lia). pose proof (split_row r N C) as E.
  assert (LE : length (split tab_char (row_line r)) = length r) by (rewrite <- (map_length strip), E; apply map_length).
  unfold item at 1. rewrite (nth_error_nth' _ "") by lia. cbn [rbind].
  assert (V : strip (nth col (split tab_char (row_line r)) "") = strip (nth col r "")).
  { rewrite <- (map_nth strip (split tab_char (row_line r)) "" col), <- (map_nth strip r "" col). now rewrite E. }
  rewrite V. rewrite IH by (intros x X; apply H; now right). reflexivity.
Qed.
Print Assumptions C118_basin_ids.

Example C118_case :
  let h1 := ["STAID"; "NAME"] in let h2 := "STAID" :: new_headings in
  let r2 i := [i; "1"; "2"; "3"; "4"; "5"; "A1"; "6"; "7"; "8"] in
  let rows1 := [["01010000"; "Ash"]; ["01020000"; "Oak"]; ["01030000"; "Elm"]] in
  (well_formed h1 rows1 /\ well_formed h2 [r2 "01020000"; r2 "01030000"] /\ incl new_headings h2 /\ NoDup (map (id_of h1) rows1) /\
   sublist (map (id_of h2) [r2 "01020000"; r2 "01030000"]) (map (id_of h1) rows1)) /\
  combine_tsv_files (table h1 rows1) (table h2 [r2 "01020000"; r2 "01030000"]) =
    Ok (table (h1 ++ new_headings) [["01010000"; "Ash"; "-"; "-"; "-"; "-"; "-"; "-"; "-"; "-"; "-"];
                                    ["01020000"; "Oak"; "1"; "2"; "3"; "4"; "5"; "A1"; "6"; "7"; "8"];
                                    ["01030000"; "Elm"; "1"; "2"; "3"; "4"; "5"; "A1"; "6"; "7"; "8"]]) /\
  (well_formed h2 [r2 "01015000"; r2 "01030000"] /\
   combine_tsv_files (table h1 rows1) (table h2 [r2 "01015000"; r2 "01030000"]) =
    Ok (table (h1 ++ new_headings) (map (fun r => (r ++ ["-"; "-"; "-"; "-"; "-"; "-"; "-"; "-"; "-"])%list) rows1))) /\
  get_site_ids tab_char 0 true [row_line ["ID"; "x"]; row_line [" 03 "; "a"]; row_line ["A1"; "b"]; row_line ["01"; "c"]] = Ok ["01"; "03"] /\
  get_common_site_ids Common ["3"; "1"; "3"; "2"] ["2"; "3"] = ["2"; "3"] /\ get_common_site_ids In1not2 ["3"; "1"; "3"; "2"] ["2"; "3"] = ["1"] /\
  compare_basin_ids ["3"; "1"; "3"; "2"] ["2"; "3"; "4"] = (3, 3, 2, 1, 1) /\
  get_basin_ids tab_char 1 true [row_line ["a"; "USGS-1010000"]] = Ok ["01010000"] /\
  sort_tsv_by_site_id 1 (table ["ID"; "x"] [["2010000"; "a"]; ["01020000"; "b"]; ["01010000"; "c"]]) =
    text (table ["ID"; "x"] [["01010000"; "c"]; ["01020000"; "b"]; ["02010000"; "a"]]) /\
  (numbered ["02"; "a"] /\ numbered ["01"; "b"] /\ lt_s (joined ["01"; "b"]) (row_line ["02"; "a"])) /\
  sort_by_site_code (table ["ID"; "Code"; "x"] [["2"; "B"; "y"]; ["1"; "A"; "z"]]) = Ok (table ["Code"; "ID"; "x"] [["A"; "1"; "z"]; ["B"; "2"; "y"]]).
Proof.
  cbv zeta. assert (W1 : well_formed ["STAID"; "NAME"] [["01010000"; "Ash"]; ["01020000"; "Oak"]; ["01030000"; "Elm"]]).
  { refine (conj _ (conj (or_introl eq_refl) (conj _ _))); [|repeat constructor; reflexivity|repeat constructor; reflexivity].
    repeat (constructor; [cbn; intros X; repeat (destruct X as [X|X]; [discriminate X|]); exact X|]). constructor. }
  assert (W2 : forall a b, clean a -> clean b -> well_formed ("STAID" :: new_headings) [[a; "1"; "2"; "3"; "4"; "5"; "A1"; "6"; "7"; "8"]; [b; "1"; "2"; "3"; "4"; "5"; "A1"; "6"; "7"; "8"]]).
  { intros a b A B. refine (conj _ (conj (or_introl eq_refl) (conj _ _))); [|repeat constructor; reflexivity|repeat constructor; auto; reflexivity].
    repeat (constructor; [cbn; intros X; repeat (destruct X as [X|X]; [discriminate X|]); exact X|]). constructor. }
  split; [refine (conj W1 (conj (W2 "01020000" "01030000" eq_refl eq_refl) (conj _ (conj _ _))))|].
  - intros x X. now right.
  - repeat (constructor; [cbn; intros X; repeat (destruct X as [X|X]; [discriminate X|]); exact X|]). constructor.
  - cbn. apply sub_skip. repeat constructor.
  - split; [vm_compute; reflexivity|]. split; [split; [now apply W2|vm_compute; reflexivity]|]. repeat split; try (vm_compute; reflexivity).
    + now exists "02", "a", [].
    + now exists "01", "b", [].
Qed.
