(** C45: outlet check; C57: time series files. *)

From Coq Require Import String Ascii List ZArith NArith QArith Qabs Bool Lia Lqa.
From Verif Require Import Time_Model Time_Proofs Io_Model Io_Spec Io_Proofs Io_Props
  Rti_Model Rti_Proofs Fmt_Model Fmt_Proofs Txt_Model Txt_Spec.
Import ListNotations.

Lemma words_tail_space s w : allspace w = true -> words (s ++ w) = words s.
Proof.
  intro H. unfold words. generalize EmptyString as acc. induction s as [|a s IH]; intro acc; cbn [append words_acc].
  - revert acc. induction w as [|b w IHw]; intro acc; cbn [words_acc]; [reflexivity|].
    cbn in H. apply andb_true_iff in H as [A B]. rewrite A. specialize (IHw B).
    destruct acc; [exact (IHw EmptyString)|]. rewrite (IHw EmptyString). reflexivity.
  - destruct (is_space a); [destruct acc; rewrite IH; reflexivity|apply IH].
Qed.
Lemma words_line l : words (l ++ String newline EmptyString) = words l.
Proof. now apply words_tail_space. Qed.

Lemma no_breaks_nonl lines : no_breaks lines -> Forall (fun l => nosep newline l = true) lines.
Proof. intro H. eapply Forall_impl; [|exact H]. intros l Hl. now apply free_nosep. Qed.
Lemma trunc_int z : trunc (inject_Z z) = z.
Proof. unfold trunc. destruct (Qlt_le_dec (inject_Z z) 0); rewrite <- ?inject_Z_opp, ?Qround.Qfloor_Z; lia. Qed.

Lemma outlet_line_says l o : says l o -> outlet_line (l ++ String newline EmptyString) = Ok o.
Proof.
  unfold says, outlet_line. rewrite words_line. destruct o as [o|].
  - intros (c & r & a & h & rest & W & E1 & E2 & E3 & E4). rewrite W. cbn [List.length nth].
    replace (S (S (S (S (List.length rest)))) <? 4)%nat with false by (symmetry; apply Nat.ltb_ge; lia).
    rewrite E1. cbn [rbind]. rewrite E2. cbn [rbind]. rewrite E3. cbn [rbind]. rewrite E4. cbn [rbind].
    rewrite !trunc_int. destruct o; reflexivity.
  - intro L. apply Nat.ltb_lt in L. now rewrite L.
Qed.
Lemma outlet_list_says table marks : Forall2 says table marks ->
  outlet_list (map (fun l => l ++ String newline EmptyString)%string table) = Ok (present marks).
Proof.
  induction 1 as [|l o table marks H _ IH]; [reflexivity|]. cbn [map outlet_list].
  rewrite (outlet_line_says l o H), IH. cbn [rbind present]. now destruct o.
Qed.

Lemma read_table nx np header table marks :
  List.length header = 5%nat -> no_breaks (header ++ table) -> Forall2 says table marks ->
  read_outlet_file nx np (file_with (header ++ table)) =
  match present marks with
  | [] => Err IndexError
  | os => if check_outlet_IDs (map (fun o => (o_row o * nx + o_col o)%Z) os) np then Ok (Some os) else Ok None
  end.
Proof.
  intros L N S. unfold read_outlet_file, file_with.
  rewrite readlines_text by (now apply no_breaks_nonl). rewrite map_app, skipn_app, map_length, L, Nat.sub_diag.
  rewrite skipn_all2 by (rewrite map_length; lia). cbn [app skipn]. rewrite (outlet_list_says table marks S).
  cbn [rbind]. destruct (present marks); reflexivity.
Qed.

Lemma check_true ids n : check_outlet_IDs ids n = true <-> Forall (fun id => (0 <= id < n)%Z) ids.
Proof.
  unfold check_outlet_IDs. rewrite negb_true_iff. induction ids as [|a ids IH]; cbn [existsb].
  - split; [constructor|reflexivity].
  - rewrite orb_false_iff, IH, Forall_cons_iff, orb_false_iff, Z.ltb_ge, Z.ltb_ge.
    split; intros [A B]; (split; [lia|exact B]).
Qed.

(** ** C45 *)

(** Cells of the grid are accepted, and stored as they are in the file. *)
Theorem C45_cells_of_the_grid_accepted (nx ny : Z) (header table : list string) (marks : list (option outlet)) :
  List.length header = 5%nat -> no_breaks (header ++ table) -> Forall2 says table marks ->
  present marks <> [] -> Forall (in_grid nx ny) (present marks) ->
  read_outlet_file nx (nx * ny) (file_with (header ++ table)) = Ok (Some (present marks)).
Proof.
  intros L N S NE G. rewrite (read_table _ _ _ _ _ L N S).
  destruct (present marks) as [|o os] eqn:E; [easy|]. rewrite <- E in *. cbv beta iota zeta.
  assert (C : check_outlet_IDs (map (fun o => (o_row o * nx + o_col o)%Z) (present marks)) (nx * ny) = true).
  { apply check_true. apply Forall_map. eapply Forall_impl; [|exact G]. intros x [[A B] [C D]]. nia. }
  rewrite C. reflexivity.
Qed.

(** When all columns are columns of the grid, the file is accepted exactly when
    all rows are rows of the grid. *)
Theorem C45_accepted_iff_rows_in_grid (nx ny : Z) (header table : list string) (marks : list (option outlet)) :
  List.length header = 5%nat -> no_breaks (header ++ table) -> Forall2 says table marks ->
  present marks <> [] -> Forall (fun o => (0 <= o_col o < nx)%Z) (present marks) ->
  (read_outlet_file nx (nx * ny) (file_with (header ++ table)) = Ok (Some (present marks)) <->
   Forall (fun o => (0 <= o_row o < ny)%Z) (present marks)) /\
  (read_outlet_file nx (nx * ny) (file_with (header ++ table)) = Ok None <->
   ~ Forall (fun o => (0 <= o_row o < ny)%Z) (present marks)).
Proof.
  intros L N S NE G. rewrite (read_table _ _ _ _ _ L N S).
  destruct (present marks) as [|o os] eqn:E; [easy|]. rewrite <- E in *. cbv beta iota zeta.
  assert (C : check_outlet_IDs (map (fun o => (o_row o * nx + o_col o)%Z) (present marks)) (nx * ny) = true <->
              Forall (fun o => (0 <= o_row o < ny)%Z) (present marks)).
  { rewrite check_true, Forall_map. clear -G. induction G as [|x l [A B] G IH].
    - split; constructor.
    - rewrite !Forall_cons_iff, IH. split; intros [P Q]; (split; [nia|exact Q]). }
  cbv beta iota zeta.
  destruct (check_outlet_IDs _ _); split; split; intro H; try reflexivity; try discriminate.
  - now apply C.
  - exfalso. apply H. now apply C.
  - apply C in H. discriminate H.
  - intro F. apply C in F. discriminate F.
Qed.

(** A column outside the grid can be accepted: the cell meant is another one. *)
Theorem C45_accepted_cells_in_grid_refuted :
  ~ (forall nx ny header table marks, List.length header = 5%nat -> no_breaks (header ++ table) ->
       Forall2 says table marks ->
       read_outlet_file nx (nx * ny) (file_with (header ++ table)) = Ok (Some (present marks)) ->
       Forall (in_grid nx ny) (present marks)).
Proof.
  intro H. specialize (H 4%Z 3%Z ["";"";"";"";""]%string ["5 1 2.5 7.0"]%string
    [Some (mkoutlet 1 5 (25 # 10)%Q (70 # 10)%Q)] eq_refl).
  assert (X : Forall (in_grid 4 3) (present [Some (mkoutlet 1 5 (25 # 10)%Q (70 # 10)%Q)])).
  { apply H.
    - repeat apply Forall_cons; try apply Forall_nil; apply nosep_free; reflexivity.
    - apply Forall2_cons; [|apply Forall2_nil].
      exists "5"%string, "1"%string, "2.5"%string, "7.0"%string, []. repeat split; reflexivity.
    - vm_compute. reflexivity. }
  inversion X as [|? ? [_ [_ B]] _]. cbn in B. lia.
Qed.

(** A table without outlets is an error. *)
Theorem C45_no_outlet_is_an_error (nx np : Z) (header table : list string) (marks : list (option outlet)) :
  List.length header = 5%nat -> no_breaks (header ++ table) -> Forall2 says table marks ->
  present marks = [] -> read_outlet_file nx np (file_with (header ++ table)) = Err IndexError.
Proof. intros L N S E. rewrite (read_table _ _ _ _ _ L N S), E. reflexivity. Qed.

Ltac nl := first [reflexivity | apply nospace_nonl; first [apply py_str_nospace | apply fixed_nospace]].
Lemma spaces_nonl n : nosep newline (spaces n) = true.
Proof. induction n; [reflexivity|exact IHn]. Qed.
Lemma rjust_nonl w s : nosep newline s = true -> nosep newline (rjust w s) = true.
Proof. intro H. unfold rjust. now rewrite nosep_app, spaces_nonl, H. Qed.

(** The default outlet file is read back: the cell exactly, area and relief to
    two decimals. *)
Theorem C45_written_outlet_comes_back (nx ny col row : Z) (area relief lon lat : Q) :
  (0 <= row < ny)%Z -> (0 <= col < nx)%Z -> (row < 100000000)%Z -> (col < 100000000)%Z ->
  smaller 11 area -> smaller 11 relief -> smaller 5 lon -> smaller 5 lat ->
  exists a h, read_outlet_file nx (nx * ny) (outlet_text col row area relief lon lat) =
      Ok (Some [mkoutlet row col a h]) /\ close_to 2 a area /\ close_to 2 h relief.
Proof.
  intros R C R8 C8 A H LO LA. exists (roundk 2 area), (roundk 2 relief).
  split; [|split; apply roundk_near].
  set (vals := (rjust 10 (py_str col) ++ rjust 10 (py_str row) ++ rjust 16 (fixed 2 area) ++
      rjust 16 (fixed 2 relief) ++ rjust 16 (fixed 8 lon) ++ rjust 16 (fixed 8 lat))%string).
  assert (W : words vals = [py_str col; py_str row; fixed 2 area; fixed 2 relief; fixed 8 lon; fixed 8 lat]).
  { pose proof (words_columns [(10%nat, py_str col); (10%nat, py_str row); (16%nat, fixed 2 area);
      (16%nat, fixed 2 relief); (16%nat, fixed 8 lon); (16%nat, fixed 8 lat)] EmptyString) as E.
    cbn [columns map snd] in E. rewrite !app_nil_s in E. apply E; [|reflexivity].
    repeat apply Forall_cons; try apply Forall_nil; (split; [|split]); cbn [fst snd];
      try apply py_str_nospace; try apply fixed_nospace; try apply py_str_nonempty; try apply fixed_nonempty.
    - pose proof (py_str_length col 7 ltac:(lia)). lia.
    - pose proof (py_str_length row 7 ltac:(lia)). lia.
    - pose proof (fixed_length 2 area 11 ltac:(lia) A ltac:(lia)). lia.
    - pose proof (fixed_length 2 relief 11 ltac:(lia) H ltac:(lia)). lia.
    - pose proof (fixed_length 8 lon 5 ltac:(lia) LO ltac:(lia)). lia.
    - pose proof (fixed_length 8 lat 5 ltac:(lia) LA ltac:(lia)). lia. }
  destruct (eval_py_str col) as (qc & Ec & ->). destruct (eval_py_str row) as (qr & Er & ->).
  change (outlet_text col row area relief lon lat) with
    (file_with (firstn 5 (outlet_lines col row area relief lon lat) ++ [vals])).
  rewrite (C45_cells_of_the_grid_accepted nx ny _ _
    [Some (mkoutlet row col (roundk 2 area) (roundk 2 relief))]).
  - reflexivity.
  - reflexivity.
  - cbn [firstn outlet_lines app]. repeat apply Forall_cons; try apply Forall_nil; apply nosep_free;
      try reflexivity.
    change (ascii_of_nat 10) with newline. unfold vals. 
    repeat (apply nosep_app_lit; [apply rjust_nonl; nl|]). apply rjust_nonl. nl.
  - apply Forall2_cons; [|apply Forall2_nil]. unfold says. rewrite W.
    do 5 eexists. split; [reflexivity|]. cbn [o_col o_row o_area o_relief].
    split; [exact Ec|]. split; [exact Er|]. split; apply eval_fixed_str; lia.
  - discriminate.
  - cbn [present]. apply Forall_cons; [|apply Forall_nil]. split; cbn; assumption.
Qed.

Example C45_demo :
  read_outlet_file 44 (44 * 29) (outlet_text 42 28 (1 # 2) 47 0 0)
  = Ok (Some [mkoutlet 28 42 (50 # 100) (4700 # 100)]) /\
  read_outlet_file 44 (44 * 29) (outlet_text 42 29 (1 # 2) 47 0 0) = Ok None.
Proof. split; vm_compute; reflexivity. Qed.

(** ** C57 *)

Lemma ts_line_columns t vs : ts_line t vs = columns ((20%nat, fixed 7 t) :: map (fun v => (20%nat, fixed 7 v)) vs).
Proof.
  unfold ts_line. cbn [columns].
  assert (E : forall s, fold_left (fun s v => s ++ rjust 20 (fixed 7 v))%string vs s =
              (s ++ columns (map (fun v => (20%nat, fixed 7 v)) vs))%string).
  { induction vs as [|v vs IH]; intro s; cbn [fold_left map columns]; [now rewrite app_nil_s|].
    rewrite IH. now rewrite app_assoc_s. }
  apply E.
Qed.
Lemma ts_words t vs : smaller 10 t -> Forall (smaller 10) vs ->
  words (ts_line t vs ++ String newline EmptyString) = fixed 7 t :: map (fixed 7) vs.
Proof.
  intros T V. rewrite ts_line_columns, words_columns.
  - cbn [map snd]. f_equal. rewrite map_map. reflexivity.
  - assert (R : forall x, smaller 10 x -> roomy (20%nat, fixed 7 x)).
    { intros x X. split; [apply fixed_nospace|]. split; [apply fixed_nonempty|]. cbn [fst snd].
      pose proof (fixed_length 7 x 10 ltac:(lia) X ltac:(lia)). lia. }
    apply Forall_cons; [now apply R|]. apply Forall_map. eapply Forall_impl; [|exact V]. exact R.
  - reflexivity.
Qed.
Lemma columns_nonl l : Forall (fun c => nosep newline (snd c) = true) l -> nosep newline (columns l) = true.
Proof.
  induction 1 as [|[w x] l H _ IH]; [reflexivity|]. cbn [columns]. rewrite nosep_app, IH, rjust_nonl; [reflexivity|exact H].
Qed.
Lemma ts_line_nonl t vs : nosep newline (ts_line t vs) = true.
Proof.
  rewrite ts_line_columns. apply columns_nonl. apply Forall_cons.
  - apply nospace_nonl, fixed_nospace.
  - apply Forall_map. apply Forall_forall. intros x _. apply nospace_nonl, fixed_nospace.
Qed.
Lemma dashes_nonl n : nosep newline (dashes n) = true.
Proof. induction n; [reflexivity|exact IHn]. Qed.

Lemma series_rows k rows : Forall (fun r => smaller 10 (fst r) /\ Forall (smaller 10) (snd r) /\ (k < List.length (snd r))%nat) rows ->
  series_of 0 (S k) (map (fun r => ts_line (fst r) (snd r) ++ String newline EmptyString)%string rows) =
  Ok (map (fun r => (roundk 7 (fst r), roundk 7 (nth k (snd r) 0%Q))) rows).
Proof.
  induction 1 as [|[t vs] rows (A & B & C) _ IH]; [reflexivity|]. cbn [map series_of fst snd] in *.
  rewrite ts_words by assumption. cbn [List.length]. rewrite map_length.
  replace ((S (List.length vs) - 1 <? 0) || (S (List.length vs) - 1 <? S k) || (S (List.length vs) =? 0))%nat with false.
  2: { symmetry. rewrite !orb_false_iff. split; [split|]; [reflexivity|apply Nat.ltb_ge; lia|reflexivity]. }
  cbn [nth]. rewrite eval_fixed_str by lia. cbn [rbind].
  rewrite (nth_indep (map (fixed 7) vs) EmptyString (fixed 7 0)) by (rewrite map_length; exact C).
  rewrite (map_nth (fixed 7)), eval_fixed_str by lia. cbn [rbind]. rewrite IH. reflexivity.
Qed.

(** Series k of an output file, read with the calibration tool (two header
    lines), is the time and the value of variable at the k-th cell, for every
    row written, in order, to seven decimals. *)
Theorem C57_series_comes_back (units text : string) (names : list string) (ids : list (Z * Z))
    (rows : list (Q * tsvar)) (k : nat) :
  no_breaks names -> (k < List.length ids)%nat ->
  ts_file units names ids rows = Ok text ->
  Forall (fun tv => smaller 10 (fst tv) /\ Forall (smaller 10) (values_at_IDs (snd tv) ids)) rows ->
  exists s, read_any_time_series 2 0 (S k) text = Ok s /\
    Forall2 (fun tv p => close_to 7 (fst p) (fst tv) /\
      close_to 7 (snd p) (match snd tv with
                          | VGrid g => g (fst (nth k ids (0, 0)%Z)) (snd (nth k ids (0, 0)%Z))
                          | VNumber q => q end)) rows s.
Proof.
  intros NB K T S. unfold ts_file in T. destruct (ts_header units names) as [h|] eqn:H; [|discriminate].
  cbn [rbind] in T. injection T as <-.
  assert (HH : List.length h = 2%nat /\ Forall (fun l => nosep newline l = true) h).
  { unfold ts_header in H. destruct (units_str units) as [u|] eqn:U; [|discriminate]. cbn [rbind] in H.
    injection H as <-. split; [reflexivity|]. apply Forall_cons; [|apply Forall_cons; [apply dashes_nonl|apply Forall_nil]].
    assert (UN : nosep newline u = true).
    { clear -U. unfold units_str in U.
      repeat match type of U with (if ?c then _ else _) = _ => destruct c end;
        try discriminate U; injection U as <-; reflexivity. }
    assert (IH : forall s, nosep newline s = true -> nosep newline (fold_left (fun s n => s ++ rjust 15 n)%string names s) = true).
    { apply no_breaks_nonl in NB. clear -NB. induction NB as [|n names N _ IH]; intros s HS; [exact HS|]. cbn [fold_left]. apply IH.
      apply nosep_app_lit; [exact HS|now apply rjust_nonl]. }
    apply IH. apply rjust_nonl. change (nosep newline ("Time [" ++ (u ++ "]")) = true). rewrite nosep_app, nosep_app, UN. reflexivity. }
  destruct HH as [H2 HN].
  unfold read_any_time_series. rewrite readlines_text.
  - rewrite map_app, skipn_app, map_length, H2, Nat.sub_diag, skipn_all2 by (rewrite map_length; lia).
    cbn [app skipn]. rewrite map_map.
    set (rows' := map (fun tv => (fst tv, values_at_IDs (snd tv) ids)) rows).
    assert (E : map (fun tv => (ts_line (fst tv) (values_at_IDs (snd tv) ids) ++ String newline EmptyString)%string) rows
                = map (fun r => (ts_line (fst r) (snd r) ++ String newline EmptyString)%string) rows').
    { unfold rows'. rewrite map_map. reflexivity. }
    rewrite E. clear E. 
    assert (VL : forall v, List.length (values_at_IDs v ids) = List.length ids).
    { intros [g|q]; cbn; [apply map_length|apply repeat_length]. }
    rewrite series_rows.
    + eexists. split; [reflexivity|]. unfold rows'. rewrite map_map. clear S. induction rows as [|[t v] rows IH]; [constructor|].
      cbn [map fst snd]. apply Forall2_cons; [|exact IH]. cbn [fst snd]. split; [apply roundk_near|].
      destruct v as [g|q]; cbn [values_at_IDs].
      * rewrite (nth_indep _ 0%Q (g (fst (0,0)%Z) (snd (0,0)%Z))) by (rewrite map_length; exact K).
        rewrite (map_nth (fun rc => g (fst rc) (snd rc))). apply roundk_near.
      * rewrite (nth_indep _ 0%Q q) by (rewrite repeat_length; exact K). rewrite nth_repeat. apply roundk_near.
    + unfold rows'. apply Forall_map. eapply Forall_impl; [|exact S]. intros [t v] [A B]. cbn [fst snd].
      split; [exact A|]. split; [exact B|]. now rewrite VL.
  - apply Forall_app. split; [exact HN|]. apply Forall_map. apply Forall_forall. intros x _. apply ts_line_nonl.
Qed.

(** Every row has one time and one value per monitored cell. *)
Theorem C57_one_value_per_cell (time : Q) (v : tsvar) (ids : list (Z * Z)) :
  smaller 10 time -> Forall (smaller 10) (values_at_IDs v ids) ->
  List.length (words (ts_line time (values_at_IDs v ids))) = S (List.length ids).
Proof.
  intros T V. rewrite <- words_line, ts_words by assumption. cbn [List.length]. rewrite map_length.
  f_equal. destruct v; cbn; [apply map_length|apply repeat_length].
Qed.

(** Large values run into the column before them. *)
Theorem C57_any_value_refuted :
  ~ (forall time v ids, List.length (words (ts_line time (values_at_IDs v ids))) = S (List.length ids)).
Proof.
  intro H. specialize (H 0%Q (VNumber 1000000000000) [(0, 0)]%Z). vm_compute in H. discriminate H.
Qed.

(** A blank line ends the reading: what follows is lost. *)
Theorem C57_blank_lines_skipped_refuted :
  ~ (forall lines, read_any_time_series 0 0 1 (file_with lines) =
                   read_any_time_series 0 0 1 (file_with (filter (fun l => negb (String.eqb (strip l) "")) lines))).
Proof.
  intro H. specialize (H ["1.0 2.0"; ""; "2.0 3.0"]%string). vm_compute in H. discriminate H.
Qed.

(** The header's columns do not line up with the values' columns. *)
Theorem C57_header_lines_up_refuted :
  ~ (forall units names h t vs, ts_header units names = Ok h -> List.length vs = List.length names ->
       smaller 5 t -> Forall (smaller 5) vs ->
       Forall (fun n => (String.length n <= 15)%nat) names ->
       String.length (nth 0 h EmptyString) = String.length (ts_line t vs)).
Proof.
  intro H. specialize (H "minutes"%string ["Q"]%string _ 1 [1] eq_refl eq_refl).
  assert (A : smaller 5 1) by (unfold smaller; vm_compute; reflexivity).
  specialize (H A (Forall_cons _ A (Forall_nil _))).
  assert (B : Forall (fun n => (String.length n <= 15)%nat) ["Q"%string]) by (apply Forall_cons; [cbn; lia|apply Forall_nil]).
  specialize (H B). vm_compute in H. discriminate H.
Qed.

Example C57_demo :
  exists text, ts_file "minutes" ["Q[1,1]"; "Q[2,2]"]%string [(1, 1); (2, 2)]%Z
    [(0, VGrid (fun r c => inject_Z (r * 5 + c)))%Q; (3 # 2, VNumber (-1 # 3))%Q] = Ok text /\
  read_any_time_series 2 0 2 text = Ok [(0 # 10000000, 120000000 # 10000000); (15000000 # 10000000, -3333333 # 10000000)].
Proof. eexists. split; vm_compute; reflexivity. Qed.

Print Assumptions C45_cells_of_the_grid_accepted.
Print Assumptions C45_accepted_iff_rows_in_grid.
Print Assumptions C45_accepted_cells_in_grid_refuted.
Print Assumptions C45_no_outlet_is_an_error.
Print Assumptions C45_written_outlet_comes_back.
Print Assumptions C57_series_comes_back.
Print Assumptions C57_one_value_per_cell.
Print Assumptions C57_any_value_refuted.
Print Assumptions C57_blank_lines_skipped_refuted.
Print Assumptions C57_header_lines_up_refuted.
