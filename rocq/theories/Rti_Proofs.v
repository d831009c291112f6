(** Lemmas about RTI headers. *)

From Coq Require Import String Ascii List ZArith NArith QArith Qround Qabs Bool Lia Lqa.
From Verif Require Import Time_Model Time_Proofs Time_Cal Io_Model Io_Proofs Rti_Model.
Import ListNotations.

(** ** Lines with a value *)

Definition line_value (l : string) : option string :=
  match l with
  | EmptyString => None
  | String c _ => if Ascii.eqb c ";" then None else after_colon l
  end.

Lemma after_colon_app l w : nosep ":" w = true ->
  after_colon (l ++ w) = option_map (fun s => s ++ w)%string (after_colon l).
Proof.
  intro H. induction l as [|a l IH]; cbn.
  - induction w as [|b w IHw]; cbn; [reflexivity|]. cbn in H. apply andb_true_iff in H as [A B].
    apply negb_true_iff in A. rewrite A. now apply IHw.
  - destruct (Ascii.eqb a ":"); [reflexivity|exact IH].
Qed.

Fixpoint lines_next (lines : list string) : option (string * list string) :=
  match lines with
  | [] => None
  | l :: r => match line_value l with
              | Some s => Some (strip s, r)
              | None => lines_next r
              end
  end.

Notation nonl := (fun l => nosep newline l = true).

Lemma next_value_lines lines : Forall nonl lines -> forall fuel, (List.length lines < fuel)%nat ->
  next_value fuel (unlines lines) =
  match lines_next lines with Some (s, r) => Ok (s, unlines r) | None => Err UnboundLocalError end.
Proof.
  induction 1 as [|l lines Hl _ IH]; intros fuel Hf; (destruct fuel as [|f]; [cbn in Hf; lia|]).
  - reflexivity.
  - cbn [unlines next_value lines_next]. rewrite readline_line by exact Hl.
    assert (IH' := IH f ltac:(cbn in Hf; lia)). clear IH Hf.
    destruct l as [|c l].
    + cbn [append line_value]. change (Ascii.eqb newline ";") with false. cbv iota.
      change (after_colon (String newline EmptyString)) with (@None string). exact IH'.
    + cbn [append line_value]. destruct (Ascii.eqb c ";"); [exact IH'|].
      change (String c (l ++ String newline EmptyString)) with (String c l ++ String newline EmptyString)%string.
      rewrite after_colon_app by reflexivity.
      destruct (after_colon (String c l)) as [s|]; cbn [option_map]; [|exact IH'].
      now rewrite strip_newline.
Qed.

Lemma unlines_length lines : (List.length lines <= String.length (unlines lines))%nat.
Proof. induction lines; cbn; [lia|]. rewrite length_app_s. cbn. lia. Qed.

Lemma next_skip l r : Forall nonl (l :: r) -> line_value l = None ->
  next_value (S (String.length (unlines (l :: r)))) (unlines (l :: r)) =
  next_value (S (String.length (unlines r))) (unlines r).
Proof.
  intros H E. pose proof (unlines_length (l :: r)). pose proof (unlines_length r).
  rewrite !next_value_lines; [|now inversion H|lia|exact H|lia].
  cbn [lines_next]. now rewrite E.
Qed.
Lemma next_hit l r s : Forall nonl (l :: r) -> line_value l = Some s ->
  next_value (S (String.length (unlines (l :: r)))) (unlines (l :: r)) = Ok (strip s, unlines r).
Proof.
  intros H E. pose proof (unlines_length (l :: r)).
  rewrite next_value_lines by (assumption || lia). cbn [lines_next]. now rewrite E.
Qed.

Lemma rs_skip l r b : Forall nonl (l :: r) -> line_value l = None ->
  read_string (unlines (l :: r)) b = read_string (unlines r) b.
Proof. intros H E. unfold read_string. now rewrite next_skip. Qed.
Lemma rn_skip l r : Forall nonl (l :: r) -> line_value l = None ->
  read_num (unlines (l :: r)) = read_num (unlines r).
Proof. intros H E. unfold read_num. now rewrite next_skip. Qed.
Lemma ri_skip lo hi l r : Forall nonl (l :: r) -> line_value l = None ->
  read_int lo hi (unlines (l :: r)) = read_int lo hi (unlines r).
Proof. intros H E. unfold read_int. now rewrite rn_skip. Qed.

Lemma rs_hit l r b s v : Forall nonl (l :: r) -> line_value l = Some s -> strip s = v -> strip v = v ->
  read_string (unlines (l :: r)) b = Ok (if b then upper v else v, unlines r).
Proof.
  intros H E V W. unfold read_string. rewrite (next_hit l r s) by assumption. cbn [rbind].
  rewrite V, W. reflexivity.
Qed.
Lemma rn_hit l r s v q : Forall nonl (l :: r) -> line_value l = Some s -> strip s = v ->
  eval_num v = Ok q -> read_num (unlines (l :: r)) = Ok (q, unlines r).
Proof.
  intros H E V W. unfold read_num. rewrite (next_hit l r s) by assumption. cbn [rbind].
  rewrite V, W. reflexivity.
Qed.
Lemma ri_hit lo hi l r s v z : Forall nonl (l :: r) -> line_value l = Some s -> strip s = v ->
  eval_num v = Ok (inject_Z z) -> (lo <= z <= hi)%Z -> read_int lo hi (unlines (l :: r)) = Ok (z, unlines r).
Proof.
  intros H E V W Z. unfold read_int. rewrite (rn_hit l r s v (inject_Z z)) by assumption. cbn [rbind].
  assert (T : trunc (inject_Z z) = z).
  { unfold trunc. destruct (Qlt_le_dec (inject_Z z) 0); rewrite <- ?inject_Z_opp, ?Qfloor_Z; lia. }
  rewrite T. replace ((lo <=? z) && (z <=? hi))%Z with true
    by (symmetry; apply andb_true_iff; split; apply Z.leb_le; lia). reflexivity.
Qed.

Lemma strip_sp x : strip (String " " x) = strip x.
Proof.
  pose proof (strip_around " " x "" eq_refl eq_refl) as H. rewrite app_nil_s in H. exact H.
Qed.

(** ** Numbers *)

(** Strings without any space character are their own strip. *)
Fixpoint nospace (s : string) : bool :=
  match s with EmptyString => true | String a r => negb (is_space a) && nospace r end.
Lemma nospace_strip s : nospace s = true -> strip s = s.
Proof.
  intro H. assert (R : rstrip s = s).
  { induction s as [|a s IH]; cbn in *; [reflexivity|]. apply andb_true_iff in H as [A B].
    apply negb_true_iff in A. rewrite IH by exact B. destruct s; [now rewrite A|reflexivity]. }
  unfold strip. rewrite R. destruct s as [|a s]; [reflexivity|]. cbn in *.
  apply andb_true_iff in H as [A _]. apply negb_true_iff in A. now rewrite A.
Qed.
Lemma nospace_app a b : nospace (a ++ b) = nospace a && nospace b.
Proof. induction a; cbn; [reflexivity|]. now rewrite IHa, andb_assoc. Qed.
Lemma nospace_digits s : alldigits s = true -> nospace s = true.
Proof.
  induction s as [|a s IH]; cbn; [reflexivity|]. intro H. apply andb_true_iff in H as [A B].
  now rewrite isdigit_not_space, IH.
Qed.
Lemma nospace_nonl s : nospace s = true -> nosep newline s = true.
Proof.
  induction s as [|a s IH]; [reflexivity|]. cbn [nospace nosep]. intro H. apply andb_true_iff in H as [A B].
  rewrite IH by exact B. destruct (Ascii.eqb_spec a newline) as [->|]; [discriminate A|reflexivity].
Qed.

Lemma py_str_nospace z : nospace (py_str z) = true.
Proof.
  unfold py_str. destruct (z <? 0)%Z; cbn; apply nospace_digits, str_N_digits.
Qed.
Lemma fmt12_nospace x : nospace (fmt12 x) = true.
Proof.
  unfold fmt12. rewrite !nospace_app. cbn [nospace].
  assert (A : forall n, nospace (str_N n) = true) by (intro; apply nospace_digits, str_N_digits).
  assert (B : forall n, nospace (zeros n) = true) by (intro; apply nospace_digits, zeros_digits).
  rewrite !A, !B. destruct (Qcompare x 0); reflexivity.
Qed.

Lemma digits_no_minus s : alldigits s = true -> forall t r, (s ++ t)%string <> String "-" r \/ s = EmptyString.
Proof.
  intros H t r. destruct s as [|a s]; [now right|left]. cbn in H. apply andb_true_iff in H as [A _].
  cbn. intro E. injection E as -> _. discriminate A.
Qed.

Lemma eval_num_unsigned s : (forall r, s <> String "-" r) -> eval_num s = eval_unsigned s.
Proof.
  intro H. destruct s as [|a s]; [reflexivity|]. cbn.
  destruct a as [[] [] [] [] [] [] [] []]; try reflexivity. exfalso. eapply H. reflexivity.
Qed.

Lemma eval_unsigned_int n : eval_unsigned (str_N n) = Ok (inject_Z (Z.of_N n)).
Proof.
  unfold eval_unsigned. rewrite split_last by (apply nosep_digits; [reflexivity|apply str_N_digits]).
  rewrite (parse_unsigned_nonempty _ n); [reflexivity|apply str_N_nonempty|].
  rewrite parse_str_N. f_equal; lia.
Qed.

Lemma str_N_no_minus n t r : (str_N n ++ t)%string <> String "-" r.
Proof.
  destruct (digits_no_minus (str_N n) (str_N_digits n) t r) as [H|H]; [exact H|].
  now apply str_N_nonempty in H.
Qed.

Lemma eval_py_str z : exists q, eval_num (py_str z) = Ok q /\ q = inject_Z z.
Proof.
  unfold py_str. destruct (Z.ltb_spec z 0) as [L|L].
  - cbn [eval_num]. rewrite eval_unsigned_int. cbn [rbind]. eexists. split; [reflexivity|].
    rewrite <- inject_Z_opp. f_equal. lia.
  - rewrite eval_num_unsigned.
    + rewrite eval_unsigned_int. eexists. split; [reflexivity|]. f_equal. lia.
    + intro r. rewrite <- (app_nil_s (str_N (Z.to_N z))). apply str_N_no_minus.
Qed.

Lemma zeros_length m : String.length (zeros m) = m.
Proof. induction m; cbn; congruence. Qed.

Lemma eval_fixed n : let frac := str_N (n mod ten12) in
  eval_unsigned (str_N (n / ten12) ++ "." ++ zeros (12 - String.length frac) ++ frac)
  = Ok (inject_Z (Z.of_N n) / inject_Z (10 ^ 12))%Q.
Proof.
  intro frac. unfold eval_unsigned. cbn [append].
  assert (Hm : (n mod ten12 < ten12)%N) by (apply N.mod_lt; discriminate).
  assert (Hf : (String.length frac <= 12)%nat) by (apply (str_N_length_upper _ 11); exact Hm).
  assert (Df : alldigits (zeros (12 - String.length frac) ++ frac) = true).
  { rewrite alldigits_app, zeros_digits. apply str_N_digits. }
  rewrite split_app by (apply nosep_digits; [reflexivity|apply str_N_digits]).
  rewrite split_last by (apply nosep_digits; [reflexivity|exact Df]).
  destruct (String.eqb_spec (str_N (n / ten12)) "") as [E|E]; [now apply str_N_nonempty in E|].
  assert (L : String.length (zeros (12 - String.length frac) ++ frac)%string = 12%nat).
  { rewrite length_app_s, zeros_length. lia. }
  rewrite L. 
  assert (P : parse_digits (str_N (n / ten12) ++ zeros (12 - String.length frac) ++ frac) 0 = Some n).
  { rewrite parse_app, parse_str_N. cbv iota. rewrite N.mul_0_l, N.add_0_l.
    assert (Z0 : forall m s acc, parse_digits (zeros m ++ s) acc = parse_digits s (acc * 10 ^ N.of_nat m)).
    { induction m as [|m IH]; intros s acc; cbn [zeros append parse_digits].
      - f_equal. rewrite N.pow_0_r. lia.
      - change (digit_val "0") with (Some 0%N). cbv iota. rewrite IH. f_equal.
        rewrite Nat2N.inj_succ, N.pow_succ_r'. lia. }
    rewrite Z0. 
    assert (PF : forall acc, parse_digits frac acc = Some (acc * 10 ^ N.of_nat (String.length frac) + n mod ten12)%N)
      by (intro; apply parse_str_N).
    rewrite PF. f_equal.
    rewrite <- N.mul_assoc, <- N.pow_add_r.
    replace (N.of_nat (12 - String.length frac) + N.of_nat (String.length frac))%N with 12%N by lia.
    change (10 ^ 12)%N with ten12. pose proof (N.div_mod n ten12 ltac:(discriminate)). lia. }
  rewrite P. reflexivity.
Qed.

(** The number with twelve decimals that is written for [x]. *)
Definition rounded (x : Q) : Q :=
  let r := (inject_Z (round_even (Qabs x * 1000000000000)) / inject_Z (10 ^ 12))%Q in
  match Qcompare x 0 with Lt => (- r)%Q | _ => r end.

Lemma round_even_nonneg q : (0 <= q)%Q -> (0 <= round_even q)%Z.
Proof.
  intro H. pose proof (round_even_near q) as N. apply Qabs_Qle_condition in N as [N1 N2].
  destruct (Z_le_gt_dec 0 (round_even q)) as [|G]; [assumption|]. exfalso.
  assert (inject_Z (round_even q) <= -1)%Q.
  { change (-1)%Q with (inject_Z (-1)). rewrite <- Zle_Qle. lia. } lra.
Qed.

Lemma eval_fmt12 x : eval_num (fmt12 x) = Ok (rounded x).
Proof.
  unfold fmt12, rounded.
  assert (NN : (0 <= round_even (Qabs x * 1000000000000))%Z).
  { apply round_even_nonneg. apply Qmult_le_0_compat; [apply Qabs_nonneg|vm_compute; discriminate]. }
  set (k := round_even (Qabs x * 1000000000000)) in *. set (n := Z.to_N k).
  assert (K : Z.of_N n = k) by (unfold n; lia).
  pose proof (eval_fixed n) as E. cbv zeta in E. rewrite K in E.
  destruct (Qcompare x 0).
  - cbn [append]. cbn [append] in E. rewrite eval_num_unsigned; [exact E|]. intro r. apply str_N_no_minus.
  - cbn [append eval_num]. cbn [append] in E. rewrite E. reflexivity.
  - cbn [append]. cbn [append] in E. rewrite eval_num_unsigned; [exact E|]. intro r. apply str_N_no_minus.
Qed.

Lemma rounded_near x : (Qabs (rounded x - x) <= 1 # 2000000000000)%Q.
Proof.
  unfold rounded. pose proof (round_even_near (Qabs x * 1000000000000)) as N.
  set (k := inject_Z (round_even (Qabs x * 1000000000000))) in *. clearbody k.
  apply Qabs_Qle_condition in N as [N1 N2]. apply Qabs_Qle_condition.
  unfold Qdiv. change (/ inject_Z (10 ^ 12))%Q with (1 # 1000000000000)%Q.
  destruct (Qcompare_spec x 0) as [E|E|E].
  - rewrite Qabs_pos in N1, N2 by lra. split; lra.
  - rewrite Qabs_neg in N1, N2 by lra. split; lra.
  - rewrite Qabs_pos in N1, N2 by lra. split; lra.
Qed.

Lemma rounded_exact x k : (x * 1000000000000 == inject_Z k)%Q -> (rounded x == x)%Q.
Proof.
  intro H. unfold rounded.
  assert (I : (0 <= x)%Q -> round_even (Qabs x * 1000000000000) = k).
  { intro P. apply round_even_int. rewrite Qabs_pos by exact P. exact H. }
  assert (J : (x < 0)%Q -> round_even (Qabs x * 1000000000000) = (- k)%Z).
  { intro P. apply round_even_int. rewrite Qabs_neg by lra. rewrite inject_Z_opp, <- H. ring. }
  unfold Qdiv. change (/ inject_Z (10 ^ 12))%Q with (1 # 1000000000000)%Q.
  destruct (Qcompare_spec x 0) as [E|E|E].
  - rewrite I by lra. rewrite <- H. ring.
  - rewrite J by lra. rewrite inject_Z_opp, <- H. ring.
  - rewrite I by lra. rewrite <- H. ring.
Qed.

(** ** The whole header *)

(** Text that survives: no line break inside, no blanks around. *)
Definition clean (s : string) : Prop := nosep newline s = true /\ strip s = s.

Record good_info (i : info) : Prop := {
  gi_file : clean (grid_file i); gi_source : clean (data_source i); gi_type : clean (data_type i);
  gi_order : clean (byte_order i); gi_z : clean (z_units i); gi_box : clean (box_units i);
  gi_utm : clean (UTM_zone i);
  gi_cols : (-2147483648 <= ncols i <= 2147483647)%Z; gi_rows : (-2147483648 <= nrows i <= 2147483647)%Z;
  gi_geom : (0 <= pixel_geom i <= 255)%Z;
  gi_bpe : exists b, get_bpe (data_type i) = Ok b }.

(** What comes back. *)
Definition info_back (i : info) : info :=
  mkinfo (grid_file i) (data_source i) (ncols i) (nrows i) (upper (data_type i)) (upper (byte_order i))
    (pixel_geom i) (rounded (xres i)) (rounded (yres i)) (rounded (zres i)) (upper (z_units i))
    (rounded (y_south_edge i)) (rounded (y_north_edge i)) (rounded (x_east_edge i)) (rounded (x_west_edge i))
    (upper (box_units i)) (rounded (gmin i)) (rounded (gmax i))
    (if String.eqb (upper (UTM_zone i)) "-1" then "unknown"%string else upper (UTM_zone i)).

Lemma upper_upper s : upper (upper s) = upper s.
Proof.
  unfold upper. induction s as [|a s IH]; cbn; [reflexivity|]. rewrite IH. f_equal.
  destruct a as [[] [] [] [] [] [] [] []]; reflexivity.
Qed.
Lemma get_bpe_upper t : get_bpe (upper t) = get_bpe t.
Proof. unfold get_bpe. now rewrite upper_upper. Qed.

Lemma nosep_app_lit a b : nosep newline a = true -> nosep newline b = true -> nosep newline (a ++ b) = true.
Proof. intros A B. now rewrite nosep_app, A, B. Qed.

Lemma info_lines_nonl i : good_info i -> Forall nonl (info_lines i).
Proof.
  intros [[A1 _] [A2 _] [A3 _] [A4 _] [A5 _] [A6 _] [A7 _] _ _ _ _]. unfold info_lines.
  repeat apply Forall_cons; try apply Forall_nil; try reflexivity;
    (apply nosep_app_lit; [reflexivity|]);
    first [assumption | apply nospace_nonl, py_str_nospace | apply nospace_nonl, fmt12_nospace].
Qed.

Lemma wrap16_byte z : (0 <= z <= 255)%Z -> wrap16 z = z.
Proof. intro H. apply wrap16_small. lia. Qed.

Lemma read_written i : good_info i -> read_info_text (info_text i) = Ok (info_back i).
Proof.
  intro G. pose proof (info_lines_nonl i G) as H.
  destruct G as [[_ S1] [_ S2] [_ S3] [_ S4] [_ S5] [_ S6] [_ S7] C R P [b B]].
  unfold read_info_text, info_text, info_lines in *.
  remember unlines as U eqn:EU.
  cbn [append] in *.
  subst U. 
  match goal with |- context [readline (unlines (?l :: ?r))] =>
    assert (E1 : readline (unlines (l :: r)) = ((l ++ String newline EmptyString)%string, unlines r))
      by (cbn [unlines]; apply readline_line; reflexivity) end.
  rewrite E1. clear E1. apply Forall_inv_tail in H.
  match goal with |- context [negb ?c] => change c with true end. cbn [negb].
  destruct (eval_py_str (ncols i)) as (qc & Ec & ->). destruct (eval_py_str (nrows i)) as (qr & Er & ->).
  rewrite (wrap16_byte (pixel_geom i) P) in *.
  destruct (eval_py_str (pixel_geom i)) as (qp & Ep & ->).
  assert (SP : forall z, strip (py_str z) = py_str z) by (intro; apply nospace_strip, py_str_nospace).
  assert (SF : forall x, strip (fmt12 x) = fmt12 x) by (intro; apply nospace_strip, fmt12_nospace).
  Ltac skips H := repeat first
    [ erewrite rs_skip by (exact H || reflexivity); apply Forall_inv_tail in H
    | erewrite rn_skip by (exact H || reflexivity); apply Forall_inv_tail in H
    | erewrite ri_skip by (exact H || reflexivity); apply Forall_inv_tail in H ].
  Ltac hits H S := skips H; erewrite rs_hit by
    first [exact H | (rewrite ?strip_sp; exact S) | exact S | reflexivity];
    apply Forall_inv_tail in H; cbn [rbind].
  Ltac hitn H S := skips H; erewrite rn_hit by
    first [exact H | (rewrite ?strip_sp; apply S) | apply eval_fmt12 | reflexivity];
    apply Forall_inv_tail in H; cbn [rbind].
  Ltac hiti H S E B := skips H; erewrite ri_hit by
    first [exact H | (rewrite ?strip_sp; apply S) | exact E | exact B | reflexivity];
    apply Forall_inv_tail in H; cbn [rbind].
  hits H S1. hits H S2. hiti H SP Ec C. hiti H SP Er R. hits H S3. hits H S4. hiti H SP Ep P.
  hitn H SF. hitn H SF. hitn H SF. hits H S5. hitn H SF. hitn H SF. hitn H SF. hitn H SF. hits H S6.
  hitn H SF. hitn H SF. hits H S7.
  rewrite get_bpe_upper, B. reflexivity.
Qed.
