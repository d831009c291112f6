(** Lemmas about the date and time model. *)

From Coq Require Import String Ascii List ZArith NArith QArith Qround Qabs Bool Lia Lqa.
From Verif Require Import Time_Model.
Import ListNotations.

(** ** Digits *)

Lemma digit_val_digit n : (n < 10)%N -> digit_val (digit n) = Some n.
Proof.
  intro H. unfold digit_val, digit.
  rewrite N_ascii_embedding by lia.
  replace ((48 <=? 48 + n)%N) with true by (symmetry; apply N.leb_le; lia).
  replace ((48 + n <=? 57)%N) with true by (symmetry; apply N.leb_le; lia).
  cbn [andb]. f_equal. lia.
Qed.

Definition isdigit (a : ascii) : bool := match digit_val a with Some _ => true | None => false end.
Fixpoint alldigits (s : string) : bool :=
  match s with EmptyString => true | String a r => isdigit a && alldigits r end.

Lemma isdigit_digit n : (n < 10)%N -> isdigit (digit n) = true.
Proof. intro H. unfold isdigit. now rewrite digit_val_digit. Qed.

Lemma isdigit_range a : isdigit a = true -> (48 <= N_of_ascii a <= 57)%N.
Proof.
  unfold isdigit, digit_val.
  destruct (48 <=? N_of_ascii a)%N eqn:E1; cbn; [|discriminate].
  destruct (N_of_ascii a <=? 57)%N eqn:E2; [|discriminate].
  apply N.leb_le in E1, E2. lia.
Qed.

Lemma isdigit_not_space a : isdigit a = true -> is_space a = false.
Proof.
  intro H. apply isdigit_range in H. unfold is_space.
  replace ((N_of_ascii a <=? 13)%N) with false by (symmetry; apply N.leb_gt; lia).
  replace ((N_of_ascii a <=? 32)%N) with false by (symmetry; apply N.leb_gt; lia).
  now rewrite !andb_false_r.
Qed.

Lemma isdigit_neq a c : isdigit a = true -> isdigit c = false -> Ascii.eqb a c = false.
Proof.
  intros H K. destruct (Ascii.eqb_spec a c) as [E|]; [|reflexivity].
  subst. congruence.
Qed.

Lemma app_assoc_s a b c : ((a ++ b) ++ c = a ++ (b ++ c))%string.
Proof. induction a; cbn; congruence. Qed.
Lemma app_nil_s a : (a ++ "" = a)%string.
Proof. induction a; cbn; congruence. Qed.
Lemma length_app_s a b : String.length (a ++ b)%string = (String.length a + String.length b)%nat.
Proof. induction a; cbn; congruence. Qed.
Lemma alldigits_app a b : alldigits (a ++ b)%string = alldigits a && alldigits b.
Proof. induction a; cbn; [reflexivity|]. now rewrite IHa, andb_assoc. Qed.

Lemma parse_app a b acc :
  parse_digits (a ++ b)%string acc =
  match parse_digits a acc with Some x => parse_digits b x | None => None end.
Proof.
  revert acc. induction a as [|c a IH]; intro acc; cbn; [reflexivity|].
  destruct (digit_val c); [apply IH|reflexivity].
Qed.

Lemma str_fuel_ok f : forall n, (n < 2 ^ N.of_nat f)%N ->
  alldigits (str_fuel (S f) n) = true /\ str_fuel (S f) n <> EmptyString /\
  forall acc, exists k, parse_digits (str_fuel (S f) n) acc = Some (acc * 10 ^ k + n)%N
                        /\ k = N.of_nat (String.length (str_fuel (S f) n)).
Proof.
  induction f as [|f IH]; intros n Hn.
  - assert (n = 0)%N by (cbn in Hn; lia). subst. change (str_fuel 1 0) with "0"%string.
    split; [reflexivity|]. split; [discriminate|]. intro acc. exists 1%N.
    split; [|reflexivity]. rewrite N.pow_1_r. cbn [parse_digits].
    change (digit_val "0") with (Some 0%N). cbv iota. f_equal. lia.
  - replace (str_fuel (S (S f)) n) with
      (if (n <? 10)%N then String (digit n) EmptyString
       else (str_fuel (S f) (n / 10) ++ String (digit (n mod 10)) EmptyString)%string) by reflexivity.
    destruct (n <? 10)%N eqn:E.
    + apply N.ltb_lt in E. cbn [alldigits]. rewrite isdigit_digit by exact E.
      split; [reflexivity|]. split; [discriminate|]. intro acc. exists 1%N. split; [|reflexivity].
      cbn [parse_digits]. rewrite digit_val_digit by exact E. rewrite N.pow_1_r. f_equal. lia.
    + apply N.ltb_ge in E.
      assert (Hq : (n / 10 < 2 ^ N.of_nat f)%N).
      { apply N.div_lt_upper_bound; [lia|].
        replace (N.of_nat (S f)) with (N.succ (N.of_nat f)) in Hn by lia.
        rewrite N.pow_succ_r' in Hn. lia. }
      assert (Hm : (n mod 10 < 10)%N) by (apply N.mod_lt; lia).
      destruct (IH _ Hq) as (A & B & C).
      set (p := str_fuel (S f) (n / 10)%N) in *.
      split; [|split].
      * rewrite alldigits_app, A. cbn [alldigits]. now rewrite isdigit_digit by exact Hm.
      * destruct p; [congruence|discriminate].
      * intro acc. destruct (C acc) as (k & P & K). exists (k + 1)%N. split.
        -- rewrite parse_app, P. cbn [parse_digits]. rewrite digit_val_digit by exact Hm.
           f_equal. rewrite N.pow_add_r, N.pow_1_r.
           pose proof (N.div_mod n 10 ltac:(lia)). lia.
        -- rewrite length_app_s. cbn [String.length]. lia.
Qed.

Lemma size_bound n : (n < 2 ^ N.of_nat (N.size_nat n))%N.
Proof.
  destruct n as [|p]; [cbn; lia|]. cbn [N.size_nat].
  induction p as [p IH|p IH|]; cbn [Pos.size_nat];
    try (replace (N.of_nat (S (Pos.size_nat p))) with (N.succ (N.of_nat (Pos.size_nat p))) by lia;
         rewrite N.pow_succ_r'; lia).
  cbn. lia.
Qed.

Lemma str_N_digits n : alldigits (str_N n) = true.
Proof. exact (proj1 (str_fuel_ok _ n (size_bound n))). Qed.
Lemma str_N_nonempty n : str_N n <> EmptyString.
Proof. exact (proj1 (proj2 (str_fuel_ok _ n (size_bound n)))). Qed.
Lemma parse_str_N n acc :
  parse_digits (str_N n) acc = Some (acc * 10 ^ N.of_nat (String.length (str_N n)) + n)%N.
Proof.
  destruct (proj2 (proj2 (str_fuel_ok _ n (size_bound n))) acc) as (k & P & ->). exact P.
Qed.

(** A digit string of length k is the number below 10^k it parses to. *)
Lemma parse_bound s : forall acc v, parse_digits s acc = Some v ->
  (v < (acc + 1) * 10 ^ N.of_nat (String.length s))%N.
Proof.
  induction s as [|c s IH]; intros acc v H; cbn [parse_digits] in H; cbn [String.length].
  - injection H as <-. change (10 ^ N.of_nat 0)%N with 1%N. lia.
  - destruct (digit_val c) as [d|] eqn:E; [|discriminate].
    specialize (IH _ _ H).
    assert (d < 10)%N.
    { unfold digit_val in E. destruct (48 <=? N_of_ascii c)%N eqn:E1; cbn in E; [|discriminate].
      destruct (N_of_ascii c <=? 57)%N eqn:E2; [|discriminate]. injection E as <-.
      apply N.leb_le in E1, E2. lia. }
    replace (N.of_nat (S (String.length s))) with (N.succ (N.of_nat (String.length s))) by lia.
    rewrite N.pow_succ_r'. nia.
Qed.

Lemma str_N_length_lower n k : (10 ^ N.of_nat k <= n)%N -> (k < String.length (str_N n))%nat.
Proof.
  intro H. pose proof (parse_bound _ _ _ (parse_str_N n 0)) as B.
  destruct (Nat.le_gt_cases (String.length (str_N n)) k) as [L|]; [|assumption].
  exfalso. assert (10 ^ N.of_nat (String.length (str_N n)) <= 10 ^ N.of_nat k)%N.
  { apply N.pow_le_mono_r; lia. } lia.
Qed.

(** Numbers below 10^(k+1) have at most k+1 digits. *)
Lemma str_fuel_length f : forall k n, (n < 10 ^ N.of_nat (S k))%N ->
  (String.length (str_fuel f n) <= S k)%nat.
Proof.
  induction f as [|f IH]; intros k n H; cbn [str_fuel]; [cbn; lia|].
  destruct (n <? 10)%N eqn:E; [cbn; lia|]. apply N.ltb_ge in E.
  destruct k as [|k].
  - change (10 ^ N.of_nat 1)%N with 10%N in H. lia.
  - rewrite length_app_s. cbn [String.length].
    assert (n / 10 < 10 ^ N.of_nat (S k))%N.
    { apply N.div_lt_upper_bound; [lia|].
      replace (N.of_nat (S (S k))) with (N.succ (N.of_nat (S k))) in H by lia.
      rewrite N.pow_succ_r' in H. lia. }
    specialize (IH k _ H0). lia.
Qed.
Lemma str_N_length_upper n k : (n < 10 ^ N.of_nat (S k))%N -> (String.length (str_N n) <= S k)%nat.
Proof. apply str_fuel_length. Qed.

Lemma str_N_length n k : (10 ^ N.of_nat k <= n)%N -> (n < 10 ^ N.of_nat (S k))%N ->
  String.length (str_N n) = S k.
Proof.
  intros A B. apply str_N_length_lower in A. apply str_N_length_upper in B. lia.
Qed.

(** ** int of a digit string *)

Lemma rstrip_digits s : alldigits s = true -> rstrip s = s.
Proof.
  induction s as [|a s IH]; cbn; [reflexivity|]. intro H. apply andb_true_iff in H as [A B].
  rewrite IH by exact B. destruct s; [|reflexivity]. now rewrite isdigit_not_space.
Qed.
Lemma lstrip_digits s : alldigits s = true -> lstrip s = s.
Proof.
  destruct s as [|a s]; cbn; [reflexivity|]. intro H. apply andb_true_iff in H as [A B].
  now rewrite isdigit_not_space.
Qed.

Lemma py_int_digits s : alldigits s = true -> py_int s = parse_unsigned s.
Proof.
  intro H. unfold py_int. rewrite rstrip_digits, lstrip_digits by exact H.
  destruct s as [|a r]; [reflexivity|]. cbn in H. apply andb_true_iff in H as [A _].
  pose proof (isdigit_neq a "-" A eq_refl) as M.
  pose proof (isdigit_neq a "+" A eq_refl) as P.
  apply Ascii.eqb_neq in M, P.
  destruct a as [[] [] [] [] [] [] [] []]; try reflexivity; congruence.
Qed.

Lemma zeros_digits m : alldigits (zeros m) = true.
Proof. induction m; cbn; auto. Qed.
Lemma parse_zeros m s acc : acc = 0%N -> parse_digits (zeros m ++ s)%string acc = parse_digits s acc.
Proof. intros ->. induction m; cbn; [reflexivity|exact IHm]. Qed.

Lemma parse_unsigned_nonempty s n : s <> EmptyString -> parse_digits s 0 = Some n ->
  parse_unsigned s = Ok (Z.of_N n).
Proof. intros H P. unfold parse_unsigned. destruct s; [congruence|]. now rewrite P. Qed.

Lemma py_str_nonneg z : (0 <= z)%Z -> py_str z = str_N (Z.to_N z).
Proof. intro H. unfold py_str. destruct (Z.ltb_spec z 0); [lia|reflexivity]. Qed.

Lemma py_int_zeros_str m z : (0 <= z)%Z -> py_int (zeros m ++ py_str z)%string = Ok z.
Proof.
  intro H. rewrite py_str_nonneg by exact H. rewrite py_int_digits.
  - erewrite parse_unsigned_nonempty.
    + rewrite Z2N.id; [reflexivity|exact H].
    + destruct m; [apply str_N_nonempty|discriminate].
    + rewrite parse_zeros by reflexivity. rewrite parse_str_N. f_equal; lia.
  - rewrite alldigits_app, zeros_digits. apply str_N_digits.
Qed.

Lemma py_int_py_str z : py_int (py_str z) = Ok z.
Proof.
  destruct (Z.ltb_spec z 0) as [L|L].
  - unfold py_str. destruct (Z.ltb_spec z 0); [|lia]. unfold py_int.
    set (r := str_N (Z.to_N (- z))).
    assert (Hr : alldigits r = true) by apply str_N_digits.
    assert (Hn : r <> EmptyString) by apply str_N_nonempty.
    assert (E : rstrip (String "-" r) = String "-" r).
    { cbn [rstrip]. rewrite rstrip_digits by exact Hr. destruct r; [congruence|reflexivity]. }
    rewrite E. cbn [lstrip is_space]. change (is_space "-") with false. cbn [rbind].
    erewrite parse_unsigned_nonempty; [|exact Hn|unfold r; rewrite parse_str_N; reflexivity].
    cbn [rbind]. f_equal. lia.
  - exact (py_int_zeros_str 0 z L).
Qed.

Definition pad_digits (s : string) : Prop := alldigits s = true /\ s <> EmptyString.

Lemma trunc_nonneg q : (0 <= q)%Q -> (0 <= trunc q)%Z.
Proof.
  intro H. unfold trunc. destruct (Qlt_le_dec q 0) as [L|L]; [lra|].
  change 0%Z with (Qfloor 0). apply Qfloor_resp_le. exact H.
Qed.

Lemma pad_digits_all q k : (0 <= q)%Q -> alldigits (pad_with_zeros q k) = true.
Proof.
  intro H. apply trunc_nonneg in H. unfold pad_with_zeros.
  rewrite alldigits_app, zeros_digits, py_str_nonneg by exact H. apply str_N_digits.
Qed.
Lemma pad_int q k : (0 <= q)%Q -> py_int (pad_with_zeros q k) = Ok (trunc q).
Proof. intro H. apply py_int_zeros_str, trunc_nonneg, H. Qed.

(** ** split *)

Fixpoint nosep (c : ascii) (s : string) : bool :=
  match s with EmptyString => true | String a r => negb (Ascii.eqb a c) && nosep c r end.

Lemma nosep_digits c s : isdigit c = false -> alldigits s = true -> nosep c s = true.
Proof.
  intro C. induction s as [|a s IH]; cbn; [reflexivity|]. intro H.
  apply andb_true_iff in H as [A B]. rewrite (isdigit_neq a c A C). cbn. now apply IH.
Qed.
Lemma nosep_app c a b : nosep c (a ++ b)%string = nosep c a && nosep c b.
Proof. induction a; cbn; [reflexivity|]. now rewrite IHa, andb_assoc. Qed.

Lemma split_app c a b : nosep c a = true ->
  split c (a ++ String c b)%string = a :: split c b.
Proof.
  induction a as [|x a IH]; cbn; intro H.
  - now rewrite Ascii.eqb_refl.
  - apply andb_true_iff in H as [A B]. apply negb_true_iff in A. rewrite A, IH by exact B. reflexivity.
Qed.
Lemma split_last c a : nosep c a = true -> split c a = [a].
Proof.
  induction a as [|x a IH]; cbn; intro H; [reflexivity|].
  apply andb_true_iff in H as [A B]. apply negb_true_iff in A. now rewrite A, IH.
Qed.

Lemma split3_ok sep a b c x y z :
  nosep sep a = true -> nosep sep b = true -> nosep sep c = true ->
  py_int a = Ok x -> py_int b = Ok y -> py_int c = Ok z ->
  split3 sep (a ++ String sep (b ++ String sep c))%string = Ok (x, y, z).
Proof.
  intros A B C X Y Z. unfold split3.
  rewrite split_app by exact A. rewrite split_app by exact B. rewrite split_last by exact C.
  cbn [item nth_error rbind]. rewrite X. cbn [rbind]. rewrite Y. cbn [rbind]. rewrite Z. reflexivity.
Qed.

Lemma datetime_str_shape y m1 d h m2 s :
  get_datetime_str y m1 d h m2 s =
  ((py_str y ++ String "-" (pad_with_zeros m1 2 ++ String "-" (pad_with_zeros d 2))) ++
   String " " (pad_with_zeros h 2 ++ String ":" (pad_with_zeros m2 2 ++ String ":" (pad_with_zeros s 2))))%string.
Proof.
  unfold get_datetime_str. cbn [append]. rewrite !app_assoc_s. cbn [append]. 
  rewrite !app_assoc_s. cbn [append]. reflexivity.
Qed.

Lemma get_then_split y m1 d h m2 s :
  (0 <= y)%Z -> (0 <= m1)%Q -> (0 <= d)%Q -> (0 <= h)%Q -> (0 <= m2)%Q -> (0 <= s)%Q ->
  split_datetime_str_all (get_datetime_str y m1 d h m2 s) =
  Ok (y, trunc m1, trunc d, (trunc h, trunc m2, trunc s)).
Proof.
  intros Hy H1 H2 H3 H4 H5. rewrite datetime_str_shape.
  assert (Dy : alldigits (py_str y) = true) by (rewrite py_str_nonneg by exact Hy; apply str_N_digits).
  pose proof (pad_digits_all m1 2 H1) as D1. pose proof (pad_digits_all d 2 H2) as D2.
  pose proof (pad_digits_all h 2 H3) as D3. pose proof (pad_digits_all m2 2 H4) as D4.
  pose proof (pad_digits_all s 2 H5) as D5.
  unfold split_datetime_str_all, split_datetime_str.
  rewrite split_app, split_last.
  - cbn [item nth_error rbind]. unfold split_date_str.
    rewrite (split3_ok "-" _ _ _ y (trunc m1) (trunc d));
      [|apply nosep_digits; [reflexivity|assumption]|apply nosep_digits; [reflexivity|assumption]
       |apply nosep_digits; [reflexivity|assumption]
       |apply py_int_py_str|now apply pad_int|now apply pad_int].
    cbn [rbind]. unfold split_time_str.
    rewrite (split3_ok ":" _ _ _ (trunc h) (trunc m2) (trunc s));
      [reflexivity|apply nosep_digits; [reflexivity|assumption]|apply nosep_digits; [reflexivity|assumption]
       |apply nosep_digits; [reflexivity|assumption]
       |now apply pad_int|now apply pad_int|now apply pad_int].
  - rewrite nosep_app. cbn [nosep]. rewrite nosep_app. cbn [nosep].
    rewrite !nosep_digits by (reflexivity || assumption). reflexivity.
  - rewrite nosep_app. cbn [nosep]. rewrite nosep_app. cbn [nosep].
    rewrite !nosep_digits by (reflexivity || assumption). reflexivity.
Qed.

(** ** Slices *)

Lemma take_app n a b : String.length a = n -> take n (a ++ b)%string = a.
Proof. intros <-. induction a; cbn; [destruct b; reflexivity|congruence]. Qed.
Lemma drop_app n a b : String.length a = n -> drop n (a ++ b)%string = b.
Proof. intros <-. induction a; cbn; [reflexivity|assumption]. Qed.
Lemma take_length n s : (n <= String.length s)%nat -> String.length (take n s) = n.
Proof. revert s. induction n; intros [|a s] H; cbn in *; try lia. rewrite IHn; lia. Qed.
Lemma drop_length n s : String.length (drop n s) = (String.length s - n)%nat.
Proof. revert s. induction n; intros [|a s]; cbn; try lia. apply IHn. Qed.
Lemma take_drop n s : (take n s ++ drop n s)%string = s.
Proof. revert s. induction n; intros [|a s]; cbn; try reflexivity. now rewrite IHn. Qed.

Lemma standardize_shape a sep b :
  String.length a = 10%nat -> String.length b = 8%nat ->
  standardize_datetime_str (a ++ sep ++ b)%string = (a ++ " " ++ b)%string.
Proof.
  intros A B. unfold standardize_datetime_str. rewrite take_app by exact A.
  unfold last_chars. rewrite <- (app_assoc_s a sep b).
  rewrite (drop_app _ (a ++ sep) b); [reflexivity|].
  rewrite (length_app_s (a ++ sep) b). lia.
Qed.

Lemma standardize_idem s : (10 <= String.length s)%nat ->
  standardize_datetime_str (standardize_datetime_str s) = standardize_datetime_str s.
Proof.
  intro H. unfold standardize_datetime_str at 2. apply standardize_shape.
  - now apply take_length.
  - unfold last_chars. rewrite drop_length. lia.
Qed.

Lemma pad2_length q : (0 <= q < 100)%Q -> String.length (pad_with_zeros q 2) = 2%nat.
Proof.
  intros [A B]. unfold pad_with_zeros. pose proof (trunc_nonneg q A) as T.
  assert (U : (trunc q < 100)%Z).
  { unfold trunc. destruct (Qlt_le_dec q 0); [lra|].
    pose proof (Qfloor_le q) as F. rewrite Zlt_Qlt. change (inject_Z 100) with 100%Q. lra. }
  rewrite length_app_s, py_str_nonneg by exact T.
  assert (L : (String.length (str_N (Z.to_N (trunc q))) <= 2)%nat).
  { apply (str_N_length_upper _ 1). change (10 ^ N.of_nat 2)%N with 100%N. lia. }
  assert (Z0 : forall m, String.length (zeros m) = m) by (induction m; cbn; congruence).
  rewrite Z0. lia.
Qed.

(** ** hhmm *)

Lemma digit_cases q : (0 <= q < 100)%Z ->
  alldigits (pad1 (py_str q)) = true /\ String.length (pad1 (py_str q)) = 2%nat /\
  forall acc, parse_digits (pad1 (py_str q)) acc = Some (100 * acc + Z.to_N q)%N.
Proof.
  intro H. rewrite py_str_nonneg by lia.
  pose proof (str_N_digits (Z.to_N q)) as D. pose proof (str_N_nonempty (Z.to_N q)) as Ne.
  assert (L : (String.length (str_N (Z.to_N q)) <= 2)%nat).
  { apply (str_N_length_upper _ 1). change (10 ^ N.of_nat 2)%N with 100%N. lia. }
  unfold pad1. destruct (Nat.eqb_spec (String.length (str_N (Z.to_N q))) 1) as [E|E].
  - split; [exact D|]. split; [cbn [String.length]; now rewrite E|]. intro acc. cbn [parse_digits].
    change (digit_val "0") with (Some 0%N). cbv iota. rewrite parse_str_N, E.
    change (10 ^ N.of_nat 1)%N with 10%N. f_equal. lia.
  - assert (String.length (str_N (Z.to_N q)) = 2%nat).
    { destruct (str_N (Z.to_N q)); [congruence|]. cbn in *. lia. }
    split; [exact D|]. split; [assumption|]. intro acc. rewrite parse_str_N, H0.
    change (10 ^ N.of_nat 2)%N with 100%N. f_equal. lia.
Qed.

Lemma pad1_digits z : (0 <= z)%Z -> alldigits (pad1 (py_str z)) = true.
Proof.
  intro H. rewrite py_str_nonneg by exact H. unfold pad1.
  destruct (_ =? 1)%nat; cbn; apply str_N_digits.
Qed.
Lemma pad1_parse z : (0 <= z)%Z -> parse_digits (pad1 (py_str z)) 0 = Some (Z.to_N z).
Proof.
  intro H. rewrite py_str_nonneg by exact H. unfold pad1.
  destruct (_ =? 1)%nat; cbn [parse_digits]; try change (digit_val "0") with (Some 0%N);
    cbn [N.mul N.add]; rewrite parse_str_N; f_equal; lia.
Qed.

Lemma int_concat h m : (0 <= h)%Z -> (0 <= m < 100)%Z ->
  py_int (pad1 (py_str h) ++ pad1 (py_str m))%string = Ok (100 * h + m)%Z.
Proof.
  intros H M. destruct (digit_cases m M) as (A & B & C).
  rewrite py_int_digits by (now rewrite alldigits_app, A, pad1_digits).
  erewrite parse_unsigned_nonempty.
  - reflexivity || idtac. 
    instantiate (1 := (100 * Z.to_N h + Z.to_N m)%N). f_equal. lia.
  - intro E. apply (f_equal String.length) in E. rewrite length_app_s in E. cbn in E. lia.
  - rewrite parse_app, pad1_parse by exact H. now rewrite C.
Qed.

Lemma minutes_parts t : (0 <= t)%Q ->
  let h := Qfloor (t / 60) in let m := Qfloor (t - 60 * inject_Z h) in
  (0 <= h)%Z /\ (0 <= m < 60)%Z /\ minutes_to_hhmm t = Ok (100 * h + m)%Z.
Proof.
  intros H h m.
  assert (Q60 : (0 <= t / 60)%Q) by (apply Qle_shift_div_l; lra).
  assert (Hh : (0 <= h)%Z) by (change 0%Z with (Qfloor 0); apply Qfloor_resp_le; exact Q60).
  pose proof (Qfloor_le (t / 60)) as F1. pose proof (Qlt_floor (t / 60)) as F2. fold h in F1, F2.
  rewrite inject_Z_plus in F2. change (inject_Z 1) with 1%Q in F2.
  assert (E : (t / 60 * 60 == t)%Q) by (field).
  assert (R : (0 <= t - 60 * inject_Z h < 60)%Q) by (split; lra).
  destruct R as [R1 R2].
  assert (Hm : (0 <= m)%Z) by (change 0%Z with (Qfloor 0); apply Qfloor_resp_le; exact R1).
  assert (Hm2 : (m < 60)%Z).
  { pose proof (Qfloor_le (t - 60 * inject_Z h)) as G. fold m in G. rewrite Zlt_Qlt.
    change (inject_Z 60) with 60%Q. lra. }
  split; [exact Hh|]. split; [lia|]. unfold minutes_to_hhmm.
  replace (trunc (t / 60)) with h by (unfold trunc; destruct (Qlt_le_dec (t / 60) 0); [lra|reflexivity]).
  fold h. replace (trunc (t - 60 * inject_Z h)) with m
    by (unfold trunc; destruct (Qlt_le_dec (t - 60 * inject_Z h) 0); [lra|reflexivity]).
  apply int_concat; lia.
Qed.

Lemma wrap16_small z : (-32768 <= z <= 32767)%Z -> wrap16 z = z.
Proof. intro H. unfold wrap16. rewrite Z.mod_small; lia. Qed.

Lemma hhmm_parts a b h m :
  String.length a = 2%nat -> py_int a = Ok h -> py_int b = Ok m ->
  (-32768 <= h * 60 <= 32767)%Z -> (-32768 <= m)%Z -> (m <= 32767)%Z ->
  (-32768 <= h * 60 + m <= 32767)%Z ->
  hhmm_to_minutes (HStr (a ++ b)) = Ok (60 * h + m)%Z.
Proof.
  intros L A B H1 H2 H3 H4. cbn [hhmm_to_minutes]. rewrite take_app, drop_app by exact L.
  unfold np_int16. rewrite A, B. cbn [rbind].
  replace ((-32768 <=? h) && (h <=? 32767))%Z with true
    by (symmetry; apply andb_true_iff; split; apply Z.leb_le; lia).
  replace ((-32768 <=? m) && (m <=? 32767))%Z with true
    by (symmetry; apply andb_true_iff; split; apply Z.leb_le; lia).
  cbn [rbind]. rewrite (wrap16_small (h * 60)) by lia. rewrite wrap16_small by lia. f_equal. lia.
Qed.
