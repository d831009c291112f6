(** Lemmas about formatting and splitting. *)

From Coq Require Import String Ascii List ZArith NArith QArith Qround Qabs Bool Lia Lqa.
From Verif Require Import Time_Model Time_Proofs Time_Cal Io_Model Io_Proofs Rti_Model Rti_Proofs Fmt_Model.
Import ListNotations.

Lemma spaces_allspace n : allspace (spaces n) = true.
Proof. induction n; [reflexivity|exact IHn]. Qed.
Lemma spaces_length n : String.length (spaces n) = n.
Proof. induction n; cbn; congruence. Qed.
Lemma rjust_length w s : String.length (rjust w s) = Nat.max w (String.length s).
Proof. unfold rjust. rewrite length_app_s, spaces_length. lia. Qed.

(** ** Fixed-point numbers *)

Lemma parse_zeros_app m : forall s acc, parse_digits (zeros m ++ s) acc = parse_digits s (acc * 10 ^ N.of_nat m).
Proof.
  induction m as [|m IH]; intros s acc; cbn [zeros append parse_digits].
  - f_equal. rewrite N.pow_0_r. lia.
  - change (digit_val "0") with (Some 0%N). cbv iota. rewrite IH. f_equal.
    rewrite Nat2N.inj_succ, N.pow_succ_r'. lia.
Qed.

Lemma eval_fixed_point k n : (0 < k)%nat ->
  let p := (10 ^ N.of_nat k)%N in let frac := str_N (n mod p) in
  eval_unsigned (str_N (n / p) ++ "." ++ zeros (k - String.length frac) ++ frac)
  = Ok (inject_Z (Z.of_N n) / inject_Z (10 ^ Z.of_nat k))%Q.
Proof.
  intros K p frac. unfold eval_unsigned. cbn [append].
  assert (Hp : p <> 0%N) by (apply N.pow_nonzero; discriminate).
  assert (Hm : (n mod p < p)%N) by (now apply N.mod_lt).
  assert (Hf : (String.length frac <= k)%nat).
  { destruct k as [|k']; [lia|]. apply (str_N_length_upper _ k'). exact Hm. }
  assert (Df : alldigits (zeros (k - String.length frac) ++ frac) = true).
  { rewrite alldigits_app, zeros_digits. apply str_N_digits. }
  rewrite split_app by (apply nosep_digits; [reflexivity|apply str_N_digits]).
  rewrite split_last by (apply nosep_digits; [reflexivity|exact Df]).
  destruct (String.eqb_spec (str_N (n / p)) "") as [E|E]; [now apply str_N_nonempty in E|].
  assert (L : String.length (zeros (k - String.length frac) ++ frac)%string = k).
  { rewrite length_app_s, zeros_length. lia. }
  rewrite L.
  assert (P : parse_digits (str_N (n / p) ++ zeros (k - String.length frac) ++ frac) 0 = Some n).
  { rewrite parse_app, parse_str_N. cbv iota. rewrite N.mul_0_l, N.add_0_l.
    rewrite parse_zeros_app.
    assert (PF : forall acc, parse_digits frac acc = Some (acc * 10 ^ N.of_nat (String.length frac) + n mod p)%N)
      by (intro; apply parse_str_N).
    rewrite PF. f_equal.
    rewrite <- N.mul_assoc, <- N.pow_add_r.
    replace (N.of_nat (k - String.length frac) + N.of_nat (String.length frac))%N with (N.of_nat k) by lia.
    fold p. pose proof (N.div_mod n p Hp). lia. }
  rewrite P. reflexivity.
Qed.

(** The number with k decimals that is written for [x]. *)
Definition roundk (k : nat) (x : Q) : Q :=
  let r := (inject_Z (round_even (Qabs x * inject_Z (10 ^ Z.of_nat k))) / inject_Z (10 ^ Z.of_nat k))%Q in
  match Qcompare x 0 with Lt => (- r)%Q | _ => r end.

Lemma pow10_pos k : (0 < 10 ^ Z.of_nat k)%Z.
Proof. apply Z.pow_pos_nonneg; lia. Qed.
Lemma qpow10_pos k : (0 < inject_Z (10 ^ Z.of_nat k))%Q.
Proof. change 0%Q with (inject_Z 0). rewrite <- Zlt_Qlt. apply pow10_pos. Qed.

Lemma eval_fixed_str k x : (0 < k)%nat -> eval_num (fixed k x) = Ok (roundk k x).
Proof.
  intro K. unfold fixed, roundk.
  assert (NN : (0 <= round_even (Qabs x * inject_Z (10 ^ Z.of_nat k)))%Z).
  { apply round_even_nonneg. apply Qmult_le_0_compat; [apply Qabs_nonneg|apply Qlt_le_weak, qpow10_pos]. }
  set (z := round_even (Qabs x * inject_Z (10 ^ Z.of_nat k))) in *. set (n := Z.to_N z).
  assert (Z1 : Z.of_N n = z) by (unfold n; lia).
  pose proof (eval_fixed_point k n K) as E. cbv zeta in E. rewrite Z1 in E.
  destruct (Qcompare x 0).
  - cbn [append]. cbn [append] in E. rewrite eval_num_unsigned; [exact E|]. intro r. apply str_N_no_minus.
  - cbn [append eval_num]. cbn [append] in E. rewrite E. reflexivity.
  - cbn [append]. cbn [append] in E. rewrite eval_num_unsigned; [exact E|]. intro r. apply str_N_no_minus.
Qed.

Lemma roundk_near k x : (Qabs (roundk k x - x) <= (1 # 2) / inject_Z (10 ^ Z.of_nat k))%Q.
Proof.
  unfold roundk. pose proof (round_even_near (Qabs x * inject_Z (10 ^ Z.of_nat k))) as N.
  set (r := inject_Z (round_even (Qabs x * inject_Z (10 ^ Z.of_nat k)))) in *. clearbody r.
  pose proof (qpow10_pos k) as PP. set (p := inject_Z (10 ^ Z.of_nat k)) in *. clearbody p.
  assert (MAIN : (Qabs (r / p - Qabs x) <= (1 # 2) / p)%Q).
  { apply Qle_shift_div_l; [exact PP|].
    assert (E : (Qabs (r / p - Qabs x) * p == Qabs (r - Qabs x * p))%Q).
    { transitivity (Qabs (r / p - Qabs x) * Qabs p)%Q; [rewrite (Qabs_pos p) by lra; reflexivity|].
      rewrite <- Qabs_Qmult. apply Qabs_wd. field. lra. }
    rewrite E. exact N. }
  destruct (Qcompare_spec x 0) as [E|E|E].
  - assert (QA : (Qabs x == x)%Q) by (apply Qabs_pos; lra). 
    assert (E2 : (r / p - x == r / p - Qabs x)%Q) by (rewrite QA; reflexivity).
    rewrite E2. exact MAIN.
  - assert (QA : (Qabs x == - x)%Q) by (apply Qabs_neg; lra).
    assert (E2 : (- (r / p) - x == - (r / p - Qabs x))%Q) by (rewrite QA; ring).
    rewrite E2, Qabs_opp. exact MAIN.
  - assert (QA : (Qabs x == x)%Q) by (apply Qabs_pos; lra). 
    assert (E2 : (r / p - x == r / p - Qabs x)%Q) by (rewrite QA; reflexivity).
    rewrite E2. exact MAIN.
Qed.

Lemma roundk_int k z : (roundk k (inject_Z z) == inject_Z z)%Q.
Proof.
  unfold roundk. pose proof (qpow10_pos k) as PP.
  assert (A : round_even (Qabs (inject_Z z) * inject_Z (10 ^ Z.of_nat k)) = (Z.abs z * 10 ^ Z.of_nat k)%Z).
  { apply round_even_int. rewrite inject_Z_mult. apply Qmult_comp; [|reflexivity].
    unfold Qabs, inject_Z. reflexivity. }
  rewrite A, inject_Z_mult. set (p := inject_Z (10 ^ Z.of_nat k)) in *. clearbody p.
  destruct (Qcompare_spec (inject_Z z) 0) as [E|E|E]; change 0%Q with (inject_Z 0) in E.
  - rewrite inject_Z_injective in E. subst z. cbn. field. lra.
  - rewrite <- Zlt_Qlt in E. rewrite Z.abs_neq by lia. rewrite inject_Z_opp. field. lra.
  - rewrite <- Zlt_Qlt in E. rewrite Z.abs_eq by lia. field. lra.
Qed.

Lemma fixed_nospace k x : nospace (fixed k x) = true.
Proof.
  unfold fixed. rewrite !nospace_app. cbn [nospace].
  assert (A : forall n, nospace (str_N n) = true) by (intro; apply nospace_digits, str_N_digits).
  assert (B : forall n, nospace (zeros n) = true) by (intro; apply nospace_digits, zeros_digits).
  rewrite !A, !B. destruct (Qcompare x 0); reflexivity.
Qed.
Lemma fixed_nonempty k x : fixed k x <> EmptyString.
Proof.
  unfold fixed. intro E. apply (f_equal String.length) in E. rewrite !length_app_s in E. cbn in E. lia.
Qed.

(** ** Words *)

Lemma words_acc_word w : nospace w = true -> forall acc r,
  words_acc (w ++ r) acc = words_acc r (acc ++ w)%string.
Proof.
  induction w as [|a w IH]; intros H acc r; cbn [append words_acc].
  - now rewrite app_nil_s.
  - cbn in H. apply andb_true_iff in H as [A B]. apply negb_true_iff in A. rewrite A, IH by exact B.
    f_equal. now rewrite app_assoc_s.
Qed.
Lemma words_space w r : allspace w = true -> words (w ++ r) = words r.
Proof.
  unfold words. induction w as [|a w IH]; intro H; [reflexivity|]. cbn in *.
  apply andb_true_iff in H as [A B]. rewrite A. now apply IH.
Qed.
(** A word followed by a space or the end. *)
Lemma words_word w a r : nospace w = true -> w <> EmptyString -> is_space a = true ->
  words (w ++ String a r) = w :: words r.
Proof.
  intros H N A. unfold words. rewrite words_acc_word by exact H. cbn [append words_acc]. rewrite A.
  destruct w; [easy|reflexivity].
Qed.
Lemma words_end w : nospace w = true -> w <> EmptyString -> words w = [w].
Proof.
  intros H N. unfold words. rewrite <- (app_nil_s w) at 1. rewrite words_acc_word by exact H. cbn.
  destruct w; [easy|reflexivity].
Qed.

(** Right-justified columns: as long as every entry leaves room for a blank. *)
Lemma words_blank e : allspace e = true -> words e = [].
Proof. intro E. rewrite <- (app_nil_s e), (words_space e EmptyString) by exact E. reflexivity. Qed.
Fixpoint columns (l : list (nat * string)) : string :=
  match l with [] => EmptyString | (w, x) :: r => (rjust w x ++ columns r)%string end.
Definition roomy (c : nat * string) : Prop :=
  nospace (snd c) = true /\ snd c <> EmptyString /\ (String.length (snd c) < fst c)%nat.
Lemma words_columns l e : Forall roomy l -> allspace e = true -> words (columns l ++ e) = map snd l.
Proof.
  intros H E. induction H as [|[w x] l (A & B & C) F IH]; cbn [fst snd] in *.
  - cbn [columns append map]. now apply words_blank.
  - cbn [columns map snd]. unfold rjust at 1. rewrite !app_assoc_s, words_space by apply spaces_allspace.
    destruct F as [|[w' y] l (A' & B' & C') F]; cbn [fst snd] in *.
    + cbn [columns append map] in *. destruct e as [|a e].
      * rewrite app_nil_s. now apply words_end.
      * cbn in E. apply andb_true_iff in E as [E1 E2]. rewrite words_word by assumption. f_equal.
        now apply words_blank.
    + assert (T : exists t, columns ((w', y) :: l) = String " " t).
      { cbn [columns]. unfold rjust. destruct (w' - String.length y)%nat as [|m] eqn:M; [lia|].
        cbn [spaces append]. eexists. reflexivity. }
      destruct T as [t T]. rewrite T in *. cbn [append] in *.
      rewrite words_word by (assumption || reflexivity). f_equal. exact IH.
Qed.

(** ** Lines *)

Lemma readlines_f_text lines : Forall (fun l => nosep newline l = true) lines ->
  forall fuel, (List.length lines < fuel)%nat ->
  readlines_f fuel (unlines lines) = map (fun l => l ++ String newline EmptyString)%string lines.
Proof.
  induction 1 as [|l lines Hl _ IH]; intros fuel Hf; (destruct fuel as [|f]; [cbn in Hf; lia|]).
  - reflexivity.
  - cbn [unlines readlines_f map]. rewrite readline_line by exact Hl.
    rewrite <- (IH f) by (cbn in Hf; lia).
    destruct l; reflexivity.
Qed.
Lemma readlines_text lines : Forall (fun l => nosep newline l = true) lines ->
  readlines (unlines lines) = map (fun l => l ++ String newline EmptyString)%string lines.
Proof.
  intro H. apply readlines_f_text; [exact H|]. pose proof (unlines_length lines). lia.
Qed.

(** ** Widths *)

Lemma fixed_length k x m : (0 < k)%nat -> (Qabs x < inject_Z (10 ^ Z.of_nat m) - 1)%Q -> (0 < m)%nat ->
  (String.length (fixed k x) <= m + k + 2)%nat.
Proof.
  intros K B M. unfold fixed. set (p := (10 ^ N.of_nat k)%N).
  set (z := round_even (Qabs x * inject_Z (10 ^ Z.of_nat k))). set (n := Z.to_N z).
  assert (Hp : p <> 0%N) by (apply N.pow_nonzero; discriminate).
  pose proof (qpow10_pos k) as PP.
  assert (ZB : (z <= 10 ^ Z.of_nat m * 10 ^ Z.of_nat k - 1)%Z).
  { pose proof (round_even_near (Qabs x * inject_Z (10 ^ Z.of_nat k))) as N. fold z in N.
    apply Qabs_Qle_condition in N as [N1 N2].
    assert (1 <= inject_Z (10 ^ Z.of_nat k))%Q.
    { change 1%Q with (inject_Z 1). rewrite <- Zle_Qle. pose proof (pow10_pos k). lia. }
    assert (Q1 : (Qabs x * inject_Z (10 ^ Z.of_nat k) <= inject_Z (10 ^ Z.of_nat m * 10 ^ Z.of_nat k) - 1)%Q).
    { rewrite inject_Z_mult. set (a := inject_Z (10 ^ Z.of_nat k)) in *. set (c := inject_Z (10 ^ Z.of_nat m)) in *.
      clearbody a c. assert (Qabs x * a <= (c - 1) * a)%Q by (apply Qmult_le_compat_r; lra). lra. }
    assert (Q2 : (inject_Z z < inject_Z (10 ^ Z.of_nat m * 10 ^ Z.of_nat k))%Q) by lra.
    rewrite <- Zlt_Qlt in Q2. lia. }
  assert (NB : (n < 10 ^ N.of_nat m * p)%N).
  { unfold n. destruct (Z.le_gt_cases 0 z).
    - assert (E : Z.of_N (10 ^ N.of_nat m * p) = (10 ^ Z.of_nat m * 10 ^ Z.of_nat k)%Z).
      { unfold p. rewrite N2Z.inj_mul, !N2Z.inj_pow, !nat_N_Z. reflexivity. }
      lia.
    - replace (Z.to_N z) with 0%N by lia. apply N.mul_pos_pos; apply N.neq_0_lt_0; [apply N.pow_nonzero; discriminate|exact Hp]. }
  assert (L1 : (String.length (str_N (n / p)) <= m)%nat).
  { destruct m as [|m']; [lia|]. apply (str_N_length_upper _ m'). 
    apply N.div_lt_upper_bound; [exact Hp|]. rewrite N.mul_comm. exact NB. }
  assert (L2 : (String.length (str_N (n mod p)) <= k)%nat).
  { destruct k as [|k']; [lia|]. apply (str_N_length_upper _ k'). apply N.mod_lt. exact Hp. }
  rewrite !length_app_s, zeros_length. cbn [String.length].
  destruct (Qcompare x 0); cbn [String.length]; lia.
Qed.

Lemma py_str_length z m : (Z.abs z < 10 ^ Z.of_nat (S m))%Z -> (String.length (py_str z) <= S (S m))%nat.
Proof.
  intro H. unfold py_str.
  assert (E : Z.of_N (10 ^ N.of_nat (S m)) = (10 ^ Z.of_nat (S m))%Z).
  { rewrite N2Z.inj_pow, nat_N_Z. reflexivity. }
  assert (L : forall y, (0 <= y < 10 ^ Z.of_nat (S m))%Z -> (String.length (str_N (Z.to_N y)) <= S m)%nat).
  { intros y Y. apply (str_N_length_upper _ m). lia. }
  destruct (Z.ltb_spec z 0).
  - cbn [append String.length]. specialize (L (- z)%Z ltac:(lia)). lia.
  - specialize (L z ltac:(lia)). lia.
Qed.
Lemma py_str_nonempty z : py_str z <> EmptyString.
Proof. unfold py_str. destruct (z <? 0)%Z; [discriminate|apply str_N_nonempty]. Qed.
