(** C106: the clocks in double precision. *)

From Coq Require Import ZArith Reals Lia Lra.
From Flocq Require Import Core Relative Plus_error BinarySingleNaN.
From Verif Require Import Clock_Model.
Local Open Scope R_scope.

Local Instance prec53 : Prec_gt_0 53. Proof. unfold Prec_gt_0. lia. Qed.
Local Instance valid_fmt : Valid_exp fmt. Proof. unfold fmt. apply FLT_exp_valid. exact prec53. Qed.

Lemma double_of m e : (Z.abs m < 2 ^ 53)%Z -> (-1074 <= e)%Z -> is_double (IZR m * bpow radix2 e).
Proof.
  intros H E. apply generic_format_FLT. exists (Float radix2 m e); [reflexivity|exact H|exact E].
Qed.
Lemma rnd_double x : is_double x -> rnd x = x.
Proof. intros H. apply round_generic; [apply valid_rnd_N|exact H]. Qed.
Lemma double_le m e : (Z.abs m <= 2 ^ 53)%Z -> (-1074 <= e)%Z -> is_double (IZR m * bpow radix2 e).
Proof.
  intros H E. destruct (Z.eq_dec (Z.abs m) (2 ^ 53)) as [K|K]; [|apply double_of; lia].
  replace (IZR m * bpow radix2 e) with (IZR (m / 2) * bpow radix2 (e + 1)).
  - apply double_of; [|lia]. assert (m = 2 ^ 53 \/ m = - 2 ^ 53)%Z as [-> | ->] by lia; vm_compute; reflexivity.
  - assert (F : m = (2 * (m / 2))%Z) by (assert (m = 2 ^ 53 \/ m = - 2 ^ 53)%Z as [-> | ->] by lia; vm_compute; reflexivity).
    rewrite F at 2. rewrite mult_IZR, bpow_plus. change (bpow radix2 1) with 2. ring.
Qed.

(** [C106_exact] If the step is a whole multiple k of a power of two (a whole number of seconds, of halves, ...), the clock is exact as long as
    n k is at most 2^53. *)
Theorem C106_exact : forall k e n, (-1074 <= e)%Z -> (Z.of_nat n * Z.abs k <= 2 ^ 53)%Z ->
  clock (IZR k * bpow radix2 e) n = INR n * (IZR k * bpow radix2 e).
Proof.
  intros k e n E. induction n as [|n IH]; intros H; [cbn; ring|].
  cbn [clock]. rewrite IH by lia. unfold fadd.
  replace (INR n * (IZR k * bpow radix2 e) + IZR k * bpow radix2 e) with (IZR ((Z.of_nat n + 1) * k) * bpow radix2 e).
  - rewrite rnd_double; [|apply double_le; [rewrite Z.abs_mul; lia|exact E]].
    rewrite S_INR, INR_IZR_INZ, mult_IZR, plus_IZR. ring.
  - rewrite INR_IZR_INZ, mult_IZR, plus_IZR. ring.
Qed.
Print Assumptions C106_exact.

Lemma whole k n : (Z.of_nat n * Z.abs k <= 2 ^ 53)%Z -> clock (IZR k) n = IZR (Z.of_nat n * k).
Proof.
  intros H. pose proof (C106_exact k 0 n ltac:(lia) H) as E. change (bpow radix2 0) with 1 in E. rewrite Rmult_1_r in E.
  rewrite E, INR_IZR_INZ, <- mult_IZR. reflexivity.
Qed.
Lemma rnd_IZR m : (Z.abs m <= 2 ^ 53)%Z -> rnd (IZR m) = IZR m.
Proof.
  intros H. apply rnd_double. replace (IZR m) with (IZR m * bpow radix2 0) by (change (bpow radix2 0) with 1; ring). now apply double_le.
Qed.

(** seconds in the units *)
Definition secs (u : tunits) : Z :=
  match u with Seconds => 1 | Minutes => 60 | Hours => 3600 | Days => 86400 | Weeks => 604800 | Months => 2628000 | Years => 31536000 end.

(** [C106_units] With a whole step in any of the units, the time in seconds is exact too, as long as twelve times it is at most 2^53. *)
Theorem C106_units : forall u k n, (12 * (Z.of_nat n * Z.abs k * secs u) <= 2 ^ 53)%Z ->
  time_sec u (clock (IZR k) n) = IZR (Z.of_nat n * k * secs u).
Proof.
  intros u k n H. assert (S : (1 <= secs u)%Z) by (destruct u; cbn; lia).
  assert (P0 : (0 <= Z.of_nat n * Z.abs k)%Z) by lia.
  rewrite whole by nia. set (t := (Z.of_nat n * k)%Z) in *.
  assert (T : (12 * (Z.abs t * secs u) <= 2 ^ 53)%Z) by (unfold t; rewrite Z.abs_mul, (Z.abs_eq (Z.of_nat n)) by lia; exact H).
  clear H P0.
  assert (Y : sec_per_year = IZR 31536000).
  { unfold sec_per_year, fmul. rewrite <- (mult_IZR 365 24), (rnd_IZR (365 * 24)) by (vm_compute; discriminate).
    rewrite <- mult_IZR, rnd_IZR by (vm_compute; discriminate). reflexivity. }
  destruct u; cbn [secs] in T |- *; unfold time_sec; try rewrite Y; unfold fmul, fdiv.
  - f_equal. lia.
  - rewrite <- mult_IZR, rnd_IZR by lia. reflexivity.
  - rewrite <- mult_IZR, rnd_IZR by lia. reflexivity.
  - rewrite <- mult_IZR, rnd_IZR by lia. rewrite <- mult_IZR, rnd_IZR by lia. f_equal. lia.
  - rewrite <- mult_IZR, rnd_IZR by lia. rewrite <- mult_IZR, rnd_IZR by lia. rewrite <- mult_IZR, rnd_IZR by lia. f_equal. lia.
  - rewrite <- mult_IZR, rnd_IZR by lia. replace (IZR (t * 31536000) / 12) with (IZR (t * 2628000)).
    + apply rnd_IZR. lia.
    + replace (t * 31536000)%Z with (t * 2628000 * 12)%Z by lia. rewrite (mult_IZR (t * 2628000) 12). field.
  - rewrite <- mult_IZR, rnd_IZR by lia. reflexivity.
Qed.
Print Assumptions C106_units.

(** [C106_stop] With a whole step of k seconds and a whole stop time of T minutes, the rule Until_model_time ends the run after exactly the
    update that it would with exact numbers. *)
Theorem C106_stop : forall k T n, (0 <= k)%Z -> (0 <= T <= 2 ^ 46)%Z -> (Z.of_nat n * k <= 2 ^ 53)%Z ->
  until_model_time (IZR T) (IZR k) n <-> (60 * T <= Z.of_nat n * k)%Z.
Proof.
  intros k T n K HT H. unfold until_model_time, time_min, time_sec. rewrite whole by lia. set (t := (Z.of_nat n * k)%Z) in *.
  unfold fdiv. split.
  - intros D. destruct (Z_le_gt_dec (60 * T) t) as [C|C]; [exact C|exfalso].
    assert (U : rnd (IZR t / 60) <= IZR T - bpow radix2 (-6)).
    { replace (IZR T - bpow radix2 (-6)) with (rnd (IZR T - bpow radix2 (-6))).
      - apply round_le; [exact valid_fmt|apply valid_rnd_N|].
        assert (Q : IZR t <= 60 * IZR T - 1) by (rewrite <- (mult_IZR 60), <- minus_IZR; apply IZR_le; lia).
        change (bpow radix2 (-6)) with (/ 64). apply Rle_trans with (IZR T - / 60); [|lra].
        apply Rmult_le_reg_r with 60; [lra|]. unfold Rdiv. rewrite Rmult_assoc, Rinv_l by lra. lra.
      - apply rnd_double. replace (IZR T - bpow radix2 (-6)) with (IZR (64 * T - 1) * bpow radix2 (-6)).
        + apply double_le; [|lia]. change (2 ^ 46)%Z with 70368744177664%Z in HT. change (2 ^ 53)%Z with 9007199254740992%Z. lia.
        + rewrite minus_IZR, mult_IZR. change (bpow radix2 (-6)) with (/ 64). field. }
    assert (0 < bpow radix2 (-6)) by apply bpow_gt_0. lra.
  - intros C. rewrite <- (rnd_IZR T) at 1.
    + apply round_le; [exact valid_fmt|apply valid_rnd_N|]. apply Rmult_le_reg_r with 60; [lra|]. unfold Rdiv.
      rewrite Rmult_assoc, Rinv_l by lra. rewrite Rmult_1_r, <- mult_IZR. apply IZR_le. lia.
    + change (2 ^ 46)%Z with 70368744177664%Z in HT. change (2 ^ 53)%Z with 9007199254740992%Z. lia.
Qed.
Print Assumptions C106_stop.

(** [C106_due] With steps that are whole multiples of the same power of two, the framework updates each component when it would with exact
    numbers. *)
Theorem C106_due : forall f k e n m, (-1074 <= e)%Z -> (Z.of_nat n * Z.abs f <= 2 ^ 53)%Z -> (Z.of_nat m * Z.abs k <= 2 ^ 53)%Z ->
  is_due (IZR f * bpow radix2 e) (IZR k * bpow radix2 e) n m <-> (Z.of_nat n * f > Z.of_nat m * k)%Z.
Proof.
  intros f k e n m E A B. unfold is_due. rewrite !C106_exact by assumption. rewrite !INR_IZR_INZ, <- !Rmult_assoc, <- !mult_IZR.
  assert (P : 0 < bpow radix2 e) by apply bpow_gt_0. split; intros H.
  - apply Rgt_lt in H. apply Rmult_lt_reg_r in H; [|exact P]. apply lt_IZR in H. lia.
  - apply Rlt_gt, Rmult_lt_compat_r; [exact P|]. apply IZR_lt. lia.
Qed.
Print Assumptions C106_due.

(** [C106_error] With any step, the clock after n updates is n steps up to a factor between (1 - 2^-53)^n and (1 + 2^-53)^n. *)
Theorem C106_error : forall dt n, is_double dt -> 0 <= dt ->
  INR n * dt * (1 - bpow radix2 (-53)) ^ n <= clock dt n <= INR n * dt * (1 + bpow radix2 (-53)) ^ n.
Proof.
  intros dt n D P. set (u := bpow radix2 (-53)).
  assert (U : 0 < u < 1) by (unfold u; split; [apply bpow_gt_0|change 1 with (bpow radix2 0); apply bpow_lt; lia]).
  assert (DD : forall k, is_double (clock dt k)).
  { intros [|k]; [apply generic_format_0|]. cbn [clock]. apply generic_format_round; [exact valid_fmt|apply valid_rnd_N]. }
  induction n as [|n IH]; [cbn; lra|].
  assert (C0 : 0 <= clock dt n).
  { destruct IH as [IH _]. eapply Rle_trans; [|exact IH]. apply Rmult_le_pos; [apply Rmult_le_pos; [apply pos_INR|exact P]|apply pow_le; lra]. }
  destruct (FLT_plus_error_N_ex radix2 (-1074) 53 (fun z => negb (Z.even z)) (clock dt n) dt (DD n) D) as [eps [B E]].
  assert (B' : Rabs eps <= u).
  { eapply Rle_trans; [exact B|]. eapply Rle_trans; [apply u_rod1pu_ro_le_u_ro|]. unfold u, u_ro, bpow. cbn [Z.add Z.opp Z.pos_sub]. 
    replace (Z.pow_pos radix2 53) with (2 * Z.pow_pos radix2 52)%Z by reflexivity. rewrite mult_IZR, Rinv_mult. apply Rle_refl. }
  apply Rabs_le_inv in B'. cbn [clock]. unfold fadd. change (rnd (clock dt n + dt)) with
    (round radix2 (FLT_exp (-1074) 53) (Znearest (fun z => negb (Z.even z))) (clock dt n + dt)). rewrite E. clear E B DD.
  set (c := clock dt n) in *. rewrite S_INR. cbn [pow]. set (lo := (1 - u) ^ n) in *. set (hi := (1 + u) ^ n) in *.
  assert (L0 : 0 <= lo) by (apply pow_le; lra).
  assert (L1 : lo <= 1 ^ n) by (apply pow_incr; lra). rewrite pow1 in L1.
  assert (H1 : 1 <= hi) by (apply pow_R1_Rle; lra).
  assert (A : (INR n + 1) * dt * lo <= c + dt).
  { replace ((INR n + 1) * dt * lo) with (INR n * dt * lo + dt * lo) by ring.
    apply Rplus_le_compat; [apply IH|]. rewrite <- (Rmult_1_r dt) at 2. apply Rmult_le_compat_l; assumption. }
  assert (B : c + dt <= (INR n + 1) * dt * hi).
  { replace ((INR n + 1) * dt * hi) with (INR n * dt * hi + dt * hi) by ring.
    apply Rplus_le_compat; [apply IH|]. rewrite <- (Rmult_1_r dt) at 1. apply Rmult_le_compat_l; assumption. }
  split.
  - replace ((INR n + 1) * dt * ((1 - u) * lo)) with ((INR n + 1) * dt * lo * (1 - u)) by ring.
    apply Rle_trans with ((c + dt) * (1 - u)); [apply Rmult_le_compat_r; lra|apply Rmult_le_compat_l; lra].
  - replace ((INR n + 1) * dt * ((1 + u) * hi)) with ((INR n + 1) * dt * hi * (1 + u)) by ring.
    apply Rle_trans with ((c + dt) * (1 + u)); [apply Rmult_le_compat_l; lra|apply Rmult_le_compat_r; lra].
Qed.
Print Assumptions C106_error.

(** ** Steps that are not exact, by computing with Flocq's binary64 *)

Definition bin := binary_float 53 1024.
Definition p53 : Prec_gt_0 53 := prec53.
Definition pe : Prec_lt_emax 53 1024 := eq_refl.
Definition bint (z : Z) : bin := binary_normalize 53 1024 p53 pe mode_NE z 0 false.
Definition badd : bin -> bin -> bin := @Bplus 53 1024 p53 pe mode_NE.
Definition bdiv : bin -> bin -> bin := @Bdiv 53 1024 p53 pe mode_NE.
Notation val := (@B2R 53 1024).
Notation fin := (@is_finite 53 1024).

Lemma overflow (x : bin) s : fin x = true -> B2SF x = binary_overflow 53 1024 mode_NE s -> False.
Proof. intros F E. rewrite <- is_finite_SF_B2SF, E in F. discriminate F. Qed.
Lemma bint_ok z : fin (bint z) = true -> val (bint z) = rnd (IZR z).
Proof.
  intros F. pose proof (binary_normalize_correct 53 1024 p53 pe mode_NE z 0 false) as H. cbv zeta in H. fold (bint z) in H.
  destruct (Rlt_bool _ _); [|exfalso; exact (overflow _ _ F H)]. destruct H as [H _].
  rewrite H. unfold F2R. cbn [Fnum Fexp]. change (bpow radix2 0) with 1. rewrite Rmult_1_r. reflexivity.
Qed.
Lemma badd_ok x y : fin x = true -> fin y = true -> fin (badd x y) = true -> val (badd x y) = fadd (val x) (val y).
Proof.
  intros X Y F. pose proof (Bplus_correct 53 1024 p53 pe mode_NE x y X Y) as H. fold (badd x y) in H.
  destruct (Rlt_bool _ _); [|exfalso; destruct H as [H _]; exact (overflow _ _ F H)]. destruct H as [H _]. exact H.
Qed.
Lemma bdiv_ok x y : val y <> 0 -> fin (bdiv x y) = true -> val (bdiv x y) = fdiv (val x) (val y).
Proof.
  intros Y F. pose proof (Bdiv_correct 53 1024 p53 pe mode_NE x y Y) as H. fold (bdiv x y) in H.
  destruct (Rlt_bool _ _); [|exfalso; exact (overflow _ _ F H)]. destruct H as [H _]. exact H.
Qed.
Fixpoint bclock (dt : bin) (n : nat) : bin := match n with O => bint 0 | S k => badd (bclock dt k) dt end.
Fixpoint allfin (dt : bin) (n : nat) : bool := match n with O => true | S k => (fin (bclock dt n) && allfin dt k)%bool end.
Lemma bclock_ok dt n : fin dt = true -> allfin dt n = true -> val (bclock dt n) = clock (val dt) n.
Proof.
  intros D. induction n as [|n IH]; intros A.
  - cbn [bclock clock]. rewrite bint_ok by reflexivity. apply rnd_IZR. vm_compute. discriminate.
  - cbn [allfin] in A. apply andb_prop in A. destruct A as [A B]. cbn [bclock clock] in A |- *. rewrite badd_ok; [|clear IH A|exact D|exact A].
    + rewrite IH by exact B. reflexivity.
    + destruct n as [|n]; [reflexivity|]. cbn [allfin] in B. apply andb_prop in B. exact (proj1 B).
Qed.
(** the double nearest to a / b *)
Definition dec (a b : Z) : bin := bdiv (bint a) (bint b).
Lemma dec_ok a b : (0 < b)%Z -> (Z.abs a <= 2 ^ 53)%Z -> (b <= 2 ^ 53)%Z -> fin (bint a) = true -> fin (bint b) = true -> fin (dec a b) = true ->
  val (dec a b) = rnd (IZR a / IZR b).
Proof.
  intros P A B FA FB F. unfold dec. assert (EB : val (bint b) = IZR b) by (rewrite bint_ok by exact FB; apply rnd_IZR; lia).
  rewrite bdiv_ok; [|rewrite EB; apply IZR_neq; lia|exact F]. rewrite EB, bint_ok by exact FA. rewrite rnd_IZR by exact A. reflexivity.
Qed.
Lemma blt x y : fin x = true -> fin y = true -> Bltb x y = true -> val x < val y.
Proof. intros X Y H. rewrite Bltb_correct in H by assumption. revert H. case Rlt_bool_spec; [tauto|discriminate]. Qed.

(** [C106_early_refuted] With steps of 0.1 and 0.3 seconds, the component is updated again at the framework's third step,
    although it has reached the framework's time: 0.1 three times is more than 0.3. *)
Theorem C106_early_refuted : is_due (rnd (1 / 10)) (rnd (3 / 10)) 3 1 /\ INR 3 * (1 / 10) = INR 1 * (3 / 10).
Proof.
  split; [|cbn; lra]. unfold is_due.
  rewrite <- (dec_ok 1 10), <- (dec_ok 3 10) by (vm_compute; congruence).
  rewrite <- !bclock_ok by reflexivity. apply Rlt_gt, blt; vm_compute; reflexivity.
Qed.
Print Assumptions C106_early_refuted.

(** [C106_late_refuted] With a step of 2.4 seconds and a stop time of 1 minute, the run takes 26 steps: 25 steps of 2.4 seconds are
    less than 60 seconds on the clock. *)
Theorem C106_late_refuted : INR 25 * (24 / 10) = 60 /\
  ~ until_model_time 1 (rnd (24 / 10)) 25 /\ until_model_time 1 (rnd (24 / 10)) 26.
Proof.
  assert (O : val (bint 1) = 1) by (rewrite bint_ok by reflexivity; apply rnd_IZR; vm_compute; discriminate).
  assert (S : val (bint 60) = 60) by (rewrite bint_ok by reflexivity; apply rnd_IZR; vm_compute; discriminate).
  unfold until_model_time, time_min, time_sec. rewrite <- O, <- S. rewrite <- (dec_ok 24 10) by (vm_compute; congruence).
  rewrite <- !bclock_ok by (vm_compute; reflexivity).
  assert (N : val (bint 60) <> 0) by (rewrite S; lra).
  rewrite <- !bdiv_ok by first [exact N | vm_compute; reflexivity].
  split; [rewrite S; cbn; lra|]. split.
  - apply Rlt_not_le, blt; vm_compute; reflexivity.
  - apply Rlt_le, blt; vm_compute; reflexivity.
Qed.
Print Assumptions C106_late_refuted.

(** [C106_case] An example: a step of 10 seconds and a stop time of 100 days (144000 minutes), the 864000th update ends the run, not the one before. *)
Example C106_case : until_model_time (IZR 144000) (IZR 10) (Z.to_nat 864000) /\ ~ until_model_time (IZR 144000) (IZR 10) (Z.to_nat 863999).
Proof.
  rewrite !C106_stop; rewrite ?Z2Nat.id; try lia; try (split; vm_compute; discriminate); vm_compute; discriminate.
Qed.
