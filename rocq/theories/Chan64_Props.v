(** C115: the water of a channel cell, its depth and its floodplain in double precision. *)

From Coq Require Import ZArith Reals Lia Lra List.
From Flocq Require Import Core Relative Plus_error Sterbenz Mult_error.
From Verif Require Import Clock_Model Clock_Props Vol64_Props Interp64_Model Interp64_Props Snow64_Props Chan64_Model.
Import ListNotations.
Local Open Scope R_scope.
Local Existing Instance prec53.

(** ** What is asked *)

(** x and y agree up to a factor (1 + 2^-53)^k *)
Definition rel (k : nat) (x y : R) : Prop := y <= x * (1 + u) ^ k /\ x <= y * (1 + u) ^ k.
(** d is the depth at which a channel of bottom width w, bank slope t and length ds holds v *)
Definition holds (d w t ds v : R) : Prop := d * (w + t * d) * ds = v.

(** ** Rounding *)

Lemma rel_refl k x : 0 <= x -> rel k x x.
Proof. intros H. assert (x * 1 <= x * (1 + u) ^ k) by (apply Rmult_le_compat_l; [exact H|apply pow_ge1]). split; lra. Qed.
Lemma rel_sym k x y : rel k x y -> rel k y x. Proof. intros [A B]. now split. Qed.
Lemma pow_pos k : 0 < (1 + u) ^ k. Proof. pose proof (pow_ge1 k). lra. Qed.
Lemma rel_trans j k x y z : rel j x y -> rel k y z -> rel (j + k) x z.
Proof.
  intros [A B] [C D]. pose proof (pow_pos j). pose proof (pow_pos k). split; rewrite pow_add.
  - eapply Rle_trans; [exact C|]. replace (x * ((1 + u) ^ j * (1 + u) ^ k)) with (x * (1 + u) ^ j * (1 + u) ^ k) by ring.
    apply Rmult_le_compat_r; lra.
  - eapply Rle_trans; [exact B|]. replace (z * ((1 + u) ^ j * (1 + u) ^ k)) with (z * (1 + u) ^ k * (1 + u) ^ j) by ring.
    apply Rmult_le_compat_r; lra.
Qed.
Lemma rel_mult j k a A b B : 0 <= a -> 0 <= A -> 0 <= b -> 0 <= B -> rel j a A -> rel k b B -> rel (j + k) (a * b) (A * B).
Proof.
  intros Ha HA Hb HB [P Q] [R' S]. split; rewrite pow_add.
  - replace (a * b * ((1 + u) ^ j * (1 + u) ^ k)) with ((a * (1 + u) ^ j) * (b * (1 + u) ^ k)) by ring. now apply Rmult_le_compat.
  - replace (A * B * ((1 + u) ^ j * (1 + u) ^ k)) with ((A * (1 + u) ^ j) * (B * (1 + u) ^ k)) by ring. now apply Rmult_le_compat.
Qed.
Lemma rel_inv k b B : 0 < b -> 0 < B -> rel k b B -> rel k (/ b) (/ B).
Proof.
  intros Hb HB [P Q]. pose proof (pow_pos k). split.
  - apply (Rmult_le_reg_r (B * b)); [now apply Rmult_lt_0_compat|].
    replace (/ B * (B * b)) with b by (field; lra). replace (/ b * (1 + u) ^ k * (B * b)) with (B * (1 + u) ^ k) by (field; lra). exact Q.
  - apply (Rmult_le_reg_r (B * b)); [now apply Rmult_lt_0_compat|].
    replace (/ b * (B * b)) with B by (field; lra). replace (/ B * (1 + u) ^ k * (B * b)) with (b * (1 + u) ^ k) by (field; lra). exact P.
Qed.
Lemma rel_plus k a A b B : rel k a A -> rel k b B -> rel k (a + b) (A + B).
Proof. intros [P Q] [R' S]. split; lra. Qed.
Lemma rel_up j k x y : (j <= k)%nat -> 0 <= x -> 0 <= y -> rel j x y -> rel k x y.
Proof.
  intros L X Y [A B]. assert (P : (1 + u) ^ j <= (1 + u) ^ k) by (apply Rle_pow; [pose proof u_pos; lra|exact L]).
  split; eapply Rle_trans; eauto; apply Rmult_le_compat_l; auto.
Qed.
Lemma rel_sqrt k x y : 0 <= x -> 0 <= y -> rel (2 * k) x y -> rel k (sqrt x) (sqrt y).
Proof.
  intros X Y [A B]. assert (H : sqrt ((1 + u) ^ (2 * k)) = (1 + u) ^ k).
  { rewrite Nat.mul_comm, pow_mult. apply sqrt_pow2. left. apply pow_pos. }
  pose proof (pow_pos (2 * k)). unfold rel. rewrite <- H. split; rewrite <- sqrt_mult by lra; now apply sqrt_le_1_alt.
Qed.
Lemma rel_err k x y : 0 <= y -> rel k x y -> Rabs (x - y) <= err k * y.
Proof.
  intros Y [A B]. unfold err. pose proof (pow_ge1 k) as P. apply Rabs_le. split; [|lra].
  assert (y / (1 + u) ^ k <= x).
  { apply (Rmult_le_reg_r ((1 + u) ^ k)); [lra|]. unfold Rdiv. rewrite Rmult_assoc, Rinv_l by lra. lra. }
  assert (y * (2 - (1 + u) ^ k) <= y / (1 + u) ^ k).
  { unfold Rdiv. apply Rmult_le_compat_l; [exact Y|]. apply (Rmult_le_reg_r ((1 + u) ^ k)); [lra|]. rewrite Rinv_l by lra. nra. }
  lra.
Qed.

Lemma rnd_rel x : 0 <= x -> x = 0 \/ bpow radix2 (-1022) <= x -> rel 1 (rnd x) x.
Proof.
  intros P [->|H]; [rewrite rnd_0; apply rel_refl; lra|]. assert (H' : bpow radix2 (-1074 + 53 - 1) <= Rabs x) by (rewrite Rabs_pos_eq by exact P; exact H).
  pose proof (relative_error_N_FLT radix2 (-1074) 53 ltac:(lia) (fun z => negb (Z.even z)) x H') as A.
  pose proof (relative_error_N_FLT_round radix2 (-1074) 53 ltac:(lia) (fun z => negb (Z.even z)) x H') as B.
  change (round radix2 (FLT_exp (-1074) 53) (Znearest (fun z => negb (Z.even z))) x) with (rnd x) in A, B.
  pose proof u_ro_u as E. unfold u_ro in E. rewrite E in A, B.
  pose proof (rnd_pos x P). rewrite (Rabs_pos_eq x) in A by lra. rewrite (Rabs_pos_eq (rnd x)) in B by lra.
  apply Rabs_le_inv in A. apply Rabs_le_inv in B. unfold rel. rewrite pow_1. split; lra.
Qed.
Lemma normal_rel x : 0 <= x -> normal x -> rel 1 (rnd x) x.
Proof.
  intros P [->|H]; (apply rnd_rel; [exact P|]); [now left|]. right. rewrite Rabs_pos_eq in H by exact P. eapply Rle_trans; [|exact H]. apply bpow_le. lia.
Qed.
(** a number that agrees with a normal one up to a few roundings *)
Lemma near_rel k x y : (k <= 8)%nat -> 0 <= x -> 0 <= y -> rel k x y -> normal y -> rel 1 (rnd x) x.
Proof.
  intros K X Y [A B] [->|H]; apply rnd_rel; auto.
  - left. lra.
  - right. rewrite Rabs_pos_eq in H by exact Y. assert ((1 + u) ^ k <= 2).
    { apply Rle_trans with ((1 + u) ^ 8); [apply Rle_pow; [pose proof u_pos; lra|exact K]|]. pose proof u_pos. pose proof u_tiny.
      apply Rle_trans with ((1 + / 1000) ^ 8); [apply pow_incr; lra|]. lra. }
    assert (bpow radix2 (-1021) <= x * 2) by (eapply Rle_trans; [exact H|]; eapply Rle_trans; [exact A|]; now apply Rmult_le_compat_l).
    replace (bpow radix2 (-1021)) with (2 * bpow radix2 (-1022)) in * by (change (-1021)%Z with (1 + -1022)%Z; rewrite bpow_plus; reflexivity). lra.
Qed.
Lemma add_rel x y : is_double x -> is_double y -> 0 <= x + y -> rel 1 (fadd x y) (x + y).
Proof.
  intros X Y P. destruct (FLT_plus_error_N_ex radix2 (-1074) 53 (fun z => negb (Z.even z)) x y X Y) as [e [B E]].
  unfold fadd. change (rnd (x + y)) with (round radix2 (FLT_exp (-1074) 53) (Znearest (fun z => negb (Z.even z))) (x + y)). rewrite E.
  rewrite u_ro_u in B. pose proof u_pos. apply Rabs_le_inv in B. destruct B as [B1 B2].
  assert (u / (1 + u) <= u) by (apply (Rmult_le_reg_r (1 + u)); [lra|]; unfold Rdiv; rewrite Rmult_assoc, Rinv_l by lra; nra).
  unfold rel. rewrite pow_1. split.
  - replace (x + y) with ((x + y) * ((1 - u / (1 + u)) * (1 + u))) at 1 by (field; lra).
    rewrite Rmult_assoc. apply Rmult_le_compat_l; [exact P|]. apply Rmult_le_compat_r; lra.
  - apply Rmult_le_compat_l; lra.
Qed.
Lemma sub_rel x y : is_double x -> is_double y -> y <= x -> rel 1 (fsub x y) (x - y).
Proof. intros X Y P. apply (add_rel x (- y)); auto using dbl_opp. lra. Qed.
Lemma dbl_min x y : is_double x -> is_double y -> is_double (Rmin x y).
Proof. unfold Rmin. destruct (Rle_dec x y); auto. Qed.
Lemma dbl_twice x : is_double x -> is_double (2 * x).
Proof. intros X. rewrite Rmult_comm. change 2 with (bpow radix2 1). apply (mult_bpow_pos_exact_FLT radix2 (-1074) 53 x 1 X). lia. Qed.
Lemma twice x : is_double x -> fmul 2 x = 2 * x. Proof. intros X. apply rnd_id. now apply dbl_twice. Qed.
Lemma four x : is_double x -> fmul 2 (fmul 2 x) = 4 * x.
Proof. intros X. rewrite (twice x X), twice by now apply dbl_twice. ring. Qed.

(** the square root of the rounded square of a double is that double *)
Lemma sqrt_square w : is_double w -> 0 <= w -> normal (w * w) -> fsqrt (fmul w w) = w.
Proof.
  intros D [P|<-] N; [|unfold fsqrt, fmul; rewrite Rmult_0_l, rnd_0, sqrt_0; apply rnd_0].
  assert (NB : bpow radix2 (-1021) <= w * w) by (destruct N as [E|N]; [nra|rewrite Rabs_pos_eq in N by nra; exact N]).
  set (e := mag radix2 w). assert (LO : bpow radix2 (e - 1) <= w) by (pose proof (bpow_mag_le radix2 w ltac:(lra)) as H; rewrite Rabs_pos_eq in H by lra; exact H).
  assert (HI : w < bpow radix2 e) by (pose proof (bpow_mag_gt radix2 w) as H; rewrite Rabs_pos_eq in H by lra; exact H).
  assert (EE : (-511 < e)%Z).
  { destruct (Z_lt_le_dec (-511) e) as [H|H]; [exact H|]. exfalso. assert (w < bpow radix2 (-511)) by (eapply Rlt_le_trans; [exact HI|now apply bpow_le]).
    assert (w * w < bpow radix2 (-511) * bpow radix2 (-511)) by (apply Rmult_le_0_lt_compat; lra). rewrite <- bpow_plus in H1.
    pose proof (bpow_le radix2 (-511 + -511) (-1021) ltac:(lia)). lra. }
  assert (UL : ulp radix2 fmt w = bpow radix2 (e - 53)).
  { rewrite ulp_neq_0 by lra. unfold cexp, fmt, FLT_exp. fold e. rewrite Z.max_l by lia. reflexivity. }
  set (B := bpow radix2 e) in *. assert (BP : 0 < B) by apply bpow_gt_0.
  assert (UB : bpow radix2 (e - 53) = B * u) by (unfold B, u; rewrite <- bpow_plus; f_equal).
  assert (HB : bpow radix2 (e - 1) = B / 2) by (unfold B, Z.sub; rewrite bpow_plus; reflexivity).
  destruct (Req_dec w (bpow radix2 (e - 1))) as [PW|NP].
  - assert (is_double (w * w)).
    { rewrite PW. rewrite <- bpow_plus. replace (bpow radix2 (e - 1 + (e - 1))) with (IZR 1 * bpow radix2 (e - 1 + (e - 1))) by ring.
      apply double_of; [reflexivity|lia]. }
    unfold fsqrt, fmul. rewrite (rnd_id (w * w)) by assumption. rewrite sqrt_square by lra. now apply rnd_id.
  - assert (DE : is_double (bpow radix2 e)) by (replace (bpow radix2 e) with (IZR 1 * bpow radix2 e) by ring; apply double_of; [reflexivity|lia]).
    assert (HI2 : w <= B - B * u).
    { assert (S : succ radix2 fmt w <= bpow radix2 e) by (apply succ_le_lt; auto; apply valid_fmt).
      rewrite succ_eq_pos in S by lra. rewrite UL, UB in S. fold B in S. lra. }
    assert (LO2 : B / 2 <= w) by (rewrite <- HB; exact LO).
    destruct (mul_err (w * w)) as [d [DB DE']]; [right; rewrite Rabs_pos_eq by nra; eapply Rle_trans; [|exact NB]; apply bpow_le; lia|].
    unfold fmul. rewrite DE'. apply Rabs_le_inv in DB. pose proof u_pos as UP. pose proof u_tiny as UT.
    set (s := sqrt (w * w * (1 + d))). assert (SP : 0 <= w * w * (1 + d)) by (apply Rmult_le_pos; nra).
    assert (S2 : s * s = w * w * (1 + d)) by (apply sqrt_sqrt; exact SP). assert (S0 : 0 <= s) by apply sqrt_pos.
    assert (U1 : s < w + B * u / 2).
    { destruct (Rlt_le_dec s (w + B * u / 2)) as [H|H]; [exact H|exfalso].
      assert (BU : 0 < B * u) by nra. assert ((w + B * u / 2) * (w + B * u / 2) <= s * s) by (apply Rmult_le_compat; lra).
      assert (w * w * d <= w * w * u) by (apply Rmult_le_compat_l; nra). assert (w * (w * u) < w * (B * u)) by (apply Rmult_lt_compat_l; nra).
      nra. }
    assert (U2 : w - B * u / 2 < s).
    { destruct (Rlt_le_dec (w - B * u / 2) s) as [H|H]; [exact H|exfalso].
      assert (BU : 0 < B * u) by nra. assert (BU1 : B * u <= B / 1000) by nra.
      assert (s * s <= (w - B * u / 2) * (w - B * u / 2)) by (apply Rmult_le_compat; lra).
      assert (- (w * w * u) <= w * w * d) by nra.
      assert (K : B / 2 * (B * u) <= w * (B - w)) by (apply Rmult_le_compat; lra).
      assert (K2 : u * (B / 2 * (B * u)) <= u * (w * (B - w))) by (apply Rmult_le_compat_l; lra).
      assert (0 < (B * u) * (B * u)) by nra. nra. }
    unfold fsqrt. fold s. apply Rle_antisym.
    + apply (round_N_le_midp radix2 fmt (fun z => negb (Z.even z)) w s D). rewrite succ_eq_pos by lra. rewrite UL, UB. lra.
    + apply (round_N_ge_midp radix2 fmt (fun z => negb (Z.even z)) w s D). rewrite pred_eq_pos by lra. unfold pred_pos. fold e.
      rewrite Req_bool_false by exact NP. rewrite UL, UB. lra.
Qed.

(** ** Channel and floodplain *)

(** The channel never holds more than bankfull.  A cell is flooded exactly if it holds more than bankfull.  The two parts
    make up the volume, up to one rounding of the water on the floodplain, and exactly as long as the volume is at most
    twice bankfull. *)
Theorem C115_split : forall vol b, is_double vol -> is_double b ->
  channel_volume vol b <= b /\ channel_volume vol b <= vol /\ 0 <= flood_volume vol b /\ (0 < flood_volume vol b <-> b < vol) /\
  Rabs (channel_volume vol b + flood_volume vol b - vol) <= u * Rmax 0 (vol - b) /\
  (vol <= 2 * b -> channel_volume vol b + flood_volume vol b = vol).
Proof.
  intros v b V B. pose proof u_pos as UP. assert (Z : v <= b -> flood_volume v b = 0).
  { intros H. unfold flood_volume. apply Rmax_right. apply rnd_neg. lra. }
  assert (F : b < v -> flood_volume v b = fsub v b). { intros H. apply Rmax_left. left. now apply sub_pos. }
  refine (conj _ (conj _ (conj _ (conj _ (conj _ _))))).
  - apply Rmin_r.
  - apply Rmin_l.
  - apply Rmax_r.
  - split; intros H.
    + destruct (Rlt_le_dec b v) as [L|L]; [exact L|]. rewrite (Z L) in H. lra.
    + rewrite (F H). now apply sub_pos.
  - destruct (Rlt_le_dec b v) as [L|L].
    + rewrite (F L). unfold channel_volume. rewrite Rmin_right by lra. rewrite Rmax_right by lra.
      destruct (sub_err v b V B) as [e [E1 E2]]. rewrite E2. replace (b + (v - b) * (1 + e) - v) with (e * (v - b)) by ring.
      rewrite Rabs_mult, (Rabs_pos_eq (v - b)) by lra. apply Rmult_le_compat_r; lra.
    + rewrite (Z L). unfold channel_volume. rewrite Rmin_left by lra. replace (v + 0 - v) with 0 by ring. rewrite Rabs_R0.
      apply Rmult_le_pos; [lra|apply Rmax_l].
  - intros H. destruct (Rlt_le_dec b v) as [L|L].
    + rewrite (F L). unfold channel_volume. rewrite Rmin_right by lra. unfold fsub. rewrite rnd_id; [ring|].
      apply sterbenz; auto; [apply valid_fmt| |lra]. apply FLT_exp_monotone.
    + rewrite (Z L). unfold channel_volume. rewrite Rmin_left by lra. ring.
Qed.
Print Assumptions C115_split.

(** Far above bankfull the two parts need not make up the volume. *)
Theorem C115_split_refuted : exists vol b, is_double vol /\ is_double b /\ 0 < b < vol /\ channel_volume vol b + flood_volume vol b < vol.
Proof.
  exists (bpow radix2 53 + 2), (3 / 2). assert (D1 : is_double (bpow radix2 53 + 2)).
  { replace (bpow radix2 53 + 2) with (IZR (2 ^ 52 + 1) * bpow radix2 1); [apply double_of; [vm_compute; reflexivity|lia]|].
    rewrite plus_IZR. change (bpow radix2 1) with 2. change (bpow radix2 53) with (IZR (2 * 2 ^ 52)). rewrite mult_IZR. ring. }
  assert (D2 : is_double (3 / 2)) by (replace (3 / 2) with (IZR 3 * bpow radix2 (-1)) by (change (bpow radix2 (-1)) with (/ 2); lra); apply double_of; [reflexivity|lia]).
  assert (B : 100 < bpow radix2 53) by (apply Rlt_le_trans with (bpow radix2 7); [change (bpow radix2 7) with 128; lra|apply bpow_le; lia]).
  refine (conj D1 (conj D2 (conj _ _))); [lra|].
  unfold channel_volume, flood_volume. rewrite Rmin_right by lra. unfold fsub.
  replace (rnd (bpow radix2 53 + 2 - 3 / 2)) with (bpow radix2 53); [rewrite Rmax_left by lra; lra|].
  assert (D3 : is_double (bpow radix2 53)) by (replace (bpow radix2 53) with (IZR 1 * bpow radix2 53) by ring; apply double_of; [reflexivity|lia]).
  assert (UL : ulp radix2 fmt (bpow radix2 53) = 2) by (rewrite ulp_bpow; reflexivity).
  apply Rle_antisym.
  - rewrite <- (rnd_id _ D3) at 1. apply rnd_mono. lra.
  - apply (round_N_le_midp radix2 fmt (fun z => negb (Z.even z)) _ _ D3). rewrite succ_eq_pos by lra. rewrite UL. lra.
Qed.
Print Assumptions C115_split_refuted.

(** More water never means less in the channel, less on the floodplain, or less depth. *)
Theorem C115_monotone : forall v v' b w ds n t, v <= v' -> 0 <= w -> 0 < ds -> 0 <= n -> 0 < t ->
  channel_volume v b <= channel_volume v' b /\ flood_volume v b <= flood_volume v' b /\
  rect_depth v w ds <= rect_depth v' w ds /\ flood_depth v n w ds <= flood_depth v' n w ds /\ trap_depth v w ds t <= trap_depth v' w ds t.
Proof.
  intros v v' b w ds n t H W S N T.
  assert (DIV : forall a a' c, a <= a' -> 0 <= c -> fdiv a c <= fdiv a' c).
  { intros a a' c L [C|<-]; unfold fdiv.
    - apply rnd_mono. apply Rmult_le_compat_r; [left; now apply Rinv_0_lt_compat|exact L].
    - unfold Rdiv. rewrite Rinv_0, !Rmult_0_r. apply Rle_refl. }
  assert (MX : forall a a', a <= a' -> Rmax a 0 <= Rmax a' 0) by (intros a a' L; apply Rmax_lub; [apply Rle_trans with a'; [exact L|apply Rmax_l]|apply Rmax_r]).
  assert (M2 : 0 <= fmul 2 t) by (apply rnd_pos; lra).
  refine (conj _ (conj _ (conj _ (conj _ _)))).
  - apply Rle_min_compat_r. exact H.
  - apply MX, rnd_mono. lra.
  - apply MX, DIV; [exact H|]. apply rnd_pos. nra.
  - apply MX, DIV; [exact H|]. apply rnd_pos. apply Rmult_le_pos; [apply rnd_pos; nra|lra].
  - apply MX, DIV; [|exact M2]. unfold fsub, fsqrt. apply rnd_mono. apply Rplus_le_compat_r. apply rnd_mono, sqrt_le_1_alt.
    unfold trap_arg, fadd. apply rnd_mono, Rplus_le_compat_r. apply DIV; [|lra]. unfold fmul at 1 3. apply rnd_mono.
    apply Rmult_le_compat_l; [apply rnd_pos; lra|exact H].
Qed.
Print Assumptions C115_monotone.

(** ** Depth *)

Lemma rect_rel v w ds : 0 <= v -> 0 < w -> 0 < ds -> normal (w * ds) -> normal (v / (w * ds)) -> rel 2 (rect_depth v w ds) (v / (w * ds)).
Proof.
  intros V W S N1 N2. assert (P : 0 < w * ds) by nra. pose proof (normal_rel (w * ds) ltac:(lra) N1) as R1. fold (fmul w ds) in R1.
  assert (FP : 0 < fmul w ds). { destruct R1 as [A B]. rewrite pow_1 in A. pose proof u_pos. destruct (Rle_lt_dec (fmul w ds) 0); [nra|lra]. }
  assert (Q : 0 <= v / fmul w ds) by (apply Rmult_le_pos; [exact V|left; now apply Rinv_0_lt_compat]).
  assert (Q' : 0 <= v / (w * ds)) by (apply Rmult_le_pos; [exact V|left; now apply Rinv_0_lt_compat]).
  assert (R2 : rel 1 (v / fmul w ds) (v / (w * ds))).
  { apply (rel_mult 0 1); try lra; [left; now apply Rinv_0_lt_compat|left; now apply Rinv_0_lt_compat|now apply rel_refl|now apply rel_inv]. }
  unfold rect_depth, fdiv. rewrite Rmax_left by now apply rnd_pos. apply (rel_trans 1 1 _ (v / fmul w ds)); [|exact R2].
  apply (near_rel 1 _ (v / (w * ds))); auto; lia.
Qed.
(** In a channel with vertical banks, and on the floodplain, the depth is the volume over the area, up to 2 and 3 roundings. *)
Theorem C115_rectangle : forall v w ds, 0 <= v -> 0 < w -> 0 < ds -> normal (w * ds) -> normal (v / (w * ds)) ->
  Rabs (rect_depth v w ds - v / (w * ds)) <= err 2 * (v / (w * ds)).
Proof.
  intros v w ds V W S N1 N2. assert (0 < w * ds) by nra. apply rel_err; [|now apply rect_rel]. apply Rmult_le_pos; [exact V|left; now apply Rinv_0_lt_compat].
Qed.
Print Assumptions C115_rectangle.

Theorem C115_floodplain : forall v n w ds, 0 <= v -> 0 < n -> 0 < w -> 0 < ds -> normal (n * w) -> normal (n * w * ds) -> normal (v / (n * w * ds)) ->
  Rabs (flood_depth v n w ds - v / (n * w * ds)) <= err 3 * (v / (n * w * ds)).
Proof.
  intros v n w ds V N W S N1 N2 N3. assert (P : 0 < n * w) by nra. assert (P2 : 0 < n * w * ds) by nra.
  pose proof (normal_rel (n * w) ltac:(lra) N1) as R1. fold (fmul n w) in R1. assert (F1 : 0 <= fmul n w) by (apply rnd_pos; lra).
  assert (R2 : rel 1 (fmul n w * ds) (n * w * ds)) by (apply (rel_mult 1 0); try lra; auto; apply rel_refl; lra).
  assert (R3 : rel 2 (fmul (fmul n w) ds) (n * w * ds)).
  { apply (rel_trans 1 1 _ (fmul n w * ds)); [|exact R2]. apply (near_rel 1 _ (n * w * ds)); auto; try lia; nra. }
  assert (FP : 0 < fmul (fmul n w) ds).
  { destruct R3 as [A B]. pose proof (pow_pos 2). destruct (Rle_lt_dec (fmul (fmul n w) ds) 0); [nra|lra]. }
  assert (Q : 0 <= v / fmul (fmul n w) ds) by (apply Rmult_le_pos; [exact V|left; now apply Rinv_0_lt_compat]).
  assert (Q' : 0 <= v / (n * w * ds)) by (apply Rmult_le_pos; [exact V|left; now apply Rinv_0_lt_compat]).
  assert (R4 : rel 2 (v / fmul (fmul n w) ds) (v / (n * w * ds))).
  { apply (rel_mult 0 2); try lra; [left; now apply Rinv_0_lt_compat|left; now apply Rinv_0_lt_compat|now apply rel_refl|now apply rel_inv]. }
  apply rel_err; [exact Q'|]. unfold flood_depth, fdiv. rewrite Rmax_left by now apply rnd_pos.
  apply (rel_trans 1 2 _ (v / fmul (fmul n w) ds)); [|exact R4]. apply (near_rel 2 _ (v / (n * w * ds))); auto; lia.
Qed.
Print Assumptions C115_floodplain.

(** *** Sloping banks *)

(** widths and bank slopes far from the limits of the format *)
Definition usual (w t : R) : Prop := is_double w /\ is_double t /\ bpow radix2 (-400) <= w /\ 0 < t <= bpow radix2 400.

Lemma usual_pos w t : usual w t -> 0 < w. Proof. intros [_ [_ [H _]]]. pose proof (bpow_gt_0 radix2 (-400)). lra. Qed.
Lemma usual_square w t : usual w t -> normal (w * w).
Proof.
  intros H. pose proof (usual_pos w t H). destruct H as [_ [_ [H _]]]. right. rewrite Rabs_pos_eq by nra.
  apply Rle_trans with (bpow radix2 (-400) * bpow radix2 (-400)); [rewrite <- bpow_plus; apply bpow_le; lia|].
  apply Rmult_le_compat; auto; apply bpow_ge_0.
Qed.
Lemma ulp_ge w : 0 < w -> w * u <= ulp radix2 fmt w.
Proof.
  intros H. rewrite ulp_neq_0 by lra. unfold cexp.
  apply Rle_trans with (bpow radix2 (mag radix2 w) * u).
  - apply Rmult_le_compat_r; [left; apply u_pos|]. left. pose proof (bpow_mag_gt radix2 w) as B. rewrite Rabs_pos_eq in B by lra. exact B.
  - unfold u. rewrite <- bpow_plus. apply bpow_le. unfold fmt, FLT_exp. lia.
Qed.

Lemma arg_ge v w ds t : 0 <= v -> 0 < ds -> usual w t -> fmul w w <= trap_arg v w ds t.
Proof.
  intros V S U. destruct U as [_ [T [_ [T0 _]]]]. unfold trap_arg. unfold fadd. rewrite <- (rnd_id (fmul w w) (dbl_rnd _)) at 1. apply rnd_mono.
  assert (0 <= fdiv (fmul (fmul 2 (fmul 2 t)) v) ds).
  { apply rnd_pos. apply Rmult_le_pos; [|left; now apply Rinv_0_lt_compat]. apply rnd_pos. rewrite four by exact T. nra. }
  lra.
Qed.
Lemma root_ge v w ds t : 0 <= v -> 0 < ds -> usual w t -> w <= fsqrt (trap_arg v w ds t).
Proof.
  intros V S U. rewrite <- (sqrt_square w) at 1; [|apply U|left; now apply (usual_pos w t)|now apply (usual_square w t)].
  unfold fsqrt. apply rnd_mono, sqrt_le_1_alt. now apply arg_ge.
Qed.
(** the last two operations *)
Lemma last_rel v w ds t : 0 <= v -> 0 < ds -> usual w t ->
  rel 2 (trap_depth v w ds t) ((fsqrt (trap_arg v w ds t) - w) / (2 * t)).
Proof.
  intros V S U. pose proof (root_ge v w ds t V S U) as G. set (s := fsqrt (trap_arg v w ds t)) in *.
  pose proof (usual_pos w t U) as W. destruct U as [DW [DT [W0 [T0 T1]]]].
  unfold trap_depth. fold s. rewrite twice by exact DT. assert (I : 0 < / (2 * t)) by (apply Rinv_0_lt_compat; lra).
  assert (DS : is_double s) by apply dbl_rnd. assert (P : 0 <= fsub s w) by (apply rnd_pos; lra).
  pose proof (sub_rel s w DS DW G) as R1.
  assert (R2 : rel 1 (fsub s w / (2 * t)) ((s - w) / (2 * t))).
  { apply (rel_mult 1 0); try lra; auto. apply rel_refl. lra. }
  assert (Q : 0 <= fsub s w / (2 * t)) by (apply Rmult_le_pos; lra).
  unfold fdiv. rewrite Rmax_left by now apply rnd_pos. apply (rel_trans 1 1 _ (fsub s w / (2 * t))); [|exact R2].
  apply rnd_rel; [exact Q|]. destruct G as [G|G]; [right|left; rewrite <- G; unfold fsub; replace (w - w) with 0 by ring; rewrite rnd_0; unfold Rdiv; ring].
  assert (U1 : bpow radix2 (-453) <= s - w).
  { assert (succ radix2 fmt w <= s) by (apply succ_le_lt; auto; apply valid_fmt). rewrite succ_eq_pos in H by lra. pose proof (ulp_ge w W).
    assert (bpow radix2 (-453) <= w * u). { change (-453)%Z with (-400 + -53)%Z. rewrite bpow_plus. fold u. apply Rmult_le_compat_r; [left; apply u_pos|exact W0]. }
    lra. }
  assert (U2 : bpow radix2 (-454) <= fsub s w).
  { destruct R1 as [A _]. rewrite pow_1 in A. pose proof u_tiny. replace (bpow radix2 (-453)) with (2 * bpow radix2 (-454)) in U1 by (change (-453)%Z with (1 + -454)%Z; rewrite bpow_plus; reflexivity).
    assert (fsub s w * (1 + u) <= fsub s w * 2) by (apply Rmult_le_compat_l; lra). lra. }
  assert (U3 : bpow radix2 (-401) <= / (2 * t)).
  { change (-401)%Z with (- (401))%Z. rewrite bpow_opp. apply Rinv_le; [lra|]. change 401%Z with (1 + 400)%Z. rewrite bpow_plus. change (bpow radix2 1) with 2. lra. }
  apply Rle_trans with (bpow radix2 (-454) * bpow radix2 (-401)); [rewrite <- bpow_plus; apply bpow_le; lia|].
  unfold Rdiv. apply Rmult_le_compat; auto; apply bpow_ge_0.
Qed.
Lemma root_rel v w ds t s : 0 <= v -> 0 < ds -> usual w t -> 0 <= s -> normal (4 * t * v) -> normal (4 * t * v / ds) ->
  s * s = w * w + 4 * t * v / ds -> rel 3 (fsqrt (trap_arg v w ds t)) s.
Proof.
  intros V S U S0 N1 N2 E. pose proof (usual_pos w t U) as W. pose proof (usual_square w t U) as N3. destruct U as [DW [DT [W0 [T0 T1]]]].
  assert (I : 0 < / ds) by now apply Rinv_0_lt_compat. assert (P1 : 0 <= 4 * t * v) by nra.
  unfold trap_arg. rewrite four by exact DT. pose proof (normal_rel (4 * t * v) P1 N1) as R1. fold (fmul (4 * t) v) in R1.
  assert (P2 : 0 <= fmul (4 * t) v) by now apply rnd_pos.
  assert (R2 : rel 1 (fmul (4 * t) v / ds) (4 * t * v / ds)) by (apply (rel_mult 1 0); try lra; auto; apply rel_refl; lra).
  assert (P3 : 0 <= fmul (4 * t) v / ds) by (apply Rmult_le_pos; lra). assert (P4 : 0 <= 4 * t * v / ds) by (apply Rmult_le_pos; lra).
  assert (R3 : rel 2 (fdiv (fmul (4 * t) v) ds) (4 * t * v / ds)).
  { apply (rel_trans 1 1 _ (fmul (4 * t) v / ds)); [|exact R2]. apply (near_rel 1 _ (4 * t * v / ds)); auto; lia. }
  assert (P5 : 0 <= w * w) by nra. pose proof (normal_rel (w * w) P5 N3) as R4. fold (fmul w w) in R4.
  assert (P6 : 0 <= fmul w w) by now apply rnd_pos. assert (P7 : 0 <= fdiv (fmul (4 * t) v) ds) by now apply rnd_pos.
  assert (R5 : rel 2 (fdiv (fmul (4 * t) v) ds + fmul w w) (4 * t * v / ds + w * w)) by (apply rel_plus; [exact R3|apply (rel_up 1 2); auto; lia]).
  assert (R6 : rel 3 (fadd (fdiv (fmul (4 * t) v) ds) (fmul w w)) (s * s)).
  { rewrite E. replace (w * w + 4 * t * v / ds) with (4 * t * v / ds + w * w) by ring. apply (rel_trans 1 2 _ (fdiv (fmul (4 * t) v) ds + fmul w w)); [|exact R5].
    apply add_rel; [apply dbl_rnd|apply dbl_rnd|lra]. }
  assert (P8 : 0 <= fadd (fdiv (fmul (4 * t) v) ds) (fmul w w)) by (apply rnd_pos; lra).
  assert (R7 : rel 2 (sqrt (fadd (fdiv (fmul (4 * t) v) ds) (fmul w w))) s).
  { replace s with (sqrt (s * s)) by now apply R_sqrt.sqrt_square.
    apply rel_sqrt; [exact P8|nra|]. apply (rel_up 3 4); auto; nra. }
  apply (rel_trans 1 2 _ (sqrt (fadd (fdiv (fmul (4 * t) v) ds) (fmul w w)))); [|exact R7].
  apply (near_rel 2 _ s); auto; [lia|apply sqrt_pos|]. right. rewrite Rabs_pos_eq by exact S0.
  apply Rle_trans with (bpow radix2 (-400)); [apply bpow_le; lia|]. apply Rle_trans with w; [exact W0|]. nra.
Qed.

(** In a channel with sloping banks, the depth computed differs from the depth d at which the channel holds the volume v
    by at most (1 + 2^-53)^5 - 1 of d + w/(2t). *)
Theorem C115_trapezoid : forall v w ds t d, 0 <= d -> 0 < ds -> usual w t -> normal (4 * t * v) -> normal (4 * t * v / ds) ->
  holds d w t ds v -> Rabs (trap_depth v w ds t - d) <= err 5 * (d + w / (2 * t)).
Proof.
  intros v w ds t d D S U N1 N2 H. pose proof (usual_pos w t U) as W. assert (T : 0 < t) by (destruct U as [_ [_ [_ [T _]]]]; exact T).
  assert (V : 0 <= v) by (rewrite <- H; apply Rmult_le_pos; [nra|lra]).
  set (s := w + 2 * t * d). assert (S0 : 0 <= s) by (unfold s; nra).
  assert (E : s * s = w * w + 4 * t * v / ds) by (rewrite <- H; unfold s; field; lra).
  pose proof (root_rel v w ds t s V S U S0 N1 N2 E) as R. pose proof (last_rel v w ds t V S U) as L. pose proof (root_ge v w ds t V S U) as G.
  set (s' := fsqrt (trap_arg v w ds t)) in *. pose proof (rel_err 3 s' s S0 R) as A.
  assert (I : 0 < / (2 * t)) by (apply Rinv_0_lt_compat; lra).
  assert (Q : 0 <= (s' - w) / (2 * t)) by (apply Rmult_le_pos; lra). pose proof (rel_err 2 _ _ Q L) as B.
  assert (SD : s / (2 * t) = d + w / (2 * t)) by (unfold s; field; lra).
  assert (X : d = (s - w) / (2 * t)) by (unfold s; field; lra).
  assert (A2 : Rabs ((s' - w) / (2 * t) - d) <= err 3 * (s / (2 * t))).
  { rewrite X at 1. replace ((s' - w) / (2 * t) - (s - w) / (2 * t)) with ((s' - s) * / (2 * t)) by (field; lra). rewrite Rabs_mult, (Rabs_pos_eq (/ (2 * t))) by lra.
    unfold Rdiv. rewrite <- Rmult_assoc. apply Rmult_le_compat_r; lra. }
  rewrite <- SD. assert (Z : 0 <= s / (2 * t)) by (apply Rmult_le_pos; lra). pose proof (err_pos 2) as E2. pose proof (err_pos 3) as E3.
  assert (Y : (s' - w) / (2 * t) <= s / (2 * t) + err 3 * (s / (2 * t))).
  { pose proof (Rle_trans _ _ _ (Rle_abs _) A2). assert (0 <= w / (2 * t)) by (apply Rmult_le_pos; lra). lra. }
  replace (trap_depth v w ds t - d) with ((trap_depth v w ds t - (s' - w) / (2 * t)) + ((s' - w) / (2 * t) - d)) by ring.
  eapply Rle_trans; [apply Rabs_triang|].
  assert (err 2 * ((s' - w) / (2 * t)) <= err 2 * (s / (2 * t) + err 3 * (s / (2 * t)))) by now apply Rmult_le_compat_l.
  replace (err 5 * (s / (2 * t))) with (err 2 * (s / (2 * t) + err 3 * (s / (2 * t))) + err 3 * (s / (2 * t))) by (unfold err; ring). lra.
Qed.
Print Assumptions C115_trapezoid.

(** An empty cell has depth zero, whatever its section. *)
Theorem C115_empty : forall w ds t n, 0 < ds -> usual w t -> trap_depth 0 w ds t = 0 /\ rect_depth 0 w ds = 0 /\ flood_depth 0 n w ds = 0.
Proof.
  intros w ds t n S U. assert (Z1 : forall x, fmul x 0 = 0) by (intros x; unfold fmul; rewrite Rmult_0_r; apply rnd_0).
  assert (Z2 : forall x, fdiv 0 x = 0) by (intros x; unfold fdiv, Rdiv; rewrite Rmult_0_l; apply rnd_0).
  assert (Z3 : Rmax 0 0 = 0) by (apply Rmax_left; lra). refine (conj _ (conj _ _)).
  - unfold trap_depth, trap_arg. rewrite Z1, Z2. unfold fadd. rewrite Rplus_0_l.
    rewrite (rnd_id (fmul w w)) by apply dbl_rnd. rewrite sqrt_square; [|apply U|left; now apply (usual_pos w t)|now apply (usual_square w t)].
    unfold fsub. replace (w - w) with 0 by ring. rewrite rnd_0, Z2. exact Z3.
  - unfold rect_depth. rewrite Z2. exact Z3.
  - unfold flood_depth. rewrite Z2. exact Z3.
Qed.
Print Assumptions C115_empty.

(** A cell with sloping banks can hold water and have depth zero: the depth is lost for every volume small enough. *)
Theorem C115_dry_refuted : forall v w ds t, 0 < v -> 0 < ds -> usual w t -> normal (4 * t * v) -> normal (4 * t * v / ds) ->
  4 * t * v / ds <= u / 4 * (w * w) -> trap_depth v w ds t = 0.
Proof.
  intros v w ds t V S U N1 N2 H. pose proof (usual_pos w t U) as W. pose proof (usual_square w t U) as N3.
  assert (A : trap_arg v w ds t = fmul w w).
  { apply Rle_antisym; [|apply arg_ge; auto; lra]. unfold trap_arg. destruct U as [DW [DT [W0 [T0 T1]]]]. rewrite four by exact DT.
    assert (I : 0 < / ds) by now apply Rinv_0_lt_compat. assert (P1 : 0 <= 4 * t * v) by nra.
    pose proof (normal_rel (4 * t * v) P1 N1) as R1. fold (fmul (4 * t) v) in R1.
    assert (P2 : 0 <= fmul (4 * t) v) by now apply rnd_pos.
    assert (R2 : rel 1 (fmul (4 * t) v / ds) (4 * t * v / ds)) by (apply (rel_mult 1 0); try lra; auto; apply rel_refl; lra).
    assert (P3 : 0 <= fmul (4 * t) v / ds) by (apply Rmult_le_pos; lra). assert (P4 : 0 <= 4 * t * v / ds) by (apply Rmult_le_pos; lra).
    assert (R3 : rel 2 (fdiv (fmul (4 * t) v) ds) (4 * t * v / ds)).
    { apply (rel_trans 1 1 _ (fmul (4 * t) v / ds)); [|exact R2]. apply (near_rel 1 _ (4 * t * v / ds)); auto; lia. }
    assert (P5 : 0 <= w * w) by nra. pose proof (normal_rel (w * w) P5 N3) as R4. fold (fmul w w) in R4.
    assert (P6 : 0 < fmul w w). { destruct R4 as [B _]. rewrite pow_1 in B. pose proof u_pos. destruct (Rle_lt_dec (fmul w w) 0); [nra|lra]. }
    set (a := fdiv (fmul (4 * t) v) ds) in *. set (q := fmul w w) in *. unfold fadd.
    apply (round_N_le_midp radix2 fmt (fun z => negb (Z.even z)) q (a + q) (dbl_rnd _)). rewrite succ_eq_pos by lra.
    pose proof (ulp_ge q P6) as UQ. destruct R3 as [_ B]. destruct R4 as [C _]. rewrite pow_1 in C. pose proof u_pos as UP. pose proof u_tiny as UT.
    assert (Q1 : (1 + u) ^ 2 <= 5 / 4) by nra. assert (B1 : a <= u / 4 * (w * w) * (5 / 4)).
    { eapply Rle_trans; [exact B|]. apply Rmult_le_compat; auto. nra. }
    assert (C1 : w * w <= q * (5 / 4)) by nra. assert (B2 : u / 4 * (w * w) <= u / 4 * (q * (5 / 4))) by (apply Rmult_le_compat_l; lra).
    assert (0 < u * q) by nra. nra. }
  unfold trap_depth. rewrite A, sqrt_square; [|apply U|lra|exact N3]. unfold fsub. replace (w - w) with 0 by ring. rewrite rnd_0.
  unfold fdiv, Rdiv. rewrite Rmult_0_l, rnd_0. apply Rmax_left. lra.
Qed.
Print Assumptions C115_dry_refuted.

(** ** Depth and volume *)

(** Vertical banks: the volume computed from the depth is the volume the depth came from, up to 4 roundings. *)
Theorem C115_volume : forall v w ds, is_double w -> 0 <= v -> 0 < w -> 0 < ds -> normal (w * ds) -> normal (v / (w * ds)) -> normal (v / ds) -> normal v ->
  Rabs (depth_volume (rect_depth v w ds) w 0 ds - v) <= err 4 * v.
Proof.
  intros v w ds DW V W S N1 N2 N3 N4. apply rel_err; [exact V|]. unfold depth_volume, wet_area. unfold fmul at 3. rewrite Rmult_0_r, rnd_0.
  replace (fadd w 0) with w by (unfold fadd; rewrite Rplus_0_r; symmetry; now apply rnd_id).
  pose proof (rect_rel v w ds V W S N1 N2) as R. assert (I : 0 < / ds) by now apply Rinv_0_lt_compat. assert (PW : 0 < w * ds) by nra.
  assert (Q : 0 <= v / (w * ds)) by (apply Rmult_le_pos; [exact V|left; now apply Rinv_0_lt_compat]).
  set (d := rect_depth v w ds) in *. assert (D : 0 <= d) by apply Rmax_r. assert (VD : 0 <= v / ds) by (apply Rmult_le_pos; lra).
  assert (R1 : rel 2 (d * w) (v / ds)).
  { replace (v / ds) with (v / (w * ds) * w) by (field; lra). apply (rel_mult 2 0); auto; try lra. apply rel_refl. lra. }
  assert (R2 : rel 3 (fmul d w) (v / ds)).
  { apply (rel_trans 1 2 _ (d * w)); [|exact R1]. apply (near_rel 2 _ (v / ds)); auto; [lia|nra]. }
  assert (F : 0 <= fmul d w) by (apply rnd_pos; nra).
  assert (R3 : rel 3 (fmul d w * ds) v).
  { replace v with (v / ds * ds) by (field; lra). apply (rel_mult 3 0); auto; try lra. apply rel_refl. lra. }
  apply (rel_trans 1 3 _ (fmul d w * ds)); [|exact R3]. apply (near_rel 3 _ v); auto; [lia|nra].
Qed.
Print Assumptions C115_volume.

(** Sloping banks: the depth computed from the volume of a depth d is d, up to (1 + 2^-53)^7 - 1 of d + w/(2t). *)
Theorem C115_round_trip : forall d w t ds, is_double d -> 0 <= d -> 0 < ds -> usual w t ->
  normal (d * t) -> normal (d * (w + t * d)) -> normal (d * (w + t * d) * ds) ->
  normal (4 * t * depth_volume d w t ds) -> normal (4 * t * depth_volume d w t ds / ds) ->
  Rabs (trap_depth (depth_volume d w t ds) w ds t - d) <= err 7 * (d + w / (2 * t)).
Proof.
  intros d w t ds DD D S U N1 N2 N3 N4 N5. pose proof (usual_pos w t U) as W. assert (T : 0 < t) by (destruct U as [_ [_ [_ [T _]]]]; exact T).
  assert (DW : is_double w) by apply U. assert (I : 0 < / ds) by now apply Rinv_0_lt_compat.
  assert (P1 : 0 <= d * t) by nra. pose proof (normal_rel (d * t) P1 N1) as R1. fold (fmul d t) in R1. assert (P2 : 0 <= fmul d t) by now apply rnd_pos.
  assert (R2 : rel 2 (fadd w (fmul d t)) (w + t * d)).
  { apply (rel_trans 1 1 _ (w + fmul d t)); [apply add_rel; [exact DW|apply dbl_rnd|lra]|]. rewrite (Rmult_comm t). apply rel_plus; [apply rel_refl; lra|exact R1]. }
  assert (P3 : 0 <= fadd w (fmul d t)) by (apply rnd_pos; lra). assert (P4 : 0 <= w + t * d) by nra.
  assert (R3 : rel 2 (d * fadd w (fmul d t)) (d * (w + t * d))) by (apply (rel_mult 0 2); auto; now apply rel_refl).
  assert (P5 : 0 <= d * fadd w (fmul d t)) by nra. assert (P6 : 0 <= d * (w + t * d)) by nra.
  assert (R4 : rel 3 (wet_area d w t) (d * (w + t * d))).
  { apply (rel_trans 1 2 _ (d * fadd w (fmul d t))); [|exact R3]. apply (near_rel 2 _ (d * (w + t * d))); auto; lia. }
  assert (P7 : 0 <= wet_area d w t) by now apply rnd_pos.
  assert (R5 : rel 3 (wet_area d w t * ds) (d * (w + t * d) * ds)) by (apply (rel_mult 3 0); auto; try lra; apply rel_refl; lra).
  assert (P8 : 0 <= wet_area d w t * ds) by nra. assert (P9 : 0 <= d * (w + t * d) * ds) by nra.
  assert (R6 : rel 4 (depth_volume d w t ds) (d * (w + t * d) * ds)).
  { apply (rel_trans 1 3 _ (wet_area d w t * ds)); [|exact R5]. apply (near_rel 3 _ (d * (w + t * d) * ds)); auto; lia. }
  set (v := depth_volume d w t ds) in *. assert (V : 0 <= v) by now apply rnd_pos.
  assert (R7 : rel 4 (4 * t * v / ds) (4 * t * (d * (w + t * d) * ds) / ds)).
  { replace (4 * t * v / ds) with (4 * t / ds * v) by (field; lra).
    replace (4 * t * (d * (w + t * d) * ds) / ds) with (4 * t / ds * (d * (w + t * d) * ds)) by (field; lra).
    assert (0 <= 4 * t / ds) by (apply Rmult_le_pos; lra). apply (rel_mult 0 4); auto. now apply rel_refl. }
  set (s := w + 2 * t * d). assert (S0 : 0 <= s) by (unfold s; nra).
  assert (E : s * s = w * w + 4 * t * (d * (w + t * d) * ds) / ds) by (unfold s; field; lra).
  assert (Q : 0 <= 4 * t * v / ds) by (apply Rmult_le_pos; [nra|lra]).
  assert (R8 : rel 4 (w * w + 4 * t * v / ds) (s * s)) by (rewrite E; apply rel_plus; [apply rel_refl; nra|exact R7]).
  set (s2 := sqrt (w * w + 4 * t * v / ds)). assert (S2 : s2 * s2 = w * w + 4 * t * v / ds) by (apply sqrt_sqrt; nra).
  assert (S3 : 0 <= s2) by apply sqrt_pos.
  assert (R9 : rel 2 s2 s).
  { replace s with (sqrt (s * s)) by now apply R_sqrt.sqrt_square. apply rel_sqrt; [nra|nra|exact R8]. }
  assert (SW : w <= s2) by nra.
  set (d2 := (s2 - w) / (2 * t)). assert (IT : 0 < / (2 * t)) by (apply Rinv_0_lt_compat; lra). assert (D2 : 0 <= d2) by (apply Rmult_le_pos; lra).
  assert (H : holds d2 w t ds v).
  { unfold holds. replace (d2 * (w + t * d2)) with ((s2 * s2 - w * w) / (4 * t)) by (unfold d2; field; lra). rewrite S2. field. lra. }
  pose proof (C115_trapezoid v w ds t d2 D2 S U N4 N5 H) as K. pose proof (rel_err 2 s2 s S0 R9) as L.
  assert (E1 : d2 + w / (2 * t) = s2 / (2 * t)) by (unfold d2; field; lra). rewrite E1 in K.
  assert (E2 : d + w / (2 * t) = s / (2 * t)) by (unfold s; field; lra). rewrite E2.
  assert (L2 : Rabs (d2 - d) <= err 2 * (s / (2 * t))).
  { replace (d2 - d) with ((s2 - s) * / (2 * t)) by (unfold d2, s; field; lra). rewrite Rabs_mult, (Rabs_pos_eq (/ (2 * t))) by lra.
    unfold Rdiv. rewrite <- Rmult_assoc. apply Rmult_le_compat_r; lra. }
  assert (L3 : s2 / (2 * t) <= s / (2 * t) + err 2 * (s / (2 * t))).
  { pose proof (Rle_trans _ _ _ (Rle_abs _) L2). unfold d2 in H0. unfold s in *. assert ((s2 - w) / (2 * t) = s2 / (2 * t) - w / (2 * t)) by (field; lra). lra. }
  pose proof (err_pos 5) as E5.
  replace (trap_depth v w ds t - d) with ((trap_depth v w ds t - d2) + (d2 - d)) by ring. eapply Rle_trans; [apply Rabs_triang|].
  assert (err 5 * (s2 / (2 * t)) <= err 5 * (s / (2 * t) + err 2 * (s / (2 * t)))) by now apply Rmult_le_compat_l.
  replace (err 7 * (s / (2 * t))) with (err 5 * (s / (2 * t) + err 2 * (s / (2 * t))) + err 2 * (s / (2 * t))) by (unfold err; ring). lra.
Qed.
Print Assumptions C115_round_trip.

(** ** Excess rain *)

(** The excess rainrate is P + SM + GW + MR - ET - IN, up to 4 roundings of their sizes. *)
Theorem C115_excess : forall P SM GW MR ET IN, is_double P -> is_double SM -> is_double GW -> is_double MR -> is_double ET -> is_double IN ->
  Rabs (update_R P SM GW MR ET IN - (P + SM + GW + MR - (ET + IN))) <= err 4 * (Rabs P + Rabs SM + Rabs GW + Rabs MR + Rabs ET + Rabs IN).
Proof.
  intros P SM GW MR ET IN D1 D2 D3 D4 D5 D6.
  pose proof (close_add 0 _ _ _ _ _ _ D1 D2 (close_refl 0 P) (close_refl 0 SM)) as A1.
  pose proof (close_add 1 _ _ _ _ _ _ (dbl_rnd _) D3 A1 (close_refl 1 GW)) as A2.
  pose proof (close_add 2 _ _ _ _ _ _ (dbl_rnd _) D4 A2 (close_refl 2 MR)) as A3.
  pose proof (close_add 0 _ _ _ _ _ _ D5 D6 (close_refl 0 ET) (close_refl 0 IN)) as B1.
  assert (B2 : close 3 (- rnd (ET + IN)) (- (ET + IN)) (Rabs ET + Rabs IN)).
  { apply (close_mono 1 3); [lia|]. destruct B1 as [X Y]. split; [|now rewrite Rabs_Ropp].
    replace (- rnd (ET + IN) - - (ET + IN)) with (- (rnd (ET + IN) - (ET + IN))) by ring. now rewrite Rabs_Ropp. }
  pose proof (close_add 3 _ _ _ _ _ _ (dbl_rnd _) (dbl_opp _ (dbl_rnd _)) A3 B2) as [C _].
  replace (Rabs P + Rabs SM + Rabs GW + Rabs MR + Rabs ET + Rabs IN) with (Rabs P + Rabs SM + Rabs GW + Rabs MR + (Rabs ET + Rabs IN)) by ring. exact C.
Qed.
Print Assumptions C115_excess.

Lemma fadd_ge x y : is_double x -> 0 <= y -> x <= fadd x y.
Proof. intros X Y. unfold fadd. rewrite <- (rnd_id x X) at 1. apply rnd_mono. lra. Qed.
Lemma fadd_0 x : is_double x -> fadd x 0 = x /\ fadd 0 x = x.
Proof. intros X. unfold fadd. rewrite Rplus_0_r, Rplus_0_l. split; now apply rnd_id. Qed.
Lemma rnd_opp x : rnd (- x) = - rnd x. Proof. apply round_NE_opp. Qed.

(** Infiltration that is at most the rain never makes the excess rainrate negative, and all the rain infiltrating makes it
    exactly what melt and groundwater add. *)
Theorem C115_infiltration : forall P SM GW MR IN, is_double P -> is_double IN -> 0 <= SM -> 0 <= GW -> 0 <= MR -> IN <= P ->
  0 <= update_R P SM GW MR 0 IN /\ update_R P 0 0 0 0 P = 0.
Proof.
  intros P SM GW MR IN D1 D2 H1 H2 H3 H. unfold update_R. rewrite (proj2 (fadd_0 IN D2)). split.
  - unfold fsub. apply rnd_pos. pose proof (fadd_ge P SM D1 H1). pose proof (fadd_ge (fadd P SM) GW (dbl_rnd _) H2).
    pose proof (fadd_ge (fadd (fadd P SM) GW) MR (dbl_rnd _) H3). lra.
  - rewrite (proj1 (fadd_0 P D1)), (proj1 (fadd_0 P D1)), (proj1 (fadd_0 P D1)), (proj2 (fadd_0 P D1)). unfold fsub. replace (P - P) with 0 by ring. apply rnd_0.
Qed.
Print Assumptions C115_infiltration.

(** Without infiltration, evaporation never takes more than the cell holds, to the last bit. *)
Theorem C115_evaporation : forall vol P SM GW MR ET da dt, is_double ET -> 0 <= vol -> 0 <= P -> 0 <= SM -> 0 <= GW -> 0 <= MR -> 0 <= da -> 0 <= dt ->
  0 <= add_R vol (update_R P SM GW MR (limit_ET vol ET da dt) 0) da dt /\ (fmul (fmul ET da) dt <= vol -> limit_ET vol ET da dt = ET).
Proof.
  intros vol P SM GW MR ET da dt D V H1 H2 H3 H4 HD HT. split; [|unfold limit_ET; intros L; destruct (Rlt_dec vol (fmul (fmul ET da) dt)); [lra|reflexivity]]. set (E := limit_ET vol ET da dt).
  assert (DE : is_double E) by (unfold E, limit_ET; destruct (Rlt_dec _ _); [apply dbl_0|exact D]).
  assert (EV : fmul (fmul E da) dt <= vol).
  { unfold E, limit_ET. destruct (Rlt_dec vol (fmul (fmul ET da) dt)) as [L|L]; [|lra]. unfold fmul. rewrite Rmult_0_l, rnd_0, Rmult_0_l, rnd_0. exact V. }
  unfold update_R. rewrite (proj1 (fadd_0 E DE)). unfold add_R, fadd at 1. apply rnd_pos.
  set (s := fadd (fadd (fadd P SM) GW) MR). assert (S : 0 <= s) by (unfold s, fadd; repeat (apply rnd_pos; try apply Rplus_le_le_0_compat; auto)).
  assert (R1 : - E <= fsub s E) by (unfold fsub; rewrite <- (rnd_id (- E) (dbl_opp E DE)) at 1; apply rnd_mono; lra).
  assert (R2 : - fmul E da <= fmul (fsub s E) da).
  { unfold fmul. rewrite <- rnd_opp. apply rnd_mono. replace (- (E * da)) with (- E * da) by ring. now apply Rmult_le_compat_r. }
  assert (R3 : - fmul (fmul E da) dt <= fmul (fmul (fsub s E) da) dt).
  { unfold fmul at 1 3. rewrite <- rnd_opp. apply rnd_mono. replace (- (fmul E da * dt)) with (- fmul E da * dt) by ring. now apply Rmult_le_compat_r. }
  lra.
Qed.
Print Assumptions C115_evaporation.

Lemma dyadic m e x : (Z.abs m < 2 ^ 53)%Z -> (-1074 <= e)%Z -> x = IZR m * bpow radix2 e -> is_double x.
Proof. intros H E ->. now apply double_of. Qed.

(** With infiltration it can: rounding the sum ET + IN takes more than ET and IN (and the volume is then reset to zero,
    which adds water). *)
Theorem C115_overdraw_refuted : exists vol P ET, is_double vol /\ is_double P /\ is_double ET /\ 0 < vol /\ 0 < ET /\ 0 < P /\
  limit_ET vol ET 1 1 = ET /\ vol = ET * 1 * 1 /\ add_R vol (update_R P 0 0 0 ET P) 1 1 < 0.
Proof.
  set (b := bpow radix2 (-54)). assert (B : 0 < b) by apply bpow_gt_0. assert (U : u = 2 * b) by (unfold u, b; change (-53)%Z with (1 + -54)%Z; rewrite bpow_plus; reflexivity).
  assert (BS : b <= / 1000) by (pose proof u_tiny; lra).
  assert (D3 : is_double (3 * b)) by (apply (dyadic 3 (-54)); [reflexivity|lia|reflexivity]).
  assert (D1 : is_double 1) by (apply (dyadic 1 0); [reflexivity|lia|cbn; ring]).
  assert (M1 : forall x, is_double x -> fmul x 1 = x) by (intros x X; unfold fmul; rewrite Rmult_1_r; now apply rnd_id).
  exists (3 * b), 1, (3 * b). refine (conj D3 (conj D1 (conj D3 (conj _ (conj _ (conj _ (conj _ (conj _ _)))))))); try lra.
  - unfold limit_ET. rewrite !(M1 (3 * b) D3). destruct (Rlt_dec (3 * b) (3 * b)) as [L|L]; [lra|reflexivity].
  - assert (S : fadd (3 * b) 1 = 1 + 4 * b).
    { assert (D4 : is_double (1 + 4 * b)).
      { apply (dyadic (2 ^ 52 + 1) (-52)); [vm_compute; reflexivity|lia|]. rewrite plus_IZR, Rmult_plus_distr_r.
        replace (IZR (2 ^ 52) * bpow radix2 (-52)) with 1; [|change (IZR (2 ^ 52)) with (bpow radix2 52); rewrite <- bpow_plus; reflexivity].
        replace (bpow radix2 (-52)) with (4 * b); [ring|]. unfold b. change (-52)%Z with (2 + -54)%Z. rewrite bpow_plus. reflexivity. }
      assert (UL : ulp radix2 fmt 1 = 4 * b).
      { change 1 with (bpow radix2 0). rewrite ulp_bpow. unfold b. change (fmt (0 + 1)) with (2 + -54)%Z. rewrite bpow_plus. reflexivity. }
      assert (SU : succ radix2 fmt 1 = 1 + 4 * b) by (rewrite succ_eq_pos by lra; now rewrite UL).
      assert (PS : pred radix2 fmt (1 + 4 * b) = 1) by (rewrite <- SU; apply pred_succ; auto; apply valid_fmt).
      apply Rle_antisym.
      - unfold fadd. rewrite <- (rnd_id _ D4). apply rnd_mono. lra.
      - apply (round_N_ge_midp radix2 fmt (fun z => negb (Z.even z)) _ _ D4). rewrite PS. lra. }
    assert (D4b : is_double (4 * b)) by (apply (dyadic 4 (-54)); [reflexivity|lia|reflexivity]).
    assert (R : update_R 1 0 0 0 (3 * b) 1 = - (4 * b)).
    { unfold update_R. rewrite !(proj1 (fadd_0 1 D1)), S. unfold fsub. replace (1 - (1 + 4 * b)) with (- (4 * b)) by ring. apply rnd_id. now apply dbl_opp. }
    unfold add_R. rewrite R, !(M1 (- (4 * b)) (dbl_opp _ D4b)). unfold fadd. replace (3 * b + - (4 * b)) with (- b) by ring. rewrite rnd_id; [lra|].
    apply dbl_opp. apply (dyadic 1 (-54)); [reflexivity|lia|unfold b; ring].
Qed.
Print Assumptions C115_overdraw_refuted.

(** ** A case *)

(** A reach 2 m wide and 4 m long with banks of slope 1/2: at depth 2 it holds 24 m3, and the depth computed from them is
    within (1 + 2^-53)^5 - 1 of 4 m of 2 m; of 30 m3 with bankfull at 24 m3, 6 m3 are on the floodplain. *)
Example C115_case :
  usual 2 (1 / 2) /\ holds 2 2 (1 / 2) 4 24 /\ Rabs (trap_depth 24 2 4 (1 / 2) - 2) <= err 5 * 4 /\
  channel_volume 30 24 = 24 /\ flood_volume 30 24 = 6 /\
  (0 < bpow radix2 (-60) /\ trap_depth (bpow radix2 (-60)) 2 4 (1 / 2) = 0).
Proof.
  assert (D : forall z, (Z.abs z < 2 ^ 53)%Z -> is_double (IZR z)) by (intros z H; apply (dyadic z 0); [exact H|lia|cbn; ring]).
  assert (H2 : is_double (1 / 2)) by (apply (dyadic 1 (-1)); [reflexivity|lia|change (bpow radix2 (-1)) with (/ 2); lra]).
  assert (U : usual 2 (1 / 2)).
  { refine (conj (D 2%Z eq_refl) (conj H2 (conj _ (conj _ _)))); [|lra|].
    - apply Rle_trans with (bpow radix2 1); [apply bpow_le; lia|change (bpow radix2 1) with 2; lra].
    - apply Rle_trans with (bpow radix2 0); [change (bpow radix2 0) with 1; lra|apply bpow_le; lia]. }
  assert (HO : holds 2 2 (1 / 2) 4 24) by (unfold holds; lra).
  assert (N : forall x, 1 <= x -> normal x) by (intros x X; right; rewrite Rabs_pos_eq by lra; apply Rle_trans with (bpow radix2 0); [apply bpow_le; lia|exact X]).
  assert (N' : forall x, bpow radix2 (-100) <= x -> normal x).
  { intros x X. right. pose proof (bpow_gt_0 radix2 (-100)). rewrite Rabs_pos_eq by lra. eapply Rle_trans; [|exact X]. apply bpow_le. lia. }
  refine (conj U (conj HO (conj _ (conj _ (conj _ (conj _ _)))))).
  - replace 4 with (2 + 2 / (2 * (1 / 2))) at 2 by lra. apply C115_trapezoid; auto; try lra; apply N; lra.
  - unfold channel_volume. apply Rmin_right. lra.
  - unfold flood_volume, fsub. replace (30 - 24) with 6 by ring. rewrite rnd_id by (apply (D 6%Z); reflexivity). apply Rmax_left. lra.
  - apply bpow_gt_0.
  - assert (B : bpow radix2 (-60) = 128 * bpow radix2 (-67)) by (change (-60)%Z with (7 + -67)%Z; rewrite bpow_plus; reflexivity).
    assert (B2 : 0 < bpow radix2 (-60)) by apply bpow_gt_0. assert (B3 : u = 128 * bpow radix2 (-60)) by (unfold u; change (-53)%Z with (7 + -60)%Z; rewrite bpow_plus; reflexivity).
    assert (B4 : bpow radix2 (-100) <= bpow radix2 (-60) / 2).
    { apply Rle_trans with (bpow radix2 (-61)); [apply bpow_le; lia|]. replace (bpow radix2 (-60)) with (2 * bpow radix2 (-61)) by (change (-60)%Z with (1 + -61)%Z; rewrite bpow_plus; reflexivity). lra. }
    apply C115_dry_refuted; auto; try lra; apply N'; lra.
Qed.
