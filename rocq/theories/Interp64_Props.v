(** C109: linear time interpolation in double precision. *)

From Coq Require Import ZArith Reals Lia Lra List Bool.
From Flocq Require Import Core Plus_error.
From Flocq Require Import BinarySingleNaN.
From Verif Require Import Clock_Model Clock_Props Vol64_Props Interp64_Model.
Import ListNotations.
Local Open Scope R_scope.
Local Existing Instance prec53.

(** ** What is asked *)

(** the value on the line from (t1, v1) to (t2, v2) *)
Definition on_line (v1 v2 t1 t2 t : R) : R := v1 + (v2 - v1) * ((t - t1) / (t2 - t1)).

(** ** Rounding *)

Lemma rnd_mono x y : x <= y -> rnd x <= rnd y.
Proof. apply round_le; [exact valid_fmt|apply valid_rnd_N]. Qed.
Lemma rnd_0 : rnd 0 = 0. Proof. apply round_0. apply valid_rnd_N. Qed.
Lemma rnd_id x : is_double x -> rnd x = x. Proof. apply round_generic. apply valid_rnd_N. Qed.
Lemma rnd_pos x : 0 <= x -> 0 <= rnd x. Proof. intros H. rewrite <- rnd_0. now apply rnd_mono. Qed.
Lemma rnd_neg x : x <= 0 -> rnd x <= 0. Proof. intros H. rewrite <- rnd_0. now apply rnd_mono. Qed.
(** thanks to gradual underflow *)
Lemma sub_zero x y : is_double x -> is_double y -> (fsub x y = 0 <-> x = y).
Proof.
  intros X Y. split.
  - intros E. destruct (Req_dec x y) as [A|A]; [exact A|]. exfalso. unfold fsub, rnd in E.
    apply (round_plus_neq_0 radix2 fmt ZnearestE x (- y)); [exact X|now apply dbl_opp|lra|]. exact E.
  - intros ->. unfold fsub. replace (y - y) with 0 by ring. apply rnd_0.
Qed.

Lemma u_tiny : u <= / 1000.
Proof.
  apply Rle_trans with (bpow radix2 (-10)); [apply bpow_le; lia|]. change (bpow radix2 (-10)) with (/ 1024). lra.
Qed.

(** ** Shape *)

Lemma sub_pos x y : y < x -> is_double x -> is_double y -> 0 < fsub x y.
Proof.
  intros H X Y. assert (0 <= fsub x y) by (apply rnd_pos; lra). assert (fsub x y <> 0) by (intros E; apply (proj1 (sub_zero x y X Y)) in E; lra). lra.
Qed.
Lemma slope_pos v1 v2 t1 t2 : v1 <= v2 -> t1 < t2 -> is_double t1 -> is_double t2 -> 0 <= slope v1 v2 t1 t2.
Proof.
  intros V T D1 D2. unfold slope, fdiv. apply rnd_pos. pose proof (sub_pos t2 t1 T D2 D1). apply Rmult_le_pos; [apply rnd_pos; lra|].
  left. now apply Rinv_0_lt_compat.
Qed.
Lemma slope_neg v1 v2 t1 t2 : v2 <= v1 -> t1 < t2 -> is_double t1 -> is_double t2 -> slope v1 v2 t1 t2 <= 0.
Proof.
  intros V T D1 D2. unfold slope, fdiv. apply rnd_neg. pose proof (sub_pos t2 t1 T D2 D1). assert (fsub v2 v1 <= 0) by (apply rnd_neg; lra).
  assert (0 < / fsub t2 t1) by now apply Rinv_0_lt_compat. replace (fsub v2 v1 / fsub t2 t1) with (- (- fsub v2 v1 * / fsub t2 t1)) by (unfold Rdiv; ring).
  assert (0 <= - fsub v2 v1 * / fsub t2 t1) by (apply Rmult_le_pos; lra). lra.
Qed.

(** Between two updates the value never turns back: it grows with time if v1 <= v2, and falls if v2 <= v1. *)
Theorem C109_monotone : forall v1 v2 t1 t2 t t', is_double t1 -> is_double t2 -> t1 < t2 -> t <= t' ->
  (v1 <= v2 -> linear v1 v2 t1 t2 t <= linear v1 v2 t1 t2 t') /\ (v2 <= v1 -> linear v1 v2 t1 t2 t' <= linear v1 v2 t1 t2 t).
Proof.
  intros v1 v2 t1 t2 t t' D1 D2 T H. split; intros V; unfold linear, fadd, fmul; apply rnd_mono, Rplus_le_compat_r, rnd_mono.
  - apply Rmult_le_compat_l; [now apply slope_pos|exact H].
  - pose proof (slope_neg v1 v2 t1 t2 V T D1 D2). nra.
Qed.
Print Assumptions C109_monotone.

(** The grid is held at the new values just when some cell has not changed (or the times are the
    same); then every cell has exactly its new value. *)
Theorem C109_constant : forall vs t1 t2 t, (forall p, In p vs -> is_double (fst p) /\ is_double (snd p)) ->
  ((exists p, In p vs /\ fst p = snd p) \/ t1 = t2 -> get_values vs t1 t2 t = map snd vs) /\
  ((forall p, In p vs -> fst p <> snd p) -> t1 <> t2 -> get_values vs t1 t2 t = map (fun p => linear (fst p) (snd p) t1 t2 t) vs).
Proof.
  intros vs t1 t2 t D.
  assert (A : all_differ vs = true <-> forall p, In p vs -> fst p <> snd p).
  { unfold all_differ. rewrite forallb_forall. split; intros H p I; specialize (H p I); destruct (D p I) as [D1 D2].
    - intros E. apply negb_true_iff in H. rewrite Req_bool_true in H; [discriminate|]. rewrite (proj2 (sub_zero _ _ D2 D1)) by congruence. apply Rabs_R0.
    - apply negb_true_iff, Req_bool_false. intros E. apply H. destruct (Req_dec (fsub (snd p) (fst p)) 0) as [Z|Z]; [symmetry; exact (proj1 (sub_zero _ _ D2 D1) Z)|].
      now apply Rabs_no_R0 in Z. }
  assert (C : forall p, In p vs -> constant (snd p) t = snd p).
  { intros p I. unfold constant, fadd, fmul. rewrite Rmult_0_l, rnd_0, Rplus_0_l. apply rnd_id. now apply D. }
  unfold get_values. split.
  - intros H. assert (E : (all_differ vs && negb (Req_bool t2 t1))%bool = false).
    { destruct H as [(p & I & E)|E]; [|rewrite (Req_bool_true t2 t1) by congruence; apply andb_false_r].
      destruct (all_differ vs) eqn:F; [|reflexivity]. exfalso. exact (proj1 A eq_refl p I E). }
    rewrite E. now apply map_ext_in.
  - intros H T. rewrite (proj2 A H). rewrite Req_bool_false by congruence. reflexivity.
Qed.
Print Assumptions C109_constant.

(** ** Size of the error *)

Lemma div_err x y : bpow radix2 (-1022) <= Rabs (x / y) -> exists e, Rabs e <= u /\ fdiv x y = x / y * (1 + e).
Proof. intros H. apply mul_err. now right. Qed.
Lemma sub_err x y : is_double x -> is_double y -> exists e, Rabs e <= u /\ fsub x y = (x - y) * (1 + e).
Proof.
  intros X Y. destruct (FLT_plus_error_N_ex radix2 (-1074) 53 (fun z => negb (Z.even z)) x (- y) X (dbl_opp _ Y)) as [e [B E]]. exists e. split; [|exact E].
  eapply Rle_trans; [exact B|]. rewrite <- u_ro_u. apply Relative.u_rod1pu_ro_le_u_ro.
Qed.

Lemma slope_close v1 v2 t1 t2 : is_double v1 -> is_double v2 -> is_double t1 -> is_double t2 -> t1 < t2 ->
  bpow radix2 (-1021) <= Rabs ((v2 - v1) / (t2 - t1)) ->
  Rabs (slope v1 v2 t1 t2 - (v2 - v1) / (t2 - t1)) <= 4 * u * Rabs ((v2 - v1) / (t2 - t1)).
Proof.
  intros V1 V2 T1 T2 T N. pose proof u_pos. pose proof u_tiny. set (s := (v2 - v1) / (t2 - t1)) in *.
  destruct (sub_err v2 v1 V2 V1) as (e1 & A1 & E1). destruct (sub_err t2 t1 T2 T1) as (e2 & A2 & E2).
  pose proof (rabs1 e1 A1) as B1. pose proof (rabs1 e2 A2) as B2.
  assert (Q : fsub v2 v1 / fsub t2 t1 = s * ((1 + e1) / (1 + e2))) by (rewrite E1, E2; unfold s; field; lra).
  assert (R1 : (1 - u) * (1 - u) <= (1 + e1) / (1 + e2) <= (1 + u) * (1 + 11 / 10 * u)).
  { assert (I1 : 1 - u <= / (1 + e2)). { apply Rmult_le_reg_l with (1 + e2); [lra|]. rewrite Rinv_r by lra. nra. }
    assert (I2 : / (1 + e2) <= 1 + 11 / 10 * u). { apply Rmult_le_reg_l with (1 + e2); [lra|]. rewrite Rinv_r by lra. nra. }
    unfold Rdiv. split; apply Rmult_le_compat; lra. }
  destruct (div_err (fsub v2 v1) (fsub t2 t1)) as (e3 & A3 & E3).
  { rewrite Q, Rabs_mult. rewrite (Rabs_pos_eq ((1 + e1) / (1 + e2))) by nra.
    replace (bpow radix2 (-1022)) with (bpow radix2 (-1021) * / 2) by (change (-1021)%Z with (1 + -1022)%Z; rewrite bpow_plus; change (bpow radix2 1) with 2; field).
    apply Rmult_le_compat; [apply bpow_ge_0|lra|exact N|nra]. }
  unfold slope. rewrite E3, Q. pose proof (rabs1 e3 A3) as B3. set (w := (1 + e1) / (1 + e2)) in *.
  replace (s * w * (1 + e3) - s) with (s * (w * (1 + e3) - 1)) by ring. rewrite Rabs_mult, Rmult_comm. apply Rmult_le_compat_r; [apply Rabs_pos|].
  apply Rabs_le. split.
  - assert ((1 - u) * (1 - u) * (1 - u) <= w * (1 + e3)) by (apply Rmult_le_compat; nra). nra.
  - assert (w * (1 + e3) <= (1 + u) * (1 + 11 / 10 * u) * (1 + u)) by (apply Rmult_le_compat; nra). nra.
Qed.

Lemma prod_err a t : t = 0 \/ 1 <= t -> a = 0 \/ bpow radix2 (-1022) <= Rabs a -> Rabs (fmul a t - a * t) <= u * Rabs a * t.
Proof.
  intros T A. pose proof u_pos. destruct (mul_err (a * t)) as (e & E1 & E2).
  - destruct T as [->|T]; [left; ring|]. destruct A as [->|A]; [left; ring|]. right. rewrite Rabs_mult, (Rabs_pos_eq t) by lra. pose proof (Rabs_pos a). nra.
  - unfold fmul. rewrite E2. replace (a * t * (1 + e) - a * t) with (e * (a * t)) by ring. rewrite !Rabs_mult, (Rabs_pos_eq t) by (destruct T; lra).
    rewrite <- Rmult_assoc. apply Rmult_le_compat_r; [destruct T; lra|]. apply Rmult_le_compat_r; [apply Rabs_pos|exact E1].
Qed.

(** The value is on the line up to 10 units of the size of slope x time (and 3 of the size of the
    value): the error grows with the length of the run, however close v1 and v2 are to zero. *)
Theorem C109_close : forall v1 v2 t1 t2 t, is_double v1 -> is_double v2 -> is_double t1 -> is_double t2 -> is_double t ->
  t1 < t2 -> t1 <= t <= t2 -> (t = 0 \/ 1 <= t) -> 1 <= t2 -> bpow radix2 (-1021) <= Rabs ((v2 - v1) / (t2 - t1)) -> 0 <= t1 ->
  Rabs (linear v1 v2 t1 t2 t - on_line v1 v2 t1 t2 t) <= 10 * u * Rabs ((v2 - v1) / (t2 - t1)) * t2 + 3 * u * Rabs v2.
Proof.
  intros v1 v2 t1 t2 t V1 V2 D1 D2 D T Ht Ht0 Ht2 N Ht1. pose proof u_pos as U0. pose proof u_tiny as U1. pose proof (slope_close v1 v2 t1 t2 V1 V2 D1 D2 T N) as SC.
  set (s := (v2 - v1) / (t2 - t1)) in *. unfold linear, intercept. set (a := slope v1 v2 t1 t2) in *.
  assert (L : on_line v1 v2 t1 t2 t = v2 - s * (t2 - t)) by (unfold on_line, s; field; lra). rewrite L. clear L.
  pose proof (Rabs_pos s) as S0. pose proof (Rabs_pos v2) as P2.
  assert (A1 : Rabs a <= (1 + 4 * u) * Rabs s).
  { replace a with ((a - s) + s) by ring. eapply Rle_trans; [apply Rabs_triang|]. lra. }
  assert (A2 : bpow radix2 (-1022) <= Rabs a).
  { assert (Rabs s - Rabs (a - s) <= Rabs a). { replace s with (a - (a - s)) at 1 by ring. pose proof (Rabs_triang a (- (a - s))) as K. rewrite Rabs_Ropp in K. unfold Rminus at 2. lra. }
    replace (bpow radix2 (-1022)) with (bpow radix2 (-1021) * / 2) by (change (-1021)%Z with (1 + -1022)%Z; rewrite bpow_plus; change (bpow radix2 1) with 2; field). nra. }
  pose proof (prod_err a t Ht0 (or_intror A2)) as M1. pose proof (prod_err a t2 (or_intror Ht2) (or_intror A2)) as M2.
  set (mt := fmul a t) in *. set (ma := fmul a t2) in *.
  assert (Dma : is_double ma) by apply dbl_rnd. assert (Dmt : is_double mt) by apply dbl_rnd.
  destruct (sub_err v2 ma V2 Dma) as (e5 & E5 & F5). assert (Db : is_double (fsub v2 ma)) by apply dbl_rnd. set (b := fsub v2 ma) in *.
  pose proof (add_err mt b Dmt Db) as E7. fold (fadd mt b) in E7. set (r := fadd mt b) in *.
  set (X := Rabs s * t2) in *. assert (X0 : 0 <= X) by (unfold X; apply Rmult_le_pos; lra).
  assert (Aa : Rabs a * t2 <= (1 + 4 * u) * X) by (unfold X; rewrite <- Rmult_assoc; apply Rmult_le_compat_r; lra).
  assert (At : Rabs a * t <= Rabs a * t2) by (apply Rmult_le_compat_l; [apply Rabs_pos|lra]).
  assert (Ka : Rabs ma <= (1 + u) * ((1 + 4 * u) * X)).
  { replace ma with ((ma - a * t2) + a * t2) by ring. eapply Rle_trans; [apply Rabs_triang|]. rewrite (Rabs_mult a t2), (Rabs_pos_eq t2) by lra. nra. }
  assert (Kt : Rabs mt <= (1 + u) * ((1 + 4 * u) * X)).
  { replace mt with ((mt - a * t) + a * t) by ring. eapply Rle_trans; [apply Rabs_triang|]. rewrite (Rabs_mult a t), (Rabs_pos_eq t) by lra. nra. }
  assert (Kv : Rabs (v2 - ma) <= Rabs v2 + (1 + u) * ((1 + 4 * u) * X)).
  { unfold Rminus. eapply Rle_trans; [apply Rabs_triang|]. rewrite Rabs_Ropp. lra. }
  assert (G : Rabs (b - (v2 - ma)) <= u * Rabs (v2 - ma)).
  { rewrite F5. replace ((v2 - ma) * (1 + e5) - (v2 - ma)) with (e5 * (v2 - ma)) by ring. rewrite Rabs_mult. apply Rmult_le_compat_r; [apply Rabs_pos|exact E5]. }
  assert (Kb : Rabs b <= (1 + u) * (Rabs v2 + (1 + u) * ((1 + 4 * u) * X))).
  { replace b with ((b - (v2 - ma)) + (v2 - ma)) by ring. eapply Rle_trans; [apply Rabs_triang|]. nra. }
  assert (Kr : Rabs (mt + b) <= Rabs mt + Rabs b) by apply Rabs_triang.
  replace (r - (v2 - s * (t2 - t))) with ((r - (mt + b)) + ((b - (v2 - ma)) + ((mt - a * t) + ((- (ma - a * t2)) + (- ((a - s) * (t2 - t))))))) by ring.
  assert (Ks : Rabs ((a - s) * (t2 - t)) <= 4 * u * X).
  { rewrite Rabs_mult, (Rabs_pos_eq (t2 - t)) by lra. unfold X. replace (4 * u * (Rabs s * t2)) with (4 * u * Rabs s * t2) by ring. apply Rmult_le_compat; try lra. apply Rabs_pos. }
  eapply Rle_trans; [apply Rabs_triang|]. eapply Rle_trans; [apply Rplus_le_compat_l, Rabs_triang|].
  eapply Rle_trans; [apply Rplus_le_compat_l, Rplus_le_compat_l, Rabs_triang|].
  eapply Rle_trans; [apply Rplus_le_compat_l, Rplus_le_compat_l, Rplus_le_compat_l, Rabs_triang|]. rewrite !Rabs_Ropp.
  assert (W : (1 + u) * ((1 + 4 * u) * X) <= 101 / 100 * X) by (rewrite <- Rmult_assoc; apply Rmult_le_compat_r; [exact X0|nra]).
  assert (T1 : Rabs (r - (mt + b)) <= u * (101 / 100 * X + 101 / 100 * (Rabs v2 + 101 / 100 * X))).
  { eapply Rle_trans; [exact E7|]. apply Rmult_le_compat_l; [lra|]. eapply Rle_trans; [exact Kr|]. apply Rplus_le_compat; [lra|]. eapply Rle_trans; [exact Kb|]. apply Rmult_le_compat; try lra.
    apply Rplus_le_le_0_compat; [exact P2|]. apply Rmult_le_pos; [lra|]. apply Rmult_le_pos; lra. }
  assert (T2 : Rabs (b - (v2 - ma)) <= u * (Rabs v2 + 101 / 100 * X)).
  { eapply Rle_trans; [exact G|]. apply Rmult_le_compat_l; lra. }
  assert (T3 : Rabs (mt - a * t) <= u * (101 / 100 * X)).
  { eapply Rle_trans; [exact M1|]. rewrite Rmult_assoc. apply Rmult_le_compat_l; [lra|]. assert ((1 + 4 * u) * X <= 101 / 100 * X) by (apply Rmult_le_compat_r; lra). lra. }
  assert (T4 : Rabs (ma - a * t2) <= u * (101 / 100 * X)).
  { eapply Rle_trans; [exact M2|]. rewrite Rmult_assoc. apply Rmult_le_compat_l; [lra|]. assert ((1 + 4 * u) * X <= 101 / 100 * X) by (apply Rmult_le_compat_r; lra). lra. }
  replace (10 * u * Rabs s * t2) with (u * (10 * X)) by (unfold X; ring). replace (3 * u * Rabs v2) with (u * (3 * Rabs v2)) by ring.
  apply Rle_trans with (u * (101 / 100 * X + 101 / 100 * (Rabs v2 + 101 / 100 * X)) + (u * (Rabs v2 + 101 / 100 * X) + (u * (101 / 100 * X) + (u * (101 / 100 * X) + u * (4 * X))))); [lra|].
  rewrite <- !Rmult_plus_distr_l. apply Rmult_le_compat_l; lra.
Qed.
Print Assumptions C109_close.

(** After ten years of hourly values of size at most V (times in seconds) the value is still within
    a billionth of V. *)
Theorem C109_ten_years : forall V v1 v2 t1 t2 t, is_double v1 -> is_double v2 -> is_double t1 -> is_double t2 -> is_double t ->
  Rabs v1 <= V -> Rabs v2 <= V -> 3600 <= t2 - t1 -> 0 <= t1 -> t2 <= 10 * 366 * 86400 -> t1 <= t <= t2 -> (t = 0 \/ 1 <= t) ->
  bpow radix2 (-1021) <= Rabs ((v2 - v1) / (t2 - t1)) ->
  Rabs (linear v1 v2 t1 t2 t - on_line v1 v2 t1 t2 t) <= V / 1000000000.
Proof.
  intros V v1 v2 t1 t2 t V1 V2 D1 D2 D B1 B2 S T1 T2 Ht Ht0 N.
  eapply Rle_trans; [apply C109_close; auto; lra|]. pose proof u_pos.
  assert (Q : Rabs ((v2 - v1) / (t2 - t1)) <= 2 * V / 3600).
  { unfold Rdiv. rewrite Rabs_mult. assert (Rabs (v2 - v1) <= 2 * V) by (unfold Rminus; eapply Rle_trans; [apply Rabs_triang|rewrite Rabs_Ropp; lra]).
    assert (0 < / (t2 - t1)) by (apply Rinv_0_lt_compat; lra). rewrite (Rabs_pos_eq (/ (t2 - t1))) by lra.
    apply Rmult_le_compat; [apply Rabs_pos|lra|lra|]. apply Rinv_le_contravar; lra. }
  assert (V0 : 0 <= V) by (pose proof (Rabs_pos v1); lra). pose proof (Rabs_pos ((v2 - v1) / (t2 - t1))) as Q0.
  assert (X : Rabs ((v2 - v1) / (t2 - t1)) * t2 <= 2 * V / 3600 * (10 * 366 * 86400)) by (apply Rmult_le_compat; lra).
  assert (U : u <= / 9000000000000000).
  { unfold u. change (bpow radix2 (-53)) with (/ 9007199254740992). apply Rinv_le_contravar; lra. }
  apply Rle_trans with (u * (1756803 * V)); [|].
  - replace (10 * u * Rabs ((v2 - v1) / (t2 - t1)) * t2) with (u * (10 * (Rabs ((v2 - v1) / (t2 - t1)) * t2))) by ring.
    replace (3 * u * Rabs v2) with (u * (3 * Rabs v2)) by ring. rewrite <- Rmult_plus_distr_l. apply Rmult_le_compat_l; lra.
  - apply Rle_trans with (/ 9000000000000000 * (1756803 * V)); [apply Rmult_le_compat_r; lra|lra].
Qed.
Print Assumptions C109_ten_years.

(** ** What is not so *)

Definition bsub (x y : bin) : bin := badd x (Bopp y).
Definition bmul : bin -> bin -> bin := @Bmult 53 1024 p53 pe mode_NE.
Lemma bsub_ok x y : fin x = true -> fin y = true -> fin (bsub x y) = true -> val (bsub x y) = fsub (val x) (val y).
Proof.
  intros X Y F. unfold bsub in *. assert (Z : fin (Bopp y) = true) by (now rewrite is_finite_Bopp). rewrite badd_ok by assumption.
  unfold fadd, fsub. f_equal. rewrite B2R_Bopp. reflexivity.
Qed.
Lemma bmul_ok x y : fin x = true -> fin y = true -> fin (bmul x y) = true -> val (bmul x y) = fmul (val x) (val y).
Proof.
  intros X Y F. pose proof (Bmult_correct 53 1024 p53 pe mode_NE x y) as H. fold (bmul x y) in H.
  destruct (Rlt_bool _ _) in H; [exact (proj1 H)|]. exfalso. exact (overflow _ _ F H).
Qed.
Lemma bin_double (x : bin) : is_double (val x). Proof. apply generic_format_B2R. Qed.
Definition bslope (v1 v2 t1 t2 : bin) : bin := bdiv (bsub v2 v1) (bsub t2 t1).
Definition blinear (v1 v2 t1 t2 t : bin) : bin := badd (bmul (bslope v1 v2 t1 t2) t) (bsub v2 (bmul (bslope v1 v2 t1 t2) t2)).
Definition steps_fin (v1 v2 t1 t2 t : bin) : bool :=
  fin (bsub v2 v1) && fin (bsub t2 t1) && fin (bslope v1 v2 t1 t2) && fin (bmul (bslope v1 v2 t1 t2) t) && fin (bmul (bslope v1 v2 t1 t2) t2)
  && fin (bsub v2 (bmul (bslope v1 v2 t1 t2) t2)) && fin (blinear v1 v2 t1 t2 t).
Lemma blinear_ok v1 v2 t1 t2 t : fin v1 = true -> fin v2 = true -> fin t1 = true -> fin t2 = true -> fin t = true ->
  val (bsub t2 t1) <> 0 -> steps_fin v1 v2 t1 t2 t = true -> val (blinear v1 v2 t1 t2 t) = linear (val v1) (val v2) (val t1) (val t2) (val t).
Proof.
  intros F1 F2 F3 F4 F5 N S. unfold steps_fin in S. repeat rewrite andb_true_iff in S. destruct S as ((((((S1 & S2) & S3) & S4) & S5) & S6) & S7).
  assert (A : val (bslope v1 v2 t1 t2) = slope (val v1) (val v2) (val t1) (val t2)).
  { unfold bslope, slope in *. rewrite bdiv_ok by assumption. rewrite !bsub_ok by assumption. reflexivity. }
  unfold linear, intercept. rewrite <- A. unfold blinear in *. rewrite badd_ok by assumption. rewrite bsub_ok by assumption. rewrite !bmul_ok by assumption. reflexivity.
Qed.
Lemma bint_val z : fin (bint z) = true -> (Z.abs z <= 2 ^ 53)%Z -> val (bint z) = IZR z.
Proof. intros F H. rewrite bint_ok by exact F. now apply rnd_IZR. Qed.

(** A quantity that goes from 0 to 1 is negative at the beginning of the interval. *)
Theorem C109_negative_refuted : linear 0 1 1 6 1 < 0.
Proof.
  rewrite <- (bint_val 0), <- (bint_val 1), <- (bint_val 6) by (vm_compute; congruence).
  rewrite <- blinear_ok; try (vm_compute; reflexivity).
  - rewrite (bint_val 0) by (vm_compute; congruence). rewrite <- (bint_val 0) by (vm_compute; congruence). apply blt; vm_compute; reflexivity.
  - rewrite bsub_ok by (vm_compute; reflexivity). intros E. apply (proj1 (sub_zero _ _ (bin_double _) (bin_double _))) in E.
    rewrite !bint_val in E by (vm_compute; congruence). lra.
Qed.
Print Assumptions C109_negative_refuted.

(** At the time of the new value the interpolated value is not the new value: 0.1 has become
    less than 0.1, and a small value is lost. *)
Theorem C109_end_refuted : linear 1 (rnd (1 / 10)) 0 1 1 < rnd (1 / 10) /\ linear 1 (bpow radix2 (-60)) 1 2 2 = 0.
Proof.
  split.
  - rewrite <- (dec_ok 1 10) by (vm_compute; congruence).
    rewrite <- (bint_val 0), <- (bint_val 1) by (vm_compute; congruence).
    rewrite <- blinear_ok; try (vm_compute; reflexivity); [apply blt; vm_compute; reflexivity|].
    rewrite bsub_ok by (vm_compute; reflexivity). intros E. apply (proj1 (sub_zero _ _ (bin_double _) (bin_double _))) in E.
    rewrite !bint_val in E by (vm_compute; congruence). lra.
  - set (tiny := @binary_normalize 53 1024 p53 pe mode_NE 1 (-60) false).
    assert (E : bpow radix2 (-60) = val tiny). { unfold tiny. rewrite <- SF2R_B2SF. vm_compute B2SF. unfold SF2R, F2R. cbn. lra. }
    rewrite E. rewrite <- (bint_val 1), <- (bint_val 2) by (vm_compute; congruence).
    rewrite <- blinear_ok; try (vm_compute; reflexivity).
    rewrite bsub_ok by (vm_compute; reflexivity). intros K. apply (proj1 (sub_zero _ _ (bin_double _) (bin_double _))) in K.
    rewrite !bint_val in K by (vm_compute; congruence). lra.
Qed.
Print Assumptions C109_end_refuted.

Example C109_case :
  is_double 1 /\ is_double 3 /\ (0 <= 1 /\ 1 < 3) /\ bpow radix2 (-1021) <= Rabs ((3 - 1) / (3 - 1)) /\ linear 1 3 1 3 2 = 2 /\ on_line 1 3 1 3 2 = 2 /\
  get_values [(1, 3); (3, 1)] 1 3 2 = [2; 2] /\ get_values [(1, 3); (2, 2)] 1 3 2 = [3; 2].
Proof.
  assert (I : forall z, (Z.abs z <= 2 ^ 53)%Z -> is_double (IZR z)).
  { intros z H. rewrite <- (rnd_IZR z H). apply dbl_rnd. }
  assert (R : forall z, (Z.abs z <= 2 ^ 53)%Z -> rnd (IZR z) = IZR z) by (intros; now apply rnd_IZR).
  assert (L : linear 1 3 1 3 2 = 2 /\ linear 3 1 1 3 2 = 2).
  { unfold linear, intercept, slope, fsub, fdiv, fmul, fadd. replace (3 - 1) with 2 by ring. replace (1 - 3) with (-2) by ring.
    rewrite (R 2%Z), (R (-2)%Z) by lia. replace (2 / 2) with 1 by field. replace (-2 / 2) with (-1) by field. rewrite (R 1%Z), (R (-1)%Z) by lia.
    replace (1 * 2) with 2 by ring. replace (1 * 3) with 3 by ring. replace (-1 * 2) with (-2) by ring. replace (-1 * 3) with (-3) by ring. rewrite (R 2%Z), (R 3%Z), (R (-2)%Z), (R (-3)%Z) by lia.
    replace (3 - 3) with 0 by ring. replace (1 - -3) with 4 by ring. rewrite (R 0%Z), (R 4%Z) by lia. replace (2 + 0) with 2 by ring. replace (-2 + 4) with 2 by ring. split; apply (R 2%Z); lia. }
  refine (conj (I 1%Z _) (conj (I 3%Z _) (conj _ (conj _ (conj (proj1 L) (conj _ (conj _ _))))))); try lia; try lra.
  - replace ((3 - 1) / (3 - 1)) with 1 by field. rewrite Rabs_R1. change 1 with (bpow radix2 0). apply bpow_le. lia.
  - unfold on_line. field.
  - assert (D : forall p, In p [(1, 3); (3, 1)] -> is_double (fst p) /\ is_double (snd p)).
    { intros p [<-|[<-|[]]]; cbn; split; first [apply (I 1%Z); lia|apply (I 3%Z); lia]. }
    rewrite (proj2 (C109_constant _ 1 3 2 D)); [cbn; now rewrite (proj1 L), (proj2 L)|intros p [<-|[<-|[]]]; cbn; lra|lra].
  - assert (D : forall p, In p [(1, 3); (2, 2)] -> is_double (fst p) /\ is_double (snd p)).
    { intros p [<-|[<-|[]]]; cbn; split; first [apply (I 1%Z); lia|apply (I 3%Z); lia|apply (I 2%Z); lia]. }
    rewrite (proj1 (C109_constant _ 1 3 2 D)); [reflexivity|]. left. exists (2, 2). split; [right; left; reflexivity|reflexivity].
Qed.
