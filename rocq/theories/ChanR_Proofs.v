From Coq Require Import Reals Lra Psatz Bool.
From Verif Require Import ChanR_Model.
Local Open Scope R_scope.

Lemma cos_pos a : 0 <= a < PI/2 -> 0 < cos a.
Proof. intros H. apply cos_gt_0; lra. Qed.
Lemma tan_nonneg a : 0 <= a < PI/2 -> 0 <= tan a.
Proof.
  intros H. destruct (Req_dec a 0) as [->|Hn]; [rewrite tan_0; lra|]. left. apply tan_gt_0; lra.
Qed.
Lemma tan_pos a : 0 < a < PI/2 -> 0 < tan a.
Proof. intros H. apply tan_gt_0; lra. Qed.

Lemma powr_nonneg x p : 0 <= powr x p.
Proof. unfold powr. destruct (Rle_dec x 0); [lra|]. left. apply exp_pos. Qed.
Lemma powr_pos x p : 0 < x -> 0 < powr x p.
Proof. intros H. unfold powr. destruct (Rle_dec x 0); [lra|]. apply exp_pos. Qed.
Lemma powr_0 p : powr 0 p = 0.
Proof. unfold powr. destruct (Rle_dec 0 0); lra. Qed.
Lemma powr_mono x y p : 0 <= p -> x <= y -> powr x p <= powr y p.
Proof.
  intros Hp H. unfold powr. destruct (Rle_dec x 0), (Rle_dec y 0); try lra.
  - left. apply exp_pos.
  - unfold Rpower. assert (Hl : ln x <= ln y) by (destruct (Req_dec x y) as [->|]; [lra|left; apply ln_increasing; lra]).
    destruct (Req_dec (p * ln x) (p * ln y)) as [->|Hne]; [lra|]. left. apply exp_increasing. nra.
Qed.

Section Depth.
Variables vol width ds angle : R.
Hypothesis Hvol : 0 <= vol.
Hypothesis Hw : 0 <= width.
Hypothesis Hds : 0 < ds.
Hypothesis Hang : 0 <= angle < PI/2.
Hypothesis Hne : 0 < width \/ 0 < angle.

Lemma depth_spec : let d := channel_depth vol width ds angle in
  0 <= d /\ ds * (d * (width + d * tan angle)) = vol /\
  forall d', 0 <= d' -> ds * (d' * (width + d' * tan angle)) = vol -> d' = d.
Proof.
  intros d.
  assert (Hd : 0 <= d) by apply Rmax_r.
  pose proof (tan_nonneg angle Hang) as Ht.
  assert (Hv : ds * (d * (width + d * tan angle)) = vol).
  { unfold d, channel_depth. destruct (Req_EM_T angle 0) as [E|E].
    - rewrite E, tan_0 in *. assert (0 < width) by lra. rewrite Rmax_left.
      + field. lra.
      + apply Rmult_le_pos; [exact Hvol|]. left. apply Rinv_0_lt_compat. nra.
    - assert (Htp : 0 < tan angle) by (apply tan_pos; lra).
      set (den := 2 * tan angle). set (arg := 2 * den * vol / ds + width * width).
      assert (Hden : 0 < den) by (unfold den; lra).
      assert (Harg : width * width <= arg).
      { unfold arg. assert (0 <= 2 * den * vol / ds); [|lra].
        apply Rmult_le_pos; [nra|]. left. apply Rinv_0_lt_compat. lra. }
      assert (Hs : width <= sqrt arg).
      { rewrite <- (sqrt_square width Hw) at 1. apply sqrt_le_1; nra. }
      assert (Hsq : sqrt arg * sqrt arg = arg) by (apply sqrt_sqrt; nra).
      rewrite Rmax_left.
      + assert (Et : tan angle = den / 2) by (unfold den; field). rewrite Et.
        set (s := sqrt arg) in *. 
        replace ((s - width) / den * (width + (s - width) / den * (den / 2))) with ((s * s - width * width) / (2 * den)) by (field; lra).
        rewrite Hsq. unfold arg. field. lra.
      + apply Rmult_le_pos; [lra|]. left. apply Rinv_0_lt_compat. lra. }
  split; [exact Hd|]. split; [exact Hv|]. intros d' Hd' Hv'.
  assert (He : d' * (width + d' * tan angle) = d * (width + d * tan angle)).
  { apply (Rmult_eq_reg_l ds); [|lra]. rewrite Hv, Hv'. reflexivity. }
  assert (Hf : (d' - d) * (width + (d' + d) * tan angle) = 0) by nra.
  apply Rmult_integral in Hf. destruct Hf as [Hf|Hf]; [lra|].
  assert (Hz : width = 0 /\ (d' + d) * tan angle = 0) by nra. destruct Hz as [Hz1 Hz2].
  destruct Hne as [H|H]; [lra|]. assert (0 < tan angle) by (apply tan_pos; lra).
  apply Rmult_integral in Hz2. destruct Hz2; lra.
Qed.
End Depth.

Section Rh.
Variables width angle : R.
Hypothesis Hw : 0 <= width.
Hypothesis Hang : 0 <= angle < PI/2.
Hypothesis Hne : 0 < width \/ 0 < angle.

Lemma P_pos d : 0 <= d -> 0 < width \/ 0 < d -> 0 < P_wet false d width angle.
Proof.
  intros Hd H. unfold P_wet. pose proof (cos_pos angle Hang) as Hc.
  assert (0 <= 2 * d / cos angle) by (apply Rmult_le_pos; [lra|left; apply Rinv_0_lt_compat; lra]).
  destruct H as [H|H]; [lra|].
  assert (0 < 2 * d / cos angle) by (apply Rmult_lt_0_compat; [lra|apply Rinv_0_lt_compat; lra]). lra.
Qed.

Lemma Rh_bounds d : 0 < d -> 0 < Rh false d width angle <= d.
Proof.
  intros Hd. unfold Rh. pose proof (P_pos d (Rlt_le _ _ Hd) (or_intror Hd)) as HP.
  pose proof (cos_pos angle Hang) as Hc. pose proof (tan_nonneg angle Hang) as Ht.
  assert (HA : 0 < A_wet d width angle).
  { unfold A_wet. apply Rmult_lt_0_compat; [exact Hd|]. destruct Hne as [H|H]; [nra|].
    assert (0 < tan angle) by (apply tan_pos; lra). nra. }
  split; [apply Rmult_lt_0_compat; [exact HA|apply Rinv_0_lt_compat; exact HP]|].
  apply (Rmult_le_reg_r (P_wet false d width angle)); [exact HP|].
  unfold Rdiv. rewrite Rmult_assoc, Rinv_l, Rmult_1_r by lra. unfold A_wet, P_wet.
  apply Rmult_le_compat_l; [lra|]. apply Rplus_le_compat_l.
  unfold tan. replace (d * (sin angle / cos angle)) with (d * sin angle / cos angle) by (field; lra).
  apply Rmult_le_compat_r; [left; apply Rinv_0_lt_compat; lra|].
  pose proof (SIN_bound angle). nra.
Qed.

Lemma Rh_0 nf : Rh nf 0 width angle = 0.
Proof. unfold Rh, A_wet. destruct nf; [reflexivity|]. unfold Rdiv. rewrite Rmult_0_l. apply Rmult_0_l. Qed.

Lemma Rh_nonneg nf d : 0 <= d -> 0 <= Rh nf d width angle.
Proof.
  intros Hd. destruct nf; [unfold Rh; lra|]. destruct (Req_dec d 0) as [->|H]; [rewrite Rh_0; lra|].
  left. apply Rh_bounds. lra.
Qed.

Lemma Rh_mono nf d1 d2 : 0 <= d1 <= d2 -> Rh nf d1 width angle <= Rh nf d2 width angle.
Proof.
  intros H. destruct nf; [unfold Rh; lra|].
  destruct (Req_dec d1 0) as [->|H1]; [rewrite Rh_0; apply Rh_nonneg; lra|].
  assert (HP1 : 0 < P_wet false d1 width angle) by (apply P_pos; lra).
  assert (HP2 : 0 < P_wet false d2 width angle) by (apply P_pos; lra).
  unfold Rh. apply (Rmult_le_reg_r (P_wet false d1 width angle * P_wet false d2 width angle)); [nra|].
  replace (A_wet d1 width angle / P_wet false d1 width angle * (P_wet false d1 width angle * P_wet false d2 width angle))
    with (A_wet d1 width angle * P_wet false d2 width angle) by (field; lra).
  replace (A_wet d2 width angle / P_wet false d2 width angle * (P_wet false d1 width angle * P_wet false d2 width angle))
    with (A_wet d2 width angle * P_wet false d1 width angle) by (field; lra).
  unfold A_wet, P_wet. pose proof (tan_nonneg angle Hang) as Ht. pose proof (cos_pos angle Hang) as Hc.
  set (c := / cos angle). assert (Hcp : 0 < c) by (apply Rinv_0_lt_compat; exact Hc).
  unfold Rdiv. fold c. set (t := tan angle) in *. clearbody t c.
  assert (E : d2 * (width + d2 * t) * (width + 2 * d1 * c) - d1 * (width + d1 * t) * (width + 2 * d2 * c) =
    (d2 - d1) * (width * width + width * t * (d1 + d2) + 2 * c * t * d1 * d2)) by ring.
  assert (0 <= (d2 - d1) * (width * width + width * t * (d1 + d2) + 2 * c * t * d1 * d2)).
  { apply Rmult_le_pos; [lra|]. assert (0 <= width * t) by nra. assert (0 <= c * t) by nra. assert (0 <= d1 * d2) by nra.
    assert (0 <= c * t * (d1 * d2)) by nra. nra. }
  lra.
Qed.
End Rh.

Lemma manning_nonneg rh S nv : 0 < nv -> 0 <= manning rh S nv.
Proof.
  intros Hn. unfold manning. apply Rmult_le_pos; [|left; apply Rinv_0_lt_compat; exact Hn].
  apply Rmult_le_pos; [apply powr_nonneg|apply sqrt_pos].
Qed.
Lemma manning_0 S nv : manning 0 S nv = 0.
Proof. unfold manning. rewrite powr_0. unfold Rdiv. ring. Qed.
Lemma manning_mono rh1 rh2 S1 S2 nv : 0 < nv -> 0 <= rh1 <= rh2 -> Rabs S1 <= Rabs S2 -> manning rh1 S1 nv <= manning rh2 S2 nv.
Proof.
  intros Hn Hr HS. unfold manning. apply Rmult_le_compat_r; [left; apply Rinv_0_lt_compat; exact Hn|].
  apply Rmult_le_compat; [apply powr_nonneg|apply sqrt_pos|apply powr_mono; lra|].
  apply sqrt_le_1; [apply Rabs_pos|apply Rabs_pos|exact HS].
Qed.

Lemma law_const_pos : 0 < law_const.
Proof. unfold law_const. apply Rmult_lt_0_compat; [apply sqrt_lt_R0; unfold g; lra|apply Rinv_0_lt_compat; unfold kappa; lra]. Qed.
Lemma smooth_ge d z0 : 1 < smoothness d z0.
Proof. unfold smoothness. pose proof (Rmax_r (aval / z0 * d) (11/10)). lra. Qed.
Lemma ln_smooth_pos d z0 : 0 < ln (smoothness d z0).
Proof. rewrite <- ln_1. apply ln_increasing; [lra|apply smooth_ge]. Qed.
Lemma ln_mono x y : 0 < x -> x <= y -> ln x <= ln y.
Proof. intros Hx H. destruct (Req_dec x y) as [->|Hn]; [lra|]. left. apply ln_increasing; lra. Qed.
Lemma smooth_mono d1 d2 z0 : 0 < z0 -> d1 <= d2 -> smoothness d1 z0 <= smoothness d2 z0.
Proof.
  intros Hz H. unfold smoothness. apply Rle_max_compat_r. apply Rmult_le_compat_l; [|exact H].
  apply Rmult_le_pos; [unfold aval; lra|left; apply Rinv_0_lt_compat; exact Hz].
Qed.

Lemma wall_nonneg rh d S z0 : 0 <= law_of_wall rh d S z0.
Proof.
  unfold law_of_wall. pose proof law_const_pos. pose proof (ln_smooth_pos d z0). pose proof (sqrt_pos (rh * Rabs S)).
  apply Rmult_le_pos; [|lra]. apply Rmult_le_pos; lra.
Qed.
Lemma wall_0 d S z0 : law_of_wall 0 d S z0 = 0.
Proof. unfold law_of_wall. rewrite Rmult_0_l, sqrt_0. ring. Qed.
Lemma wall_mono rh1 rh2 d1 d2 S1 S2 z0 : 0 < z0 -> 0 <= rh1 <= rh2 -> d1 <= d2 -> Rabs S1 <= Rabs S2 ->
  law_of_wall rh1 d1 S1 z0 <= law_of_wall rh2 d2 S2 z0.
Proof.
  intros Hz Hr Hd HS. unfold law_of_wall. pose proof law_const_pos as Hl.
  pose proof (Rabs_pos S1) as HS1.
  apply Rmult_le_compat.
  - apply Rmult_le_pos; [lra|apply sqrt_pos].
  - left. apply ln_smooth_pos.
  - apply Rmult_le_compat_l; [lra|]. apply sqrt_le_1; [nra|nra|]. apply Rmult_le_compat; lra.
  - apply ln_mono; [pose proof (smooth_ge d1 z0); lra|]. apply smooth_mono; assumption.
Qed.

(* friction factor and velocity *)
Lemma wall_friction rh d S z0 : 0 < d -> 0 <= rh ->
  friction_wall d z0 * (law_of_wall rh d S z0 * law_of_wall rh d S z0) = g * rh * Rabs S.
Proof.
  intros Hd Hr. unfold friction_wall. destruct (Rlt_dec 0 d) as [_|]; [|lra]. unfold law_of_wall, law_const.
  pose proof (ln_smooth_pos d z0) as Hl. set (L := ln (smoothness d z0)) in *.
  pose proof (Rabs_pos S) as HS.
  assert (H1 : sqrt (rh * Rabs S) * sqrt (rh * Rabs S) = rh * Rabs S) by (apply sqrt_sqrt; nra).
  assert (H2 : sqrt g * sqrt g = g) by (apply sqrt_sqrt; unfold g; lra).
  assert (Hk : kappa <> 0) by (unfold kappa; lra).
  replace (kappa / L * (kappa / L) * (sqrt g / kappa * sqrt (rh * Rabs S) * L * (sqrt g / kappa * sqrt (rh * Rabs S) * L)))
    with ((sqrt g * sqrt g) * (sqrt (rh * Rabs S) * sqrt (rh * Rabs S))) by (field; repeat split; first [exact Hk | lra | (apply Rgt_not_eq; exact Hl)]).
  rewrite H1, H2. ring.
Qed.

Lemma manning_friction d S nv : 0 < d -> 0 < nv ->
  friction_manning d nv * (manning d S nv * manning d S nv) = g * d * Rabs S.
Proof.
  intros Hd Hn. unfold friction_manning. destruct (Rlt_dec 0 d) as [_|]; [|lra]. unfold manning, powr.
  destruct (Rle_dec d 0); [lra|]. pose proof (Rabs_pos S) as HS.
  assert (H1 : sqrt (Rabs S) * sqrt (Rabs S) = Rabs S) by (apply sqrt_sqrt; exact HS).
  assert (H2 : Rpower d (2/3) * Rpower d (2/3) = d * Rpower d (1/3)).
  { rewrite <- Rpower_plus. replace (2/3 + 2/3) with (1 + 1/3) by field. rewrite Rpower_plus, Rpower_1 by lra. reflexivity. }
  assert (H3 : 0 < Rpower d (1/3)) by apply exp_pos.
  set (p := Rpower d (1/3)) in *. set (q := Rpower d (2/3)) in *.
  replace (g * (nv * nv / p) * (q * sqrt (Rabs S) / nv * (q * sqrt (Rabs S) / nv)))
    with (g * (q * q) * (sqrt (Rabs S) * sqrt (Rabs S)) / p) by (field; lra).
  rewrite H1, H2. field. lra.
Qed.

Lemma shear_speed_spec rho d S : 0 < rho -> 0 <= d -> 0 <= S ->
  shear_speed rho (shear_stress rho d S) * shear_speed rho (shear_stress rho d S) = g * d * S.
Proof.
  intros Hr Hd HS. unfold shear_speed, shear_stress. rewrite sqrt_sqrt; [field; lra|].
  apply Rmult_le_pos; [|left; apply Rinv_0_lt_compat; exact Hr].
  apply Rmult_le_pos; [|exact HS]. apply Rmult_le_pos; [|exact Hd]. unfold g. nra.
Qed.
