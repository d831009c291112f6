(* Theorems about the hydraulic formulas (C14, C15, C48). *)
From Coq Require Import Reals Lra Bool.
From Verif Require Import ChanR_Model ChanR_Proofs.
Local Open Scope R_scope.

(* C14.  The computed depth is the only non-negative depth at which a trapezoidal channel of the given bottom
   width, bank angle and length holds the given volume; update_trapezoid_Rh's cross-section agrees. *)
Theorem C14_depth_inverts_trapezoid : forall vol width ds angle,
  0 <= vol -> 0 <= width -> 0 < ds -> 0 <= angle < PI/2 -> 0 < width \/ 0 < angle ->
  let d := channel_depth vol width ds angle in
  0 <= d /\ ds * (d * (width + d * tan angle)) = vol /\
  forall d', 0 <= d' -> ds * (d' * (width + d' * tan angle)) = vol -> d' = d.
Proof. exact depth_spec. Qed.
Print Assumptions C14_depth_inverts_trapezoid.
Theorem C14_wetted_area_times_length_is_volume : forall vol width ds angle,
  0 <= vol -> 0 <= width -> 0 < ds -> 0 <= angle < PI/2 -> 0 < width \/ 0 < angle ->
  A_wet (channel_depth vol width ds angle) width angle * ds = vol.
Proof.
  intros vol width ds angle H1 H2 H3 H4 H5. destruct (depth_spec vol width ds angle H1 H2 H3 H4 H5) as (_ & H & _).
  unfold A_wet. rewrite Rmult_comm. exact H.
Qed.
Print Assumptions C14_wetted_area_times_length_is_volume.
Example C14_demo : channel_depth 6 1 3 (PI/4) = 1.
Proof.
  symmetry. pose proof PI_RGT_0. apply (depth_spec 6 1 3 (PI/4)); try lra. rewrite tan_PI4. ring.
Qed.

(* C15.  Hydraulic radius. *)
Theorem C15_hydraulic_radius : forall width angle, 0 <= width -> 0 <= angle < PI/2 -> 0 < width \/ 0 < angle ->
  (forall d, 0 < d -> 0 < Rh false d width angle <= d) /\
  (forall nf, Rh nf 0 width angle = 0) /\
  (forall nf d1 d2, 0 <= d1 <= d2 -> Rh nf d1 width angle <= Rh nf d2 width angle).
Proof.
  intros w a H1 H2 H3. split; [|split].
  - exact (Rh_bounds w a H1 H2 H3).
  - exact (Rh_0 w a).
  - exact (Rh_mono w a H1 H2 H3).
Qed.
Print Assumptions C15_hydraulic_radius.

(* C15.  Manning's formula as update() combines it with the hydraulic radius: non-negative, zero for an empty
   channel, non-decreasing in depth and in the size of the slope. *)
Theorem C15_manning_velocity : forall width angle nval nf, 0 <= width -> 0 <= angle < PI/2 -> 0 < width \/ 0 < angle ->
  0 < nval ->
  let u d S := manning (Rh nf d width angle) S nval in
  (forall d S, 0 <= u d S) /\ (forall S, u 0 S = 0) /\
  (forall d1 d2 S1 S2, 0 <= d1 <= d2 -> Rabs S1 <= Rabs S2 -> u d1 S1 <= u d2 S2).
Proof.
  intros w a nv nf H1 H2 H3 Hn u. split; [|split]; unfold u.
  - intros d S. apply manning_nonneg. exact Hn.
  - intros S. rewrite Rh_0. apply manning_0.
  - intros d1 d2 S1 S2 Hd HS. apply manning_mono; [exact Hn| |exact HS]. split; [apply Rh_nonneg; auto; lra|].
    apply Rh_mono; assumption.
Qed.
Print Assumptions C15_manning_velocity.

Theorem C15_law_of_the_wall_velocity : forall width angle z0 nf, 0 <= width -> 0 <= angle < PI/2 -> 0 < width \/ 0 < angle ->
  0 < z0 ->
  let u d S := law_of_wall (Rh nf d width angle) d S z0 in
  (forall d S, 0 <= u d S) /\ (forall S, u 0 S = 0) /\
  (forall d1 d2 S1 S2, 0 <= d1 <= d2 -> Rabs S1 <= Rabs S2 -> u d1 S1 <= u d2 S2).
Proof.
  intros w a z0 nf H1 H2 H3 Hz u. split; [|split]; unfold u.
  - intros d S. apply wall_nonneg.
  - intros S. rewrite Rh_0. apply wall_0.
  - intros d1 d2 S1 S2 Hd HS. apply wall_mono; [exact Hz| |lra|exact HS]. split; [apply Rh_nonneg; auto; lra|].
    apply Rh_mono; assumption.
Qed.
Print Assumptions C15_law_of_the_wall_velocity.
Example C15_demo : Rh false 1 1 0 = 1/3 /\ 0 < manning (Rh false 1 1 0) (1/100) (1/20).
Proof.
  assert (E : Rh false 1 1 0 = 1/3) by (unfold Rh, A_wet, P_wet; rewrite tan_0, cos_0; field).
  split; [exact E|]. rewrite E. unfold manning. apply Rmult_lt_0_compat; [|lra].
  apply Rmult_lt_0_compat; [apply powr_pos; lra|]. apply sqrt_lt_R0. apply Rabs_pos_lt. lra.
Qed.

(* C48.  The reported friction factor f satisfies f*u^2 = g*Rh*|S| for the law of the wall, ... *)
Theorem C48_friction_factor_law_of_wall : forall rh d S z0, 0 < d -> 0 <= rh ->
  friction_wall d z0 * (law_of_wall rh d S z0 * law_of_wall rh d S z0) = g * rh * Rabs S.
Proof. exact wall_friction. Qed.
Print Assumptions C48_friction_factor_law_of_wall.
(* ... and for Manning's formula if the hydraulic radius is the depth (infinitely wide channel). *)
Theorem C48_friction_factor_manning_partial : forall d S nval, 0 < d -> 0 < nval ->
  friction_manning d nval * (manning d S nval * manning d S nval) = g * d * Rabs S.
Proof. exact manning_friction. Qed.
Print Assumptions C48_friction_factor_manning_partial.
(* For a channel of finite width it does not: the friction factor uses the depth, the velocity Rh. *)
Theorem C48_friction_factor_manning_refuted :
  ~ (forall d width angle S nval, 0 < d -> 0 < width -> 0 <= angle < PI/2 -> 0 < nval ->
       let rh := Rh false d width angle in
       friction_manning d nval * (manning rh S nval * manning rh S nval) = g * rh * Rabs S).
Proof.
  intros H. pose proof PI_RGT_0 as Hpi. specialize (H 1 1 0 1 1). cbv zeta in H. rewrite (proj1 C15_demo) in H.
  specialize (H ltac:(lra) ltac:(lra) ltac:(lra) ltac:(lra)).
  unfold friction_manning, manning, powr in H.
  destruct (Rlt_dec 0 1) as [_|]; [|lra]. destruct (Rle_dec (1/3) 0); [lra|]. destruct (Rle_dec 1 0); [lra|].
  rewrite Rabs_R1, sqrt_1 in H.
  assert (E1 : Rpower 1 (1/3) = 1) by (unfold Rpower; rewrite ln_1, Rmult_0_r; apply exp_0). rewrite E1 in H.
  assert (E2 : Rpower (1/3) (2/3) * Rpower (1/3) (2/3) = 1/3 * Rpower (1/3) (1/3)).
  { rewrite <- Rpower_plus. replace (2/3 + 2/3) with (1 + 1/3) by field. rewrite Rpower_plus, Rpower_1 by lra. reflexivity. }
  assert (Hl : ln (1/3) < 0) by (rewrite <- ln_1; apply ln_increasing; lra).
  assert (H3 : Rpower (1/3) (1/3) < 1).
  { unfold Rpower. rewrite <- exp_0 at 3. apply exp_increasing. lra. }
  assert (Hg : 0 < g) by (unfold g; lra).
  assert (H4 : g * (1 * 1 / 1) * (Rpower (1/3) (2/3) * 1 / 1 * (Rpower (1/3) (2/3) * 1 / 1)) =
               g * (Rpower (1/3) (2/3) * Rpower (1/3) (2/3))) by field.
  rewrite H4, E2 in H. set (p := Rpower (1/3) (1/3)) in *. clearbody p.
  assert (g * (1/3 * p) < g * (1/3)) by (apply Rmult_lt_compat_l; lra). lra.
Qed.
Print Assumptions C48_friction_factor_manning_refuted.
