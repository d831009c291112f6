(** Lemmas about the solar model. *)
From Coq Require Import Reals ZArith List Lia Lra Psatz.
From Verif Require Import Solar_Model Solar_Spec.
Import ListNotations.
Local Open Scope R_scope.

Lemma omega_eq : omega = PI / 12.
Proof. unfold omega. field. Qed.
Lemma omega_pos : 0 < omega.
Proof. rewrite omega_eq. pose proof PI_RGT_0. lra. Qed.
Lemma hour_eq th : omega * th = th * PI / 12.
Proof. rewrite omega_eq. field. Qed.
Lemma rad_eq d : rad d = d * PI / 180.
Proof. unfold rad. field. Qed.
Lemma PI_bounds : 3 < PI <= 4.
Proof. pose proof PI2_3_2. pose proof PI_4. lra. Qed.

(** trigonometric bounds *)
Lemma trig_bounds x : -1 <= cos x <= 1 /\ -1 <= sin x <= 1.
Proof. split; [apply COS_bound|apply SIN_bound]. Qed.

Lemma declination_bound g : -49/100 <= declination g <= 49/100.
Proof.
  unfold declination.
  pose proof (trig_bounds g). pose proof (trig_bounds (2 * g)). pose proof (trig_bounds (3 * g)). lra.
Qed.
Lemma eccentricity_bound g : 96/100 <= eccentricity g <= 104/100.
Proof. unfold eccentricity. pose proof (trig_bounds g). pose proof (trig_bounds (2 * g)). lra. Qed.
Lemma declination_acute g : - (PI / 2) < declination g < PI / 2.
Proof. pose proof (declination_bound g). pose proof PI_bounds. lra. Qed.
Lemma cos_declination_pos g : 0 < cos (declination g).
Proof. apply cos_gt_0; apply declination_acute. Qed.
Lemma cos_lat_pos lat : -90 < lat < 90 -> 0 < cos (rad lat).
Proof. intro H. pose proof PI_RGT_0. unfold rad. apply cos_gt_0; nra. Qed.

(** The expression inside arccos and in the flux is the height of the sun. *)
Lemma height_eq lat d th :
  sin (rad lat) * sin d + cos (rad lat) * cos d * cos (omega * th) = sun_height lat d th.
Proof. unfold sun_height, dot, sun, up. rewrite hour_eq, rad_eq. ring. Qed.
Lemma sq a : sin a * sin a + cos a * cos a = 1.
Proof. pose proof (sin2_cos2 a) as H. unfold Rsqr in H. exact H. Qed.

Lemma unit_le a b c x y z : a * a + b * b + c * c = 1 -> x * x + y * y + z * z = 1 ->
  -1 <= a * x + b * y + c * z <= 1.
Proof.
  intros H K.
  pose proof (Rle_0_sqr (a - x)) as S1. pose proof (Rle_0_sqr (b - y)) as S2. pose proof (Rle_0_sqr (c - z)) as S3.
  pose proof (Rle_0_sqr (a + x)) as T1. pose proof (Rle_0_sqr (b + y)) as T2. pose proof (Rle_0_sqr (c + z)) as T3.
  unfold Rsqr in *. lra.
Qed.
Lemma sun_unit d th : dot (sun d th) (sun d th) = 1.
Proof.
  unfold dot, sun. pose proof (sq d). pose proof (sq (th * PI / 12)).
  transitivity (cos d * cos d * (sin (th * PI / 12) * sin (th * PI / 12) + cos (th * PI / 12) * cos (th * PI / 12)) + sin d * sin d);
    [ring|]. rewrite H0. lra.
Qed.
Lemma normal_unit lat a b : dot (normal lat a b) (normal lat a b) = 1.
Proof.
  unfold normal, dot, plus, scale, up, north, east. set (p := lat * PI / 180).
  pose proof (sq p) as P. pose proof (sq a) as A. pose proof (sq b) as B.
  transitivity (sin b * sin b * (sin a * sin a) + (sin b * sin b * (cos a * cos a) + cos b * cos b) * (sin p * sin p + cos p * cos p));
    [ring|]. rewrite P.
  transitivity (sin b * sin b * (sin a * sin a + cos a * cos a) + cos b * cos b); [ring|]. rewrite A. lra.
Qed.
Lemma dot_bound u v : dot u u = 1 -> dot v v = 1 -> -1 <= dot u v <= 1.
Proof. destruct u as [[a b] c], v as [[x y] z]. unfold dot. apply unit_le. Qed.
Lemma up_unit lat : dot (up lat) (up lat) = 1.
Proof. unfold dot, up. pose proof (sq (lat * PI / 180)). lra. Qed.
Lemma height_bound lat d th : -1 <= sun_height lat d th <= 1.
Proof. apply dot_bound; [apply sun_unit|apply up_unit]. Qed.

(** cosine and arccosine *)
Lemma clip_bound x : -1 <= clip x <= 1.
Proof. unfold clip. split; [apply Rmin_glb; [apply Rmax_l|lra]|apply Rmin_r]. Qed.
Lemma cos_lt_abs a b : 0 <= a <= PI -> 0 <= b <= PI -> (cos b < cos a <-> a < b).
Proof.
  intros A B. split; intro H.
  - apply Rnot_le_lt. intro K. destruct K as [K| ->]; [|lra].
    pose proof (cos_decreasing_1 b a ltac:(lra) ltac:(lra) ltac:(lra) ltac:(lra) K). lra.
  - apply cos_decreasing_1; lra.
Qed.
(** |h| is below the arccosine of the clipped bound exactly when cos h exceeds the bound. *)
Lemma daylight_angle x h : - PI < h < PI -> (- acos (clip x) < h < acos (clip x) <-> x < cos h).
Proof.
  intro H. pose proof (clip_bound x) as C. pose proof (acos_bound (clip x)) as A.
  pose proof (cos_acos (clip x) C) as E.
  assert (K : cos h = cos (Rabs h)) by (unfold Rabs; destruct (Rcase_abs h); [rewrite cos_neg|]; reflexivity).
  assert (Ha : 0 <= Rabs h <= PI).
  { split; [apply Rabs_pos|]. unfold Rabs. destruct (Rcase_abs h); lra. }
  assert (S1 : - acos (clip x) < h < acos (clip x) <-> Rabs h < acos (clip x)).
  { unfold Rabs. destruct (Rcase_abs h); lra. }
  rewrite S1, K, <- (cos_lt_abs _ _ Ha A), E. clear S1.
  assert (Hb : Rabs h < PI) by (unfold Rabs; destruct (Rcase_abs h); lra).
  assert (M : -1 < cos (Rabs h)).
  { rewrite <- cos_PI. apply cos_decreasing_1; lra. }
  pose proof (COS_bound (Rabs h)) as N.
  unfold clip, Rmin, Rmax. destruct (Rle_dec (-1) x) as [L|L].
  - destruct (Rle_dec x 1); lra.
  - destruct (Rle_dec (-1) 1); lra.
Qed.

(** The sun is above the horizon between the two hours. *)
Lemma daylight_core phi d h : 0 < cos phi -> 0 < cos d -> - PI < h < PI ->
  (- acos (clip (- (1) * tan phi * tan d)) < h < acos (clip (- (1) * tan phi * tan d))
   <-> 0 < cos phi * cos d * cos h + sin phi * sin d).
Proof.
  intros P D H. rewrite daylight_angle by exact H. unfold tan.
  assert (E : cos phi * cos d * cos h + sin phi * sin d
              = cos phi * cos d * (cos h - - (1) * (sin phi / cos phi) * (sin d / cos d))) by (field; lra).
  rewrite E. assert (0 < cos phi * cos d) by (apply Rmult_lt_0_compat; assumption).
  split; intro K.
  - apply Rmult_lt_0_compat; lra.
  - apply Rnot_le_lt. intro N. assert (cos h - - (1) * (sin phi / cos phi) * (sin d / cos d) <= 0) by lra. nra.
Qed.

Lemma hours_angles a th : 0 < omega -> (- (1) * a / omega < th < a / omega <-> - a < omega * th < a).
Proof.
  intro W. split; intros [A B]; split.
  - apply (Rmult_lt_compat_l omega) in A; [|exact W]. replace (omega * (- (1) * a / omega)) with (- a) in A by (field; lra). lra.
  - apply (Rmult_lt_compat_l omega) in B; [|exact W]. replace (omega * (a / omega)) with a in B by (field; lra). lra.
  - apply (Rmult_lt_reg_l omega); [exact W|]. replace (omega * (- (1) * a / omega)) with (- a) by (field; lra). lra.
  - apply (Rmult_lt_reg_l omega); [exact W|]. replace (omega * (a / omega)) with a by (field; lra). lra.
Qed.

Lemma daylight lat d th : 0 < cos (rad lat) -> 0 < cos d -> -12 < th < 12 ->
  (sunrise lat d < th < sunset lat d <-> 0 < sun_height lat d th).
Proof.
  intros P D T. unfold sunrise, sunset, horizon_arg. rewrite hours_angles by exact omega_pos.
  assert (H : - PI < omega * th < PI) by (rewrite omega_eq; pose proof PI_RGT_0; nra).
  rewrite daylight_core by assumption. rewrite <- height_eq.
  replace (cos (rad lat) * cos d * cos (omega * th) + sin (rad lat) * sin d)
    with (sin (rad lat) * sin d + cos (rad lat) * cos d * cos (omega * th)) by ring. reflexivity.
Qed.

Lemma sunset_bound lat d : 0 <= sunset lat d <= 12.
Proof.
  unfold sunset. pose proof (acos_bound (clip (horizon_arg lat d))) as A. pose proof PI_RGT_0. rewrite omega_eq.
  replace (acos (clip (horizon_arg lat d)) / (PI / 12)) with (12 * (acos (clip (horizon_arg lat d)) / PI)) by (field; lra).
  assert (0 <= acos (clip (horizon_arg lat d)) / PI <= 1); [|lra]. split.
  - apply Rmult_le_pos; [lra|]. apply Rlt_le, Rinv_0_lt_compat. lra.
  - apply (Rmult_le_reg_r PI); [lra|]. unfold Rdiv. rewrite Rmult_assoc, Rinv_l by lra. lra.
Qed.
Lemma sunrise_sunset lat d : sunrise lat d = - sunset lat d.
Proof. unfold sunrise, sunset. field. pose proof omega_pos. lra. Qed.

(** Slopes *)
Lemma slope_equiv lat a b :
  let phi := rad lat in
  -1 <= sin b * cos a * cos phi + cos b * sin phi <= 1.
Proof.
  intro phi. pose proof (dot_bound (normal lat a b) (0, 0, 1)) as H.
  assert (E : dot (normal lat a b) (0, 0, 1) = sin b * cos a * cos phi + cos b * sin phi).
  { unfold normal, dot, plus, scale, up, north, east, phi. rewrite rad_eq. ring. }
  rewrite E in H. apply H; [apply normal_unit|]. unfold dot. ring.
Qed.
Lemma sin_lat_eq lat a b :
  sin (equivalent_latitude lat a b) = sin b * cos a * cos (rad lat) + cos b * sin (rad lat).
Proof. unfold equivalent_latitude. apply sin_asin, slope_equiv. Qed.
Lemma cos_lat_eq_nonneg lat a b : 0 <= cos (equivalent_latitude lat a b).
Proof. unfold equivalent_latitude. apply cos_ge_0; apply asin_bound. Qed.

(* the squares of the three components of the normal sum to one *)
Lemma normal_sq lat a b :
  (sin b * cos a * cos (rad lat) + cos b * sin (rad lat)) * (sin b * cos a * cos (rad lat) + cos b * sin (rad lat))
  + (sin b * sin a) * (sin b * sin a) + lon_denominator lat a b * lon_denominator lat a b = 1.
Proof.
  pose proof (normal_unit lat a b) as H. unfold normal, dot, plus, scale, up, north, east in H.
  rewrite <- rad_eq in H. unfold lon_denominator. rewrite <- H. ring.
Qed.
Lemma cos_lat_eq_sq lat a b :
  cos (equivalent_latitude lat a b) * cos (equivalent_latitude lat a b)
  = (sin b * sin a) * (sin b * sin a) + lon_denominator lat a b * lon_denominator lat a b.
Proof.
  pose proof (sq (equivalent_latitude lat a b)) as H. rewrite sin_lat_eq in H. pose proof (normal_sq lat a b). lra.
Qed.

(** cos(lat_eq) cos(dlon) and cos(lat_eq) sin(dlon), up to the sign of the denominator *)
Lemma dlon_components lat a b : lon_denominator lat a b <> 0 ->
  let s := (if Rlt_dec (lon_denominator lat a b) 0 then -1 else 1) in
  cos (equivalent_latitude lat a b) * cos (longitude_offset lat a b) = s * lon_denominator lat a b /\
  cos (equivalent_latitude lat a b) * sin (longitude_offset lat a b) = s * (sin b * sin a).
Proof.
  intros N s. unfold longitude_offset. set (D := lon_denominator lat a b) in *. set (n := sin b * sin a).
  set (c := cos (equivalent_latitude lat a b)).
  assert (C0 : 0 <= c) by apply cos_lat_eq_nonneg.
  assert (C2 : c * c = n * n + D * D) by apply cos_lat_eq_sq.
  rewrite cos_atan, sin_atan.
  assert (E : 1 + (n / D)² = (c / D) * (c / D)).
  { unfold Rsqr. transitivity ((n * n + D * D) / (D * D)); [field; exact N|]. rewrite <- C2. field. exact N. }
  assert (Cp : 0 < c) by (destruct (Req_dec c 0) as [Z|Z]; [rewrite Z in C2; nra|lra]).
  assert (Q : sqrt (1 + (n / D)²) = s * (c / D)).
  { rewrite E. destruct (Rlt_dec D 0) as [L|L]; unfold s.
    - replace (c / D * (c / D)) with ((- (1) * (c / D)) * (- (1) * (c / D))) by ring.
      rewrite sqrt_square; [ring|]. replace (- (1) * (c / D)) with (c / - D) by (field; lra).
      apply Rlt_le, Rdiv_lt_0_compat; lra.
    - rewrite sqrt_square; [ring|]. apply Rlt_le, Rdiv_lt_0_compat; lra. }
  rewrite Q. assert (Ss : s * s = 1) by (unfold s; destruct (Rlt_dec D 0); ring).
  assert (Sn : s <> 0) by (intro Z; rewrite Z in Ss; lra).
  split.
  - replace (s * D) with (s * s * D / s) by (field; exact Sn). rewrite Ss. field. repeat split; lra || assumption.
  - replace (s * n) with (s * s * n / s) by (field; exact Sn). rewrite Ss. field. repeat split; lra || assumption.
Qed.

Lemma slope_term lat a b d th : 0 < lon_denominator lat a b ->
  cos d * cos (equivalent_latitude lat a b) * cos (omega * th + longitude_offset lat a b)
  + sin (equivalent_latitude lat a b) * sin d = sun_on_slope lat a b d th.
Proof.
  intro P. destruct (dlon_components lat a b ltac:(lra)) as [A B].
  destruct (Rlt_dec (lon_denominator lat a b) 0) as [L|L]; [lra|].
  rewrite cos_plus.
  replace (cos d * cos (equivalent_latitude lat a b) *
           (cos (omega * th) * cos (longitude_offset lat a b) - sin (omega * th) * sin (longitude_offset lat a b)))
    with (cos d * (cos (omega * th) * (cos (equivalent_latitude lat a b) * cos (longitude_offset lat a b))
                   - sin (omega * th) * (cos (equivalent_latitude lat a b) * sin (longitude_offset lat a b)))) by ring.
  rewrite A, B, sin_lat_eq. unfold sun_on_slope, dot, sun, normal, plus, scale, up, north, east, lon_denominator.
  rewrite hour_eq, <- rad_eq. ring.
Qed.

Lemma rad_of_deg x : rad (x * (180 / PI)) = x.
Proof. unfold rad. field. pose proof PI_RGT_0. lra. Qed.
Lemma cos_lat_eq_pos lat a b : lon_denominator lat a b <> 0 -> 0 < cos (equivalent_latitude lat a b).
Proof.
  intro N. pose proof (cos_lat_eq_nonneg lat a b). pose proof (cos_lat_eq_sq lat a b) as E.
  destruct (Req_dec (cos (equivalent_latitude lat a b)) 0) as [Z|Z]; [|lra].
  rewrite Z in E. nra.
Qed.

(** sun on the slope's plane between the slope's own sunrise and sunset *)
Lemma slope_daylight lat a b d th : 0 < lon_denominator lat a b -> 0 < cos d ->
  -12 < th + longitude_offset lat a b / omega < 12 ->
  (sunrise (equivalent_latitude_deg lat a b) d + noon_slope lat a b < th
     < sunset (equivalent_latitude_deg lat a b) d + noon_slope lat a b
   <-> 0 < sun_on_slope lat a b d th).
Proof.
  intros P D T. set (le := equivalent_latitude_deg lat a b).
  assert (El : rad le = equivalent_latitude lat a b) by (unfold le, equivalent_latitude_deg; apply rad_of_deg).
  pose proof omega_pos as W.
  assert (En : noon_slope lat a b = - (longitude_offset lat a b / omega)) by (unfold noon_slope; field; lra).
  rewrite En. set (q := longitude_offset lat a b / omega) in *.
  rewrite <- (slope_term lat a b d th P).
  pose proof (daylight le d (th + q) ltac:(rewrite El; apply cos_lat_eq_pos; lra) D T) as H.
  rewrite <- height_eq, El in H.
  replace (omega * (th + q)) with (omega * th + longitude_offset lat a b) in H by (unfold q; field; lra).
  replace (cos d * cos (equivalent_latitude lat a b) * cos (omega * th + longitude_offset lat a b)
           + sin (equivalent_latitude lat a b) * sin d)
    with (sin (equivalent_latitude lat a b) * sin d
          + cos (equivalent_latitude lat a b) * cos d * cos (omega * th + longitude_offset lat a b)) by ring.
  rewrite <- H. split; intros [U V]; split; lra.
Qed.

(** atmosphere *)
Lemma zenith_bound lat d th : 0 <= zenith lat d th <= PI.
Proof. apply acos_bound. Qed.
Lemma air_mass_pos lat d th : 0 < air_mass lat d th.
Proof.
  unfold air_mass. set (gam := Rmax (90 - zenith lat d th * (180 / PI)) 0).
  pose proof PI_RGT_0 as P. pose proof (zenith_bound lat d th) as Z.
  assert (G : 0 <= gam <= 90).
  { unfold gam. split; [apply Rmax_r|]. apply Rmax_lub; [|lra].
    assert (0 <= zenith lat d th * (180 / PI)); [|lra]. apply Rmult_le_pos; [lra|].
    apply Rlt_le, Rdiv_lt_0_compat; lra. }
  assert (0 <= sin (gam * (PI / 180))) by (apply sin_ge_0; nra).
  assert (0 < 50572 / 100000 / Rpower (gam + 607995 / 100000) (16364 / 10000)).
  { apply Rdiv_lt_0_compat; [lra|]. apply exp_pos. }
  apply Rdiv_lt_0_compat; lra.
Qed.
Lemma exp_lt_1 x : x < 0 -> 0 < exp x < 1.
Proof. intro H. split; [apply exp_pos|]. rewrite <- exp_0. apply exp_increasing. exact H. Qed.

Lemma scattering_bound lat jd wp th dust : 0 <= wp -> 0 <= dust ->
  0 < scattering lat jd wp th dust <= 1 + dust.
Proof.
  intros W D. unfold scattering. cbv zeta. set (m := air_mass lat (declination (day_angle jd)) th).
  assert (0 < m) by apply air_mass_pos.
  assert (A : - (363 / 10000) - 84 / 10000 * wp + (- (572 / 10000) - 173 / 10000 * wp) * m < 0) by nra.
  apply exp_lt_1 in A. lra.
Qed.
Lemma transmissivity_bound lat jd wp th dust : 0 <= transmissivity lat jd wp th dust <= 1.
Proof.
  unfold transmissivity. cbv zeta. split; [apply Rmin_glb; [apply Rmax_r|lra]|apply Rmin_r].
Qed.
(** the direct and the downward half of the scattered fraction together stay below one *)
Lemma fractions_bound lat jd wp th dust : 0 <= wp -> 0 <= dust <= 1 ->
  transmissivity lat jd wp th dust + 5/10 * scattering lat jd wp th dust <= 1.
Proof.
  intros W D. unfold transmissivity, scattering. cbv zeta.
  set (m := air_mass lat (declination (day_angle jd)) th). assert (M : 0 < m) by apply air_mass_pos.
  set (x := - (1240 / 10000) - 207 / 10000 * wp + (- (682 / 10000) - 248 / 10000 * wp) * m).
  set (y := - (363 / 10000) - 84 / 10000 * wp + (- (572 / 10000) - 173 / 10000 * wp) * m).
  assert (X : x < y) by (unfold x, y; nra). apply exp_increasing in X.
  assert (Y : y < 0) by (unfold y; nra). apply exp_lt_1 in Y.
  unfold Rmin, Rmax. destruct (Rle_dec (exp x - dust) 0).
  - destruct (Rle_dec 0 1); lra.
  - destruct (Rle_dec (exp x - dust) 1); lra.
Qed.

Lemma et_flux_height lat jd th : et_flux lat jd th =
  Rmax (solar_constant * eccentricity (day_angle jd) * sun_height lat (declination (day_angle jd)) th) 0.
Proof.
  unfold et_flux. cbv zeta. rewrite <- height_eq. f_equal. ring.
Qed.
Lemma et_flux_nonneg lat jd th : 0 <= et_flux lat jd th.
Proof. apply Rmax_r. Qed.
Lemma sol_pos jd : 0 < solar_constant * eccentricity (day_angle jd) <= 1416.
Proof. unfold solar_constant. pose proof (eccentricity_bound (day_angle jd)). split; lra. Qed.
Lemma et_flux_pos lat jd th : 0 < sun_height lat (declination (day_angle jd)) th -> 0 < et_flux lat jd th.
Proof.
  intro H. rewrite et_flux_height. pose proof (sol_pos jd).
  eapply Rlt_le_trans; [|apply Rmax_l]. apply Rmult_lt_0_compat; lra.
Qed.
