(** C59: daylight, C60: amounts of radiation, C61: day of the year, solar clock and angles. *)
From Coq Require Import Reals ZArith List Lia Lra Psatz.
From Verif Require Import Solar_Model Solar_Spec Solar_Proofs Time_Spec.
Import ListNotations.
Local Open Scope R_scope.

(** * C59 *)

(** Sunrise_Offset and Sunset_Offset: on any day, at any latitude but the poles, the sun is above the horizon
    exactly between the two hours. *)
Theorem C59_daylight lat jd th : -90 < lat < 90 -> -12 < th < 12 ->
  let d := declination (day_angle jd) in
  sunrise lat d < th < sunset lat d <-> 0 < sun_height lat d th.
Proof. intros L T d. apply daylight; [apply cos_lat_pos, L|apply cos_declination_pos|exact T]. Qed.

(** Day_Length is between 0 and 24 hours, and sunrise and sunset are symmetric about solar noon. *)
Theorem C59_day_length_range lat jd :
  0 <= day_length lat jd <= 24 /\
  sunrise lat (declination (day_angle jd)) = - sunset lat (declination (day_angle jd)).
Proof.
  unfold day_length. rewrite sunrise_sunset. pose proof (sunset_bound lat (declination (day_angle jd))).
  split; [lra|reflexivity].
Qed.
(** It is 24 exactly when the sun does not go below the horizon, 0 exactly when it does not come above it, and
    12 on the equator. *)
Theorem C59_polar_day lat jd : -90 < lat < 90 ->
  day_length lat jd = 24 <-> 0 <= sun_height lat (declination (day_angle jd)) 12.
Proof.
  intro L. unfold day_length. rewrite sunrise_sunset. set (d := declination (day_angle jd)).
  assert (P : 0 < cos (rad lat)) by (apply cos_lat_pos, L). assert (D : 0 < cos d) by apply cos_declination_pos.
  assert (H : sun_height lat d 12 = cos (rad lat) * cos d * (- (1) - horizon_arg lat d)).
  { rewrite <- height_eq. replace (omega * 12) with PI by (rewrite omega_eq; field). rewrite cos_PI.
    unfold horizon_arg, tan. field. lra. }
  assert (K : 0 < cos (rad lat) * cos d) by (apply Rmult_lt_0_compat; assumption).
  pose proof PI_RGT_0 as Pi. unfold sunset.
  assert (E : acos (clip (horizon_arg lat d)) / omega - - (acos (clip (horizon_arg lat d)) / omega)
              = 24 * (acos (clip (horizon_arg lat d)) / PI)) by (rewrite omega_eq; field; lra).
  rewrite E, H. split; intro G.
  - assert (acos (clip (horizon_arg lat d)) = PI).
    { transitivity (acos (clip (horizon_arg lat d)) / PI * PI); [field; lra|].
      replace (acos (clip (horizon_arg lat d)) / PI) with 1 by lra. ring. }
    pose proof (cos_acos _ (clip_bound (horizon_arg lat d))) as C. rewrite H0, cos_PI in C.
    assert (horizon_arg lat d <= -1); [|nra].
    revert C. unfold clip, Rmin, Rmax. destruct (Rle_dec (-1) (horizon_arg lat d)) as [A|A]; [|lra].
    destruct (Rle_dec (horizon_arg lat d) 1); lra.
  - assert (A : horizon_arg lat d <= -1) by nra.
    replace (clip (horizon_arg lat d)) with (- (1)).
    + rewrite acos_opp, acos_1. field. lra.
    + unfold clip, Rmin, Rmax. destruct (Rle_dec (-1) (horizon_arg lat d)) as [B|B].
      * destruct (Rle_dec (horizon_arg lat d) 1); lra.
      * destruct (Rle_dec (-1) 1); lra.
Qed.
Theorem C59_polar_night lat jd : -90 < lat < 90 ->
  day_length lat jd = 0 <-> sun_height lat (declination (day_angle jd)) 0 <= 0.
Proof.
  intro L. unfold day_length. rewrite sunrise_sunset.
  pose proof (C59_daylight lat jd 0 L ltac:(lra)) as H. cbv zeta in H. rewrite sunrise_sunset in H.
  pose proof (sunset_bound lat (declination (day_angle jd))) as B. split; intro G.
  - apply Rnot_lt_le. intro K. apply H in K. lra.
  - apply Rle_antisym; [|lra]. apply Rnot_lt_le. intro K. apply Rle_not_lt in G. apply G, H. lra.
Qed.
Theorem C59_equator jd : day_length 0 jd = 12.
Proof.
  unfold day_length. rewrite sunrise_sunset. unfold sunset, horizon_arg, rad.
  rewrite Rmult_0_l, tan_0. replace (- (1) * 0 * tan (declination (day_angle jd))) with 0 by ring.
  replace (clip 0) with 0.
  - rewrite acos_0, omega_eq. field. pose proof PI_RGT_0. lra.
  - unfold clip, Rmin, Rmax. destruct (Rle_dec (-1) 0); [|lra]. destruct (Rle_dec 0 1); lra.
Qed.

(** Clear_Sky_Radiation gives nothing, on any slope, while the sun is not above the horizon. *)
Theorem C59_no_sun_no_radiation lat jd wp th alpha beta albedo dust : -90 < lat < 90 -> -12 <= th <= 12 ->
  sun_height lat (declination (day_angle jd)) th <= 0 ->
  clear_sky lat jd wp th alpha beta albedo dust = 0.
Proof.
  intros L T H. set (d := declination (day_angle jd)) in *. unfold clear_sky.
  destruct (Rle_dec th (sunrise_slope lat jd alpha beta)) as [A|A]; [reflexivity|].
  destruct (Rge_dec th (sunset_slope lat jd alpha beta)) as [B|B]; [reflexivity|]. exfalso.
  assert (U : sunrise lat d <= sunrise_slope lat jd alpha beta) by apply Rmax_r.
  assert (V : sunset_slope lat jd alpha beta <= sunset lat d) by apply Rmin_r.
  pose proof (sunset_bound lat d) as W. pose proof (sunrise_sunset lat d).
  assert (X : sunrise lat d < th < sunset lat d) by lra.
  apply (C59_daylight lat jd th L ltac:(lra)) in X. fold d in X. lra.
Qed.
(** The same beyond twelve hours from noon: nothing at all. *)
Theorem C59_far_from_noon lat jd wp th alpha beta albedo dust : th <= -12 \/ 12 <= th ->
  clear_sky lat jd wp th alpha beta albedo dust = 0.
Proof.
  intro H. set (d := declination (day_angle jd)). unfold clear_sky.
  destruct (Rle_dec th (sunrise_slope lat jd alpha beta)) as [A|A]; [reflexivity|].
  destruct (Rge_dec th (sunset_slope lat jd alpha beta)) as [B|B]; [reflexivity|]. exfalso.
  assert (U : sunrise lat d <= sunrise_slope lat jd alpha beta) by apply Rmax_r.
  assert (V : sunset_slope lat jd alpha beta <= sunset lat d) by apply Rmin_r.
  pose proof (sunset_bound lat d) as W. pose proof (sunrise_sunset lat d). lra.
Qed.

Lemma clear_sky_cases lat jd wp th alpha beta albedo dust :
  clear_sky lat jd wp th alpha beta albedo dust =
  if Rlt_dec (sunrise_slope lat jd alpha beta) th then
    if Rlt_dec th (sunset_slope lat jd alpha beta) then
      transmissivity lat jd wp th dust * et_flux_slope lat jd th alpha beta
      + diffuse_flux lat jd wp th dust + bs_flux lat jd wp albedo th dust
    else 0
  else 0.
Proof.
  unfold clear_sky.
  destruct (Rle_dec th (sunrise_slope lat jd alpha beta)), (Rlt_dec (sunrise_slope lat jd alpha beta) th);
    try lra; try reflexivity.
  destruct (Rge_dec th (sunset_slope lat jd alpha beta)), (Rlt_dec th (sunset_slope lat jd alpha beta));
    try lra; reflexivity.
Qed.

Lemma scattered_nonneg lat jd wp th albedo dust : 0 <= wp -> 0 <= dust -> 0 <= albedo ->
  0 <= diffuse_flux lat jd wp th dust /\ 0 <= direct_flux lat jd wp th dust /\ 0 <= bs_flux lat jd wp albedo th dust.
Proof.
  intros W D A. pose proof (scattering_bound lat jd wp th dust W D) as S.
  pose proof (transmissivity_bound lat jd wp th dust) as T. pose proof (et_flux_nonneg lat jd th) as E.
  assert (X : 0 <= diffuse_flux lat jd wp th dust).
  { unfold diffuse_flux. apply Rmult_le_pos; [|exact E]. lra. }
  assert (Y : 0 <= direct_flux lat jd wp th dust) by (unfold direct_flux; apply Rmult_le_pos; lra).
  repeat split; [exact X|exact Y|]. unfold bs_flux, global_flux.
  apply Rmult_le_pos; [|lra]. apply Rmult_le_pos; lra.
Qed.

(** Clear_Sky_Radiation is positive exactly while the sun is above the horizon and in front of the slope: for
    slopes that are not so steep that they face beyond the pole (first hypothesis), and hours within half a day
    of noon, both at the place and at the place to which the slope is parallel. *)
Theorem C59_lit_slope lat jd wp th alpha beta albedo dust :
  -90 < lat < 90 -> 0 < cos beta * cos (lat * PI / 180) - sin beta * sin (lat * PI / 180) * cos alpha ->
  -12 < th < 12 -> -12 < th + longitude_offset lat alpha beta * 12 / PI < 12 ->
  0 <= wp -> 0 <= dust -> 0 <= albedo ->
  let d := declination (day_angle jd) in
  0 < clear_sky lat jd wp th alpha beta albedo dust
  <-> 0 < sun_height lat d th /\ 0 < sun_on_slope lat alpha beta d th.
Proof.
  intros L G T Ts W D A d. assert (Dc : 0 < cos d) by apply cos_declination_pos.
  assert (G' : 0 < lon_denominator lat alpha beta) by (unfold lon_denominator; rewrite rad_eq; exact G).
  pose proof PI_RGT_0 as Pi.
  assert (T' : -12 < th + longitude_offset lat alpha beta / omega < 12).
  { replace (longitude_offset lat alpha beta / omega) with (longitude_offset lat alpha beta * 12 / PI); [exact Ts|].
    rewrite omega_eq. field. lra. }
  pose proof (slope_daylight lat alpha beta d th G' Dc T') as S. pose proof (C59_daylight lat jd th L T) as F.
  cbv zeta in F. fold d in F. rewrite clear_sky_cases.
  assert (I : sunrise_slope lat jd alpha beta < th < sunset_slope lat jd alpha beta
              <-> 0 < sun_height lat d th /\ 0 < sun_on_slope lat alpha beta d th).
  { rewrite <- S, <- F. unfold sunrise_slope, sunset_slope. cbv zeta. fold d.
    split.
    - set (p := sunrise (equivalent_latitude_deg lat alpha beta) d + noon_slope lat alpha beta).
      set (q := sunset (equivalent_latitude_deg lat alpha beta) d + noon_slope lat alpha beta). intros [X Y].
      pose proof (Rmax_l p (sunrise lat d)). pose proof (Rmax_r p (sunrise lat d)).
      pose proof (Rmin_l q (sunset lat d)). pose proof (Rmin_r q (sunset lat d)). lra.
    - intros [[X1 X2] [Y1 Y2]]. split; [apply Rmax_lub_lt|apply Rmin_glb_lt]; assumption. }
  destruct (Rlt_dec (sunrise_slope lat jd alpha beta) th) as [X|X].
  - destruct (Rlt_dec th (sunset_slope lat jd alpha beta)) as [Y|Y].
    + split; [intros _; apply I; split; assumption|]. intro K. destruct K as [K1 K2].
      pose proof (scattered_nonneg lat jd wp th albedo dust W D A) as [P1 [P2 P3]].
      assert (0 < diffuse_flux lat jd wp th dust).
      { unfold diffuse_flux. apply Rmult_lt_0_compat; [|apply et_flux_pos, K1].
        pose proof (scattering_bound lat jd wp th dust W D). lra. }
      assert (0 <= transmissivity lat jd wp th dust * et_flux_slope lat jd th alpha beta).
      { apply Rmult_le_pos; [apply transmissivity_bound|]. apply Rmax_r. }
      lra.
    + split; [lra|]. intro K. apply I in K. lra.
  - split; [lra|]. intro K. apply I in K. lra.
Qed.

(** a day: 2 July, at 40 degrees north, at noon, on a slope of slope 1 facing south *)
Lemma mid_year : declination (day_angle (365/2)) = 402769/1000000 /\ eccentricity (day_angle (365/2)) = 966608/1000000.
Proof.
  unfold day_angle. replace (2 * PI * (365 / 2) / 365) with PI by field. unfold declination, eccentricity.
  replace (3 * PI) with (PI + 2 * INR 1 * PI) by (simpl INR; ring). rewrite cos_period, sin_period.
  rewrite cos_2PI, sin_2PI, cos_PI, sin_PI. split; lra.
Qed.
Lemma flat_height0 lat d : sun_height lat d 0 = cos (lat * PI / 180 - d).
Proof.
  unfold sun_height, dot, sun, up. rewrite cos_minus. unfold Rdiv. rewrite !Rmult_0_l, cos_0, sin_0. ring.
Qed.
Lemma south_facing lat d b : sun_on_slope lat PI b d 0 = cos (lat * PI / 180 - b - d).
Proof.
  unfold sun_on_slope, dot, sun, normal, plus, scale, up, north, east. rewrite cos_minus, cos_minus, sin_minus.
  replace (0 * PI / 12) with 0 by field. rewrite cos_0, sin_0, cos_PI, sin_PI. ring.
Qed.
Lemma C59_example : 0 < clear_sky 40 (365/2) 2 0 PI (PI/4) (2/10) (8/100).
Proof.
  pose proof PI_bounds as B. destruct mid_year as [M _].
  apply C59_lit_slope; try lra.
  - replace (cos (PI / 4) * cos (40 * PI / 180) - sin (PI / 4) * sin (40 * PI / 180) * cos PI)
      with (cos (PI / 4 - 40 * PI / 180)) by (rewrite cos_minus, cos_PI; ring).
    apply cos_gt_0; lra.
  - unfold longitude_offset. rewrite sin_PI. replace (sin (PI / 4) * 0 / lon_denominator 40 PI (PI / 4)) with 0 by (unfold Rdiv; ring).
    rewrite atan_0. lra.
  - rewrite M, flat_height0, south_facing. split; apply cos_gt_0; lra.
Qed.

(** Full statement for level ground, false at solar midnight in the polar summer: the sun is up, the radiation
    is switched off. *)
Theorem C59_midnight_sun_refuted :
  ~ (forall lat jd wp th alpha albedo dust, -90 < lat < 90 -> -12 <= th <= 12 -> 0 <= wp -> 0 <= dust -> 0 <= albedo ->
       0 < sun_height lat (declination (day_angle jd)) th -> 0 < clear_sky lat jd wp th alpha 0 albedo dust).
Proof.
  intro H. specialize (H 75 (365/2) 1 12 0 0 0 ltac:(lra) ltac:(lra) ltac:(lra) ltac:(lra) ltac:(lra)).
  rewrite (C59_far_from_noon) in H by lra. destruct mid_year as [M _]. rewrite M in H.
  apply (Rlt_irrefl 0), H. pose proof PI_bounds.
  unfold sun_height, dot, sun, up. replace (12 * PI / 12) with PI by field. rewrite cos_PI, sin_PI.
  replace (cos (402769 / 1000000) * -1 * cos (75 * PI / 180) + - (cos (402769 / 1000000) * 0) * 0
           + sin (402769 / 1000000) * sin (75 * PI / 180))
    with (- cos (75 * PI / 180 + 402769/1000000)) by (rewrite cos_plus; ring).
  assert (cos (75 * PI / 180 + 402769/1000000) < 0); [|lra]. apply cos_lt_0; lra.
Qed.

(** A slope so steep that it faces beyond the pole: arctan loses the quadrant and the flux is not the one that
    geometry gives. *)
Theorem C59_steep_slope_refuted :
  ~ (forall lat jd th alpha beta, -90 < lat < 90 -> 0 <= beta < PI / 2 -> -12 < th < 12 ->
       et_flux_slope lat jd th alpha beta =
       Rmax (solar_constant * eccentricity (day_angle jd)
             * sun_on_slope lat alpha beta (declination (day_angle jd)) th) 0).
Proof.
  intro H. pose proof PI_bounds as B. specialize (H 60 (365/2) 0 0 (PI/4) ltac:(lra) ltac:(lra) ltac:(lra)).
  unfold et_flux_slope in H. cbv zeta in H. destruct mid_year as [M E]. rewrite M, E in H.
  unfold longitude_offset in H. rewrite sin_0 in H.
  replace (sin (PI / 4) * 0 / lon_denominator 60 0 (PI / 4)) with 0 in H by (unfold Rdiv; ring).
  rewrite atan_0, Rmult_0_r, Rplus_0_l, cos_0 in H.
  assert (L : equivalent_latitude 60 0 (PI/4) = 5 * PI / 12).
  { unfold equivalent_latitude. rewrite cos_0, rad_eq.
    replace (sin (PI / 4) * 1 * cos (60 * PI / 180) + cos (PI / 4) * sin (60 * PI / 180))
      with (sin (60 * PI / 180 + PI / 4)) by (rewrite sin_plus; ring).
    replace (sin (60 * PI / 180 + PI / 4)) with (sin (5 * PI / 12)).
    - apply asin_sin. lra.
    - rewrite <- sin_PI_x. f_equal. field. }
  rewrite L in H. unfold solar_constant in H.
  set (d := 402769/1000000) in *.
  replace (cos d * cos (5 * PI / 12) * 1 + sin (5 * PI / 12) * sin d) with (cos (5 * PI / 12 - d)) in H
    by (rewrite cos_minus; ring).
  assert (S : sun_on_slope 60 0 (PI/4) d 0 = cos (7 * PI / 12 - d)).
  { replace (7 * PI / 12) with (60 * PI / 180 + PI / 4) by field.
    unfold sun_on_slope, dot, sun, normal, plus, scale, up, north, east. rewrite cos_minus, cos_plus, sin_plus.
    replace (0 * PI / 12) with 0 by field. rewrite cos_0, sin_0. ring. }
  rewrite S in H.
  assert (C1 : cos (7 * PI / 12 - d) < cos (5 * PI / 12 - d)) by (apply cos_decreasing_1; unfold d; lra).
  assert (C2 : 0 < cos (5 * PI / 12 - d)) by (apply cos_gt_0; unfold d; lra).
  rewrite Rmax_left in H by lra. unfold Rmax in H.
  destruct (Rle_dec (13615 / 10 * (966608 / 1000000) * cos (7 * PI / 12 - d)) 0); lra.
Qed.

(** * C60 *)

(** Zenith_Angle is the angle between the sun and the vertical: its arccos is always defined. *)
Theorem C60_zenith lat d th : cos (zenith lat d th) = sun_height lat d th /\ 0 <= zenith lat d th <= PI.
Proof.
  split; [|apply zenith_bound]. unfold zenith. rewrite height_eq. apply cos_acos, height_bound.
Qed.
(** Extraterrestrial flux on level ground and on slopes. *)
Theorem C60_flux_on_level_ground lat jd th :
  exists k, 1300 < k < 1420 /\ (forall lat' th', et_flux lat' jd th' = Rmax (k * sun_height lat' (declination (day_angle jd)) th') 0) /\
    0 <= et_flux lat jd th < 1420.
Proof.
  exists (solar_constant * eccentricity (day_angle jd)). pose proof (eccentricity_bound (day_angle jd)) as E.
  split; [unfold solar_constant; lra|]. split; [intros; apply et_flux_height|].
  split; [apply et_flux_nonneg|]. rewrite et_flux_height. apply Rmax_lub_lt; [|lra].
  pose proof (sol_pos jd). pose proof (height_bound lat (declination (day_angle jd)) th). nra.
Qed.
Theorem C60_flux_on_slope lat jd th alpha beta :
  0 < cos beta * cos (lat * PI / 180) - sin beta * sin (lat * PI / 180) * cos alpha ->
  et_flux_slope lat jd th alpha beta =
  Rmax (solar_constant * eccentricity (day_angle jd)
        * sun_on_slope lat alpha beta (declination (day_angle jd)) th) 0.
Proof.
  intro G. unfold et_flux_slope. cbv zeta.
  rewrite slope_term; [reflexivity|]. unfold lon_denominator. rewrite rad_eq. exact G.
Qed.

(** A slope of angle zero is level ground, whatever its aspect. *)
Lemma level_lat lat alpha : -90 < lat < 90 ->
  equivalent_latitude lat alpha 0 = rad lat /\ longitude_offset lat alpha 0 = 0.
Proof.
  intro L. pose proof PI_RGT_0 as P. unfold equivalent_latitude, longitude_offset, lon_denominator.
  rewrite sin_0, cos_0. split.
  - replace (0 * cos alpha * cos (rad lat) + 1 * sin (rad lat)) with (sin (rad lat)) by ring.
    apply asin_sin. unfold rad. nra.
  - replace (0 * sin alpha / (1 * cos (rad lat) - 0 * sin (rad lat) * cos alpha)) with 0; [apply atan_0|].
    unfold Rdiv. ring.
Qed.
Theorem C60_level_slope lat jd th alpha : -90 < lat < 90 ->
  et_flux_slope lat jd th alpha 0 = et_flux lat jd th /\
  sunrise_slope lat jd alpha 0 = sunrise lat (declination (day_angle jd)) /\
  sunset_slope lat jd alpha 0 = sunset lat (declination (day_angle jd)).
Proof.
  intro L. destruct (level_lat lat alpha L) as [E N]. pose proof PI_RGT_0 as P. pose proof omega_pos as W.
  assert (ED : equivalent_latitude_deg lat alpha 0 = lat).
  { unfold equivalent_latitude_deg. rewrite E. unfold rad. field. lra. }
  repeat split.
  - unfold et_flux_slope, et_flux. cbv zeta. rewrite E, N, Rplus_0_r. f_equal. ring.
  - unfold sunrise_slope, noon_slope. cbv zeta. rewrite ED, N.
    replace (- (1) * 0 / omega) with 0 by (field; lra). rewrite Rplus_0_r. apply Rmax_left. lra.
  - unfold sunset_slope, noon_slope. cbv zeta. rewrite ED, N.
    replace (- (1) * 0 / omega) with 0 by (field; lra). rewrite Rplus_0_r. apply Rmin_left. lra.
Qed.

(** The same flux before and after noon, the largest at noon, and the same after a whole day. *)
Theorem C60_day_course lat jd th : -90 <= lat <= 90 ->
  et_flux lat jd (- th) = et_flux lat jd th /\ et_flux lat jd th <= et_flux lat jd 0 /\
  et_flux lat jd (th + 24) = et_flux lat jd th.
Proof.
  intro L. unfold et_flux. cbv zeta. rewrite Ropp_mult_distr_r_reverse, cos_neg. split; [reflexivity|]. split.
  - apply Rle_max_compat_r. pose proof (sol_pos jd) as K. apply Rmult_le_compat_l; [lra|].
    apply Rplus_le_compat_r. apply Rmult_le_compat_l.
    + pose proof PI_RGT_0. apply Rmult_le_pos; [apply Rlt_le, cos_declination_pos|]. apply cos_ge_0; unfold rad; nra.
    + rewrite Rmult_0_r, cos_0. apply COS_bound.
  - replace (omega * (th + 24)) with (omega * th + 2 * INR 1 * PI) by (rewrite omega_eq; simpl INR; field).
    rewrite cos_period. reflexivity.
Qed.

Theorem C60_nonnegative lat jd wp th alpha beta albedo dust : 0 <= wp -> 0 <= dust -> 0 <= albedo ->
  0 <= clear_sky lat jd wp th alpha beta albedo dust.
Proof.
  intros W D A. rewrite clear_sky_cases. destruct (Rlt_dec _ _); [|lra]. destruct (Rlt_dec _ _); [|lra].
  pose proof (scattered_nonneg lat jd wp th albedo dust W D A) as [P1 [P2 P3]].
  assert (0 <= transmissivity lat jd wp th dust * et_flux_slope lat jd th alpha beta).
  { apply Rmult_le_pos; [apply transmissivity_bound|]. apply Rmax_r. }
  lra.
Qed.

(** No more radiation reaches the ground than enters the atmosphere. *)
Theorem C60_ground_below_space lat jd wp th dust : 0 <= wp -> 0 <= dust <= 1 ->
  0 <= direct_flux lat jd wp th dust /\ 0 <= diffuse_flux lat jd wp th dust /\
  global_flux lat jd wp th dust <= et_flux lat jd th.
Proof.
  intros W D. destruct (scattered_nonneg lat jd wp th 0 dust W ltac:(lra) ltac:(lra)) as [P1 [P2 _]].
  repeat split; [exact P2|exact P1|]. unfold global_flux, direct_flux, diffuse_flux.
  pose proof (fractions_bound lat jd wp th dust W D). pose proof (et_flux_nonneg lat jd th). nra.
Qed.

(** Net shortwave radiation, with the part that the sky sends back: on level ground it is between zero and the
    flux outside the atmosphere. *)
Lemma backscatter_bound g a t x : 0 <= x -> 0 < g <= 2 -> 0 <= a <= 1 -> 0 <= t <= 1 -> t + 5/10 * g <= 1 ->
  (t * x + 5/10 * g * x + 5/10 * g * a * (t * x + 5/10 * g * x)) * (1 - a) <= x.
Proof.
  intros X G A T S.
  assert (F : 0 <= t * x + 5 / 10 * g * x <= x).
  { split; [|nra]. apply Rplus_le_le_0_compat; [apply Rmult_le_pos; lra|]. apply Rmult_le_pos; lra. }
  set (f := t * x + 5 / 10 * g * x) in *.
  assert (E : (f + 5 / 10 * g * a * f) * (1 - a) <= f); [|lra].
  replace ((f + 5 / 10 * g * a * f) * (1 - a)) with (f * ((1 + 5 / 10 * g * a) * (1 - a))) by ring.
  assert (Q : 5 / 10 * g * a <= a) by nra.
  assert ((1 + 5 / 10 * g * a) * (1 - a) <= (1 + a) * (1 - a)) by (apply Rmult_le_compat_r; lra).
  assert ((1 + a) * (1 - a) <= 1) by nra. nra.
Qed.
Theorem C60_net_shortwave_range lat jd wp th alpha albedo dust : -90 < lat < 90 ->
  0 <= wp -> 0 <= dust <= 1 -> 0 <= albedo <= 1 ->
  0 <= net_shortwave lat jd wp th alpha 0 albedo dust <= et_flux lat jd th.
Proof.
  intros L W D A. unfold net_shortwave.
  assert (N : 0 <= clear_sky lat jd wp th alpha 0 albedo dust) by (apply C60_nonnegative; lra).
  split; [apply Rmult_le_pos; lra|]. rewrite clear_sky_cases.
  pose proof (et_flux_nonneg lat jd th) as E.
  destruct (Rlt_dec _ _); [|lra]. destruct (Rlt_dec _ _); [|lra].
  destruct (C60_level_slope lat jd th alpha L) as [-> _]. unfold diffuse_flux, bs_flux, global_flux, direct_flux, diffuse_flux.
  pose proof (scattering_bound lat jd wp th dust W ltac:(lra)).
  apply backscatter_bound; [exact E|lra|exact A|apply transmissivity_bound|apply fractions_bound; assumption].
Qed.
(** On a slope: at most the flux on the slope plus the flux on level ground. *)
Theorem C60_net_shortwave_slope lat jd wp th alpha beta albedo dust :
  0 <= wp -> 0 <= dust <= 1 -> 0 <= albedo <= 1 ->
  0 <= net_shortwave lat jd wp th alpha beta albedo dust <= et_flux_slope lat jd th alpha beta + et_flux lat jd th.
Proof.
  intros W D A. unfold net_shortwave.
  assert (N : 0 <= clear_sky lat jd wp th alpha beta albedo dust) by (apply C60_nonnegative; lra).
  split; [apply Rmult_le_pos; lra|]. rewrite clear_sky_cases.
  pose proof (et_flux_nonneg lat jd th) as E.
  assert (Es : 0 <= et_flux_slope lat jd th alpha beta) by apply Rmax_r.
  destruct (Rlt_dec _ _); [|lra]. destruct (Rlt_dec _ _); [|lra].
  unfold diffuse_flux, bs_flux, global_flux, direct_flux, diffuse_flux.
  pose proof (scattering_bound lat jd wp th dust W ltac:(lra)) as S.
  pose proof (transmissivity_bound lat jd wp th dust) as T.
  assert (S2 : 0 < scattering lat jd wp th dust <= 2) by lra.
  pose proof (backscatter_bound _ albedo _ _ E S2 A T (fractions_bound lat jd wp th dust W D)) as B.
  set (t := transmissivity lat jd wp th dust) in *. set (s := scattering lat jd wp th dust) in *.
  set (x := et_flux lat jd th) in *. set (y := et_flux_slope lat jd th alpha beta) in *.
  assert (0 <= t * x * (1 - albedo)) by (apply Rmult_le_pos; [apply Rmult_le_pos|]; lra).
  assert (t * y * (1 - albedo) <= y).
  { assert (t * y <= y) by nra. assert (0 <= t * y) by (apply Rmult_le_pos; lra). nra. }
  nra.
Qed.
(** On level ground the radiation is the same as long before noon as after. *)
Theorem C60_symmetric lat jd wp th alpha albedo dust : -90 < lat < 90 ->
  clear_sky lat jd wp (- th) alpha 0 albedo dust = clear_sky lat jd wp th alpha 0 albedo dust.
Proof.
  intro L. destruct (C60_level_slope lat jd th alpha L) as [F1 [S1 S2]].
  destruct (C60_level_slope lat jd (- th) alpha L) as [F2 _].
  destruct (C60_day_course lat jd th ltac:(lra)) as [X _].
  assert (Z : forall d, air_mass lat d (- th) = air_mass lat d th).
  { intro d. unfold air_mass, zenith. rewrite Ropp_mult_distr_r_reverse, cos_neg. reflexivity. }
  assert (Y : transmissivity lat jd wp (- th) dust = transmissivity lat jd wp th dust)
    by (unfold transmissivity; rewrite Z; reflexivity).
  assert (V : scattering lat jd wp (- th) dust = scattering lat jd wp th dust)
    by (unfold scattering; rewrite Z; reflexivity).
  rewrite !clear_sky_cases, S1, S2, F1, F2. unfold diffuse_flux, bs_flux, global_flux, direct_flux, diffuse_flux.
  rewrite Y, V, X, sunrise_sunset. set (k := sunset lat (declination (day_angle jd))).
  destruct (Rlt_dec (- k) (- th)), (Rlt_dec (- th) k), (Rlt_dec (- k) th), (Rlt_dec th k); try lra; reflexivity.
Qed.
Example C60_inputs : -90 < 40 < 90 /\ 0 <= 2 /\ 0 <= dust_default <= 1 /\ 0 <= 2/10 <= 1 /\
  0 < clear_sky 40 (365/2) 2 0 PI (PI/4) (2/10) dust_default.
Proof. unfold dust_default. repeat split; try lra. apply C59_example. Qed.

Print Assumptions C59_daylight.
Print Assumptions C59_day_length_range.
Print Assumptions C59_polar_day.
Print Assumptions C59_polar_night.
Print Assumptions C59_equator.
Print Assumptions C59_no_sun_no_radiation.
Print Assumptions C59_far_from_noon.
Print Assumptions C59_lit_slope.
Print Assumptions C59_midnight_sun_refuted.
Print Assumptions C59_steep_slope_refuted.
Print Assumptions C60_zenith.
Print Assumptions C60_flux_on_level_ground.
Print Assumptions C60_flux_on_slope.
Print Assumptions C60_level_slope.
Print Assumptions C60_day_course.
Print Assumptions C60_nonnegative.
Print Assumptions C60_ground_below_space.
Print Assumptions C60_net_shortwave_range.
Print Assumptions C60_net_shortwave_slope.
Print Assumptions C60_symmetric.
