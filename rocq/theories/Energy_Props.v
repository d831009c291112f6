(** C62: vapour pressures, turbulent fluxes and longwave radiation.  C63: snow albedo. *)
From Coq Require Import Reals ZArith List Bool Lia Lra Psatz.
From Verif Require Import ChanR_Model Energy_Model Energy_Spec Solar_Model Solar_Props.
Import ListNotations.
Local Open Scope R_scope.

(** * C62 *)
Lemma e_sat_pos b T : 0 < e_sat b T.
Proof.
  unfold e_sat. apply Rmult_lt_0_compat; [|lra]. destruct b.
  - apply Rdiv_lt_0_compat; [apply exp_pos|lra].
  - apply Rmult_lt_0_compat; [lra|apply exp_pos].
Qed.
(** Saturation vapour pressure rises with temperature (both formulas). *)
Theorem C62_saturation_increases b T1 T2 : -2373/10 < T1 -> T1 < T2 -> 0 < e_sat b T1 < e_sat b T2.
Proof.
  intros A B. split; [apply e_sat_pos|]. unfold e_sat. apply Rmult_lt_compat_r; [lra|]. destruct b.
  - apply Rmult_lt_compat_r; [lra|]. apply Rpower_lt; [lra|].
    apply Rplus_lt_compat_l. apply Ropp_lt_contravar. apply Rmult_lt_compat_l; [lra|].
    apply Rinv_lt_contravar; [apply Rmult_lt_0_compat; lra|lra].
  - apply Rmult_lt_compat_l; [lra|]. apply exp_increasing.
    replace (173 / 10 * T1 / (T1 + 2373 / 10)) with (173/10 - 173/10 * (2373/10) * / (T1 + 2373/10)) by (field; lra).
    replace (173 / 10 * T2 / (T2 + 2373 / 10)) with (173/10 - 173/10 * (2373/10) * / (T2 + 2373/10)) by (field; lra).
    apply Rplus_lt_compat_l. apply Ropp_lt_contravar. apply Rmult_lt_compat_l; [lra|].
    apply Rinv_lt_contravar; [apply Rmult_lt_0_compat; lra|lra].
Qed.

(** update_dew_point inverts the curve a exp(b T / (c + T)) that it is derived from. *)
Theorem C62_dew_point_inverse e : 0 < e -> e < 61121/10000 * exp (18678/1000) ->
  let Td := dew_point e in 61121/10000 * exp (18678/1000 * Td / (25714/100 + Td)) = e.
Proof.
  intros P Q Td. unfold Td, dew_point. cbv zeta. set (l := ln (e / (61121 / 10000))).
  assert (L : l < 18678/1000).
  { unfold l. rewrite <- (ln_exp (18678/1000)). apply ln_increasing; [apply Rdiv_lt_0_compat; lra|].
    apply (Rmult_lt_reg_l (61121/10000)); [lra|]. replace (61121 / 10000 * (e / (61121 / 10000))) with e by field. exact Q. }
  replace (18678 / 1000 * (25714 / 100 * l / (18678 / 1000 - l)) / (25714 / 100 + 25714 / 100 * l / (18678 / 1000 - l)))
    with l by (field; repeat split; lra).
  unfold l. rewrite exp_ln by (apply Rdiv_lt_0_compat; lra). field.
Qed.
Lemma dew_le e T : ln (e / (61121/10000)) < 18678/1000 -> -25714/100 < T ->
  (dew_point e <= T <-> ln (e / (61121/10000)) <= 18678/1000 * T / (25714/100 + T)).
Proof.
  intros L H. unfold dew_point. cbv zeta. set (l := ln (e / (61121 / 10000))) in *.
  assert (A : dew_point e = 25714 / 100 * l / (18678 / 1000 - l)) by reflexivity.
  split; intro K.
  - apply (Rmult_le_compat_r (18678 / 1000 - l)) in K; [|lra].
    replace (25714 / 100 * l / (18678 / 1000 - l) * (18678 / 1000 - l)) with (25714/100 * l) in K by (field; lra).
    apply (Rmult_le_reg_r (25714/100 + T)); [lra|].
    replace (18678 / 1000 * T / (25714 / 100 + T) * (25714 / 100 + T)) with (18678/1000 * T) by (field; lra). lra.
  - apply (Rmult_le_compat_r (25714/100 + T)) in K; [|lra].
    replace (18678 / 1000 * T / (25714 / 100 + T) * (25714 / 100 + T)) with (18678/1000 * T) in K by (field; lra).
    apply (Rmult_le_reg_r (18678 / 1000 - l)); [lra|].
    replace (25714 / 100 * l / (18678 / 1000 - l) * (18678 / 1000 - l)) with (25714/100 * l) by (field; lra). lra.
Qed.
Lemma ln_le_minus x : 0 < x -> ln x <= x - 1.
Proof.
  intro H. destruct (Req_dec (ln x) 0) as [Z|Z].
  - rewrite Z. apply Rnot_lt_le. intro K. assert (ln x < ln 1) by (apply ln_increasing; lra). rewrite ln_1 in H0. lra.
  - pose proof (exp_ineq1 (ln x) Z) as E. rewrite exp_ln in E by exact H. lra.
Qed.
Lemma ln_brutsaert RH T : 0 < RH ->
  ln (vapor_pressure RH (e_sat false T) / (61121/10000)) = ln RH + ln (611/100 / (61121/10000)) + 173/10 * T / (T + 2373/10).
Proof.
  intro H. unfold vapor_pressure, e_sat.
  replace (RH * (611 / 1000 * exp (173 / 10 * T / (T + 2373 / 10)) * 10) / (61121 / 10000))
    with (RH * (611/100 / (61121/10000)) * exp (173 / 10 * T / (T + 2373 / 10))) by field.
  rewrite ln_mult; [|apply Rmult_lt_0_compat; lra|apply exp_pos]. rewrite ln_mult by lra. rewrite ln_exp. reflexivity.
Qed.
Lemma brutsaert_bounded T : -2373/10 < T -> 173/10 * T / (T + 2373/10) < 173/10.
Proof.
  intro H. apply (Rmult_lt_reg_r (T + 2373/10)); [lra|].
  replace (173 / 10 * T / (T + 2373 / 10) * (T + 2373 / 10)) with (173/10 * T) by (field; lra). lra.
Qed.
Lemma ln_RH RH : 0 < RH <= 1 -> ln RH <= 0.
Proof. intro H. pose proof (ln_le_minus RH ltac:(lra)). lra. Qed.
Lemma ln_const : 1 - (61121/10000) / (611/100) <= ln (611/100 / (61121/10000)) <= 611/100 / (61121/10000) - 1.
Proof.
  split; [|apply ln_le_minus; lra].
  pose proof (ln_le_minus ((61121/10000) / (611/100)) ltac:(lra)) as A.
  assert (ln (611 / 100 / (61121 / 10000)) = - ln (61121 / 10000 / (611 / 100))).
  { rewrite <- ln_Rinv by lra. f_equal. field. }
  lra.
Qed.

(** The dew point is not above the air temperature (default formula) unless the air is all but saturated. *)
Theorem C62_dew_point_below_air RH T : -2373/10 < T -> 0 < RH <= 999/1000 ->
  dew_point (vapor_pressure RH (e_sat false T)) <= T.
Proof.
  intros HT HR. pose proof (ln_le_minus RH ltac:(lra)) as LR. pose proof ln_const as LC.
  pose proof (brutsaert_bounded T HT) as B. apply dew_le; [rewrite ln_brutsaert by lra; lra|lra|].
  rewrite ln_brutsaert by lra.
  assert (D : 173 / 10 * T / (T + 2373 / 10) - 18678 / 1000 * T / (25714 / 100 + T)
              = T * (162326/10000 - 1378/1000 * T) / ((T + 2373/10) * (25714/100 + T))) by (field; lra).
  assert (K : T * (162326/10000 - 1378/1000 * T) / ((T + 2373/10) * (25714/100 + T)) <= 8/10000).
  { assert (P : 0 < (T + 2373/10) * (25714/100 + T)) by (apply Rmult_lt_0_compat; lra).
    apply (Rmult_le_reg_r ((T + 2373/10) * (25714/100 + T))); [exact P|].
    replace (T * (162326 / 10000 - 1378 / 1000 * T) / ((T + 2373 / 10) * (25714 / 100 + T)) * ((T + 2373 / 10) * (25714 / 100 + T)))
      with (T * (162326 / 10000 - 1378 / 1000 * T)) by (field; lra).
    destruct (Rle_lt_dec T 0) as [N|N].
    { assert (0 <= (- T) * (162326 / 10000 - 1378 / 1000 * T)) by (apply Rmult_le_pos; lra). lra. }
    assert (T * (162326 / 10000 - 1378 / 1000 * T) <= 479/10).
    { pose proof (Rle_0_sqr (T - 589/100)) as S. unfold Rsqr in S. lra. }
    assert (61000 <= (T + 2373 / 10) * (25714 / 100 + T)).
    { assert (0 <= T * T) by (apply Rmult_le_pos; lra). lra. }
    lra. }
  lra.
Qed.
(** At saturation it can be above: the two formulas have different constants. *)
Theorem C62_dew_point_below_air_refuted :
  ~ (forall RH T, -2373/10 < T -> 0 < RH <= 1 -> dew_point (vapor_pressure RH (e_sat false T)) <= T).
Proof.
  intro H. specialize (H 1 5 ltac:(lra) ltac:(lra)). pose proof ln_const as LC.
  apply dew_le in H; [|rewrite ln_brutsaert, ln_1 by lra; lra|lra].
  rewrite ln_brutsaert, ln_1 in H by lra. lra.
Qed.
(** It rises with the humidity. *)
Theorem C62_dew_point_humidity T RH1 RH2 : -2373/10 < T -> 0 < RH1 -> RH1 < RH2 <= 1 ->
  dew_point (vapor_pressure RH1 (e_sat false T)) < dew_point (vapor_pressure RH2 (e_sat false T)).
Proof.
  intros HT H1 H2. pose proof (brutsaert_bounded T HT) as B. pose proof ln_const as LC.
  pose proof (ln_RH RH2 ltac:(lra)) as R2. assert (L : ln RH1 < ln RH2) by (apply ln_increasing; lra).
  unfold dew_point. cbv zeta. rewrite !ln_brutsaert by lra.
  set (l1 := ln RH1 + _ + _). set (l2 := ln RH2 + _ + _).
  assert (A : l1 < l2) by (unfold l1, l2; lra). assert (C : l2 < 18678/1000) by (unfold l2; lra).
  replace (25714 / 100 * l1 / (18678 / 1000 - l1)) with (25714/100 * (18678/1000) * / (18678/1000 - l1) - 25714/100) by (field; lra).
  replace (25714 / 100 * l2 / (18678 / 1000 - l2)) with (25714/100 * (18678/1000) * / (18678/1000 - l2) - 25714/100) by (field; lra).
  apply Rplus_lt_compat_r. apply Rmult_lt_compat_l; [lra|]. apply Rinv_lt_contravar; [apply Rmult_lt_0_compat; lra|lra].
Qed.

(** The surface of snow and ice is not warmer than 0 degrees, nor than the dew point; where the temperature of
    the surface is a time series or a sequence of grids, it is used as given. *)
Theorem C62_frozen_surface t T_surf T_dew h_snow h_ice : is_fixed t = true -> 0 < h_snow \/ 0 < h_ice ->
  surface_temp t T_surf T_dew h_snow h_ice <= 0 /\ surface_temp t T_surf T_dew h_snow h_ice <= T_dew.
Proof.
  intros F H. unfold surface_temp. rewrite F. pose proof (Rmin_l T_dew 0). pose proof (Rmin_r T_dew 0).
  destruct (Rlt_dec 0 h_snow); [lra|]. destruct (Rlt_dec 0 h_ice); lra.
Qed.
Theorem C62_given_surface_series T_surf T_dew h_snow h_ice :
  surface_temp Time_Series T_surf T_dew h_snow h_ice = T_surf /\
  surface_temp Grid_Sequence T_surf T_dew h_snow h_ice = T_surf.
Proof. split; reflexivity. Qed.
(** A single number or a grid given by the user is not used. *)
Theorem C62_given_surface_temperature_refuted :
  ~ (forall t T_surf T_dew, surface_temp t T_surf T_dew 0 0 = T_surf).
Proof.
  intro H. specialize (H Scalar 1 0). unfold surface_temp in H. cbn [is_fixed] in H.
  destruct (Rlt_dec 0 0); lra.
Qed.

(** ** Turbulent fluxes *)
Lemma neutral_pos c : sound_cell c -> 0 < neutral_conductance (c_uz c) (c_z c) (c_hsnow c) (c_z0 c).
Proof.
  intros (A & B & _ & U & _). unfold neutral_conductance. cbv zeta.
  assert (0 < ln ((c_z c - c_hsnow c) / c_z0 c)).
  { rewrite <- ln_1. apply ln_increasing; [lra|]. apply (Rmult_lt_reg_r (c_z0 c)); [lra|].
    replace ((c_z c - c_hsnow c) / c_z0 c * c_z0 c) with (c_z c - c_hsnow c) by (field; lra). lra. }
  assert (0 < von_karman / ln ((c_z c - c_hsnow c) / c_z0 c)) by (apply Rdiv_lt_0_compat; [unfold von_karman; lra|lra]).
  apply Rmult_lt_0_compat; [exact U|]. apply Rmult_lt_0_compat; assumption.
Qed.
Lemma richardson_sign c : sound_cell c ->
  let Ri := richardson (c_z c) (c_uz c) (c_Tair c) (c_Tsurf c) in
  (0 < Ri <-> c_Tsurf c < c_Tair c) /\ (Ri = 0 <-> c_Tair c = c_Tsurf c).
Proof.
  intros (_ & _ & Z & U & T). unfold richardson. cbv zeta.
  set (k := gravity * c_z c / (c_uz c * c_uz c * (c_Tair c + 27315/100))).
  assert (D : 0 < c_uz c * c_uz c * (c_Tair c + 27315/100)).
  { apply Rmult_lt_0_compat; [apply Rmult_lt_0_compat; assumption|lra]. }
  assert (K : 0 < k). { unfold k, gravity. apply Rdiv_lt_0_compat; [|exact D]. apply Rmult_lt_0_compat; lra. }
  assert (E : gravity * c_z c * (c_Tair c - c_Tsurf c) / (c_uz c * c_uz c * (c_Tair c + 27315/100)) = k * (c_Tair c - c_Tsurf c)).
  { unfold k. field. repeat split; lra. }
  rewrite E. split; split; intro H; nra.
Qed.

(** A sound cell (wind, instrument above the snow): the conductance is positive, damped in stable air, enhanced
    in unstable air and neutral at equal temperatures, and the sensible heat flows from the warm to the cold
    side. *)
Theorem C62_sensible_heat c : sound_cell c ->
  let Dn := neutral_conductance (c_uz c) (c_z c) (c_hsnow c) (c_z0 c) in
  exists Dh, heat_conductance (c_z c) (c_uz c) (c_hsnow c) (c_z0 c) (c_Tair c) (c_Tsurf c) = Some Dh /\ 0 < Dh /\
    (c_Tsurf c < c_Tair c -> Dh < Dn /\ 0 < sensible_flux Dh (c_Tair c) (c_Tsurf c)) /\
    (c_Tair c < c_Tsurf c -> Dn < Dh /\ sensible_flux Dh (c_Tair c) (c_Tsurf c) < 0) /\
    (c_Tair c = c_Tsurf c -> Dh = Dn /\ sensible_flux Dh (c_Tair c) (c_Tsurf c) = 0).
Proof.
  intros S Dn. pose proof (neutral_pos c S) as N. fold Dn in N. destruct (richardson_sign c S) as [R1 R2].
  unfold heat_conductance. cbv zeta. fold Dn. set (Ri := richardson _ _ _ _) in *.
  assert (U : c_uz c <> 0) by (destruct S as (_ & _ & _ & U & _); lra).
  destruct (Req_EM_T (c_uz c) 0) as [X|_]; [contradiction|].
  assert (F : forall Dh, sensible_flux Dh (c_Tair c) (c_Tsurf c) = (rho_air * Cp_air) * (Dh * (c_Tair c - c_Tsurf c)))
    by (intro; unfold sensible_flux; ring).
  assert (P : 0 < rho_air * Cp_air) by (unfold rho_air, Cp_air; lra).
  destruct (Rlt_dec 0 Ri) as [H|H].
  - exists (Dn / (1 + 10 * Ri)). assert (Dp : 0 < Dn / (1 + 10 * Ri)) by (apply Rdiv_lt_0_compat; lra).
    split; [reflexivity|]. split; [exact Dp|]. rewrite F. repeat split.
    + apply (Rmult_lt_reg_r (1 + 10 * Ri)); [lra|]. replace (Dn / (1 + 10 * Ri) * (1 + 10 * Ri)) with Dn by (field; lra). nra.
    + apply Rmult_lt_0_compat; [exact P|]. apply Rmult_lt_0_compat; lra.
    + apply R1 in H. lra.
    + apply R1 in H. lra.
    + apply R2 in H0. lra.
    + apply R2 in H0. lra.
  - exists (Dn * (1 - 10 * Ri)). assert (Dp : 0 < Dn * (1 - 10 * Ri)) by nra.
    split; [reflexivity|]. split; [exact Dp|]. rewrite F. repeat split.
    + apply R1 in H0. lra.
    + apply R1 in H0. lra.
    + assert (Ri <> 0) by (intro Z; apply R2 in Z; lra). nra.
    + assert (0 < Dn * (1 - 10 * Ri) * (c_Tsurf c - c_Tair c)) by (apply Rmult_lt_0_compat; lra). nra.
    + apply R2 in H0. rewrite H0. ring.
    + rewrite H0. ring.
Qed.
(** The shortcut for equal temperatures makes no difference: each cell of a grid gets what it would get alone. *)
Theorem C62_grid_is_cellwise l : Forall sound_cell l ->
  conductances l = map (fun c => heat_conductance (c_z c) (c_uz c) (c_hsnow c) (c_z0 c) (c_Tair c) (c_Tsurf c)) l.
Proof.
  intro H. unfold conductances. destruct (same_temps l) eqn:E; [|reflexivity].
  apply map_ext_in. intros c I. unfold same_temps in E. rewrite forallb_forall in E. specialize (E c I).
  destruct (Req_EM_T (c_Tair c) (c_Tsurf c)) as [T|]; [|discriminate].
  destruct (C62_sensible_heat c (proj1 (Forall_forall _ _) H c I)) as (Dh & A & _ & _ & _ & B).
  rewrite A. destruct (B T) as [-> _]. reflexivity.
Qed.
Example C62_a_cell : sound_cell (mkcell 10 2 1 (1/100) 5 (-3)).
Proof. unfold sound_cell; cbn. repeat split; lra. Qed.
(** Calm air: no wind, no exchange -- false, the result is not a number where the surface is warmer, and where
    the temperatures are equal it depends on the other cells. *)
Theorem C62_calm_air_refuted :
  ~ (forall l c, Forall (fun c => 0 < c_z0 c /\ c_z0 c < c_z c - c_hsnow c /\ 0 < c_z c /\ c_uz c = 0) l ->
       In c l -> In (Some 0) (conductances l) /\ ~ In None (conductances l)).
Proof.
  intro H. specialize (H [mkcell 10 0 1 (1/100) 5 6] (mkcell 10 0 1 (1/100) 5 6)).
  destruct H as [H _]; [constructor; [cbn; repeat split; lra|constructor]|left; reflexivity|].
  unfold conductances, same_temps, heat_conductance in H. cbn [forallb map c_Tair c_Tsurf c_uz c_z c_hsnow c_z0] in H.
  destruct (Req_EM_T 5 6); [lra|]. cbn [andb] in H. destruct (Req_EM_T 0 0); [|lra].
  destruct (Rlt_dec 6 5); [lra|]. destruct H as [H|[]]. discriminate H.
Qed.

(** Latent heat: the surface gets the humidity of the air, so the flux follows the temperature difference. *)
Theorem C62_latent_heat b RH De p0 T_air T_surf : 0 < RH -> 0 < De -> 0 < p0 ->
  -2373/10 < T_air -> -2373/10 < T_surf ->
  let Qe := latent_flux De (vapor_pressure RH (e_sat b T_air)) (vapor_pressure RH (e_sat b T_surf)) p0 in
  (T_surf < T_air -> 0 < Qe) /\ (T_air < T_surf -> Qe < 0) /\ (T_air = T_surf -> Qe = 0).
Proof.
  intros R D P A S Qe.
  set (k := rho_air * Lv * De * (latent_heat_constant / p0) * RH).
  assert (K : 0 < k).
  { unfold k. apply Rmult_lt_0_compat; [|exact R]. apply Rmult_lt_0_compat.
    - apply Rmult_lt_0_compat; [unfold rho_air, Lv; lra|exact D].
    - apply Rdiv_lt_0_compat; [unfold latent_heat_constant; lra|exact P]. }
  assert (E : Qe = k * (e_sat b T_air - e_sat b T_surf)) by (unfold Qe, latent_flux, vapor_pressure, k; ring).
  rewrite E. repeat split; intro H.
  - pose proof (C62_saturation_increases b T_surf T_air S H). nra.
  - pose proof (C62_saturation_increases b T_air T_surf A H). nra.
  - rewrite H. ring.
Qed.
(** So dry air over a wet surface of the same temperature takes up no vapour. *)
Theorem C62_dry_air_takes_vapour_refuted :
  ~ (forall b RH De p0 T_air T_surf, 0 < RH < 1 -> 0 < De -> 0 < p0 -> -2373/10 < T_air -> T_air <= T_surf ->
       latent_flux De (vapor_pressure RH (e_sat b T_air)) (vapor_pressure RH (e_sat b T_surf)) p0 < 0).
Proof.
  intro H. specialize (H false (1/2) 1 1000 10 10 ltac:(lra) ltac:(lra) ltac:(lra) ltac:(lra) ltac:(lra)).
  destruct (C62_latent_heat false (1/2) 1 1000 10 10 ltac:(lra) ltac:(lra) ltac:(lra) ltac:(lra) ltac:(lra)) as (_ & _ & E).
  cbv zeta in E. rewrite E in H by reflexivity. lra.
Qed.

(** ** Longwave radiation *)
Theorem C62_emissivity_positive b T_air e_air canopy cloud : -27315/100 < T_air -> 0 < e_air -> 0 <= canopy <= 1 ->
  0 < em_air b T_air e_air canopy cloud /\ (b = true -> em_air b T_air e_air canopy cloud < 108/100).
Proof.
  intros T E C. unfold em_air. cbv zeta. destruct b.
  - assert (P : 0 < powr e_air ((T_air + C_to_K) / 2016)).
    { unfold powr. destruct (Rle_dec e_air 0); [lra|]. apply exp_pos. }
    assert (0 < exp (- (1) * powr e_air ((T_air + C_to_K) / 2016)) < 1).
    { split; [apply exp_pos|]. rewrite <- exp_0 at 2. apply exp_increasing. lra. }
    split; [lra|]. intros _. lra.
  - split; [|discriminate].
    assert (Q : 0 < e_air / 10 / (T_air + C_to_K)).
    { apply Rdiv_lt_0_compat; [lra|]. unfold C_to_K. lra. }
    assert (P : 0 < powr (e_air / 10 / (T_air + C_to_K)) (1 / 7)).
    { unfold powr. destruct (Rle_dec _ 0); [lra|]. apply exp_pos. }
    set (p := powr _ _) in *. assert (S : 0 <= cloud ^ 2) by (apply pow2_ge_0). set (q := cloud ^ 2) in *.
    assert (X : 0 < p * (1 + 22 / 100 * q)) by (apply Rmult_lt_0_compat; lra).
    destruct (Req_dec canopy 1) as [->|Nc]; [nra|].
    assert (0 < (1 - canopy) * (172 / 100) * (p * (1 + 22 / 100 * q))) by (apply Rmult_lt_0_compat; [lra|exact X]). lra.
Qed.
(** Moister air emits more, up to a full canopy, whose emissivity is 1 whatever the air. *)
Theorem C62_emissivity_vapour b T_air e e' canopy cloud : -27315/100 < T_air -> 0 < e < e' -> 0 <= canopy < 1 ->
  em_air b T_air e canopy cloud < em_air b T_air e' canopy cloud.
Proof.
  intros T E C. assert (LT : forall x y q, 0 < x < y -> 0 < q -> powr x q < powr y q).
  { intros x y q H Hq. unfold powr. destruct (Rle_dec x 0); [lra|]. destruct (Rle_dec y 0); [lra|]. unfold Rpower. apply exp_increasing.
    apply Rmult_lt_compat_l; [exact Hq|]. apply ln_increasing; lra. }
  assert (K : 0 < T_air + C_to_K) by (unfold C_to_K; lra). unfold em_air. cbv zeta. destruct b.
  - assert (powr e ((T_air + C_to_K) / 2016) < powr e' ((T_air + C_to_K) / 2016)) by (apply LT; lra).
    assert (exp (- (1) * powr e' ((T_air + C_to_K) / 2016)) < exp (- (1) * powr e ((T_air + C_to_K) / 2016))) by (apply exp_increasing; lra). lra.
  - assert (I : 0 < / (T_air + C_to_K)) by (apply Rinv_0_lt_compat; exact K).
    assert (P : powr (e / 10 / (T_air + C_to_K)) (1 / 7) < powr (e' / 10 / (T_air + C_to_K)) (1 / 7)).
    { apply LT; [|lra]. split; [apply Rmult_lt_0_compat; lra|]. apply Rmult_lt_compat_r; lra. }
    set (p := powr _ _) in *. set (p' := powr (e' / 10 / _) _) in *. assert (S : 0 <= cloud ^ 2) by (apply pow2_ge_0). set (q := cloud ^ 2) in *.
    assert (0 < (1 - canopy) * (172 / 100) * (1 + 22 / 100 * q) * (p' - p)) by (apply Rmult_lt_0_compat; [apply Rmult_lt_0_compat|]; lra). nra.
Qed.
Theorem C62_emissivity_canopy T_air e_air canopy cloud :
  em_air false T_air e_air 1 cloud = 1 /\
  em_air false T_air e_air canopy cloud = (1 - canopy) * em_air false T_air e_air 0 cloud + canopy * 1 /\
  em_air false T_air e_air 0 1 = (122/100) * em_air false T_air e_air 0 0.
Proof. unfold em_air. cbv zeta. split; [ring|]. split; [ring|field]. Qed.
(** An emissivity is at most one -- false under an overcast sky. *)
Theorem C62_emissivity_below_one_refuted :
  ~ (forall T_air e_air canopy cloud, -27315/100 < T_air -> 0 < e_air -> 0 <= canopy <= 1 -> 0 <= cloud <= 1 ->
       em_air false T_air e_air canopy cloud <= 1).
Proof.
  intro H. specialize (H 30 40 0 1 ltac:(lra) ltac:(lra) ltac:(lra) ltac:(lra)).
  unfold em_air, C_to_K in H. cbv zeta in H.
  assert (P : 1/2 <= powr (40 / 10 / (30 + 27315 / 100)) (1 / 7)).
  { unfold powr. destruct (Rle_dec _ 0) as [Z|_]; [exfalso; lra|].
    assert (E : Rpower ((1/2) ^ 7) (1/7) = 1/2).
    { rewrite <- Rpower_pow by lra. rewrite Rpower_mult. replace (INR 7 * (1 / 7)) with 1 by (simpl; field).
      apply Rpower_1. lra. }
    rewrite <- E at 1. apply Rle_Rpower_l; [lra|]. simpl. lra. }
  lra.
Qed.
(** Net longwave radiation is what the surface absorbs of the sky's radiation minus what it emits. *)
Theorem C62_net_longwave em_a em_s T_air T_surf :
  net_longwave em_a em_s T_air T_surf
  = em_s * (em_a * sigma * (T_air + 27315/100) ^ 4) - em_s * (sigma * (T_surf + 27315/100) ^ 4).
Proof. unfold net_longwave, C_to_K. cbv zeta. ring. Qed.
Theorem C62_longwave_sign em_a em_s T_air T_surf : 0 < em_s ->
  (0 < net_longwave em_a em_s T_air T_surf <-> (T_surf + 27315/100) ^ 4 < em_a * (T_air + 27315/100) ^ 4).
Proof.
  intro E. rewrite C62_net_longwave. assert (S : 0 < sigma) by (unfold sigma; lra).
  set (x := (T_surf + 27315 / 100) ^ 4). set (y := (T_air + 27315 / 100) ^ 4).
  replace (em_s * (em_a * sigma * y) - em_s * (sigma * x)) with (em_s * sigma * (em_a * y - x)) by ring.
  assert (K : 0 < em_s * sigma) by (apply Rmult_lt_0_compat; assumption). split; intro H; nra.
Qed.

(** * C63 *)
Lemma put_last_roll w v : w <> [] -> put_last (roll w) v = Some (tl w ++ [v]).
Proof.
  intro N. destruct w as [|a l]; [contradiction|]. cbn [roll tl]. unfold put_last.
  destruct (l ++ [a]) as [|x y] eqn:E; [destruct l; discriminate|]. rewrite <- E, removelast_last. reflexivity.
Qed.

(** What the window holds after the snowfalls [l]: the last ones, and zeros before the first. *)
Definition recent (k : nat) (l : list R) : list R := skipn (length l) (repeat 0 k ++ l).
Lemma recent_step k l a : (0 < k)%nat -> tl (recent k l) ++ [a] = recent k (l ++ [a]).
Proof.
  intro K. unfold recent. rewrite app_length, app_assoc. cbn [length]. rewrite Nat.add_1_r.
  assert (L : length (repeat 0 k ++ l) = (k + length l)%nat) by (rewrite app_length, repeat_length; reflexivity).
  set (m := repeat 0 k ++ l) in *. rewrite skipn_app.
  replace (S (length l) - length m)%nat with 0%nat by lia. cbn [skipn]. f_equal.
  clear -L K. assert (H : (length l < length m)%nat) by lia. revert H. generalize (length l) as n. generalize m as q.
  induction q as [|x q IH]; intros n H; [cbn in H; lia|]. destruct n as [|n]; [reflexivity|].
  cbn [skipn]. apply IH. cbn [length] in H. lia.
Qed.
Lemma rsum_app a b : rsum (a ++ b) = rsum a + rsum b.
Proof. unfold rsum. induction a as [|x a IH]; cbn [app fold_right]; [ring|]. rewrite IH. ring. Qed.
Lemma rsum_zeros k : rsum (repeat 0 k) = 0.
Proof. unfold rsum. induction k as [|k IH]; [reflexivity|]. cbn [repeat fold_right]. rewrite IH. ring. Qed.
Lemma recent_sum k l : rsum (recent k l) = last_sum k l.
Proof.
  unfold recent, last_sum. rewrite skipn_app, repeat_length, rsum_app.
  assert (E : rsum (skipn (length l) (repeat 0 k)) = 0).
  { pose proof (rsum_app (firstn (length l) (repeat 0 k)) (skipn (length l) (repeat 0 k))) as A.
    rewrite firstn_skipn, rsum_zeros in A.
    assert (rsum (firstn (length l) (repeat 0 k)) = 0); [|lra].
    clear A. generalize (length l) as n. induction k as [|k IH]; intro n; [destruct n; reflexivity|].
    destruct n; [reflexivity|]. cbn [repeat firstn rsum fold_right]. unfold rsum in IH. rewrite IH. ring. }
  rewrite E. unfold rsum. ring.
Qed.
Lemma recent_nonempty k l : (0 < k)%nat -> recent k l <> [].
Proof.
  intros K E. apply (f_equal (@length R)) in E. unfold recent in E.
  rewrite skipn_length, app_length, repeat_length in E. cbn in E. lia.
Qed.

Lemma albedo_run_app t dt rho s l m :
  albedo_run t dt rho s (l ++ m) = match albedo_run t dt rho s l with Some s' => albedo_run t dt rho s' m | None => None end.
Proof.
  revert s. induction l as [|w l IH]; intro s; [reflexivity|]. cbn [app albedo_run].
  destruct (update_albedo t dt rho s w); [apply IH|reflexivity].
Qed.
Lemma update_inv t dt rho s w : is_fixed t = true -> window s <> [] ->
  exists s', update_albedo t dt rho s w = Some s' /\ window s' = tl (window s) ++ [snowfall dt rho w] /\
    (3/100 <= rsum (window s') -> age s' = 0) /\ (rsum (window s') < 3/100 -> age s' = age s + dt / 86400) /\
    albedo s' = (if Rlt_dec 0 (w_hsnow w) then 4/10 + 44/100 * exp (- age s' * (if Rlt_dec 0 (w_Tair w) then 12/100 else 5/100))
                 else if Req_EM_T (w_hsnow w) 0 then
                        if Req_EM_T (w_hice w) 0 then 15/100 else if Rlt_dec 0 (w_hice w) then 3/10 else albedo s
                      else albedo s).
Proof.
  intros F N. unfold update_albedo. rewrite F, put_last_roll by exact N. eexists. split; [reflexivity|].
  cbn [window age albedo]. split; [reflexivity|]. fold (snowfall dt rho w).
  set (total := rsum (tl (window s) ++ [snowfall dt rho w])).
  split; [|split].
  - intro H. destruct (Rge_dec total (3/100)); [|lra]. destruct (Rlt_dec total (3/100)); lra.
  - intro H. destruct (Rge_dec total (3/100)); [lra|]. destruct (Rlt_dec total (3/100)); lra.
  - destruct (Rlt_dec 0 (w_hsnow w)) as [A|A].
    + destruct (Req_EM_T (w_hsnow w) 0); [lra|]. reflexivity.
    + destruct (Req_EM_T (w_hsnow w) 0); [|reflexivity].
      destruct (Req_EM_T (w_hice w) 0); [reflexivity|]. destruct (Rlt_dec 0 (w_hice w)); reflexivity.
Qed.

Lemma C63_age_window t dt rho albedo0 ws : is_fixed t = true -> 0 < dt <= 259200 ->
  let k := Z.to_nat (Int_part (259200 / dt)) in (0 < k)%nat /\
  exists s n, albedo_run t dt rho (initial_age dt albedo0) ws = Some s /\
    since k (map (snowfall dt rho) ws) n /\ age s = INR n * (dt / 86400) /\
    window s = recent k (map (snowfall dt rho) ws).
Proof.
  intros F D k.
  assert (K : (0 < k)%nat).
  { unfold k. destruct (base_Int_part (259200 / dt)) as [_ B].
    assert (1 <= 259200 / dt).
    { apply (Rmult_le_reg_r dt); [lra|]. replace (259200 / dt * dt) with 259200 by (field; lra). lra. }
    assert (IZR 0 < IZR (Int_part (259200 / dt))) by lra. apply lt_IZR in H0. lia. }
  split; [exact K|].
  induction ws as [|w ws IH] using rev_ind.
  - exists (initial_age dt albedo0), 0%nat. repeat split; [constructor|cbn; ring|].
    unfold initial_age, recent, window_size. cbn [window map length skipn]. rewrite app_nil_r. reflexivity.
  - destruct IH as (s & n & A & B & C & W).
    destruct (update_inv t dt rho s w F ltac:(rewrite W; apply recent_nonempty, K)) as (s' & U & Wi & G1 & G2 & _).
    rewrite W, recent_step in Wi by exact K.
    rewrite albedo_run_app, A. cbn [albedo_run]. rewrite U. rewrite map_app. cbn [map].
    assert (E : rsum (window s') = last_sum k (map (snowfall dt rho) ws ++ [snowfall dt rho w])) by (rewrite Wi; apply recent_sum).
    rewrite E in G1, G2.
    destruct (Rle_lt_dec (3/100) (last_sum k (map (snowfall dt rho) ws ++ [snowfall dt rho w]))) as [H|H].
    + exists s', 0%nat. repeat split; [constructor; exact H|rewrite (G1 H); cbn; ring|exact Wi].
    + exists s', (S n). repeat split; [constructor; [exact H|exact B]| |exact Wi].
      rewrite (G2 H), C, S_INR. ring.
Qed.

(** Any history of weather: the run does not fail, and the age of the snow is the time since the snowfall of
    the last three days reached three centimetres. *)
Theorem C63_age_of_snow t dt rho albedo0 ws : is_fixed t = true -> 0 < dt <= 259200 ->
  exists s n, albedo_run t dt rho (initial_age dt albedo0) ws = Some s /\
    since (Z.to_nat (Int_part (259200 / dt))) (map (snowfall dt rho) ws) n /\ age s = INR n * (dt / 86400).
Proof.
  intros F D. destruct (C63_age_window t dt rho albedo0 ws F D) as (_ & s & n & A & B & C & _). exists s, n. repeat split; assumption.
Qed.

(** After any step the albedo is that of the surface: snow between 0.4 and 0.84, ice 0.3, ground 0.15. *)
Theorem C63_albedo_values t dt rho albedo0 ws w s s' : is_fixed t = true -> 0 < dt <= 259200 ->
  albedo_run t dt rho (initial_age dt albedo0) ws = Some s -> update_albedo t dt rho s w = Some s' ->
  0 <= w_hsnow w -> 0 <= w_hice w ->
  (0 < w_hsnow w -> 4/10 < albedo s' <= 84/100) /\
  (w_hsnow w = 0 -> 0 < w_hice w -> albedo s' = 3/10) /\
  (w_hsnow w = 0 -> w_hice w = 0 -> albedo s' = 15/100) /\
  15/100 <= albedo s' <= 84/100.
Proof.
  intros F D R U Hs Hi.
  destruct (C63_age_of_snow t dt rho albedo0 (ws ++ [w]) F D) as (s2 & n & A & _ & C).
  rewrite albedo_run_app, R in A. cbn [albedo_run] in A. rewrite U in A. injection A as <-.
  assert (N : 0 <= age s'). { rewrite C. apply Rmult_le_pos; [apply pos_INR|]. apply Rlt_le, Rdiv_lt_0_compat; lra. }
  assert (W : window s <> []).
  { intro Z. unfold update_albedo in U. rewrite F, Z in U. discriminate U. }
  destruct (update_inv t dt rho s w F W) as (s3 & U' & _ & _ & _ & E). rewrite U in U'. injection U' as <-.
  assert (X : 0 < exp (- age s' * (if Rlt_dec 0 (w_Tair w) then 12 / 100 else 5 / 100)) <= 1).
  { split; [apply exp_pos|]. set (r := if Rlt_dec 0 (w_Tair w) then 12 / 100 else 5 / 100).
    assert (0 < r) by (unfold r; destruct (Rlt_dec 0 (w_Tair w)); lra).
    rewrite <- exp_0. destruct (Req_dec (age s') 0) as [Z|Z]; [rewrite Z; right; f_equal; ring|].
    left. apply exp_increasing. nra. }
  set (x := exp _) in *. rewrite E.
  destruct (Rlt_dec 0 (w_hsnow w)) as [H|H]; [repeat split; intros; lra|].
  destruct (Req_EM_T (w_hsnow w) 0) as [H0|H0]; [|lra].
  destruct (Req_EM_T (w_hice w) 0) as [H1|H1]; [repeat split; intros; lra|].
  destruct (Rlt_dec 0 (w_hice w)); repeat split; intros; lra.
Qed.

(** Fresh snow is brightest; without new snow, and while it stays on the same side of the freezing point, snow
    gets darker with every step. *)
Theorem C63_snow_darkens t dt rho albedo0 ws w s1 w1 s2 : is_fixed t = true -> 0 < dt <= 259200 ->
  albedo_run t dt rho (initial_age dt albedo0) (ws ++ [w]) = Some s1 ->
  albedo_run t dt rho (initial_age dt albedo0) (ws ++ [w; w1]) = Some s2 ->
  0 < w_hsnow w -> 0 < w_hsnow w1 -> (0 < w_Tair w <-> 0 < w_Tair w1) ->
  last_sum (Z.to_nat (Int_part (259200 / dt))) (map (snowfall dt rho) (ws ++ [w; w1])) < 3/100 ->
  albedo s2 < albedo s1.
Proof.
  intros F D R1 R2 H1 H2 T A.
  destruct (C63_age_of_snow t dt rho albedo0 (ws ++ [w]) F D) as (x1 & n1 & A1 & S1 & C1).
  rewrite R1 in A1. injection A1 as <-.
  assert (N1 : 0 <= age s1). { rewrite C1. apply Rmult_le_pos; [apply pos_INR|]. apply Rlt_le, Rdiv_lt_0_compat; lra. }
  change [w; w1] with ([w] ++ [w1]) in R2, A. rewrite app_assoc in R2, A.
  destruct (C63_age_window t dt rho albedo0 (ws ++ [w]) F D) as (K & x2 & n2 & A2 & _ & _ & W2).
  rewrite R1 in A2. injection A2 as <-.
  rewrite albedo_run_app, R1 in R2. cbn [albedo_run] in R2.
  destruct (update_albedo t dt rho s1 w1) as [y|] eqn:U2; [|discriminate]. injection R2 as ->.
  rewrite albedo_run_app in R1. destruct (albedo_run t dt rho (initial_age dt albedo0) ws) as [s|]; [|discriminate].
  cbn [albedo_run] in R1. destruct (update_albedo t dt rho s w) as [y|] eqn:U1; [|discriminate]. injection R1 as ->.
  assert (W : window s <> []) by (intro Z; unfold update_albedo in U1; rewrite F, Z in U1; discriminate U1).
  assert (W1 : window s1 <> []) by (intro Z; unfold update_albedo in U2; rewrite F, Z in U2; discriminate U2).
  destruct (update_inv t dt rho s w F W) as (x & X & _ & _ & _ & E1). rewrite U1 in X. injection X as <-.
  destruct (update_inv t dt rho s1 w1 F W1) as (y & Y & Wy & _ & G & E2). rewrite U2 in Y. injection Y as <-.
  rewrite map_app in A. cbn [map] in A.
  rewrite W2, recent_step in Wy by exact K.
  rewrite E1, E2. destruct (Rlt_dec 0 (w_hsnow w)); [|lra]. destruct (Rlt_dec 0 (w_hsnow w1)); [|lra].
  assert (L : age s1 < age s2).
  { rewrite G; [|rewrite Wy, recent_sum; exact A]. assert (0 < dt / 86400) by (apply Rdiv_lt_0_compat; lra). lra. }
  apply Rplus_lt_compat_l, Rmult_lt_compat_l; [lra|]. apply exp_increasing.
  destruct (Rlt_dec 0 (w_Tair w)), (Rlt_dec 0 (w_Tair w1)); try (exfalso; tauto); nra.
Qed.
Theorem C63_fresh_snow t dt rho albedo0 ws w s : is_fixed t = true -> 0 < dt <= 259200 ->
  albedo_run t dt rho (initial_age dt albedo0) (ws ++ [w]) = Some s -> 0 < w_hsnow w ->
  3/100 <= last_sum (Z.to_nat (Int_part (259200 / dt))) (map (snowfall dt rho) (ws ++ [w])) -> albedo s = 84/100.
Proof.
  intros F D R H T.
  destruct (C63_age_of_snow t dt rho albedo0 (ws ++ [w]) F D) as (s2 & n & A & S & C).
  rewrite R in A. injection A as <-.
  assert (N : n = 0%nat).
  { rewrite map_app in S, T. cbn [map] in S, T. inversion S as [E|l a Q E|l a m Q Q2 E].
    - destruct (map (snowfall dt rho) ws); discriminate.
    - reflexivity.
    - rewrite <- E in T. apply Rlt_not_le in Q. contradiction. }
  subst n. cbn [INR] in C. rewrite Rmult_0_l in C.
  rewrite albedo_run_app in R. destruct (albedo_run t dt rho (initial_age dt albedo0) ws) as [s0|]; [|discriminate].
  cbn [albedo_run] in R. destruct (update_albedo t dt rho s0 w) as [s1|] eqn:U; [|discriminate]. injection R as ->.
  assert (W : window s0 <> []) by (intro Z; unfold update_albedo in U; rewrite F, Z in U; discriminate U).
  destruct (update_inv t dt rho s0 w F W) as (x & X & _ & _ & _ & E). rewrite U in X. injection X as <-.
  rewrite E. destruct (Rlt_dec 0 (w_hsnow w)); [|lra]. rewrite C, Ropp_0, Rmult_0_l, exp_0. lra.
Qed.

(** Without new snow the albedo never rises -- false: when warm air turns cold, old snow gets brighter, because
    the rate of aging of today is applied to all days since the last snowfall. *)
Definition warm_day : weather := mkweather 1 0 1 0.
Definition cold_day : weather := mkweather (-1) 0 1 0.
Theorem C63_no_snow_no_brightening_refuted :
  ~ (forall dt rho albedo0 ws w w1 s s1 s2, 0 < dt <= 259200 -> 0 < rho ->
       albedo_run Scalar dt rho (initial_age dt albedo0) ws = Some s ->
       update_albedo Scalar dt rho s w = Some s1 -> update_albedo Scalar dt rho s1 w1 = Some s2 ->
       0 < w_hsnow w -> 0 < w_hsnow w1 -> w_Psnow w = 0 -> w_Psnow w1 = 0 -> albedo s2 <= albedo s1).
Proof.
  intro H.
  destruct (C63_age_of_snow Scalar 86400 100 0 [] eq_refl ltac:(lra)) as (s0 & n0 & A0 & _ & C0).
  destruct (C63_age_of_snow Scalar 86400 100 0 [warm_day] eq_refl ltac:(lra)) as (s1 & n1 & A1 & S1 & C1).
  destruct (C63_age_of_snow Scalar 86400 100 0 [warm_day; cold_day] eq_refl ltac:(lra)) as (s2 & n2 & A2 & S2 & C2).
  cbn [albedo_run] in A0. injection A0 as A0.
  cbn [albedo_run] in A1, A2.
  destruct (update_albedo Scalar 86400 100 (initial_age 86400 0) warm_day) as [x|] eqn:U1; [|discriminate].
  injection A1 as ->.
  destruct (update_albedo Scalar 86400 100 s1 cold_day) as [y|] eqn:U2; [|discriminate]. injection A2 as ->.
  specialize (H 86400 100 0 [] warm_day cold_day (initial_age 86400 0) s1 s2 ltac:(lra) ltac:(lra) eq_refl U1 U2
                ltac:(cbn; lra) ltac:(cbn; lra) eq_refl eq_refl).
  assert (Z : forall k l, (forall x, In x l -> x = 0) -> last_sum k l = 0).
  { intros k l Hl. unfold last_sum. assert (G : forall m, (forall x, In x m -> x = 0) -> fold_right Rplus 0 m = 0).
    { induction m as [|a m IH]; intro Hm; [reflexivity|]. cbn [fold_right]. rewrite IH by (intros; apply Hm; right; assumption).
      rewrite (Hm a) by (left; reflexivity). ring. }
    apply G. intros x Hx. apply Hl. rewrite <- (firstn_skipn (length l - k) l). apply in_or_app. right. exact Hx. }
  assert (Sn : forall w, w_Psnow w = 0 -> snowfall 86400 100 w = 0) by (intros w Hw; unfold snowfall; rewrite Hw; ring).
  set (k := Z.to_nat _) in *.
  assert (N1 : n1 = 1%nat).
  { cbn [map] in S1. inversion S1 as [E|l a Q E|l a m Q Q2 E].
    - rewrite E in Q. rewrite Z in Q; [lra|]. intros v [<-|[]]. apply Sn. reflexivity.
    - destruct l as [|? [|? ?]]; try discriminate. inversion Q2; [reflexivity|destruct l; discriminate|destruct l; discriminate]. }
  assert (N2 : n2 = 2%nat).
  { cbn [map] in S2. inversion S2 as [E|l a Q E|l a m Q Q2 E].
    - rewrite E in Q. rewrite Z in Q; [lra|]. intros v [<-|[<-|[]]]; apply Sn; reflexivity.
    - destruct l as [|b [|? [|? ?]]]; try discriminate. cbn in E. injection E as -> Ea.
      inversion Q2 as [E'|l' a' Q' E'|l' a' m' Q' Q2' E'].
      + destruct l' as [|? [|? ?]]; try discriminate. cbn in E'. injection E' as ->.
        rewrite Z in Q'; [lra|]. intros v [<-|[]]. apply Sn. reflexivity.
      + destruct l' as [|? [|? ?]]; try discriminate.
        inversion Q2'; [reflexivity|destruct l; discriminate|destruct l; discriminate]. }
  subst n1 n2.
  assert (W : window (initial_age 86400 0) <> []) by (intro E; unfold update_albedo in U1; rewrite E in U1; discriminate U1).
  assert (W1 : window s1 <> []) by (intro E; unfold update_albedo in U2; rewrite E in U2; discriminate U2).
  destruct (update_inv Scalar 86400 100 _ warm_day eq_refl W) as (x & X & _ & _ & _ & E1). rewrite U1 in X. injection X as <-.
  destruct (update_inv Scalar 86400 100 _ cold_day eq_refl W1) as (y & Y & _ & _ & _ & E2). rewrite U2 in Y. injection Y as <-.
  unfold warm_day, cold_day in E1, E2. cbn [w_hsnow w_Tair] in E1, E2.
  destruct (Rlt_dec 0 1); [|lra]. destruct (Rlt_dec 0 (-1)); [lra|].
  rewrite E1, E2, C1, C2 in H. cbn [INR] in H.
  assert (exp (- (1 * (86400 / 86400)) * (12 / 100)) < exp (- ((1 + 1) * (86400 / 86400)) * (5 / 100)))
    by (apply exp_increasing; lra).
  lra.
Qed.
(** The albedo given by the user as a number or a grid is used -- false. *)
Theorem C63_given_albedo_refuted :
  ~ (forall dt rho albedo0 w s, 0 < dt <= 259200 ->
       update_albedo Scalar dt rho (initial_age dt albedo0) w = Some s -> w_hsnow w = 0 -> w_hice w = 0 -> albedo s = albedo0).
Proof.
  intro H. destruct (C63_age_of_snow Scalar 86400 100 (9/10) [mkweather 1 0 0 0] eq_refl ltac:(lra)) as (s & n & A & _).
  cbn [albedo_run] in A. destruct (update_albedo Scalar 86400 100 (initial_age 86400 (9 / 10)) (mkweather 1 0 0 0)) as [x|] eqn:U; [|discriminate].
  injection A as ->. specialize (H 86400 100 (9/10) _ s ltac:(lra) U eq_refl eq_refl).
  assert (V := C63_albedo_values Scalar 86400 100 (9/10) [] _ _ _ eq_refl ltac:(lra) eq_refl U ltac:(cbn; lra) ltac:(cbn; lra)).
  destruct V as (_ & _ & V & _). rewrite V in H by reflexivity. lra.
Qed.
Theorem C63_given_albedo_series dt rho ws s :
  albedo_run Time_Series dt rho s ws = Some s /\ albedo_run Grid_Sequence dt rho s ws = Some s.
Proof. split; induction ws as [|w ws IH]; try reflexivity; exact IH. Qed.
(** Any time step -- false: a step of more than three days leaves no room for the snowfall of the step. *)
Theorem C63_any_time_step_refuted :
  ~ (forall dt rho albedo0 w, 0 < dt -> exists s, update_albedo Scalar dt rho (initial_age dt albedo0) w = Some s).
Proof.
  intro H. destruct (H 259201 100 0 warm_day ltac:(lra)) as [s U].
  unfold update_albedo, initial_age, window_size in U. cbn [is_fixed window] in U.
  assert (E : Int_part (259200 / 259201) = 0%Z).
  { destruct (base_Int_part (259200 / 259201)) as [A B].
    assert (IZR (Int_part (259200 / 259201)) < IZR 1) by lra. assert (IZR (-1) < IZR (Int_part (259200 / 259201))) by lra.
    apply lt_IZR in H0, H1. lia. }
  rewrite E in U. cbn in U. discriminate U.
Qed.

(** The albedo and the water content that the energy balance computes meet the conditions of the shortwave
    theorems, so net shortwave radiation is never negative in a run, whatever the weather. *)
Theorem C63_net_shortwave_in_a_run t dt rho albedo0 ws w s s' lat jd th alpha beta dust T_dew :
  is_fixed t = true -> 0 < dt <= 259200 ->
  albedo_run t dt rho (initial_age dt albedo0) ws = Some s -> update_albedo t dt rho s w = Some s' ->
  0 <= w_hsnow w -> 0 <= w_hice w -> 0 <= dust <= 1 ->
  0 <= net_shortwave lat jd (precipitable_water T_dew) th alpha beta (albedo s') dust
    <= et_flux_slope lat jd th alpha beta + et_flux lat jd th.
Proof.
  intros F D R U Hs Hi Du. destruct (C63_albedo_values t dt rho albedo0 ws w s s' F D R U Hs Hi) as (_ & _ & _ & B).
  apply C60_net_shortwave_slope; [|exact Du|lra].
  unfold precipitable_water. apply Rlt_le, Rmult_lt_0_compat; [lra|apply exp_pos].
Qed.
Example C63_a_winter : exists s s', albedo_run Scalar 3600 300 (initial_age 3600 (2/10)) [cold_day; warm_day] = Some s /\
  update_albedo Scalar 3600 300 s cold_day = Some s' /\ 4/10 < albedo s' <= 84/100.
Proof.
  destruct (C63_age_of_snow Scalar 3600 300 (2/10) ([cold_day; warm_day] ++ [cold_day]) eq_refl ltac:(lra)) as (s' & n & A & _).
  rewrite albedo_run_app in A. destruct (albedo_run Scalar 3600 300 (initial_age 3600 (2/10)) [cold_day; warm_day]) as [s|] eqn:E; [|discriminate].
  cbn [albedo_run] in A. destruct (update_albedo Scalar 3600 300 s cold_day) as [x|] eqn:U; [|discriminate]. injection A as ->.
  exists s, s'. split; [reflexivity|]. split; [exact U|].
  apply (C63_albedo_values Scalar 3600 300 (2/10) _ _ _ _ eq_refl ltac:(lra) E U); cbn; lra.
Qed.

Print Assumptions C62_saturation_increases.
Print Assumptions C62_dew_point_inverse.
Print Assumptions C62_dew_point_below_air.
Print Assumptions C62_dew_point_below_air_refuted.
Print Assumptions C62_dew_point_humidity.
Print Assumptions C62_frozen_surface.
Print Assumptions C62_given_surface_series.
Print Assumptions C62_given_surface_temperature_refuted.
Print Assumptions C62_sensible_heat.
Print Assumptions C62_grid_is_cellwise.
Print Assumptions C62_calm_air_refuted.
Print Assumptions C62_latent_heat.
Print Assumptions C62_dry_air_takes_vapour_refuted.
Print Assumptions C62_emissivity_positive.
Print Assumptions C62_emissivity_below_one_refuted.
Print Assumptions C62_net_longwave.
Print Assumptions C62_longwave_sign.
Print Assumptions C63_age_of_snow.
Print Assumptions C63_albedo_values.
Print Assumptions C63_snow_darkens.
Print Assumptions C63_fresh_snow.
Print Assumptions C63_no_snow_no_brightening_refuted.
Print Assumptions C63_given_albedo_refuted.
Print Assumptions C63_given_albedo_series.
Print Assumptions C63_any_time_step_refuted.
Print Assumptions C63_net_shortwave_in_a_run.
Print Assumptions C62_emissivity_vapour.
Print Assumptions C62_emissivity_canopy.
