(* C78, second part: Hamon's potential evaporation and Knoben's climate indicators. *)
From Coq Require Import Reals Lra List Bool Arith Lia.
From Verif Require Import Solar_Model Solar_Proofs Clim_Model.
Import ListNotations.
Local Open Scope R_scope.

(* ---------- lemmas ---------- *)
Lemma fold_oadd_none l : fold_left oadd l None = None.
Proof. induction l as [|a l IH]; [reflexivity | exact IH]. Qed.
Lemma osum_none_acc l a : In None l -> fold_left oadd l a = None.
Proof.
  revert a. induction l as [|b l IH]; intros a H; [inversion H|]. destruct H as [->|H]; cbn.
  - destruct a; apply fold_oadd_none.
  - apply IH, H.
Qed.
Lemma osum_none l : In None l -> osum l = None.
Proof. apply osum_none_acc. Qed.
Lemma fold_some l a : fold_left oadd (map Some l) (Some a) = Some (fold_left Rplus l a).
Proof. revert a. induction l as [|b l IH]; intro a; [reflexivity | apply IH]. Qed.
Lemma osum_some l : osum (map Some l) = Some (rtotal l).
Proof. apply fold_some. Qed.
Lemma rtotal_acc l a : fold_left Rplus l a = a + rtotal l.
Proof.
  unfold rtotal. revert a. induction l as [|b l IH]; intro a; cbn; [lra|]. rewrite IH, (IH (0 + b)). lra.
Qed.
Lemma rtotal_cons x l : rtotal (x :: l) = x + rtotal l.
Proof. unfold rtotal at 1. cbn. rewrite rtotal_acc. lra. Qed.
Lemma rtotal_bounds lo hi l : (forall x, In x l -> lo <= x <= hi) -> INR (length l) * lo <= rtotal l <= INR (length l) * hi.
Proof.
  induction l as [|x l IH]; intro H; [cbn; lra|]. rewrite rtotal_cons. cbn [length]. rewrite S_INR.
  pose proof (H x (or_introl eq_refl)). assert (INR (length l) * lo <= rtotal l <= INR (length l) * hi) by (apply IH; intros y Y; apply H; right; exact Y). lra.
Qed.
Lemma all_some l : (forall x, In x l -> x <> None) -> exists r, l = map (@Some R) r.
Proof.
  induction l as [|x l IH]; intro H; [exists []; reflexivity|].
  destruct IH as [r E]; [intros y Y; apply H; right; exact Y|]. destruct x as [x|]; [|exfalso; apply (H None); [left|]; reflexivity].
  exists (x :: r). cbn. rewrite E. reflexivity.
Qed.

(* ---------- daylight ---------- *)
(* C78 the hours of daylight lie between 0 and 24 *)
Theorem C78_daylight_bounds jd lat n : daylight_hours jd lat = Some n -> 0 <= n <= 24.
Proof.
  unfold daylight_hours. destruct (Rle_dec _ _) as [a|]; [|discriminate]. destruct (Rle_dec _ _) as [b|]; [|discriminate].
  intro E. injection E as <-. pose proof (acos_bound (- (1) * (tan (lat * (PI / 180)) * tan (declination (day_angle jd))))) as H.
  set (u := acos _) in *. pose proof PI_RGT_0. replace (24 / PI * u) with (24 * (u / PI)) by (field; lra).
  assert (0 <= u / PI <= 1); [|lra]. split.
  - apply Rmult_le_pos; [lra | left; apply Rinv_0_lt_compat; lra].
  - apply (Rmult_le_reg_r PI); [lra|]. unfold Rdiv. rewrite Rmult_assoc, Rinv_l by lra. lra.
Qed.
Print Assumptions C78_daylight_bounds.
(* C78 12 hours at the equator on every day *)
Theorem C78_daylight_equator jd : daylight_hours jd 0 = Some 12.
Proof.
  unfold daylight_hours. rewrite (Rmult_0_l (PI / 180)), tan_0, Rmult_0_l, Rmult_0_r.
  destruct (Rle_dec (-1) 0); [|lra]. destruct (Rle_dec 0 1); [|lra]. rewrite acos_0. f_equal. field. pose proof PI_RGT_0. lra.
Qed.
Print Assumptions C78_daylight_equator.
(* C78 what the day lacks at a latitude it has at the opposite one *)
Theorem C78_daylight_opposite jd lat n : daylight_hours jd lat = Some n -> daylight_hours jd (- lat) = Some (24 - n).
Proof.
  unfold daylight_hours. replace (- lat * (PI / 180)) with (- (lat * (PI / 180))) by ring. rewrite tan_neg.
  set (x := - (1) * (tan (lat * (PI / 180)) * tan (declination (day_angle jd)))).
  replace (- (1) * (- tan (lat * (PI / 180)) * tan (declination (day_angle jd)))) with (- x) by (unfold x; ring).
  destruct (Rle_dec (-1) x) as [A|]; [|discriminate]. destruct (Rle_dec x 1) as [B|]; [|discriminate].
  intro E. injection E as <-. destruct (Rle_dec (-1) (- x)); [|lra]. destruct (Rle_dec (- x) 1); [|lra].
  rewrite acos_opp. f_equal. field. pose proof PI_RGT_0. lra.
Qed.
Print Assumptions C78_daylight_opposite.
(* C78 it is the day length of the meteorology component *)
Theorem C78_daylight_solar jd lat n : daylight_hours jd lat = Some n -> day_length lat jd = n.
Proof.
  unfold daylight_hours, day_length. rewrite sunrise_sunset. unfold sunset, horizon_arg, rad.
  replace (- (1) * tan (lat * (PI / 180)) * tan (declination (day_angle jd))) with (- (1) * (tan (lat * (PI / 180)) * tan (declination (day_angle jd)))) by ring.
  set (x := - (1) * _). destruct (Rle_dec (-1) x) as [A|]; [|discriminate]. destruct (Rle_dec x 1) as [B|]; [|discriminate].
  intro E. injection E as <-. replace (clip x) with x. 2: { unfold clip. rewrite Rmax_right, Rmin_left by lra. reflexivity. }
  rewrite omega_eq. field. pose proof PI_RGT_0. lra.
Qed.
Print Assumptions C78_daylight_solar.
Lemma tan_decl jd : - tan (PI / 6) < tan (declination (day_angle jd)) < tan (PI / 6).
Proof.
  pose proof (declination_bound (day_angle jd)) as D. pose proof PI_bounds as P.
  rewrite <- tan_neg. split; apply tan_increasing; lra.
Qed.
Lemma tan_lat60 lat : -60 <= lat <= 60 -> - tan (PI / 3) <= tan (lat * (PI / 180)) <= tan (PI / 3).
Proof.
  intro L. pose proof PI_bounds as P.
  assert (B : - (PI / 3) <= lat * (PI / 180) <= PI / 3) by nra.
  rewrite <- tan_neg. split.
  - destruct (Req_dec (- (PI / 3)) (lat * (PI / 180))) as [<-|N]; [lra|]. left. apply tan_increasing; lra.
  - destruct (Req_dec (lat * (PI / 180)) (PI / 3)) as [->|N]; [lra|]. left. apply tan_increasing; lra.
Qed.
Lemma tan_3_6 : tan (PI / 3) * tan (PI / 6) = 1 /\ 0 < tan (PI / 6) /\ 0 < tan (PI / 3).
Proof.
  rewrite tan_PI3, tan_PI6. pose proof (sqrt_lt_R0 3 ltac:(lra)). repeat split; [field; lra| |lra].
  unfold Rdiv. rewrite Rmult_1_l. apply Rinv_0_lt_compat. lra.
Qed.
(* C78 up to 60 degrees of latitude it is defined on every day *)
Theorem C78_daylight_defined jd lat : -60 <= lat <= 60 -> daylight_hours jd lat <> None.
Proof.
  intro L. pose proof (tan_decl jd) as D. pose proof (tan_lat60 lat L) as T. destruct tan_3_6 as [E [P6 P3]].
  unfold daylight_hours. set (a := tan (lat * (PI / 180))) in *. set (d := tan (declination (day_angle jd))) in *.
  set (s := tan (PI / 6)) in *. set (t := tan (PI / 3)) in *.
  assert (-1 <= a * d <= 1).
  { split; nra. }
  destruct (Rle_dec _ _); [|lra]. destruct (Rle_dec _ _); [discriminate|lra].
Qed.
Print Assumptions C78_daylight_defined.
Lemma tan75 : 26 / 10 < tan (PI / 4 + PI / 6).
Proof.
  pose proof PI_bounds as P.
  assert (S : 1 / sqrt 3 < 6 / 10 /\ 5 / 10 < 1 / sqrt 3).
  { pose proof (sqrt_lt_R0 3 ltac:(lra)) as S0. pose proof (sqrt_sqrt 3 ltac:(lra)) as S1.
    assert (17 / 10 < sqrt 3 < 18 / 10) by nra. split; apply (Rmult_lt_reg_r (sqrt 3)); try lra; unfold Rdiv at 2; rewrite ?Rmult_assoc, ?Rinv_l by lra; try lra.
    unfold Rdiv at 1. rewrite Rmult_assoc, Rinv_l by lra. lra. }
  rewrite tan_plus.
  - rewrite tan_PI4, tan_PI6. set (u := 1 / sqrt 3) in *. apply (Rmult_lt_reg_r (1 - 1 * u)); [lra|].
    unfold Rdiv at 2. rewrite Rmult_assoc, Rinv_l by lra. lra.
  - apply Rgt_not_eq, cos_gt_0; lra.
  - apply Rgt_not_eq, cos_gt_0; lra.
  - apply Rgt_not_eq, cos_gt_0; lra.
  - rewrite tan_PI4, tan_PI6. set (u := 1 / sqrt 3) in *. lra.
Qed.
Lemma tan_day0 : tan (declination (day_angle 0)) < - (4 / 10) + 1 / 100.
Proof.
  unfold day_angle, declination. replace (2 * PI * 0 / 365) with 0 by lra.
  rewrite !Rmult_0_r, cos_0, sin_0.
  set (a := 402449 / 1000000).
  match goal with |- tan ?x < _ => replace x with (- a) by (unfold a; lra) end.
  rewrite tan_neg. pose proof PI_bounds as P.
  destruct (SIN a ltac:(unfold a; lra) ltac:(unfold a; lra)) as [L _].
  unfold sin_lb, sin_approx in L. cbn in L. unfold sin_term in L. cbn in L.
  assert (C : 0 < cos a) by (apply cos_gt_0; unfold a; lra). pose proof (COS_bound a) as [_ C1].
  assert (S : 391 / 1000 < sin a). { apply Rlt_le_trans with (2 := L). unfold a. lra. }
  assert (sin a <= tan a).
  { unfold tan. apply (Rmult_le_reg_r (cos a)); [exact C|]. unfold Rdiv. rewrite Rmult_assoc, Rinv_l by lra. nra. }
  lra.
Qed.
(* C78 REFUTED "the number of daylight hours of any latitude": at 75 degrees and beyond it is nan on 1 January (the
   meteorology component clips the argument instead) *)
Theorem C78_daylight_polar_refuted lat : 75 <= lat < 90 \/ -90 < lat <= -75 -> daylight_hours 0 lat = None.
Proof.
  intro L. pose proof PI_bounds as P. pose proof tan75 as T. pose proof tan_day0 as D.
  assert (G : forall l, 75 <= l < 90 -> 26 / 10 < tan (l * (PI / 180))).
  { intros l B. assert (PI / 4 + PI / 6 <= l * (PI / 180) < PI / 2) by nra.
    destruct (Req_dec (PI / 4 + PI / 6) (l * (PI / 180))) as [<-|N]; [exact T|]. apply Rlt_trans with (1 := T). apply tan_increasing; lra. }
  unfold daylight_hours. set (d := tan (declination (day_angle 0))) in *. destruct L as [L|L].
  - pose proof (G lat L) as K. set (t := tan (lat * (PI / 180))) in *. destruct (Rle_dec (-1) _) as [u|]; [|reflexivity].
    destruct (Rle_dec _ 1) as [v|]; [|reflexivity]. exfalso. nra.
  - pose proof (G (- lat) ltac:(lra)) as K. replace (- lat * (PI / 180)) with (- (lat * (PI / 180))) in K by ring. rewrite tan_neg in K.
    set (t := tan (lat * (PI / 180))) in *. destruct (Rle_dec (-1) _) as [u|]; [|reflexivity]. exfalso. nra.
Qed.
Print Assumptions C78_daylight_polar_refuted.

(* ---------- potential evaporation ---------- *)
Lemma P_sat_pos T : - (2373 / 10) < T -> 0 < P_sat T.
Proof.
  intro H. unfold P_sat, e_sat. unfold Rdiv at 1. apply Rmult_lt_0_compat; [|apply Rinv_0_lt_compat; lra].
  pose proof (exp_pos (1727 / 100 * T / (T + 2373 / 10))). nra.
Qed.
Lemma P_sat_incr T T' : - (2373 / 10) < T -> T < T' -> T' <= 1000 -> P_sat T < P_sat T'.
Proof.
  intros L H U. unfold P_sat, e_sat.
  set (f := 1727 / 100 * T / (T + 2373 / 10)). set (g := 1727 / 100 * T' / (T' + 2373 / 10)).
  assert (E : g = f + (g - f)) by ring. rewrite E, exp_plus. pose proof (exp_pos f) as F.
  assert (D : g - f = (T' - T) * (4098171 / 1000 / ((T + 2373 / 10) * (T' + 2373 / 10)))) by (unfold f, g; field; lra).
  set (k := 4098171 / 1000 / ((T + 2373 / 10) * (T' + 2373 / 10))) in *.
  assert (K : 1 < k * (T + 27316 / 100)).
  { unfold k. set (m := (T + 2373 / 10) * (T' + 2373 / 10)). assert (M : 0 < m) by (unfold m; nra).
    apply (Rmult_lt_reg_r m); [exact M|]. replace (4098171 / 1000 / m * (T + 27316 / 100) * m) with (4098171 / 1000 * (T + 27316 / 100)) by (field; lra). unfold m. nra. }
  assert (G : 1 + (g - f) <= exp (g - f)).
  { destruct (Req_dec (g - f) 0) as [Z|Z]; [rewrite Z, exp_0; lra | left; apply exp_ineq1; exact Z]. }
  set (x := exp (g - f)) in *. set (c := exp f) in *.
  apply (Rmult_lt_reg_r ((T + 27316 / 100) * (T' + 27316 / 100))); [nra|].
  replace (2167 / 10 * (6108 / 10000 * c) / (T + 27316 / 100) * ((T + 27316 / 100) * (T' + 27316 / 100))) with (2167 / 10 * (6108 / 10000) * (c * (T' + 27316 / 100))) by (field; lra).
  replace (2167 / 10 * (6108 / 10000 * (c * x)) / (T' + 27316 / 100) * ((T + 27316 / 100) * (T' + 27316 / 100))) with (2167 / 10 * (6108 / 10000) * (c * (x * (T + 27316 / 100)))) by (field; lra).
  apply Rmult_lt_compat_l; [lra|]. apply Rmult_lt_compat_l; [exact F|].
  apply Rlt_le_trans with ((1 + (g - f)) * (T + 27316 / 100)); [|apply Rmult_le_compat_r; lra]. rewrite D. nra.
Qed.
(* C78 a day's potential evaporation is not negative, and grows with the temperature *)
Theorem C78_pet_nonneg jd T lat e : - (2373 / 10) < T -> PET_day jd T lat = Some e -> 0 <= e.
Proof.
  intros H. unfold PET_day. destruct (daylight_hours jd lat) as [n|] eqn:N; [|discriminate]. intro E. injection E as <-.
  pose proof (C78_daylight_bounds jd lat n N). pose proof (P_sat_pos T H). apply Rmult_le_pos; lra.
Qed.
Print Assumptions C78_pet_nonneg.
Theorem C78_pet_warmer jd T T' lat e e' : - (2373 / 10) < T -> T < T' -> T' <= 1000 ->
  PET_day jd T lat = Some e -> PET_day jd T' lat = Some e' -> e <= e'.
Proof.
  intros L H U. unfold PET_day. destruct (daylight_hours jd lat) as [n|] eqn:N; [|discriminate].
  intros E E'. injection E as <-. injection E' as <-. pose proof (C78_daylight_bounds jd lat n N). pose proof (P_sat_incr T T' L H U).
  apply Rmult_le_compat_l; lra.
Qed.
Print Assumptions C78_pet_warmer.
(* C78 a warmer month evaporates more at any latitude, too *)
Lemma osum_le l l' : length l = length l' ->
  (forall k a b, (k < length l)%nat -> nth k l None = Some a -> nth k l' None = Some b -> a <= b) ->
  forall x y s s', x <= y -> fold_left oadd l (Some x) = Some s -> fold_left oadd l' (Some y) = Some s' -> s <= s'.
Proof.
  revert l'. induction l as [|a l IH]; intros [|b l'] L H x y s s' XY E E'; try discriminate L.
  - cbn in E, E'. injection E as <-. injection E' as <-. exact XY.
  - cbn in E, E'. destruct a as [a|]; [|cbn in E; rewrite fold_oadd_none in E; discriminate].
    destruct b as [b|]; [|cbn in E'; rewrite fold_oadd_none in E'; discriminate].
    cbn in E, E'. injection L as L. apply (IH l' L) with (x := x + a) (y := y + b); [|  |exact E|exact E'].
    + intros k u v K. apply (H (S k) u v). cbn. lia.
    + pose proof (H 0%nat a b ltac:(cbn; lia) eq_refl eq_refl). lra.
Qed.
Theorem C78_pet_month_warmer m T T' lat e e' : - (2373 / 10) < T -> T < T' -> T' <= 1000 ->
  PET_month m T lat = Some e -> PET_month m T' lat = Some e' -> e <= e'.
Proof.
  intros L H U. unfold PET_month, osum. apply osum_le; [rewrite !map_length; reflexivity| |lra].
  intros k a b K. rewrite map_length in K.
  rewrite (nth_indep _ None (PET_day (INR 0) T lat)) by (rewrite map_length; exact K).
  rewrite (nth_indep (map (fun d => PET_day (INR d) T' lat) (days_of m)) None (PET_day (INR 0) T' lat)) by (rewrite map_length; exact K).
  rewrite (map_nth (fun d => PET_day (INR d) T lat)), (map_nth (fun d => PET_day (INR d) T' lat)). apply C78_pet_warmer; assumption.
Qed.
Print Assumptions C78_pet_month_warmer.
(* C78 the months are the days 0 to 364, each once and in order *)
Theorem C78_months_partition : concat (map days_of (seq 1 12)) = seq 0 365.
Proof. vm_compute. reflexivity. Qed.
Print Assumptions C78_months_partition.
(* C78 REFUTED "the number of days of a month 1 to 12": it gives that of the following month, and fails for December *)
Theorem C78_days_per_month_refuted m : (1 <= m <= 12)%nat ->
  get_days_per_month m = if (m <? 12)%nat then Some (length (days_of (m + 1))) else None.
Proof.
  intro H. assert (In m (seq 1 12)) as I by (apply in_seq; lia). cbn in I.
  repeat destruct I as [<-|I]; try reflexivity. destruct I.
Qed.
Print Assumptions C78_days_per_month_refuted.

(* ---------- moisture index ---------- *)
Lemma div_bounds a b : 0 <= a -> a <= b -> 0 < b -> 0 <= a / b <= 1.
Proof.
  intros A B C. split.
  - apply Rmult_le_pos; [exact A | left; apply Rinv_0_lt_compat, C].
  - apply (Rmult_le_reg_r b); [exact C|]. unfold Rdiv. rewrite Rmult_assoc, Rinv_l by lra. lra.
Qed.
(* C78 the moisture index lies between -1 and 1 *)
Theorem C78_mi_bounds P E : 0 <= P -> 0 <= E -> -1 <= MI P E <= 1.
Proof.
  intros HP HE. unfold MI. destruct (Rlt_dec E P) as [L|L]; [pose proof (div_bounds E P); lra|].
  destruct (Req_EM_T E P) as [->|N]; [lra|]. pose proof (div_bounds P E). lra.
Qed.
Print Assumptions C78_mi_bounds.
(* C78 its sign tells the larger of the two *)
Theorem C78_mi_sign P E : 0 <= P -> 0 <= E -> (0 < MI P E <-> E < P) /\ (MI P E < 0 <-> P < E) /\ (MI P E = 0 <-> P = E).
Proof.
  intros HP HE. unfold MI. destruct (Rlt_dec E P) as [L|L].
  - assert (E / P < 1) by (apply (Rmult_lt_reg_r P); [lra|]; unfold Rdiv; rewrite Rmult_assoc, Rinv_l by lra; lra).
    repeat split; intro; lra.
  - destruct (Req_EM_T E P) as [->|N]; [repeat split; intro; lra|].
    assert (P / E < 1) by (apply (Rmult_lt_reg_r E); [lra|]; unfold Rdiv; rewrite Rmult_assoc, Rinv_l by lra; lra).
    repeat split; intro; lra.
Qed.
Print Assumptions C78_mi_sign.
(* C78 exchanging precipitation and evaporation changes its sign *)
Theorem C78_mi_antisymmetric P E : MI E P = - MI P E.
Proof.
  unfold MI. destruct (Rlt_dec E P) as [L|L], (Rlt_dec P E) as [L'|L']; try lra.
  - destruct (Req_EM_T P E); lra.
  - destruct (Req_EM_T E P); lra.
  - destruct (Req_EM_T P E), (Req_EM_T E P); lra.
Qed.
Print Assumptions C78_mi_antisymmetric.
(* C78 more rain never lowers it, more evaporation never raises it *)
Theorem C78_mi_wetter P P' E : 0 <= P -> P <= P' -> 0 <= E -> MI P E <= MI P' E.
Proof.
  intros HP H HE. unfold MI. destruct (Rlt_dec E P) as [L|L], (Rlt_dec E P') as [L'|L']; try lra.
  - assert (E / P' <= E / P); [|lra]. apply Rmult_le_compat_l; [exact HE|]. apply Rinv_le_contravar; lra.
  - assert (0 <= 1 - E / P') by (pose proof (div_bounds E P'); lra).
    destruct (Req_EM_T E P) as [_|N]; [lra|]. pose proof (div_bounds P E). lra.
  - destruct (Req_EM_T E P) as [Q|N], (Req_EM_T E P') as [Q'|N']; try lra.
    + rewrite Q'. pose proof (div_bounds P P'). lra.
    + assert (P / E <= P' / E); [|lra]. apply Rmult_le_compat_r; [left; apply Rinv_0_lt_compat; lra | exact H].
Qed.
Print Assumptions C78_mi_wetter.
Theorem C78_mi_drier P E E' : 0 <= P -> 0 <= E -> E <= E' -> MI P E' <= MI P E.
Proof.
  intros HP HE H. rewrite (C78_mi_antisymmetric E' P), (C78_mi_antisymmetric E P).
  pose proof (C78_mi_wetter E E' P HE H HP). lra.
Qed.
Print Assumptions C78_mi_drier.
(* C78 it converts to the usual aridity, evaporation over precipitation *)
Theorem C78_mi_convert P E : 0 < P -> 0 <= E -> convert_knoben_aridity (MI P E) = Some (E / P).
Proof.
  intros HP HE. unfold convert_knoben_aridity, MI. destruct (Rlt_dec E P) as [L|L].
  - pose proof (div_bounds E P). destruct (Rle_dec 0 (1 - E / P)); [f_equal; lra | lra].
  - destruct (Req_EM_T E P) as [->|N].
    + destruct (Rle_dec 0 0); [f_equal; field; lra | lra].
    + assert (P / E < 1) by (apply (Rmult_lt_reg_r E); [lra|]; unfold Rdiv; rewrite Rmult_assoc, Rinv_l by lra; lra).
      assert (0 < P / E) by (apply Rdiv_lt_0_compat; lra).
      destruct (Rle_dec 0 (P / E - 1)); [lra|]. destruct (Req_EM_T (P / E - 1 + 1) 0); [lra|]. f_equal. field. lra.
Qed.
Print Assumptions C78_mi_convert.

(* ---------- indicators ---------- *)
Lemma fold_omax_none l : fold_left omax l None = None.
Proof. induction l as [|a l IH]; [reflexivity | exact IH]. Qed.
Lemma fold_omin_none l : fold_left omin l None = None.
Proof. induction l as [|a l IH]; [reflexivity | exact IH]. Qed.
Lemma fold_omax_some l a : fold_left omax (map Some l) (Some a) = Some (fold_left Rmax l a).
Proof. revert a. induction l as [|b l IH]; intro a; [reflexivity | apply IH]. Qed.
Lemma fold_omin_some l a : fold_left omin (map Some l) (Some a) = Some (fold_left Rmin l a).
Proof. revert a. induction l as [|b l IH]; intro a; [reflexivity | apply IH]. Qed.
Lemma fold_max_ge l a : a <= fold_left Rmax l a.
Proof. revert a. induction l as [|b l IH]; intro a; cbn; [lra|]. apply Rle_trans with (Rmax a b); [apply Rmax_l | apply IH]. Qed.
Lemma fold_max_in l a : In (fold_left Rmax l a) (a :: l).
Proof.
  revert a. induction l as [|b l IH]; intro a; [left; reflexivity|]. cbn [fold_left]. destruct (IH (Rmax a b)) as [H|H].
  - rewrite <- H. unfold Rmax. destruct (Rle_dec a b); [right; left; reflexivity | left; reflexivity].
  - right. right. exact H.
Qed.
Lemma fold_min_le l a : fold_left Rmin l a <= a.
Proof. revert a. induction l as [|b l IH]; intro a; cbn; [lra|]. apply Rle_trans with (Rmin a b); [apply IH | apply Rmin_l]. Qed.
Lemma fold_min_in l a : In (fold_left Rmin l a) (a :: l).
Proof.
  revert a. induction l as [|b l IH]; intro a; [left; reflexivity|]. cbn [fold_left]. destruct (IH (Rmin a b)) as [H|H].
  - rewrite <- H. unfold Rmin. destruct (Rle_dec a b); [left; reflexivity | right; left; reflexivity].
  - right. right. exact H.
Qed.
Lemma fold_max_all l a x : In x (a :: l) -> x <= fold_left Rmax l a.
Proof.
  revert a. induction l as [|b l IH]; intros a H; [destruct H as [->|[]]; cbn; lra|]. cbn [fold_left].
  destruct H as [->|[->|H]].
  - apply Rle_trans with (Rmax x b); [apply Rmax_l | apply fold_max_ge].
  - apply Rle_trans with (Rmax a x); [apply Rmax_r | apply fold_max_ge].
  - apply IH. right. exact H.
Qed.
Lemma fold_min_all l a x : In x (a :: l) -> fold_left Rmin l a <= x.
Proof.
  revert a. induction l as [|b l IH]; intros a H; [destruct H as [->|[]]; cbn; lra|]. cbn [fold_left].
  destruct H as [->|[->|H]].
  - apply Rle_trans with (Rmin x b); [apply fold_min_le | apply Rmin_l].
  - apply Rle_trans with (Rmin a x); [apply fold_min_le | apply Rmin_r].
  - apply IH. right. exact H.
Qed.
(* C78 the seasonality is the largest difference between two months *)
Theorem C78_seasonality mi s : mi <> [] -> (K_seasonality (map Some mi) = Some s <->
  (exists x y, In x mi /\ In y mi /\ s = x - y) /\ (forall x y, In x mi -> In y mi -> x - y <= s)).
Proof.
  destruct mi as [|a l]; [congruence|]. intros _. cbn [map K_seasonality]. rewrite fold_omax_some, fold_omin_some. split.
  - intro E. injection E as <-. split.
    + exists (fold_left Rmax l a), (fold_left Rmin l a). split; [apply fold_max_in|]. split; [apply fold_min_in | reflexivity].
    + intros x y X Y. pose proof (fold_max_all l a x X). pose proof (fold_min_all l a y Y). lra.
  - intros [[x [y [X [Y ->]]]] H]. f_equal. pose proof (H _ _ (fold_max_in l a) (fold_min_in l a)).
    pose proof (fold_max_all l a x X). pose proof (fold_min_all l a y Y). lra.
Qed.
Print Assumptions C78_seasonality.
Lemma rtotal_nonneg l : (forall x, In x l -> 0 <= x) -> 0 <= rtotal l.
Proof. induction l as [|x l IH]; intro H; [cbn; lra|]. rewrite rtotal_cons. pose proof (H x (or_introl eq_refl)). assert (0 <= rtotal l) by (apply IH; intros; apply H; right; assumption). lra. Qed.
Definition cold (pt : R * R) : bool := if Rlt_dec (snd pt) 0 then true else false.
Lemma snow_part l : (forall p, In p l -> 0 <= fst p) ->
  0 <= rtotal (map fst (filter cold l)) <= rtotal (map fst l).
Proof.
  induction l as [|[p t] l IH]; intro H; [cbn; lra|]. cbn [map filter fst]. rewrite rtotal_cons.
  pose proof (H (p, t) (or_introl eq_refl)) as H0. cbn in H0. assert (0 <= rtotal (map fst (filter cold l)) <= rtotal (map fst l)) by (apply IH; intros; apply H; right; assumption).
  destruct (cold (p, t)); cbn [map fst]; rewrite ?rtotal_cons; lra.
Qed.
Lemma map_fst_combine (P T : list R) : length P = length T -> map fst (combine P T) = P.
Proof. revert T. induction P as [|p P IH]; intros [|t T] L; try discriminate L; [reflexivity|]. cbn. f_equal. apply IH. injection L as L. exact L. Qed.
(* C78 the snow fraction is a fraction: 0 if no month is below freezing, 1 if all are *)
Theorem C78_snow_bounds P T f : length P = length T -> (forall p, In p P -> 0 <= p) -> K_snow_fraction P T = Some f -> 0 <= f <= 1.
Proof.
  intros L H. unfold K_snow_fraction. fold cold. destruct (Req_EM_T (rtotal P) 0) as [|N]; [discriminate|]. intro E. injection E as <-.
  assert (B := snow_part (combine P T)). rewrite map_fst_combine in B by exact L.
  assert (0 <= rtotal (map fst (filter cold (combine P T))) <= rtotal P).
  { apply B. intros [p t] I. apply in_combine_l in I. apply H, I. }
  apply div_bounds; lra.
Qed.
Print Assumptions C78_snow_bounds.
Theorem C78_snow_warm P T : (forall t, In t T -> 0 <= t) -> rtotal P <> 0 -> K_snow_fraction P T = Some 0.
Proof.
  intros H N. unfold K_snow_fraction. fold cold. destruct (Req_EM_T (rtotal P) 0); [lra|]. f_equal.
  assert (G : forall P, filter cold (combine P T) = []); [|rewrite G; cbn; unfold Rdiv; rewrite Rmult_0_l; reflexivity].
  clear P N n. induction T as [|t r IH]; intros [|p P]; try reflexivity. cbn. unfold cold at 1. cbn.
  destruct (Rlt_dec t 0); [pose proof (H t (or_introl eq_refl)); lra|]. apply IH. intros; apply H; right; assumption.
Qed.
Print Assumptions C78_snow_warm.
Theorem C78_snow_cold P T : length P = length T -> (forall t, In t T -> t < 0) -> rtotal P <> 0 -> K_snow_fraction P T = Some 1.
Proof.
  intros L H N. unfold K_snow_fraction. fold cold. destruct (Req_EM_T (rtotal P) 0); [lra|]. f_equal.
  replace (filter cold (combine P T)) with (combine P T); [rewrite map_fst_combine by exact L; field; exact N|].
  symmetry. clear N n. revert P L. induction T as [|t r IH]; intros [|p P] L; try discriminate L; try reflexivity. cbn. unfold cold at 1. cbn.
  destruct (Rlt_dec t 0) as [_|K]; [|pose proof (H t (or_introl eq_refl)); lra]. f_equal. apply IH; [intros; apply H; right; assumption | injection L as L; exact L].
Qed.
Print Assumptions C78_snow_cold.
Lemma pet_month_defined m T lat : -60 <= lat <= 60 -> - (2373 / 10) < T -> exists e, PET_month m T lat = Some e /\ 0 <= e.
Proof.
  intros L H. unfold PET_month.
  destruct (all_some (map (fun d => PET_day (INR d) T lat) (days_of m))) as [r E].
  { intros x I. apply in_map_iff in I. destruct I as [d [<- _]]. unfold PET_day. pose proof (C78_daylight_defined (INR d) lat L). destruct (daylight_hours (INR d) lat); [discriminate | congruence]. }
  rewrite E, osum_some. exists (rtotal r). split; [reflexivity|]. apply rtotal_nonneg. intros x I.
  apply (in_map Some) in I. rewrite <- E in I. apply in_map_iff in I. destruct I as [d [D _]]. exact (C78_pet_nonneg _ _ _ _ H D).
Qed.
Lemma pet_array_defined T lat : -60 <= lat <= 60 -> length T = 12%nat -> (forall t, In t T -> - (2373 / 10) < t) ->
  exists E, PET_array T lat = map Some E /\ length E = 12%nat /\ forall e, In e E -> 0 <= e.
Proof.
  intros L LT H. unfold PET_array.
  assert (G : forall ms, (forall m, In m ms -> (1 <= m <= 12)%nat) -> exists E, map (fun m => PET_month m (nth (m - 1) T 0) lat) ms = map Some E /\ length E = length ms /\ forall e, In e E -> 0 <= e).
  { induction ms as [|m ms IH]; intro M; [exists []; repeat split; intros e []|].
    destruct IH as [E [E1 [E2 E3]]]; [intros; apply M; right; assumption|].
    destruct (pet_month_defined m (nth (m - 1) T 0) lat L) as [e [E4 E5]].
    { apply H, nth_In. pose proof (M m (or_introl eq_refl)). lia. }
    exists (e :: E). cbn [map length]. rewrite E1, E4, E2. split; [reflexivity|]. split; [reflexivity|]. intros x [<-|X]; [exact E5 | apply E3, X]. }
  apply (G (seq 1 12)). intros m I. apply in_seq in I. lia.
Qed.
Lemma mi_array_defined P E : length P = 12%nat -> length E = 12%nat -> (forall p, In p P -> 0 <= p) -> (forall e, In e E -> 0 <= e) ->
  exists mi, MI_array P (map Some E) = map Some mi /\ length mi = 12%nat /\ forall x, In x mi -> -1 <= x <= 1.
Proof.
  intros LP LE HP HE. exists (map (fun k => MI (nth k P 0) (nth k E 0)) (seq 0 12)). split; [|split].
  - unfold MI_array. rewrite map_map. apply map_ext_in. intros k K. apply in_seq in K.
    rewrite (nth_indep (map Some E) None (Some 0)) by (rewrite map_length; lia). rewrite (map_nth Some). reflexivity.
  - reflexivity.
  - intros x I. apply in_map_iff in I. destruct I as [k [<- K]]. apply in_seq in K. apply C78_mi_bounds; [apply HP, nth_In; lia | apply HE, nth_In; lia].
Qed.
(* C78 up to 60 degrees of latitude the indicators of a basin with some rain are numbers within their ranges *)
Theorem C78_indicators_ranges lat P T : -60 <= lat <= 60 -> length P = 12%nat -> length T = 12%nat ->
  (forall p, In p P -> 0 <= p) -> (forall t, In t T -> - (2373 / 10) < t) -> rtotal P <> 0 ->
  exists a k s f, calc_knoben_indicators lat P T = (Some a, Some k, Some s, Some f) /\
    0 <= a /\ -1 <= k <= 1 /\ 0 <= s <= 2 /\ 0 <= f <= 1.
Proof.
  intros L LP LT HP HT N. unfold calc_knoben_indicators.
  destruct (pet_array_defined T lat L LT HT) as [E [-> [LE HE]]].
  destruct (mi_array_defined P E LP LE HP HE) as [mi [-> [LM HM]]].
  unfold annual_aridity, K_aridity. rewrite !osum_some. destruct (Req_EM_T (rtotal P) 0) as [|_]; [contradiction|].
  destruct (K_snow_fraction P T) as [f|] eqn:F. 2: { unfold K_snow_fraction in F. destruct (Req_EM_T (rtotal P) 0); [contradiction | discriminate]. }
  destruct (K_seasonality (map Some mi)) as [s|] eqn:S. 2: { destruct mi; [discriminate LM|]. cbn [map K_seasonality] in S. rewrite fold_omax_some, fold_omin_some in S. discriminate. }
  exists (rtotal E / rtotal P), (rtotal mi / 12), s, f. split; [reflexivity|].
  pose proof (rtotal_nonneg P HP). pose proof (rtotal_nonneg E HE).
  pose proof (rtotal_bounds (-1) 1 mi HM) as B. rewrite LM in B. replace (INR 12) with 12 in B by (cbn; lra).
  split; [apply Rmult_le_pos; [lra | left; apply Rinv_0_lt_compat; lra]|]. split; [lra|]. split.
  - apply C78_seasonality in S; [|destruct mi; [discriminate LM | discriminate]]. destruct S as [[x [y [X [Y ->]]]] M].
    pose proof (HM x X). pose proof (HM y Y). pose proof (M x x X X). lra.
  - apply (C78_snow_bounds P T f); [congruence | exact HP | exact F].
Qed.
Print Assumptions C78_indicators_ranges.
(* C78 REFUTED "for every gage": at 75 degrees and beyond all but the snow fraction are nan, whatever the weather *)
Theorem C78_indicators_polar_refuted lat P T : 75 <= lat < 90 \/ -90 < lat <= -75 ->
  calc_knoben_indicators lat P T = (None, None, None, K_snow_fraction P T).
Proof.
  intro L. unfold calc_knoben_indicators.
  assert (J : PET_month 1 (nth 0 T 0) lat = None).
  { unfold PET_month. apply osum_none. apply in_map_iff. exists 0%nat. split; [|left; reflexivity].
    unfold PET_day. change (INR 0) with 0. rewrite (C78_daylight_polar_refuted lat L). reflexivity. }
  assert (A : PET_array T lat = None :: map (fun m => PET_month m (nth (m - 1) T 0) lat) (seq 2 11)).
  { unfold PET_array. change (seq 1 12) with (1%nat :: seq 2 11). cbn [map]. replace (1 - 1)%nat with 0%nat by reflexivity. rewrite J. reflexivity. }
  rewrite A. unfold annual_aridity. rewrite osum_none by (left; reflexivity).
  set (r := map _ (seq 2 11)).
  assert (M : MI_array P (None :: r) = None :: map (fun k => MI_o (nth k P 0) (nth k (None :: r) None)) (seq 1 11)) by reflexivity.
  rewrite M. unfold K_aridity. rewrite osum_none by (left; reflexivity). unfold K_seasonality. rewrite fold_omax_none. reflexivity.
Qed.
Print Assumptions C78_indicators_polar_refuted.
(* C78 REFUTED "the annual index converts to the annual aridity": it is a mean of the months *)
Theorem C78_convert_mean_refuted :
  let P := [2; 2; 2; 2; 2; 2; 1; 1; 1; 1; 1; 1] in
  let E := map Some [0; 0; 0; 0; 0; 0; 1; 1; 1; 1; 1; 1] in
  annual_aridity P E = Some (1 / 3) /\
  exists k, K_aridity (MI_array P E) = Some k /\ convert_knoben_aridity k = Some (1 / 2).
Proof.
  cbv zeta. split.
  - unfold annual_aridity. rewrite osum_some. unfold rtotal. cbn [fold_left]. destruct (Req_EM_T _ 0); [lra|]. f_equal. lra.
  - exists (1 / 2). split.
    + unfold MI_array. cbn [seq map nth MI_o]. unfold MI.
      destruct (Rlt_dec 0 2); [|lra]. destruct (Rlt_dec 1 1); [lra|]. destruct (Req_EM_T 1 1); [|lra].
      change ([Some (1 - 0 / 2); Some (1 - 0 / 2); Some (1 - 0 / 2); Some (1 - 0 / 2); Some (1 - 0 / 2); Some (1 - 0 / 2); Some 0; Some 0; Some 0; Some 0; Some 0; Some 0])
        with (map Some [1 - 0 / 2; 1 - 0 / 2; 1 - 0 / 2; 1 - 0 / 2; 1 - 0 / 2; 1 - 0 / 2; 0; 0; 0; 0; 0; 0]).
      unfold K_aridity. rewrite osum_some. unfold rtotal. cbn [fold_left]. f_equal. lra.
    + unfold convert_knoben_aridity. destruct (Rle_dec 0 (1 / 2)); [f_equal; lra | lra].
Qed.
Print Assumptions C78_convert_mean_refuted.
(* the hypotheses are met: a basin at 40 degrees, with cold wet winters *)
Example C78_indicators_case : let P := [8; 8; 6; 5; 4; 2; 1; 0; 2; 5; 7; 8] in let T := [-5; -3; 2; 8; 14; 20; 25; 24; 18; 10; 3; -2] in
  exists a k s f, calc_knoben_indicators 40 P T = (Some a, Some k, Some s, Some f) /\ 0 <= a /\ -1 <= k <= 1 /\ 0 <= s <= 2 /\ 0 <= f <= 1.
Proof.
  cbv zeta. apply C78_indicators_ranges; try reflexivity; try lra.
  - intros p H. cbn in H. repeat destruct H as [<-|H]; try lra.
  - intros t H. cbn in H. repeat destruct H as [<-|H]; try lra.
  - unfold rtotal. cbn [fold_left]. lra.
Qed.
