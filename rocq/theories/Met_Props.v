(* C90: humidity, lapse-rate and time step helpers. *)
From Coq Require Import Reals List Bool Lra.
From Verif Require Import Met_Model.
Import ListNotations.
Local Open Scope R_scope.

(* the lowest temperature at which each formula makes sense: above the pole of its denominator *)
Definition pole (m : method) : R := match m with NoMethod | BRUTSAERT => -2373/10 | SATTERLUND => -27315/100 | BOLTON => -2435/10 | Other => 0 end.
Lemma frac_mono : forall k c T1 T2, 0 < k -> 0 < c -> - c < T1 -> T1 < T2 -> k * T1 / (T1 + c) < k * T2 / (T2 + c).
Proof.
  intros k c T1 T2 Hk Hc H1 H2. replace (k * T1 / (T1 + c)) with (k - k * c * / (T1 + c)) by (field; lra). replace (k * T2 / (T2 + c)) with (k - k * c * / (T2 + c)) by (field; lra).
  assert (/ (T2 + c) < / (T1 + c)) by (apply Rinv_lt_contravar; [apply Rmult_lt_0_compat; lra|lra]). assert (0 < k * c) by (apply Rmult_lt_0_compat; lra). nra.
Qed.
Lemma ln10_pos : 0 < ln 10.
Proof. rewrite <- ln_1. apply ln_increasing; lra. Qed.
(* positive, and warmer air can hold more vapour, for each method and unit *)
Theorem C90_saturation : forall m mbar T1 T2, m <> Other -> pole m < T1 -> T1 < T2 ->
  exists e1 e2, saturation_vapor_pressure T1 m mbar = Ok e1 /\ saturation_vapor_pressure T2 m mbar = Ok e2 /\ 0 < e1 < e2.
Proof.
  intros m mbar T1 T2 Hm H1 H2.
  assert (G : exists f1 f2, 0 < f1 < f2 /\ saturation_vapor_pressure T1 m mbar = Ok (if mbar then f1 * 10 else f1) /\ saturation_vapor_pressure T2 m mbar = Ok (if mbar then f2 * 10 else f2)).
  { destruct m; try contradiction; cbn [pole] in H1; cbn [saturation_vapor_pressure].
    1,2: eexists; eexists; split; [|split; reflexivity]; pose proof (exp_pos ((173/10) * T1 / (T1 + 2373/10))); pose proof (exp_increasing _ _ (frac_mono (173/10) (2373/10) T1 T2 ltac:(lra) ltac:(lra) ltac:(lra) H2)); lra.
    - eexists; eexists; split; [|split; reflexivity]. unfold Rpower. pose proof (exp_pos ((114/10 - 2353 / (T1 + 27315/100)) * ln 10)).
      assert (exp ((114/10 - 2353 / (T1 + 27315/100)) * ln 10) < exp ((114/10 - 2353 / (T2 + 27315/100)) * ln 10)); [|lra].
      apply exp_increasing. apply Rmult_lt_compat_r; [apply ln10_pos|].
      assert (/ (T2 + 27315/100) < / (T1 + 27315/100)) by (apply Rinv_lt_contravar; [apply Rmult_lt_0_compat; lra|lra]). unfold Rdiv at 2 4. lra.
    - eexists; eexists; split; [|split; reflexivity]; pose proof (exp_pos ((1767/100) * T1 / (T1 + 2435/10))); pose proof (exp_increasing _ _ (frac_mono (1767/100) (2435/10) T1 T2 ltac:(lra) ltac:(lra) ltac:(lra) H2)); lra. }
  destruct G as (f1 & f2 & F & E1 & E2). eexists. eexists. split; [exact E1|]. split; [exact E2|]. destruct mbar; lra.
Qed.
Print Assumptions C90_saturation.
(* millibars are ten times kilopascals *)
Theorem C90_units : forall T m e, saturation_vapor_pressure T m false = Ok e -> saturation_vapor_pressure T m true = Ok (10 * e).
Proof. intros T m e H. destruct m; simpl in *; try discriminate; injection H as <-; f_equal; ring. Qed.
Print Assumptions C90_units.
(* at 0 C the two exponential formulas give 6.11 and 6.112 mbar *)
Theorem C90_freezing : saturation_vapor_pressure 0 NoMethod true = Ok (611/100) /\ saturation_vapor_pressure 0 BRUTSAERT true = Ok (611/100) /\ saturation_vapor_pressure 0 BOLTON true = Ok (6112/1000).
Proof. simpl. rewrite !Rmult_0_r. unfold Rdiv. rewrite !Rmult_0_l, exp_0. repeat split; f_equal; lra. Qed.
Print Assumptions C90_freezing.
(* an unknown method name fails *)
Theorem C90_unknown : forall q T P, saturation_vapor_pressure T Other true = Raise UnboundLocalError /\ relative_humidity q T P Other = Raise UnboundLocalError.
Proof. intros. split; reflexivity. Qed.
Print Assumptions C90_unknown.

(* specific humidity of saturated air at pressure P and vapour pressure e: 0.622 e / (P - 0.378 e) *)
Definition q_sat (P e : R) : R := (622/1000) * e / (P - (378/1000) * e).
Lemma e_air_mono : forall P q1 q2, 0 < P -> 0 <= q1 -> q1 < q2 -> 0 <= q1 * P / ((378/1000) * q1 + 622/1000) < q2 * P / ((378/1000) * q2 + 622/1000).
Proof.
  intros P q1 q2 HP H1 H2. set (a1 := (378/1000) * q1 + 622/1000). set (a2 := (378/1000) * q2 + 622/1000). assert (0 < a1 /\ 0 < a2) as [A1 A2] by (unfold a1, a2; lra).
  split.
  - apply Rmult_le_pos; [apply Rmult_le_pos; lra|left; now apply Rinv_0_lt_compat].
  - apply Rmult_lt_reg_r with (a1 * a2); [now apply Rmult_lt_0_compat|].
    replace (q1 * P / a1 * (a1 * a2)) with (q1 * P * a2) by (field; lra). replace (q2 * P / a2 * (a1 * a2)) with (q2 * P * a1) by (field; lra). unfold a1, a2. nra.
Qed.
Lemma e_sat_pos : forall T m e, pole m < T -> saturation_vapor_pressure T m true = Ok e -> 0 < e.
Proof.
  intros T m e Hp H. assert (Hm : m <> Other) by (intros ->; discriminate H). destruct (C90_saturation m true T (T + 1) Hm Hp ltac:(lra)) as (e1 & e2 & E1 & _ & P). rewrite H in E1. injection E1 as <-. lra.
Qed.
Lemma clip_mono : forall x y, x <= y -> Rmax (Rmin x 1) 0 <= Rmax (Rmin y 1) 0.
Proof. intros x y H. unfold Rmax, Rmin. repeat destruct (Rle_dec _ _); lra. Qed.
(* always between 0 and 1; more vapour never lowers it; warmer air never raises it; 1 exactly from saturation on *)
Theorem C90_humidity : forall q T P m, m <> Other -> pole m < T -> 0 < P -> 0 <= q ->
  exists e h, saturation_vapor_pressure T m true = Ok e /\ relative_humidity q T P m = Ok h /\ 0 <= h <= 1 /\
  (h = 0 <-> q = 0) /\ (forall q' h', q <= q' -> relative_humidity q' T P m = Ok h' -> h <= h') /\ (forall T' h', T <= T' -> relative_humidity q T' P m = Ok h' -> h' <= h) /\
  ((378/1000) * e < P -> (h = 1 <-> q_sat P e <= q)).
Proof.
  intros q T P m Hm Hp HP Hq. destruct (C90_saturation m true T (T + 1) Hm Hp ltac:(lra)) as (e & e2 & E & _ & Pe). exists e.
  unfold relative_humidity. rewrite E. cbv zeta. eexists. split; [reflexivity|]. split; [reflexivity|].
  set (f := fun q => q * P / (378 / 1000 * q + 622 / 1000)).
  change (q * P / (378 / 1000 * q + 622 / 1000)) with (f q).
  assert (F0 : 0 <= f q). { destruct (Req_dec q 0) as [->|n]; [unfold f; rewrite Rmult_0_l; unfold Rdiv; rewrite Rmult_0_l; lra|]. pose proof (e_air_mono P 0 q HP ltac:(lra) ltac:(lra)) as [A B]. fold (f 0) in A, B. fold (f q) in B. lra. }
  assert (Ie : 0 < / e) by (apply Rinv_0_lt_compat; lra).
  split; [unfold Rmax, Rmin; repeat destruct (Rle_dec _ _); lra|]. split.
  { split.
    - intros Z. destruct (Req_dec q 0) as [->|n]; [reflexivity|]. exfalso. pose proof (e_air_mono P 0 q HP ltac:(lra) ltac:(lra)) as [A B]. fold (f 0) in A, B. fold (f q) in B.
      assert (0 < f q / e) by (apply Rmult_lt_0_compat; lra). revert Z. unfold Rmax, Rmin; repeat destruct (Rle_dec _ _); lra.
    - intros ->. unfold f. rewrite Rmult_0_l. unfold Rdiv. rewrite !Rmult_0_l. unfold Rmax, Rmin; repeat destruct (Rle_dec _ _); lra. }
  split.
  { intros q' h' Hle H. injection H as <-. apply clip_mono. apply Rmult_le_compat_r; [lra|]. fold (f q'). destruct (Req_dec q q') as [->|n]; [lra|]. pose proof (e_air_mono P q q' HP Hq ltac:(lra)) as [A B]. fold (f q) in A, B. fold (f q') in B. lra. }
  split.
  { intros T' h' Hle H. destruct (saturation_vapor_pressure T' m true) as [e'|] eqn:E'; [|discriminate]. injection H as <-. apply clip_mono. apply Rmult_le_compat_l; [exact F0|].
    destruct (Req_dec T T') as [<-|n]; [rewrite E in E'; injection E' as <-; lra|]. destruct (C90_saturation m true T T' Hm Hp ltac:(lra)) as (x & y & X & Y & XY). rewrite E in X. injection X as <-. rewrite E' in Y. injection Y as <-.
    left. apply Rinv_lt_contravar; [apply Rmult_lt_0_compat; lra|lra]. }
  intros HeP.
  assert (K : 1 <= f q / e <-> q_sat P e <= q).
  { assert (M1 : f q / e * e = f q) by (field; lra). assert (M2 : f q * (378 / 1000 * q + 622 / 1000) = q * P) by (unfold f; field; lra). assert (M3 : q_sat P e * (P - (378/1000) * e) = (622/1000) * e) by (unfold q_sat; field; lra).
    set (x := f q / e) in *. clearbody x. set (y := f q) in *. clearbody y. clear f. set (z := q_sat P e) in *. clearbody z. split; intros.
    - assert (e <= y) by nra. assert (e * (378 / 1000 * q + 622 / 1000) <= q * P) by (rewrite <- M2; apply Rmult_le_compat_r; lra). assert (z * (P - 378 / 1000 * e) <= q * (P - 378 / 1000 * e)) by (rewrite M3; lra). apply Rmult_le_reg_r with (P - 378 / 1000 * e); lra.
    - assert (z * (P - 378 / 1000 * e) <= q * (P - 378 / 1000 * e)) by (apply Rmult_le_compat_r; lra). rewrite M3 in H0. assert (e * (378 / 1000 * q + 622 / 1000) <= y * (378 / 1000 * q + 622 / 1000)) by (rewrite M2; lra).
      assert (e <= y) by (apply Rmult_le_reg_r with (378 / 1000 * q + 622 / 1000); lra). rewrite <- M1 in H2. apply Rmult_le_reg_r with e; lra. }
  rewrite <- K. unfold Rmax, Rmin; repeat destruct (Rle_dec _ _); lra.
Qed.
Print Assumptions C90_humidity.
Example C90_humidity_case : pole BOLTON < 20 /\ exists h, relative_humidity (1/100) 20 1000 BOLTON = Ok h.
Proof. split; [simpl; lra|]. eexists. reflexivity. Qed.

(* ---------- lapse rate ---------- *)
(* one frame for each time, in order; each cell has the station's temperature minus the lapse rate times its height above the station *)
Theorem C90_lapse : forall grid z0 ts LR, List.length ts <> 1%nat -> exists frames, lapse_air_temperature grid z0 ts LR = (frames, Ok tt) /\ List.length frames = List.length ts /\
  forall k i t z, nth_error ts k = Some t -> nth_error grid i = Some z -> exists f, nth_error frames k = Some f /\ List.length f = List.length grid /\ nth_error f i = Some (t - LR * (z - z0)).
Proof.
  intros grid z0 ts LR H. exists (map (lapse_frame grid z0 LR) ts). split.
  - unfold lapse_air_temperature. destruct ts as [|t [|t' ts]]; try reflexivity. now contradiction H.
  - split; [apply map_length|]. intros k i t z Ht Hz. exists (lapse_frame grid z0 LR t). split; [now apply map_nth_error|]. unfold lapse_frame. split; [apply map_length|].
    rewrite (map_nth_error _ _ _ Hz). f_equal. ring.
Qed.
Print Assumptions C90_lapse.
(* a cell at the station's height gets the station's temperature, a higher one is colder *)
Theorem C90_lapse_height : forall LR z0 t z1 z2, 0 < LR -> z1 < z2 -> exists a b, lapse_frame [z0; z1; z2] z0 LR t = [t; a; b] /\ b < a /\ a - b = LR * (z2 - z1).
Proof. intros LR z0 t z1 z2 HL Hz. eexists. eexists. split; [unfold lapse_frame; cbn [map]; replace (t - (z0 - z0) * LR) with t by ring; reflexivity|]. split; nra. Qed.
Print Assumptions C90_lapse_height.
(* a series of one value is refused and leaves an empty file *)
Theorem C90_lapse_refuted : forall grid z0 t LR, lapse_air_temperature grid z0 [t] LR = ([], Raise TypeError).
Proof. reflexivity. Qed.
Print Assumptions C90_lapse_refuted.
Example C90_lapse_case : exists f, lapse_air_temperature [100; 200] 100 [15; 16] (1/100) = (f, Ok tt) /\ nth_error f 1 = Some [16 - (100 - 100) * (1/100); 16 - (200 - 100) * (1/100)].
Proof. eexists. split; reflexivity. Qed.

(* ---------- time step ---------- *)
(* the two functions agree: a time step passes the Courant test exactly when it is at most the stable one *)
Theorem C90_courant : forall dx dt v, 0 < v -> Courant_Condition_OK dx dt v = true <-> dt <= Stable_Timestep dx v.
Proof.
  intros dx dt v Hv. unfold Courant_Condition_OK, Stable_Timestep. rewrite !Rmult_1_r. assert (M : dx / v * v = dx) by (field; lra). set (x := dx / v) in *. clearbody x.
  destruct (Rle_dec (v * dt) dx); split; intros; try reflexivity; try discriminate; nra.
Qed.
Print Assumptions C90_courant.
Theorem C90_courant_stable : forall dx v, 0 < v -> Courant_Condition_OK dx (Stable_Timestep dx v) v = true.
Proof. intros dx v H. apply C90_courant; lra. Qed.
Print Assumptions C90_courant_stable.
Theorem C90_courant_spec : forall dx dt v, Courant_Condition_OK dx dt v = true <-> v * dt <= dx.
Proof. intros. unfold Courant_Condition_OK. rewrite Rmult_1_r. destruct (Rle_dec (v * dt) dx); split; intros; try assumption; try reflexivity; try discriminate; contradiction. Qed.
Print Assumptions C90_courant_spec.
