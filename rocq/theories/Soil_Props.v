(* C89: the standard soils have consistent water contents and conductivities. *)
From Coq Require Import String Ascii Reals List Bool Lra.
From Verif Require Import Soil_Model.
Import ListNotations.
Local Open Scope R_scope.

(* what is asked of a soil: suction at the bubbling pressure, positive pore-size index, water contents between 0 and 1 *)
Definition sound (s : soil) : Prop := 0 < K_s s /\ psi_B s < 0 /\ 0 < Lambda s /\ eta s = 2 + 3 * Lambda s /\ c s = 1 /\ psi_A s = 0 /\ 0 < theta_s s < 1.

Lemma find_in : forall ns rs s r, find_row ns rs s = Some r -> In r rs.
Proof. induction ns as [|n ns IH]; intros [|x rs] s r H; simpl in H; try discriminate. destruct (String.eqb n s); [injection H as ->; now left|right; eauto]. Qed.
(* bounds of the table *)
Lemma table_bounds : forall r, In r table -> 395/1000 <= t_por r <= 492/1000 /\ 0 < t_Ks r /\ 9 <= t_psiB r <= 786/10 /\ 405/100 <= t_b r <= 114/10 /\ 0 < t_G r.
Proof. intros r H. unfold table in H. simpl in H. decompose [or] H; try contradiction; subst r; simpl; lra. Qed.
Lemma inv_bounds : forall x, 405/100 <= x <= 114/10 -> 1/12 < 1 / x < 1/4.
Proof.
  intros x H. split.
  - apply Rmult_lt_reg_r with x; [lra|]. unfold Rdiv. rewrite (Rmult_assoc 1 (/ x)), Rinv_l by lra. lra.
  - apply Rmult_lt_reg_r with x; [lra|]. unfold Rdiv. rewrite (Rmult_assoc 1 (/ x)), Rinv_l by lra. lra.
Qed.
Lemma soil_sound : forall r, In r table -> sound (soil_of r) /\ 9/100 <= - psi_B (soil_of r) <= 786/1000 /\ 1/12 < Lambda (soil_of r) < 1/4 /\ theta_s (soil_of r) = porosity (soil_of r).
Proof.
  intros r H. apply table_bounds in H. destruct H as (H1 & H2 & H3 & H4 & H5). pose proof (inv_bounds _ H4). unfold sound, soil_of. cbn [K_s psi_B Lambda eta c psi_A theta_s porosity].
  repeat split; lra.
Qed.

Lemma Rpower_lt_1 : forall x y, 1 < x -> y < 0 -> 0 < Rpower x y < 1.
Proof.
  intros x y Hx Hy. split; [apply exp_pos|]. unfold Rpower. rewrite <- exp_0. apply exp_increasing.
  assert (0 < ln x) by (rewrite <- ln_1; apply ln_increasing; lra). nra.
Qed.
Lemma Rpower_neg_anti : forall x y e, 0 < x < y -> e < 0 -> Rpower y e < Rpower x e.
Proof. intros x y e H He. unfold Rpower. apply exp_increasing. assert (ln x < ln y) by (apply ln_increasing; lra). nra. Qed.
Lemma Rpower_pos_mono : forall x y e, 0 < x < y -> 0 < e -> Rpower x e < Rpower y e.
Proof. intros x y e H He. unfold Rpower. apply exp_increasing. assert (ln x < ln y) by (apply ln_increasing; lra). nra. Qed.
Lemma Rpower_below_1 : forall x e, 0 < x < 1 -> 0 < e -> 0 < Rpower x e < 1.
Proof.
  intros x e H He. split; [apply exp_pos|]. unfold Rpower. rewrite <- exp_0. apply exp_increasing.
  assert (ln x < 0) by (rewrite <- ln_1; apply ln_increasing; lra). nra.
Qed.

(* the retention curve: strictly drier at a lower pressure head, always between residual and saturated *)
Lemma theta_at_form : forall s q p, sound s -> p < 0 -> theta_at s q p = q + (theta_s s - q) * Rpower (1 + p / 100 / psi_B s) (- Lambda s) /\ 0 < p / 100 / psi_B s.
Proof.
  intros s q p (H1 & H2 & H3 & H4 & H5 & H6 & H7) Hp. unfold theta_at, pp. rewrite H5, H6.
  assert (Hr : 0 < p / 100 / psi_B s).
  { replace (p / 100 / psi_B s) with ((- p / 100) * / (- psi_B s)) by (field; lra). apply Rmult_lt_0_compat; [lra|]. apply Rinv_0_lt_compat. lra. }
  split; [|exact Hr]. replace ((p / 100 + 0) / psi_B s) with (p / 100 / psi_B s) by (field; lra). rewrite (Rpower_1 _ Hr).
  replace (- Lambda s / 1) with (- Lambda s) by field. ring.
Qed.
Theorem C89_retention : forall s q p1 p2, sound s -> q < theta_s s -> p1 < p2 -> p2 < 0 -> q < theta_at s q p1 < theta_at s q p2 /\ theta_at s q p2 < theta_s s.
Proof.
  intros s q p1 p2 Hs Hq H12 H2. destruct (theta_at_form s q p1 Hs ltac:(lra)) as [E1 R1]. destruct (theta_at_form s q p2 Hs H2) as [E2 R2]. rewrite E1, E2.
  destruct Hs as (_ & HB & HL & _).
  assert (Hlt : p2 / 100 / psi_B s < p1 / 100 / psi_B s).
  { replace (p2 / 100 / psi_B s) with ((- p2 / 100) * / (- psi_B s)) by (field; lra). replace (p1 / 100 / psi_B s) with ((- p1 / 100) * / (- psi_B s)) by (field; lra).
    apply Rmult_lt_compat_r; [apply Rinv_0_lt_compat; lra|lra]. }
  pose proof (Rpower_neg_anti (1 + p2 / 100 / psi_B s) (1 + p1 / 100 / psi_B s) (- Lambda s) ltac:(lra) ltac:(lra)) as A.
  pose proof (Rpower_lt_1 (1 + p2 / 100 / psi_B s) (- Lambda s) ltac:(lra) ltac:(lra)) as B.
  pose proof (Rpower_lt_1 (1 + p1 / 100 / psi_B s) (- Lambda s) ltac:(lra) ltac:(lra)) as C.
  set (x := Rpower (1 + p1 / 100 / psi_B s) (- Lambda s)) in *. set (y := Rpower (1 + p2 / 100 / psi_B s) (- Lambda s)) in *. clearbody x y.
  assert (0 < (theta_s s - q) * x) by (apply Rmult_lt_0_compat; lra). assert ((theta_s s - q) * x < (theta_s s - q) * y) by (apply Rmult_lt_compat_l; lra).
  assert ((theta_s s - q) * y < (theta_s s - q) * 1) by (apply Rmult_lt_compat_l; lra). lra.
Qed.
Print Assumptions C89_retention.
(* residual water content: theta_s times (psi_B / -10000 m) to the pore-size index, inside (0, theta_s) for any bubbling pressure above -10000 m *)
Theorem C89_residual : forall s, sound s -> -10000 < psi_B s -> 0 < theta_residual s < theta_s s.
Proof.
  intros s (H1 & H2 & H3 & H4 & H5 & H6 & H7) Hb. unfold theta_residual, pp.
  pose proof (Rpower_below_1 (psi_B s / (- 1000000 / 100)) (Lambda s) ltac:(lra) H3) as P. set (x := Rpower _ _) in *. clearbody x. split; nra.
Qed.
Print Assumptions C89_residual.

Lemma exp_neg_bound : forall x, 0 < x -> exp (- x) < / (1 + x).
Proof. intros x H. rewrite exp_Ropp. apply Rinv_lt_contravar; [apply Rmult_lt_0_compat; [lra|apply exp_pos]|]. apply exp_ineq1. lra. Qed.
Lemma e_lt_5 : exp 1 < 5.
Proof. pose proof exp_le_3. lra. Qed.

(* every type that is found gives 0 < residual < hygroscopic < wilting < initial = field capacity < upper < saturated = porosity < 1 *)
Theorem C89_order : forall name r, initialize name = Some r ->
  exists u, r_theta_u r = Ok (Some u) /\
  0 < r_theta_r r < r_theta_H r /\ r_theta_H r < r_theta_w r /\ r_theta_w r < r_theta_f r /\ r_theta_i r = r_theta_f r /\ r_theta_f r < u < theta_s (r_soil r) /\
  theta_s (r_soil r) = porosity (r_soil r) /\ porosity (r_soil r) < 1.
Proof.
  intros name r H. unfold initialize in H. destruct (find_row base_names table (lower name)) as [w|] eqn:E; [|discriminate]. apply find_in in E.
  pose proof (soil_sound w E) as (Hs & HB & HL & Hp). cbv zeta in H. set (s := soil_of w) in *. clearbody s. injection H as <-. cbn [r_soil r_theta_r r_theta_H r_theta_w r_theta_f r_theta_i r_theta_u].
  pose proof (C89_residual s Hs ltac:(lra)) as Hr. set (q := theta_residual s) in *. clearbody q.
  pose proof (C89_retention s q (-31000) (-15000) Hs ltac:(lra) ltac:(lra) ltac:(lra)) as [A1 A2].
  pose proof (C89_retention s q (-15000) (-340) Hs ltac:(lra) ltac:(lra) ltac:(lra)) as [B1 B2].
  destruct (theta_at_form s q (-340) Hs ltac:(lra)) as [F R].
  pose proof Hs as (K0 & B0 & L0 & Ee & Ec & EA & Hq).
  unfold theta_max. destruct (Rlt_dec (K_s s * (95 / 100)) (K_s s)) as [_|n]; [|lra]. cbv zeta.
  replace (K_s s * (95 / 100) / K_s s) with (95/100) by (field; lra). unfold pw. destruct (Rlt_dec (95/100) 0); [lra|]. destruct (Req_EM_T (95/100) 0); [lra|]. cbn [option_map].
  assert (He : 0 < 1 / (eta s / Lambda s) < 1).
  { rewrite Ee. replace (1 / ((2 + 3 * Lambda s) / Lambda s)) with (Lambda s * / (2 + 3 * Lambda s)) by (field; lra). split.
    - apply Rmult_lt_0_compat; [lra|apply Rinv_0_lt_compat; lra].
    - apply Rmult_lt_reg_r with (2 + 3 * Lambda s); [lra|]. rewrite Rmult_assoc, Rinv_l by lra. lra. }
  pose proof (Rpower_below_1 (95/100) _ ltac:(lra) (proj1 He)) as U1.
  assert (U2 : 95/100 <= Rpower (95/100) (1 / (eta s / Lambda s))).
  { rewrite <- (Rpower_1 (95/100)) at 1 by lra. unfold Rpower. assert (ln (95/100) < 0) by (rewrite <- ln_1; apply ln_increasing; lra).
    left. apply exp_increasing. nra. }
  set (u := Rpower (95/100) _) in *. clearbody u.
  assert (Fb : Rpower (1 + -340 / 100 / psi_B s) (- Lambda s) < 95/100).
  { assert (5 <= 1 + -340 / 100 / psi_B s).
    { replace (-340 / 100 / psi_B s) with ((34/10) * / (- psi_B s)) by (field; lra). assert (/ (786/1000) <= / (- psi_B s)) by (apply Rinv_le_contravar; lra). lra. }
    unfold Rpower. assert (1 < ln (1 + -340 / 100 / psi_B s)). { rewrite <- (ln_exp 1) at 1. apply ln_increasing; [apply exp_pos|]. pose proof e_lt_5. lra. }
    apply Rlt_trans with (exp (- (1/12))).
    - apply exp_increasing. nra.
    - apply Rlt_le_trans with (/ (1 + 1/12)); [apply exp_neg_bound; lra|]. lra. }
  unfold theta_min, theta_wilting, theta_field. exists (q + (theta_s s - q) * u). repeat split; try lra.
  - rewrite F. apply Rplus_lt_compat_l. apply Rmult_lt_compat_l; lra.
  - assert ((theta_s s - q) * u < (theta_s s - q) * 1) by (apply Rmult_lt_compat_l; lra). lra.
Qed.
Print Assumptions C89_order.

(* ---------- conductivity ---------- *)
Lemma eps_pos : forall s, sound s -> 0 < (2 + 3 * Lambda s) / Lambda s.
Proof. intros s (_ & _ & H & _). apply Rmult_lt_0_compat; [lra|apply Rinv_0_lt_compat; lra]. Qed.
Lemma sat_range : forall a q t, q < t -> (0 <= (a - q) / (t - q) <-> q <= a) /\ ((a - q) / (t - q) <= 1 <-> a <= t).
Proof.
  intros a q t H. assert (P : 0 < / (t - q)) by (apply Rinv_0_lt_compat; lra). assert (M : (a - q) / (t - q) * (t - q) = a - q) by (field; lra).
  set (x := (a - q) / (t - q)) in *. clearbody x. split; split; intros; nra.
Qed.
Lemma K_form : forall s q a, sound s -> q < theta_s s -> q <= a -> K_of_theta s q a = Some (K_s s * (if Rle_dec (theta_s s) a then 1 else if Req_EM_T a q then 0 else Rpower ((a - q) / (theta_s s - q)) ((2 + 3 * Lambda s) / Lambda s))).
Proof.
  intros s q a Hs Hq Ha. unfold K_of_theta. cbv zeta. destruct (sat_range a q (theta_s s) Hq) as [A B].
  assert (M : (a - q) / (theta_s s - q) * (theta_s s - q) = a - q) by (field; lra). pose proof (eps_pos s Hs) as E. unfold pw.
  set (x := (a - q) / (theta_s s - q)) in *. clearbody x. set (e := (2 + 3 * Lambda s) / Lambda s) in *. clearbody e.
  destruct (Rlt_dec x 0) as [N|N]; [exfalso; apply (Rlt_not_le _ _ N); tauto|].
  destruct (Req_EM_T x 0) as [Z|Z].
  - subst x. destruct (Rle_dec (theta_s s) a); [nra|]. destruct (Req_EM_T a q) as [_|n1]; [|nra]. rewrite Rmin_left by lra. now rewrite Rmax_left by lra.
  - assert (0 < x) by lra. destruct (Req_EM_T a q) as [Za|Za]; [exfalso; subst a; nra|].
    destruct (Rle_dec (theta_s s) a) as [L|L].
    + assert (1 <= x) by nra. assert (1 <= Rpower x e). { destruct (Req_dec x 1) as [->|n1]; [unfold Rpower; rewrite ln_1, Rmult_0_r, exp_0; lra|]. unfold Rpower. rewrite <- exp_0 at 1. left. apply exp_increasing. assert (0 < ln x) by (rewrite <- ln_1; apply ln_increasing; lra). nra. }
      rewrite Rmin_right by lra. now rewrite Rmax_left by lra.
    + assert (x < 1) by nra. pose proof (Rpower_below_1 x e ltac:(lra) E). rewrite Rmin_left by lra. now rewrite Rmax_left by lra.
Qed.
(* from 0 at the residual content to K_s at saturation, never decreasing, never outside *)
Theorem C89_conductivity : forall s q a1 a2, sound s -> q < theta_s s -> q <= a1 -> a1 <= a2 -> exists k1 k2, K_of_theta s q a1 = Some k1 /\ K_of_theta s q a2 = Some k2 /\
  0 <= k1 <= k2 /\ k2 <= K_s s /\ (a1 = q -> k1 = 0) /\ (theta_s s <= a2 -> k2 = K_s s) /\ (a1 < a2 -> a2 <= theta_s s -> k1 < k2).
Proof.
  intros s q a1 a2 Hs Hq H1 H2. rewrite (K_form s q a1 Hs Hq H1), (K_form s q a2 Hs Hq ltac:(lra)). eexists. eexists. split; [reflexivity|]. split; [reflexivity|].
  pose proof Hs as (K0 & _). pose proof (eps_pos s Hs) as E. set (e := (2 + 3 * Lambda s) / Lambda s) in *. clearbody e.
  destruct (sat_range a1 q (theta_s s) Hq) as [A1 B1]. destruct (sat_range a2 q (theta_s s) Hq) as [A2 B2].
  assert (M1 : (a1 - q) / (theta_s s - q) * (theta_s s - q) = a1 - q) by (field; lra). assert (M2 : (a2 - q) / (theta_s s - q) * (theta_s s - q) = a2 - q) by (field; lra).
  set (x1 := (a1 - q) / (theta_s s - q)) in *. clearbody x1. set (x2 := (a2 - q) / (theta_s s - q)) in *. clearbody x2.
  assert (P : forall x, 0 < x < 1 -> 0 < Rpower x e < 1) by (intros; apply Rpower_below_1; lra).
  set (f := fun a x => if Rle_dec (theta_s s) a then 1 else if Req_EM_T a q then 0 else Rpower x e).
  change (0 <= K_s s * f a1 x1 <= K_s s * f a2 x2 /\ K_s s * f a2 x2 <= K_s s /\ (a1 = q -> K_s s * f a1 x1 = 0) /\ (theta_s s <= a2 -> K_s s * f a2 x2 = K_s s) /\ (a1 < a2 -> a2 <= theta_s s -> K_s s * f a1 x1 < K_s s * f a2 x2)).
  assert (F : 0 <= f a1 x1 <= f a2 x2 /\ f a2 x2 <= 1 /\ (a1 = q -> f a1 x1 = 0) /\ (theta_s s <= a2 -> f a2 x2 = 1) /\ (a1 < a2 -> a2 <= theta_s s -> f a1 x1 < f a2 x2)).
  { unfold f. destruct (Rle_dec (theta_s s) a1) as [L1|L1]; destruct (Rle_dec (theta_s s) a2) as [L2|L2]; try lra.
    - destruct (Req_EM_T a1 q) as [Z1|Z1]; [repeat split; intros; lra|]. pose proof (P x1 ltac:(split; nra)). repeat split; intros; lra.
    - destruct (Req_EM_T a1 q) as [Z1|Z1]; destruct (Req_EM_T a2 q) as [Z2|Z2]; try lra.
      + pose proof (P x2 ltac:(split; nra)). repeat split; intros; lra.
      + pose proof (P x1 ltac:(split; nra)). pose proof (P x2 ltac:(split; nra)).
        assert (a1 < a2 -> Rpower x1 e < Rpower x2 e) by (intros; apply Rpower_pos_mono; [split; nra|lra]).
        assert (Rpower x1 e <= Rpower x2 e). { destruct (Req_dec a1 a2) as [Eq|Ne]; [replace x2 with x1 by nra; lra|]. assert (a1 < a2) by lra. specialize (H3 H4). lra. }
        repeat split; intros; try lra. }
  destruct F as ([F1 F2] & F3 & F4 & F5 & F6). set (f1 := f a1 x1) in *. set (f2 := f a2 x2) in *. clearbody f1 f2. clear f.
  repeat split; intros; try nra.
Qed.
Print Assumptions C89_conductivity.
(* below the residual content the answer is NaN, not 0 *)
Theorem C89_conductivity_refuted : forall s q a, q < theta_s s -> a < q -> K_of_theta s q a = None.
Proof.
  intros s q a Hq Ha. unfold K_of_theta, pw. destruct (sat_range a q (theta_s s) Hq) as [A _]. destruct (Rlt_dec ((a - q) / (theta_s s - q)) 0) as [_|n]; [reflexivity|]. exfalso. apply Rnot_lt_le in n. apply A in n. lra.
Qed.
Print Assumptions C89_conductivity_refuted.
(* the water content that carries a steady rain of less than K_s: its conductivity is that rain rate *)
Theorem C89_rain : forall s q r0, sound s -> q < theta_s s -> 0 < r0 < K_s s -> exists u, theta_max s q r0 = Ok (Some u) /\ q < u < theta_s s /\ K_of_theta s q u = Some r0.
Proof.
  intros s q r0 Hs Hq Hr. pose proof Hs as (K0 & _ & L0 & Ee & _). unfold theta_max. destruct (Rlt_dec r0 (K_s s)) as [_|n]; [|lra]. cbv zeta.
  assert (X : 0 < r0 / K_s s < 1). { assert (M : r0 / K_s s * K_s s = r0) by (field; lra). split; nra. }
  unfold pw. destruct (Rlt_dec (r0 / K_s s) 0); [lra|]. destruct (Req_EM_T (r0 / K_s s) 0); [lra|]. cbn [option_map].
  pose proof (eps_pos s Hs) as E. rewrite Ee. set (e := (2 + 3 * Lambda s) / Lambda s) in *.
  assert (E1 : 0 < 1 / e) by (apply Rmult_lt_0_compat; [lra|apply Rinv_0_lt_compat; exact E]).
  pose proof (Rpower_below_1 _ _ X E1) as U. set (u := Rpower (r0 / K_s s) (1 / e)) in *.
  eexists. split; [reflexivity|].
  assert (R : q < q + (theta_s s - q) * u < theta_s s) by (split; nra). split; [exact R|].
  rewrite K_form by (auto; lra). destruct (Rle_dec (theta_s s) (q + (theta_s s - q) * u)); [lra|]. destruct (Req_EM_T (q + (theta_s s - q) * u) q); [lra|].
  replace ((q + (theta_s s - q) * u - q) / (theta_s s - q)) with u by (field; lra). unfold u. fold e. rewrite Rpower_mult. replace (1 / e * e) with 1 by (field; unfold e in *; lra). rewrite Rpower_1 by lra. f_equal. field. lra.
Qed.
Print Assumptions C89_rain.
(* heavier rain should give saturation; the class raises NameError, the function version answers theta_s *)
Theorem C89_heavy_rain_refuted : forall s q r0, K_s s <= r0 -> theta_max s q r0 = Raise NameError /\ theta_max_func s q r0 = Some (theta_s s).
Proof. intros s q r0 H. unfold theta_max, theta_max_func. destruct (Rlt_dec r0 (K_s s)); [lra|auto]. Qed.
Print Assumptions C89_heavy_rain_refuted.
(* the initial conductivity is defined and less than that of saturation *)
Theorem C89_initial : forall name r, initialize name = Some r -> exists k, r_K_i r = Some k /\ 0 < k < K_s (r_soil r).
Proof.
  intros name r H. pose proof (C89_order name r H) as (u & _ & O1 & O2 & O3 & O4 & O5 & _). unfold initialize in H.
  destruct (find_row base_names table (lower name)) as [w|] eqn:E; [|discriminate]. apply find_in in E. pose proof (soil_sound w E) as (Hs & _). cbv zeta in H. set (s := soil_of w) in *. clearbody s. injection H as <-.
  cbn [r_soil r_theta_r r_theta_f r_theta_i r_K_i r_theta_H r_theta_w] in *. set (q := theta_residual s) in *. clearbody q. set (f := theta_field s q) in *. clearbody f.
  destruct (C89_conductivity s q q f Hs ltac:(lra) ltac:(lra) ltac:(lra)) as (k0 & k1 & A1 & A2 & A3 & A4 & A5 & A6 & A7).
  destruct (C89_conductivity s q f (theta_s s) Hs ltac:(lra) ltac:(lra) ltac:(lra)) as (k2 & k3 & B1 & B2 & B3 & B4 & B5 & B6 & B7).
  exists k1. split; [exact A2|]. specialize (A7 ltac:(lra) ltac:(lra)). specialize (B7 ltac:(lra) ltac:(lra)). specialize (B6 ltac:(lra)). rewrite A2 in B1. injection B1 as <-. lra.
Qed.
Print Assumptions C89_initial.

(* ---------- names ---------- *)
Lemma find_some_iff : forall ns rs s, List.length ns = List.length rs -> ((exists r, find_row ns rs s = Some r) <-> In s ns).
Proof.
  induction ns as [|n ns IH]; intros [|x rs] s H; simpl in *; try discriminate H; [split; [intros (r & H0); discriminate|tauto]|]. injection H as H.
  destruct (String.eqb_spec n s) as [->|ne]; [split; eauto|]. rewrite (IH rs s H). tauto.
Qed.
(* a type is known exactly when its lower-case form is one of the eleven names with underscores *)
Theorem C89_names : forall name, (initialize name <> None <-> In (lower name) base_names) /\ (Get_Soil_Params name <> None <-> In (lower name) funcs_names).
Proof.
  intros name. split.
  - rewrite <- (find_some_iff base_names table (lower name) eq_refl). unfold initialize. destruct (find_row base_names table (lower name)) as [r|]; split; intros; eauto; try discriminate; [congruence|destruct H; discriminate].
  - rewrite <- (find_some_iff funcs_names table (lower name) eq_refl). unfold Get_Soil_Params. destruct (find_row funcs_names table (lower name)) as [r|]; split; intros; eauto; try discriminate; [congruence|destruct H; discriminate].
Qed.
Print Assumptions C89_names.
(* the names shown to the user are not accepted, except the three of one word; and the two modules disagree on silt loam *)
Theorem C89_names_refuted : filter (fun n => match initialize n with Some _ => true | None => false end) display_names = ["Sand"; "Loam"; "Clay"]%string /\
  initialize "silt_loam" <> None /\ Get_Soil_Params "silt_loam" = None /\ initialize "silty_loam" = None /\ Get_Soil_Params "silty_loam" <> None.
Proof. repeat split; try reflexivity; discriminate. Qed.
Print Assumptions C89_names_refuted.
(* for a name both accept, both modules give the same soil *)
Theorem C89_same : forall name r p, initialize name = Some r -> Get_Soil_Params name = Some p -> p = (r_soil r, r_theta_r r, r_theta_i r, r_K_i r).
Proof.
  intros name r p H1 H2. unfold initialize in H1. unfold Get_Soil_Params in H2.
  assert (F : find_row base_names table (lower name) <> None -> find_row funcs_names table (lower name) <> None -> find_row base_names table (lower name) = find_row funcs_names table (lower name)).
  { clear. generalize (lower name). intros s. unfold base_names, funcs_names, table. cbn [find_row].
    repeat (match goal with |- context [String.eqb ?a s] => destruct (String.eqb_spec a s) as [<-|?] end; [try reflexivity; cbn; intros; congruence|]). intros; congruence. }
  destruct (find_row base_names table (lower name)) as [w|]; [|discriminate]. destruct (find_row funcs_names table (lower name)) as [w'|]; [|discriminate].
  specialize (F ltac:(discriminate) ltac:(discriminate)). injection F as <-. injection H1 as <-. injection H2 as <-. reflexivity.
Qed.
Print Assumptions C89_same.
(* concrete soil: sandy loam, found under mixed case, with its parameters in SI units *)
Example C89_case : exists r, initialize "Sandy_Loam" = Some r /\ K_s (r_soil r) = 347/10000000 /\ psi_B (r_soil r) = -218/1000 /\ sound (r_soil r).
Proof. eexists. split; [reflexivity|]. cbn [r_soil]. unfold soil_of, sound. cbn -[Rdiv]. repeat split; lra. Qed.

(* the published table in metres and seconds: name, porosity, saturated conductivity in 10^-8 m/s, bubbling pressure head in -0.001 m, pore-size number, capillary drive in 0.001 m *)
Definition published : list (string * R * R * R * R * R) := [
  ("sand", 395/1000, 17600, 121, 405/100, 82); ("loamy_sand", 410/1000, 15600, 90, 438/100, 97); ("sandy_loam", 435/1000, 3470, 218, 490/100, 165);
  ("silt_loam", 485/1000, 720, 786, 530/100, 724); ("loam", 451/1000, 695, 478, 539/100, 385); ("sandy_clay_loam", 420/1000, 630, 299, 712/100, 240);
  ("silty_clay_loam", 477/1000, 170, 356, 775/100, 1590); ("clay_loam", 476/1000, 245, 630, 852/100, 804); ("sandy_clay", 426/1000, 217, 153, 104/10, 589);
  ("silty_clay", 492/1000, 103, 490, 104/10, 3570); ("clay", 482/1000, 128, 405, 114/10, 2230)]%string.
(* the named soil gets these parameters, in metres and seconds *)
Theorem C89_parameters : forall name por Ks psi bb g, In (name, por, Ks, psi, bb, g) published -> exists r, initialize name = Some r /\
  porosity (r_soil r) = por /\ theta_s (r_soil r) = por /\ K_s (r_soil r) = Ks / 100000000 /\ psi_B (r_soil r) = - (psi / 1000) /\ b (r_soil r) = bb /\ Lambda (r_soil r) * bb = 1 /\ G (r_soil r) = g / 1000.
Proof.
  intros name por Ks psi bb g H. unfold published in H. cbn [In] in H.
  repeat (destruct H as [H|H]; [injection H as <- <- <- <- <- <-; eexists; split; [reflexivity|]; cbn [r_soil soil_of porosity theta_s K_s psi_B b Lambda G t_por t_Ks t_psiB t_b t_G]; repeat split; lra|]). destruct H.
Qed.
Print Assumptions C89_parameters.
