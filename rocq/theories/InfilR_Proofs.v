From Coq Require Import Reals Lra List Lia.
From Verif Require Import Infil_Model Infil_Spec.
Import ListNotations.
Local Open Scope R_scope.

Lemma exp_gt_1 x : 0 < x -> 1 < exp x.
Proof. intros H. pose proof (exp_ineq1 x). lra. Qed.
Lemma exp_m1_pos x : 0 < x -> 0 < exp x - 1.
Proof. intros H. pose proof (exp_gt_1 x H). lra. Qed.

Section Ranges.
Variables Ks Ki qs qi G gam : R.
Hypotheses (HK : Ki < Ks) (Hq : qi < qs) (HG : 0 < G) (Hg : 0 < gam).

Lemma Gdq : 0 < G * (qs - qi).
Proof. apply Rmult_lt_0_compat; lra. Qed.
Lemma sp_arg_pos I : 0 < I -> 0 < gam * I / (G * (qs - qi)).
Proof. intros HI. apply Rdiv_lt_0_compat; [apply Rmult_lt_0_compat; lra|apply Gdq]. Qed.

Lemma sp_decreasing I J : 0 < I -> I < J ->
  sp_capacity Ks Ki qs qi G gam J < sp_capacity Ks Ki qs qi G gam I.
Proof.
  intros HI HJ. unfold sp_capacity. cbv zeta. apply Rplus_lt_compat_r. unfold Rdiv at 1 3.
  apply Rmult_lt_compat_l; [apply Rmult_lt_0_compat; lra|].
  assert (0 < exp (gam * I / (G * (qs - qi))) - 1) by (apply exp_m1_pos, sp_arg_pos, HI).
  assert (exp (gam * I / (G * (qs - qi))) < exp (gam * J / (G * (qs - qi)))).
  { apply exp_increasing. apply Rmult_lt_compat_r; [apply Rinv_0_lt_compat, Gdq|]. apply Rmult_lt_compat_l; lra. }
  apply Rinv_lt_contravar; [apply Rmult_lt_0_compat; lra|lra].
Qed.
Lemma sp_above_Ks I : 0 < I -> Ks < sp_capacity Ks Ki qs qi G gam I.
Proof.
  intros HI. unfold sp_capacity. cbv zeta.
  assert (0 < gam * (Ks - Ki) / (exp (gam * I / (G * (qs - qi))) - 1)); [|lra].
  apply Rdiv_lt_0_compat; [apply Rmult_lt_0_compat; lra|]. apply exp_m1_pos, sp_arg_pos, HI.
Qed.
Lemma ga_decreasing I J : 0 < I -> I < J -> ga_capacityR Ks Ki qs qi G J < ga_capacityR Ks Ki qs qi G I.
Proof.
  intros HI HJ. unfold ga_capacityR. apply Rplus_lt_compat_r. unfold Rdiv. apply Rmult_lt_compat_l.
  - apply Rmult_lt_0_compat; [apply Rmult_lt_0_compat|]; lra.
  - apply Rinv_lt_contravar; [apply Rmult_lt_0_compat; lra|lra].
Qed.
Lemma ga_above_Ks I : 0 < I -> Ks < ga_capacityR Ks Ki qs qi G I.
Proof.
  intros HI. unfold ga_capacityR. assert (0 < G * (Ks - Ki) * (qs - qi) / I); [|lra].
  apply Rdiv_lt_0_compat; [|exact HI]. apply Rmult_lt_0_compat; [apply Rmult_lt_0_compat|]; lra.
Qed.
(* Smith-Parlange never exceeds Green-Ampt *)
Lemma sp_le_ga I : 0 < I -> sp_capacity Ks Ki qs qi G gam I < ga_capacityR Ks Ki qs qi G I.
Proof.
  intros HI. unfold sp_capacity, ga_capacityR. cbv zeta. apply Rplus_lt_compat_r.
  set (a := gam * I / (G * (qs - qi))). assert (Ha : 0 < a) by (apply sp_arg_pos, HI).
  pose proof Gdq as HD.
  assert (E : G * (Ks - Ki) * (qs - qi) / I = gam * (Ks - Ki) / a).
  { unfold a. field. repeat split; lra. }
  rewrite E. apply Rmult_lt_compat_l; [apply Rmult_lt_0_compat; lra|].
  pose proof (exp_ineq1 a ltac:(lra)). apply Rinv_lt_contravar; [apply Rmult_lt_0_compat; lra|lra].
Qed.
(* unbounded as I approaches 0 *)
Lemma exp_m1_le x : 0 < x <= 1 -> exp x - 1 <= 3 * x.
Proof.
  intros [H0 H1]. pose proof (exp_ineq1 (- x) ltac:(lra)) as A. pose proof (exp_pos x) as B.
  assert (C : exp x * (1 + - x) <= exp x * exp (- x)) by (apply Rmult_le_compat_l; lra).
  rewrite <- exp_plus in C. replace (x + - x) with 0 in C by ring. rewrite exp_0 in C.
  assert (D : exp x <= exp 1) by (destruct (Rle_lt_or_eq_dec x 1 H1) as [L|L]; [left; apply exp_increasing, L|subst; lra]).
  pose proof exp_le_3. assert (exp x * x <= 3 * x) by (apply Rmult_le_compat_r; lra). lra.
Qed.
Lemma sp_unbounded M : exists I0, 0 < I0 /\ forall I, 0 < I <= I0 -> M < sp_capacity Ks Ki qs qi G gam I.
Proof.
  pose proof Gdq as HD. set (D := G * (qs - qi)) in *.
  set (B := Rabs M + Rabs Ks + 1). assert (HB : 0 < B) by (unfold B; pose proof (Rabs_pos M); pose proof (Rabs_pos Ks); lra).
  set (I0 := Rmin (D / gam) (D * (Ks - Ki) / (3 * B))).
  assert (P1 : 0 < D / gam) by (apply Rdiv_lt_0_compat; lra).
  assert (P2 : 0 < D * (Ks - Ki) / (3 * B)) by (apply Rdiv_lt_0_compat; [apply Rmult_lt_0_compat; lra|lra]).
  exists I0. split; [apply Rmin_glb_lt; assumption|]. intros I [H0 H1].
  pose proof (Rmin_l (D / gam) (D * (Ks - Ki) / (3 * B))). pose proof (Rmin_r (D / gam) (D * (Ks - Ki) / (3 * B))). fold I0 in H, H2.
  set (a := gam * I / D). assert (Ha : 0 < a) by (apply Rdiv_lt_0_compat; [apply Rmult_lt_0_compat; lra|lra]).
  assert (Ha1 : a <= 1).
  { apply Rmult_le_reg_r with (D / gam); [exact P1|]. unfold a. replace (gam * I / D * (D / gam)) with I by (field; lra). lra. }
  unfold sp_capacity. cbv zeta. fold D. fold a. pose proof (exp_m1_le a ltac:(lra)) as E. pose proof (exp_m1_pos a Ha) as E0.
  assert (F : gam * (Ks - Ki) / (3 * a) <= gam * (Ks - Ki) / (exp a - 1)).
  { apply Rmult_le_compat_l; [apply Rlt_le, Rmult_lt_0_compat; lra|]. apply Rinv_le_contravar; assumption. }
  assert (F2 : B <= gam * (Ks - Ki) / (3 * a)).
  { unfold a. replace (gam * (Ks - Ki) / (3 * (gam * I / D))) with (D * (Ks - Ki) / (3 * I)) by (field; lra).
    apply Rmult_le_reg_r with (3 * I); [lra|]. replace (D * (Ks - Ki) / (3 * I) * (3 * I)) with (D * (Ks - Ki)) by (field; lra).
    assert (G1 : I * (3 * B) <= D * (Ks - Ki) / (3 * B) * (3 * B)) by (apply Rmult_le_compat_r; lra).
    replace (D * (Ks - Ki) / (3 * B) * (3 * B)) with (D * (Ks - Ki)) in G1 by (field; lra). lra. }
  unfold B in F2. pose proof (Rle_abs M). pose proof (Rle_abs (- Ks)). rewrite Rabs_Ropp in H4. lra.
Qed.
(* both tend to Ks as the infiltrated depth grows *)
Lemma ga_limit eps : 0 < eps -> exists I0, 0 < I0 /\ forall I, I0 <= I -> ga_capacityR Ks Ki qs qi G I < Ks + eps.
Proof.
  intros He. set (c := G * (Ks - Ki) * (qs - qi)).
  assert (Hc : 0 < c) by (apply Rmult_lt_0_compat; [apply Rmult_lt_0_compat|]; lra).
  exists (2 * c / eps). split; [apply Rdiv_lt_0_compat; lra|]. intros I HI. unfold ga_capacityR. fold c.
  assert (H0 : 0 < 2 * c / eps) by (apply Rdiv_lt_0_compat; lra). assert (HI0 : 0 < I) by lra.
  assert (c / I < eps); [|lra]. apply Rmult_lt_reg_r with I; [exact HI0|].
  replace (c / I * I) with c by (field; lra). assert (2 * c <= eps * I); [|lra].
  apply Rmult_le_compat_l with (r := eps) in HI; [|lra]. replace (eps * (2 * c / eps)) with (2 * c) in HI by (field; lra). exact HI.
Qed.
Lemma sp_limit eps : 0 < eps -> exists I0, 0 < I0 /\ forall I, I0 <= I -> sp_capacity Ks Ki qs qi G gam I < Ks + eps.
Proof.
  intros He. destruct (ga_limit eps He) as (I0 & H0 & H). exists I0. split; [exact H0|]. intros I HI.
  pose proof (H I HI). pose proof (sp_le_ga I ltac:(lra)). lra.
Qed.
End Ranges.

(* ---------------------------------------------------------------- Beven *)
Lemma exp_ratio x y : 0 < x -> x < y -> y * (exp x - 1) < x * (exp y - 1).
Proof.
  intros Hx Hy. assert (E : exp y = exp x * exp (y - x)) by (rewrite <- exp_plus; f_equal; ring).
  pose proof (exp_ineq1 (y - x) ltac:(lra)). pose proof (exp_pos x).
  assert (A : exp x * (1 + (y - x)) <= exp y) by (rewrite E; apply Rmult_le_compat_l; lra).
  assert (B : 0 < x * exp x - exp x + 1).
  { assert (1 - x < exp (- x)) by (pose proof (exp_ineq1 (- x) ltac:(lra)); lra).
    assert (exp x * (1 - x) < exp x * exp (- x)) by (apply Rmult_lt_compat_l; lra).
    rewrite <- exp_plus in H2. replace (x + - x) with 0 in H2 by ring. rewrite exp_0 in H2. lra. }
  assert (C : x * (exp x * (1 + (y - x)) - 1) <= x * (exp y - 1)) by (apply Rmult_le_compat_l; lra).
  assert (D : 0 < (y - x) * (x * exp x - exp x + 1)) by (apply Rmult_lt_0_compat; lra). lra.
Qed.

Section Beven.
Variables K0 qs qi f C : R.
Hypotheses (HK : 0 < K0) (Hq : qi < qs) (Hf : f < 0) (HC : 0 <= C).
Notation a := (- f / (qs - qi)).
Lemma a_pos : 0 < a.
Proof. apply Rdiv_lt_0_compat; lra. Qed.
Lemma beven_eq I : 0 < I -> beven_capacity K0 qs qi f C I = K0 * a * ((C + I) / (exp (a * I) - 1)).
Proof.
  intros HI. unfold beven_capacity. cbv zeta. replace (- 1 * f * I / (qs - qi)) with (a * I) by (field; lra).
  assert (0 < exp (a * I) - 1) by (apply exp_m1_pos, Rmult_lt_0_compat; [apply a_pos|exact HI]).
  field. repeat split; lra.
Qed.
Lemma beven_positive I : 0 < I -> 0 < beven_capacity K0 qs qi f C I.
Proof.
  intros HI. rewrite beven_eq by exact HI. apply Rmult_lt_0_compat; [apply Rmult_lt_0_compat; [lra|apply a_pos]|].
  apply Rdiv_lt_0_compat; [lra|]. apply exp_m1_pos, Rmult_lt_0_compat; [apply a_pos|exact HI].
Qed.
Lemma beven_decreasing I J : 0 < I -> I < J -> beven_capacity K0 qs qi f C J < beven_capacity K0 qs qi f C I.
Proof.
  intros HI HJ. rewrite !beven_eq by lra. pose proof a_pos as Ha.
  apply Rmult_lt_compat_l; [apply Rmult_lt_0_compat; lra|].
  assert (E1 : 0 < exp (a * I) - 1) by (apply exp_m1_pos, Rmult_lt_0_compat; lra).
  assert (E2 : a * I < a * J) by (apply Rmult_lt_compat_l; lra).
  assert (E3 : exp (a * I) < exp (a * J)) by (apply exp_increasing, E2).
  assert (E4 : a * J * (exp (a * I) - 1) < a * I * (exp (a * J) - 1)).
  { apply exp_ratio; [apply Rmult_lt_0_compat; lra|exact E2]. }
  assert (E5 : J * (exp (a * I) - 1) < I * (exp (a * J) - 1)).
  { apply Rmult_lt_reg_l with a; [exact Ha|]. rewrite <- !Rmult_assoc. exact E4. }
  apply Rmult_lt_reg_r with (exp (a * J) - 1); [lra|].
  replace ((C + J) / (exp (a * J) - 1) * (exp (a * J) - 1)) with (C + J) by (field; lra).
  apply Rmult_lt_reg_r with (exp (a * I) - 1); [lra|].
  replace ((C + I) / (exp (a * I) - 1) * (exp (a * J) - 1) * (exp (a * I) - 1)) with ((C + I) * (exp (a * J) - 1)) by (field; lra).
  assert (C * (exp (a * I) - 1) <= C * (exp (a * J) - 1)) by (apply Rmult_le_compat_l; lra). lra.
Qed.
(* it falls below every positive rate, so below Ks *)
Lemma exp_quad x : 0 < x -> x * x / 4 < exp x.
Proof.
  intros Hx. replace x with (x / 2 + x / 2) at 3 by field. rewrite exp_plus.
  pose proof (exp_ineq1 (x / 2) ltac:(lra)). pose proof (exp_pos (x / 2)).
  assert (x / 2 * (x / 2) < exp (x / 2) * exp (x / 2)); [|lra].
  apply Rmult_le_0_lt_compat; lra.
Qed.
Lemma beven_vanishes eps : 0 < eps -> exists I0, 0 < I0 /\ forall I, I0 <= I -> beven_capacity K0 qs qi f C I < eps.
Proof.
  intros He. pose proof a_pos as Ha. set (k := K0 * a). assert (Hk : 0 < k) by (apply Rmult_lt_0_compat; lra).
  assert (Haa : 0 < a * a) by (apply Rmult_lt_0_compat; lra).
  (* beyond 1 and C: (C+I) <= 2 I, exp(aI)-1 >= (aI)^2/8 once (aI)^2/8 >= 1 *)
  assert (H1 : 0 < 16 * k / (eps * (a * a))).
  { apply Rdiv_lt_0_compat; [lra|]. apply Rmult_lt_0_compat; lra. }
  assert (H2 : 0 < 3 / a) by (apply Rdiv_lt_0_compat; lra).
  exists (C + 3 / a + 16 * k / (eps * (a * a))). split; [lra|]. intros I HI.
  assert (HI0 : 0 < I) by lra. rewrite beven_eq by exact HI0. fold k.
  assert (Hx : 3 <= a * I).
  { replace 3 with (a * (3 / a)) by (field; lra). apply Rmult_le_compat_l; lra. }
  assert (Hsq : 9 <= (a * I) * (a * I)) by (replace 9 with (3 * 3) by ring; apply Rmult_le_compat; lra).
  pose proof (exp_quad (a * I) ltac:(lra)) as Hexp.
  assert (Hd : (a * I) * (a * I) / 8 < exp (a * I) - 1) by lra.
  assert (Hd0 : 0 < exp (a * I) - 1) by lra.
  apply Rmult_lt_reg_r with (exp (a * I) - 1); [exact Hd0|].
  replace (k * ((C + I) / (exp (a * I) - 1)) * (exp (a * I) - 1)) with (k * (C + I)) by (field; lra).
  assert (N1 : k * (C + I) <= k * (2 * I)) by (apply Rmult_le_compat_l; lra).
  assert (N2 : 16 * k <= eps * (a * a) * I).
  { replace (16 * k) with (eps * (a * a) * (16 * k / (eps * (a * a)))).
    - apply Rmult_le_compat_l; [|lra]. apply Rlt_le, Rmult_lt_0_compat; lra.
    - field. repeat split; lra. }
  assert (N3 : 16 * k * I <= eps * (a * a) * I * I) by (apply Rmult_le_compat_r; lra).
  assert (N4 : eps * ((a * I) * (a * I) / 8) < eps * (exp (a * I) - 1)) by (apply Rmult_lt_compat_l; lra).
  assert (N5 : eps * ((a * I) * (a * I) / 8) = eps * (a * a) * I * I / 8) by (field; lra). lra.
Qed.
End Beven.

(* ---------------------------------------------------------------- histories of one cell *)
Section Cell.
Variables (cap : R -> R) (Ks dt : R).
Hypothesis Hdt : 0 <= dt.
Hypothesis Hcap : forall I, 0 < I -> 0 <= cap I.

Lemma rate_bounds P h z I : 0 <= P -> 0 < I ->
  0 <= cell_rate (cap I) P Ks h z <= P /\ (z <= h -> cell_rate (cap I) P Ks h z = 0) /\
  (h < z -> (P < Ks /\ cell_rate (cap I) P Ks h z = P) \/ (Ks <= P /\ cell_rate (cap I) P Ks h z = Rmin (cap I) P)).
Proof.
  intros HP HI. pose proof (Hcap I HI). unfold cell_rate.
  destruct (Rle_dec z h) as [Hz|Hz].
  - split; [lra|]. split; [reflexivity|]. intros; exfalso; lra.
  - destruct (Rlt_dec P Ks) as [Hp|Hp].
    + split; [lra|]. split; [intros; exfalso; lra|]. intros _. left. split; [exact Hp|reflexivity].
    + split; [unfold Rmin; destruct (Rle_dec (cap I) P); lra|]. split; [intros; exfalso; lra|].
      intros _. right. split; [lra|reflexivity].
Qed.
Lemma cell_history xs : forall I, 0 < I -> Forall (fun x => 0 <= cP x) xs ->
  let l := cell_trace cap Ks dt I xs in
  length l = length xs /\
  snd (last l (0, I)) = I + dt * rsum (map fst l) /\
  rsum (map fst l) <= rsum (map cP xs) /\
  forall k x, nth_error xs k = Some x -> exists r I' I0,
    nth_error l k = Some (r, I') /\ nth_error ((0, I) :: l) k = Some I0 /\ I <= snd I0 <= I' /\
    0 <= r <= cP x /\ (cz x <= ch x -> r = 0) /\
    (ch x < cz x -> (cP x < Ks /\ r = cP x) \/ (Ks <= cP x /\ r = Rmin (cap (snd I0)) (cP x))).
Proof.
  induction xs as [|x xs IH]; intros I HI Hxs; cbv zeta.
  - cbn. split; [reflexivity|]. split; [ring|]. split; [lra|]. intros [|k] x E; discriminate E.
  - apply Forall_cons_iff in Hxs. destruct Hxs as [HP Hxs]. cbn [cell_trace]. cbv zeta.
    destruct (rate_bounds (cP x) (ch x) (cz x) I HP HI) as (B1 & B2 & B3).
    set (r := cell_rate (cap I) (cP x) Ks (ch x) (cz x)) in *.
    assert (HM : 0 <= r * dt) by (apply Rmult_le_pos; lra).
    destruct (IH (I + r * dt) ltac:(lra) Hxs) as (L & J1 & J2 & J3). cbv zeta in *.
    set (l := cell_trace cap Ks dt (I + r * dt) xs) in *.
    split; [cbn; congruence|]. split; [|split].
    + assert (Elast : forall d d' : R * R, snd d = snd d' -> snd (last l d) = snd (last l d')).
      { clear. intros d d' E. destruct l; [exact E|]. revert p. induction l; intros p; [reflexivity|]. exact (IHl a). }
      assert (Ec : forall d, last ((r, I + r * dt) :: l) d = last l (r, I + r * dt)).
      { clear. intros d. destruct l; [reflexivity|]. cbn [last]. revert p. induction l; intros p; [reflexivity|]. exact (IHl a). }
      rewrite Ec. rewrite (Elast (r, I + r * dt) (0, I + r * dt) eq_refl). rewrite J1. cbn [map fst rsum fold_right]. unfold rsum. ring.
    + cbn [map fst rsum fold_right]. unfold rsum in J2. lra.
    + intros [|k] y Ek.
      * cbn in Ek. inversion Ek; subst y. exists r, (I + r * dt), (0, I). cbn [nth_error snd].
        repeat (split; [first [reflexivity|assumption|lra]|]). exact B3.
      * destruct (J3 k y Ek) as (r' & I' & I0 & K1 & K2 & K3 & K4). destruct k as [|k].
        -- cbn [nth_error] in K2. inversion K2; subst I0. exists r', I', (r, I + r * dt). cbn [nth_error snd] in *.
           split; [exact K1|]. split; [reflexivity|]. split; [lra|exact K4].
        -- exists r', I', I0. cbn [nth_error] in *. split; [exact K1|]. split; [exact K2|]. split; [lra|exact K4].
Qed.
End Cell.
