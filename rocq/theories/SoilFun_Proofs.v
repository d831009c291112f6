(* The soil characteristic functions of soil_trans_BC.py. *)
From Coq Require Import Reals Lra.
From Verif Require Import ChanR_Model ChanR_Proofs Richards_Model.
Local Open Scope R_scope.

Lemma powr_Rpower x a : 0 < x -> powr x a = Rpower x a.
Proof. intros H. unfold powr. destruct (Rle_dec x 0); [lra|reflexivity]. Qed.
Lemma powr_powr x a b : 0 < x -> powr (powr x a) b = powr x (a * b).
Proof.
  intros H. rewrite (powr_Rpower x a H), (powr_Rpower x (a * b) H). rewrite powr_Rpower by apply exp_pos. apply Rpower_mult.
Qed.
Lemma powr_1 x : 0 < x -> powr x 1 = x.
Proof. intros H. rewrite powr_Rpower by exact H. apply Rpower_1. exact H. Qed.
Lemma powr_root x c : 0 <= x -> 0 < c -> powr (powr x (1 / c)) c = x.
Proof.
  intros Hx Hc. destruct (Rle_lt_or_eq_dec 0 x Hx) as [H|H].
  - rewrite powr_powr by exact H. replace (1 / c * c) with 1 by (field; lra). apply powr_1. exact H.
  - subst x. rewrite powr_0. apply powr_0.
Qed.
Lemma powr_root' x c : 0 <= x -> 0 < c -> powr (powr x c) (1 / c) = x.
Proof.
  intros Hx Hc. destruct (Rle_lt_or_eq_dec 0 x Hx) as [H|H].
  - rewrite powr_powr by exact H. replace (c * (1 / c)) with 1 by (field; lra). apply powr_1. exact H.
  - subst x. rewrite powr_0. apply powr_0.
Qed.
Lemma powr_lt x y a : 0 <= x -> x < y -> 0 < a -> powr x a < powr y a.
Proof.
  intros Hx Hy Ha. destruct (Rle_lt_or_eq_dec 0 x Hx) as [H|H].
  - rewrite !powr_Rpower by lra. unfold Rpower. apply exp_increasing. apply Rmult_lt_compat_l; [exact Ha|]. apply ln_increasing; assumption.
  - subst x. rewrite powr_0. apply powr_pos. exact Hy.
Qed.
Lemma powr_lt_neg x y a : 0 < x -> x < y -> a < 0 -> powr y a < powr x a.
Proof.
  intros Hx Hy Ha. rewrite !powr_Rpower by lra. unfold Rpower. apply exp_increasing.
  pose proof (ln_increasing x y Hx Hy). pose proof (Rmult_lt_gt_compat_neg_l a _ _ Ha H). lra.
Qed.
Lemma powr_one a : powr 1 a = 1.
Proof. rewrite powr_Rpower by lra. unfold Rpower. rewrite ln_1, Rmult_0_r. apply exp_0. Qed.
Lemma powr_ge_1 x a : 0 < x <= 1 -> a < 0 -> 1 <= powr x a.
Proof.
  intros [H0 H1] Ha. destruct (Rle_lt_or_eq_dec x 1 H1) as [H|H].
  - rewrite <- (powr_one a). apply Rlt_le. apply powr_lt_neg; assumption.
  - subst x. rewrite powr_one. lra.
Qed.
Lemma powr_le_1 x a : 1 <= x -> a < 0 -> powr x a <= 1.
Proof.
  intros H1 Ha. destruct (Rle_lt_or_eq_dec 1 x H1) as [H|H].
  - rewrite <- (powr_one a). apply Rlt_le. apply powr_lt_neg; lra.
  - subst x. rewrite powr_one. lra.
Qed.

Section Soil.
Variables qs qr lam c pB pA : R.
Hypotheses (Hq : qr < qs) (Hlam : 0 < lam) (Hc : 0 < c) (HpB : pB < 0).
Notation sat x := ((x - qr) / (qs - qr)).

Lemma sat_pos x : qr < x -> 0 < sat x.
Proof. intros. apply Rdiv_lt_0_compat; lra. Qed.
Lemma sat_range x : qr < x <= qs -> 0 < sat x <= 1.
Proof.
  intros [H1 H2]. split; [apply sat_pos, H1|]. apply Rmult_le_reg_r with (qs - qr); [lra|].
  replace (sat x * (qs - qr)) with (x - qr) by (field; lra). lra.
Qed.
Lemma clpow_neg : - c / lam < 0.
Proof. unfold Rdiv. pose proof (Rinv_0_lt_compat lam Hlam). pose proof (Rmult_lt_0_compat c (/ lam) Hc H). lra. Qed.

(* the head ratio of psi_of_theta *)
Lemma ratio_of x : qr < x <= qs ->
  let A := powr (sat x) (- c / lam) in
  1 <= A /\ (psi_of_theta x qs qr lam c pB pA + pA) / pB = powr (A - 1) (1 / c) /\
  powr ((psi_of_theta x qs qr lam c pB pA + pA) / pB) c = A - 1.
Proof.
  intros Hx A. assert (HA : 1 <= A) by (apply powr_ge_1; [apply sat_range, Hx|apply clpow_neg]).
  split; [exact HA|]. assert (E : (psi_of_theta x qs qr lam c pB pA + pA) / pB = powr (A - 1) (1 / c)).
  { unfold psi_of_theta. cbv zeta. fold A. field. lra. }
  split; [exact E|]. rewrite E. apply powr_root; lra.
Qed.
Lemma theta_psi_theta x : qr < x <= qs -> theta_of_psi (psi_of_theta x qs qr lam c pB pA) qs qr pB pA c lam = x.
Proof.
  intros Hx. unfold theta_of_psi. cbv zeta. destruct (ratio_of x Hx) as (HA & _ & E). rewrite E.
  replace (1 + (powr (sat x) (- c / lam) - 1)) with (powr (sat x) (- c / lam)) by ring.
  rewrite powr_powr by (apply sat_pos; lra). replace (- c / lam * (- lam / c)) with 1 by (field; lra).
  rewrite powr_1 by (apply sat_pos; lra). field. lra.
Qed.
Lemma ratio_nonneg x : x <= - pA -> 0 <= (x + pA) / pB.
Proof.
  intros H. replace ((x + pA) / pB) with ((- (x + pA)) / (- pB)) by (field; lra).
  apply Rmult_le_pos; [lra|]. apply Rlt_le, Rinv_0_lt_compat. lra.
Qed.
Lemma psi_theta_psi x : x <= - pA -> psi_of_theta (theta_of_psi x qs qr pB pA c lam) qs qr lam c pB pA = x.
Proof.
  intros Hx. unfold theta_of_psi, psi_of_theta. cbv zeta. pose proof (ratio_nonneg x Hx) as Hr.
  set (B := 1 + powr ((x + pA) / pB) c). assert (HB : 1 <= B) by (pose proof (powr_nonneg ((x + pA) / pB) c); unfold B; lra).
  replace ((powr B (- lam / c) * (qs - qr) + qr - qr) / (qs - qr)) with (powr B (- lam / c)) by (field; lra).
  rewrite powr_powr by lra. replace (- lam / c * (- c / lam)) with 1 by (field; lra).
  rewrite powr_1 by lra. unfold B. replace (1 + powr ((x + pA) / pB) c - 1) with (powr ((x + pA) / pB) c) by ring.
  rewrite powr_root' by assumption. field. lra.
Qed.
Lemma theta_of_psi_range x : qr < theta_of_psi x qs qr pB pA c lam <= qs.
Proof.
  unfold theta_of_psi. cbv zeta. set (B := 1 + powr ((x + pA) / pB) c).
  assert (HB : 1 <= B) by (pose proof (powr_nonneg ((x + pA) / pB) c); unfold B; lra).
  assert (H1 : 0 < powr B (- lam / c)) by (apply powr_pos; lra).
  assert (H2 : powr B (- lam / c) <= 1).
  { apply powr_le_1; [exact HB|]. unfold Rdiv. pose proof (Rinv_0_lt_compat c Hc). pose proof (Rmult_lt_0_compat lam (/ c) Hlam H). lra. }
  assert (0 < powr B (- lam / c) * (qs - qr)) by (apply Rmult_lt_0_compat; lra).
  assert (powr B (- lam / c) * (qs - qr) <= 1 * (qs - qr)) by (apply Rmult_le_compat_r; lra). lra.
Qed.
Lemma psi_increasing x y : qr < x -> x < y -> y <= qs -> psi_of_theta x qs qr lam c pB pA < psi_of_theta y qs qr lam c pB pA.
Proof.
  intros Hx Hxy Hy. unfold psi_of_theta. cbv zeta.
  assert (S : sat x < sat y) by (apply Rmult_lt_compat_r; [apply Rinv_0_lt_compat; lra|lra]).
  pose proof (powr_lt_neg _ _ _ (sat_pos x Hx) S clpow_neg) as HA.
  pose proof (powr_ge_1 (sat y) (- c / lam) ltac:(apply sat_range; lra) clpow_neg) as HB.
  assert (HR : powr (powr (sat y) (- c / lam) - 1) (1 / c) < powr (powr (sat x) (- c / lam) - 1) (1 / c)).
  { apply powr_lt; [lra|lra|]. apply Rdiv_lt_0_compat; lra. }
  pose proof (Rmult_lt_gt_compat_neg_l pB _ _ HpB HR). lra.
Qed.
Lemma psi_at_saturation : psi_of_theta qs qs qr lam c pB pA = - pA.
Proof.
  unfold psi_of_theta. cbv zeta. replace (sat qs) with 1 by (field; lra). rewrite powr_one.
  replace (1 - 1) with 0 by ring. rewrite powr_0. ring.
Qed.

Lemma K_consistent x Ks : qr < x <= qs ->
  K_of_psi (psi_of_theta x qs qr lam c pB pA) pB pA Ks (2 + 3 * lam) c = K_of_theta x Ks qs qr lam /\
  K_of_sat (sat x) Ks lam (2 + 3 * lam) = K_of_theta x Ks qs qr lam.
Proof.
  intros Hx. unfold K_of_psi, K_of_theta, K_of_sat. cbv zeta. destruct (ratio_of x Hx) as (HA & _ & E). rewrite E.
  replace (1 + (powr (sat x) (- c / lam) - 1)) with (powr (sat x) (- c / lam)) by ring.
  rewrite powr_powr by (apply sat_pos; lra).
  replace (- c / lam * (- (2 + 3 * lam) / c)) with ((2 + 3 * lam) / lam) by (field; lra). split; [reflexivity|].
  assert (H1 : powr (sat x) ((2 + 3 * lam) / lam) <= 1).
  { rewrite <- (powr_one ((2 + 3 * lam) / lam)). apply powr_mono; [|apply sat_range, Hx].
    apply Rlt_le. apply Rdiv_lt_0_compat; lra. }
  pose proof (powr_nonneg (sat x) ((2 + 3 * lam) / lam)). rewrite Rmin_left by exact H1. rewrite Rmax_left by exact H. reflexivity.
Qed.
Lemma K_theta_bounds x Ks : 0 <= Ks -> 0 <= K_of_theta x Ks qs qr lam <= Ks.
Proof.
  intros HK. unfold K_of_theta. cbv zeta. set (B := powr (sat x) ((2 + 3 * lam) / lam)).
  pose proof (Rmax_r (Rmin B 1) 0). assert (Rmax (Rmin B 1) 0 <= 1) by (apply Rmax_lub; [apply Rmin_r|lra]).
  split; [apply Rmult_le_pos; assumption|]. rewrite <- (Rmult_1_r Ks) at 2. apply Rmult_le_compat_l; assumption.
Qed.
Lemma K_theta_mono x y Ks : 0 <= Ks -> x <= y -> K_of_theta x Ks qs qr lam <= K_of_theta y Ks qs qr lam.
Proof.
  intros HK Hxy. unfold K_of_theta. cbv zeta. apply Rmult_le_compat_l; [exact HK|].
  assert (S : sat x <= sat y) by (apply Rmult_le_compat_r; [apply Rlt_le, Rinv_0_lt_compat; lra|lra]).
  apply Rle_max_compat_r. apply Rle_min_compat_r. apply powr_mono; [|exact S]. apply Rlt_le. apply Rdiv_lt_0_compat; lra.
Qed.
End Soil.
