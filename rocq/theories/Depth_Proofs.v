(* The equation for the initial depth: derivative, convexity, and the contraction of Newton's method. *)
From Coq Require Import Reals Ranalysis5 Lra Lia List Bool.
From Verif Require Import ChanR_Model ChanR_Proofs Prep_Model Prep_Spec Tca_Props.
Import ListNotations.
Local Open Scope R_scope.

Lemma powr_Rpower x p : 0 < x -> powr x p = Rpower x p.
Proof. intros H. unfold powr. destruct (Rle_dec x 0); [lra|reflexivity]. Qed.

Section Cell.
Variables w th K : R.
Hypothesis Hw : 0 <= w.
Hypothesis Hth : 0 <= th < PI/2.
Hypothesis Hne : 0 < w \/ 0 < th.
Hypothesis HK : 0 <= K.

Let t := tan th.
Let c := cos th.
Lemma t_nonneg : 0 <= t. Proof. apply tan_nonneg. exact Hth. Qed.
Lemma c_pos : 0 < c. Proof. apply cos_pos. exact Hth. Qed.
Lemma Ac_pos d : 0 < d -> 0 < Ac w th d.
Proof.
  intros Hd. unfold Ac. fold t. pose proof t_nonneg. apply Rmult_lt_0_compat; [exact Hd|].
  destruct Hne as [Hq|Hq]; [assert (0 <= d * t) by (apply Rmult_le_pos; lra); lra|].
  assert (0 < t) by (apply tan_pos; lra). assert (0 < d * t) by (apply Rmult_lt_0_compat; lra). lra.
Qed.
Lemma half_pos d : 0 < d -> 0 < 2 * d / c.
Proof. intros. apply quot_pos; [lra|apply c_pos]. Qed.
Lemma Pw_pos d : 0 < d -> 0 < Pw w th d.
Proof. intros Hd. unfold Pw. fold c. pose proof (half_pos d Hd). lra. Qed.
Lemma Ac_mono a b : 0 < a <= b -> Ac w th a <= Ac w th b.
Proof.
  intros H. unfold Ac. fold t. pose proof t_nonneg. apply Rmult_le_compat; try lra.
  - assert (0 <= a * t) by (apply Rmult_le_pos; lra). lra.
  - assert (a * t <= b * t) by (apply Rmult_le_compat_r; lra). lra.
Qed.
Lemma Pw_mono a b : a <= b -> Pw w th a <= Pw w th b.
Proof.
  intros H. unfold Pw. fold c. pose proof (Rinv_0_lt_compat _ c_pos). assert (2 * a / c <= 2 * b / c) by (apply Rmult_le_compat_r; lra). lra.
Qed.
Lemma Ac_scale r d : 0 < r <= d -> d / r * Ac w th r <= Ac w th d.
Proof.
  intros H. unfold Ac. fold t. replace (d / r * (r * (w + r * t))) with (d * (w + r * t)) by (field; lra).
  apply Rmult_le_compat_l; [lra|]. pose proof t_nonneg. assert (r * t <= d * t) by (apply Rmult_le_compat_r; lra). lra.
Qed.
Lemma Pw_scale r d : 0 < r <= d -> Pw w th d <= d / r * Pw w th r.
Proof.
  intros H. unfold Pw. fold c. pose proof c_pos. replace (d / r * (w + 2 * r / c)) with (d / r * w + 2 * d / c) by (field; lra).
  assert (1 <= d / r) by (apply (Rmult_le_reg_r r); [lra|]; unfold Rdiv; rewrite Rmult_assoc, Rinv_l by lra; lra).
  assert (1 * w <= d / r * w) by (apply Rmult_le_compat_r; lra). lra.
Qed.

(* the two sides of the equation *)
Definition aa d := Rpower (Ac w th d) (5/3).
Definition pp d := K * Rpower (Pw w th d) (2/3).
Definition aa' d := 5/3 * Rpower (Ac w th d) (2/3) * (w + 2 * d * t).
Definition pp' d := 2/3 * K * Rpower (Pw w th d) (-(1/3)) * (2 / c).
Lemma numer_eq d : 0 < d -> numer w th K d = aa d - pp d.
Proof. intros H. unfold numer, aa, pp. rewrite !powr_Rpower by (apply Ac_pos || apply Pw_pos; exact H). reflexivity. Qed.
Lemma denom_eq d : 0 < d -> denom w th K d = aa' d - pp' d.
Proof. intros H. unfold denom, aa', pp'. rewrite !powr_Rpower by (apply Ac_pos; exact H). reflexivity. Qed.

Lemma Ac_deriv d : derivable_pt_lim (Ac w th) d (w + 2 * d * t).
Proof.
  unfold Ac. replace (w + 2 * d * t) with (1 * (w + d * t) + d * (0 + 1 * t)) by ring.
  apply (derivable_pt_lim_mult (fun x => x) (fun x => w + x * t)); [apply derivable_pt_lim_id|].
  apply (derivable_pt_lim_plus (fun _ => w) (fun x => x * t)); [apply derivable_pt_lim_const|].
  replace (1 * t) with (1 * t + d * 0) by ring.
  apply (derivable_pt_lim_mult (fun x => x) (fun _ => t)); [apply derivable_pt_lim_id|apply derivable_pt_lim_const].
Qed.
Lemma Pw_deriv d : derivable_pt_lim (Pw w th) d (2 / c).
Proof.
  unfold Pw. fold c. replace (2 / c) with (0 + 2 / c) by ring.
  apply (derivable_pt_lim_plus (fun _ => w) (fun x => 2 * x / c)); [apply derivable_pt_lim_const|].
  apply (derivable_pt_lim_ext (fun x => x * (2 / c))).
  { intros x. unfold Rdiv. ring. }
  replace (2 / c) with (1 * (2 / c) + d * 0) at 1 by ring.
  apply (derivable_pt_lim_mult (fun x => x) (fun _ => 2 / c)); [apply derivable_pt_lim_id|apply derivable_pt_lim_const].
Qed.
Lemma aa_deriv d : 0 < d -> derivable_pt_lim aa d (aa' d).
Proof.
  intros H. unfold aa, aa'. 
  apply (derivable_pt_lim_comp (Ac w th) (fun x => Rpower x (5/3))); [apply Ac_deriv|].
  replace (2/3) with (5/3 - 1) by lra. apply derivable_pt_lim_power. apply Ac_pos. exact H.
Qed.
Lemma pp_deriv d : 0 < d -> derivable_pt_lim pp d (pp' d).
Proof.
  intros H. unfold pp, pp'.
  replace (2/3 * K * Rpower (Pw w th d) (-(1/3)) * (2 / c)) with (K * (2/3 * Rpower (Pw w th d) (2/3 - 1) * (2 / c))).
  2:{ replace (2/3 - 1) with (-(1/3)) by lra. ring. }
  apply (derivable_pt_lim_scal (fun x => Rpower (Pw w th x) (2/3))).
  apply (derivable_pt_lim_comp (Pw w th) (fun x => Rpower x (2/3))); [apply Pw_deriv|].
  apply derivable_pt_lim_power. apply Pw_pos. exact H.
Qed.
Definition ff d := aa d - pp d.
Definition ff' d := aa' d - pp' d.
Lemma ff_deriv d : 0 < d -> derivable_pt_lim ff d (ff' d).
Proof. intros H. apply derivable_pt_lim_minus; [apply aa_deriv|apply pp_deriv]; exact H. Qed.

Lemma aa'_mono a b : 0 < a <= b -> aa' a <= aa' b.
Proof.
  intros H. unfold aa'. pose proof t_nonneg. pose proof (Rpower_pos (Ac w th a) (2/3)).
  assert (Rpower (Ac w th a) (2/3) <= Rpower (Ac w th b) (2/3)).
  { apply Rpower_mono; [lra|]. split; [apply Ac_pos; lra|apply Ac_mono; lra]. }
  assert (0 <= 2 * a * t) by (apply Rmult_le_pos; lra). assert (2 * a * t <= 2 * b * t) by (apply Rmult_le_compat_r; lra).
  apply Rmult_le_compat; lra.
Qed.
Lemma pp'_anti a b : 0 < a <= b -> pp' b <= pp' a.
Proof.
  intros H. unfold pp'. pose proof (Rinv_0_lt_compat _ c_pos). assert (0 <= 2 / c) by (unfold Rdiv; lra).
  assert (Rpower (Pw w th b) (-(1/3)) <= Rpower (Pw w th a) (-(1/3))).
  { apply Rpower_anti; [lra|]. split; [apply Pw_pos; lra|apply Pw_mono; lra]. }
  apply Rmult_le_compat_r; [assumption|]. apply Rmult_le_compat_l; lra.
Qed.
Lemma ff'_mono a b : 0 < a <= b -> ff' a <= ff' b.
Proof. intros H. unfold ff'. pose proof (aa'_mono a b H). pose proof (pp'_anti a b H). lra. Qed.
Lemma pp'_nonneg d : 0 <= pp' d.
Proof.
  unfold pp'. pose proof (Rinv_0_lt_compat _ c_pos). pose proof (Rpower_pos (Pw w th d) (-(1/3))).
  apply Rmult_le_pos; [apply Rmult_le_pos; lra|]. unfold Rdiv. lra.
Qed.

(* the graph lies above its tangents *)
Lemma tangent a b : 0 < a -> 0 < b -> ff a + ff' a * (b - a) <= ff b.
Proof.
  intros Ha Hb. destruct (Rtotal_order a b) as [L|[->|L]]; [|lra|].
  - destruct (MVT_cor2 ff ff' a b L) as (x & E & H); [intros x Hx; apply ff_deriv; lra|].
    pose proof (ff'_mono a x ltac:(lra)). assert (ff' a * (b - a) <= ff' x * (b - a)) by (apply Rmult_le_compat_r; lra). lra.
  - destruct (MVT_cor2 ff ff' b a L) as (x & E & H); [intros x Hx; apply ff_deriv; lra|].
    pose proof (ff'_mono x a ltac:(lra)). assert (ff' x * (a - b) <= ff' a * (a - b)) by (apply Rmult_le_compat_r; lra). lra.
Qed.

Lemma aa_pos d : 0 < aa d. Proof. apply Rpower_pos. Qed.
(* elasticities *)
Lemma aa_split d : 0 < d -> aa d = Rpower (Ac w th d) (2/3) * Ac w th d.
Proof.
  intros H. unfold aa. replace (5/3) with (2/3 + 1) by lra. rewrite Rpower_plus, Rpower_1 by (apply Ac_pos; exact H). reflexivity.
Qed.
Lemma aa'_bounds d : 0 < d -> 5/3 * aa d <= d * aa' d <= 10/3 * aa d.
Proof.
  intros H. rewrite aa_split by exact H. unfold aa'. set (u := Rpower (Ac w th d) (2/3)). assert (0 < u) by apply Rpower_pos.
  pose proof t_nonneg. assert (0 <= d * t) by (apply Rmult_le_pos; lra). unfold Ac. fold t.
  replace (d * (5/3 * u * (w + 2 * d * t))) with (5/3 * (u * (d * (w + 2 * (d * t))))) by ring.
  split.
  - apply Rmult_le_compat_l; [lra|]. apply Rmult_le_compat_l; [lra|]. apply Rmult_le_compat_l; lra.
  - replace (10/3 * (u * (d * (w + d * t)))) with (5/3 * (u * (d * (2 * w + 2 * (d * t))))) by lra.
    apply Rmult_le_compat_l; [lra|]. apply Rmult_le_compat_l; [lra|]. apply Rmult_le_compat_l; lra.
Qed.
Lemma pp'_bound d : 0 < d -> d * pp' d <= 2/3 * pp d.
Proof.
  intros H. unfold pp', pp. pose proof (Pw_pos d H) as P. pose proof c_pos.
  replace (Rpower (Pw w th d) (2/3)) with (Rpower (Pw w th d) (-(1/3)) * Pw w th d).
  2:{ replace (2/3) with (-(1/3) + 1) by lra. rewrite Rpower_plus, Rpower_1 by exact P. reflexivity. }
  set (u := Rpower (Pw w th d) (-(1/3))). assert (0 < u) by apply Rpower_pos.
  replace (d * (2/3 * K * u * (2 / c))) with (2/3 * K * u * (2 * d / c)) by (field; lra).
  replace (2/3 * (K * (u * Pw w th d))) with (2/3 * K * u * Pw w th d) by ring.
  apply Rmult_le_compat_l; [apply Rmult_le_pos; lra|]. unfold Pw. fold c. lra.
Qed.

(* beyond a root the first side outgrows the second by the ratio of the depths *)
Lemma beyond r d : 0 < r <= d -> ff r = 0 -> pp d <= aa d * (r / d).
Proof.
  intros H E. assert (E' : aa r = pp r) by (unfold ff in E; lra).
  set (x := d / r). assert (X : 1 <= x).
  { unfold x. apply (Rmult_le_reg_r r); [lra|]; unfold Rdiv; rewrite Rmult_assoc, Rinv_l by lra; lra. }
  assert (P1 : pp d <= Rpower x (2/3) * pp r).
  { unfold pp. replace (Rpower x (2/3) * (K * Rpower (Pw w th r) (2/3))) with (K * (Rpower x (2/3) * Rpower (Pw w th r) (2/3))) by ring.
    apply Rmult_le_compat_l; [exact HK|]. rewrite Rpower_mult_distr; [|lra|apply Pw_pos; lra].
    apply Rpower_mono; [lra|]. split; [apply Pw_pos; lra|apply Pw_scale; lra]. }
  assert (P2 : Rpower x (5/3) * aa r <= aa d).
  { unfold aa. rewrite Rpower_mult_distr; [|lra|apply Ac_pos; lra]. apply Rpower_mono; [lra|].
    split; [apply Rmult_lt_0_compat; [lra|apply Ac_pos; lra]|apply Ac_scale; lra]. }
  assert (P3 : Rpower x (5/3) = Rpower x (2/3) * x).
  { replace (5/3) with (2/3 + 1) by lra. rewrite Rpower_plus, Rpower_1 by lra. reflexivity. }
  replace (r / d) with (/ x) by (unfold x; field; lra).
  rewrite <- E' in P1. eapply Rle_trans; [exact P1|]. rewrite P3 in P2.
  apply (Rmult_le_compat_r (/ x)) in P2; [|left; apply Rinv_0_lt_compat; lra].
  replace (Rpower x (2/3) * x * aa r * / x) with (Rpower x (2/3) * aa r) in P2 by (field; lra). exact P2.
Qed.
Lemma slope_pos r d : 0 < r <= d -> ff r = 0 -> 0 < ff' d.
Proof.
  intros H E. pose proof (beyond r d H E) as B. pose proof (aa_pos d). pose proof (aa'_bounds d ltac:(lra)) as [A1 _].
  pose proof (pp'_bound d ltac:(lra)) as P1.
  assert (aa d * (r / d) <= aa d * 1).
  { apply Rmult_le_compat_l; [lra|]. apply (Rmult_le_reg_r d); [lra|]; unfold Rdiv; rewrite Rmult_assoc, Rinv_l by lra; lra. }
  assert (0 < d * ff' d) by (unfold ff'; lra). apply (Rmult_lt_reg_l d); lra.
Qed.
Lemma root_unique r s : 0 < r -> 0 < s -> ff r = 0 -> ff s = 0 -> r = s.
Proof.
  revert r s. assert (forall r s, 0 < r -> 0 < s -> ff r = 0 -> ff s = 0 -> s <= r) as H.
  { intros r s Hr Hs Er Es. destruct (Rle_dec s r) as [|N]; [assumption|]. exfalso.
    pose proof (tangent r s Hr Hs). pose proof (slope_pos r r ltac:(lra) Er).
    assert (0 < ff' r * (s - r)) by (apply Rmult_lt_0_compat; lra). lra. }
  intros. apply Rle_antisym; apply H; assumption.
Qed.

(* one round of Newton's method from beyond the root *)
Lemma newton_round r d : 0 < r <= d -> ff r = 0 ->
  r <= newton w th K d <= d /\ newton w th K d - r <= 7/10 * (d - r).
Proof.
  intros H E. unfold newton. rewrite numer_eq, denom_eq by lra. fold (ff d) (ff' d).
  pose proof (slope_pos r d H E) as F. pose proof (tangent d r ltac:(lra) ltac:(lra)) as T. rewrite E in T.
  pose proof (beyond r d H E) as B. pose proof (aa_pos d) as Pa. pose proof (aa'_bounds d ltac:(lra)) as [_ A2]. pose proof (pp'_nonneg d) as P0.
  assert (M : ff' d * (d - r) <= 10/3 * ff d).
  { apply (Rmult_le_reg_l d); [lra|]. unfold ff, ff' in *.
    assert (X : d * aa' d * (d - r) <= 10/3 * aa d * (d - r)) by (apply Rmult_le_compat_r; lra).
    assert (Y : d * pp d <= aa d * r).
    { apply (Rmult_le_compat_l d) in B; [|lra]. replace (d * (aa d * (r / d))) with (aa d * r) in B by (field; lra). exact B. }
    assert (Z : 0 <= d * pp' d * (d - r)) by (apply Rmult_le_pos; [apply Rmult_le_pos; lra|lra]).
    replace (d * ((aa' d - pp' d) * (d - r))) with (d * aa' d * (d - r) - d * pp' d * (d - r)) by ring.
    replace (d * (10/3 * (aa d - pp d))) with (10/3 * aa d * (d - r) + 10/3 * (aa d * r - d * pp d)) by lra. lra. }
  assert (Fd : 0 <= ff d).
  { assert (0 <= ff' d * (d - r)) by (apply Rmult_le_pos; lra). lra. }
  assert (Q : ff d = ff d / ff' d * ff' d) by (field; lra). set (q := ff d / ff' d) in *.
  assert (0 <= q) by (apply (Rmult_le_reg_r (ff' d)); [exact F|]; lra).
  assert (q <= d - r).
  { apply (Rmult_le_reg_r (ff' d)); [exact F|]. lra. }
  assert (3/10 * (d - r) <= q) by (apply (Rmult_le_reg_r (ff' d)); [exact F|]; lra).
  lra.
Qed.

(* without any discharge the depth shrinks towards zero *)
Lemma newton_dry d : K = 0 -> 0 < d -> 0 < newton w th K d <= d /\ newton w th K d <= 7/10 * d.
Proof.
  intros E H. unfold newton. rewrite numer_eq, denom_eq by lra.
  assert (P0 : pp d = 0) by (unfold pp; rewrite E; ring). assert (P1 : pp' d = 0) by (unfold pp'; rewrite E; ring). rewrite P0, P1.
  rewrite !Rminus_0_r. pose proof (aa_pos d) as Pa. pose proof (aa'_bounds d H) as [A1 A2].
  assert (Fp : 0 < aa' d) by (apply (Rmult_lt_reg_l d); lra).
  assert (Q : aa d = aa d / aa' d * aa' d) by (field; lra). set (q := aa d / aa' d) in *.
  assert (q <= 3/5 * d) by (apply (Rmult_le_reg_r (aa' d)); [exact Fp|]; lra).
  assert (3/10 * d <= q) by (apply (Rmult_le_reg_r (aa' d)); [exact Fp|]; lra). lra.
Qed.

(* the normal depth, 0 without discharge *)
Definition rooted (r : R) : Prop := (K = 0 /\ r = 0) \/ (0 < K /\ 0 < r /\ ff r = 0).
Lemma round_any r d : rooted r -> r <= d -> 0 < d ->
  r <= newton w th K d <= d /\ newton w th K d - r <= 7/10 * (d - r) /\ 0 < newton w th K d.
Proof.
  intros [[E ->]|(Kp & Rp & E)] H Hd.
  - pose proof (newton_dry d E Hd). lra.
  - pose proof (newton_round r d (conj Rp H) E). lra.
Qed.

(* a root exists below any depth that can carry more *)
Lemma root_exists d : 0 < K -> 0 < d -> 0 <= ff d -> exists r, 0 < r <= d /\ ff r = 0.
Proof.
  intros Kp Hd Fd. destruct (Req_dec (ff d) 0) as [E|N]; [exists d; split; [lra|exact E]|].
  set (m := w + d * t). set (e := Rmin (d / 2) (K * Rpower (2 / c) (2/3) / (2 * Rpower (m + 1) (5/3)))).
  pose proof c_pos as C. assert (C2 : 0 < 2 / c) by (apply quot_pos; lra).
  pose proof (Rpower_pos (2 / c) (2/3)) as U. pose proof (Rpower_pos (m + 1) (5/3)) as V.
  assert (e1 : 0 < e).
  { unfold e. apply Rmin_glb_lt; [lra|]. apply quot_pos; [apply Rmult_lt_0_compat; lra|lra]. }
  assert (e2 : e <= d / 2) by apply Rmin_l.
  assert (e3 : e * Rpower (m + 1) (5/3) < K * Rpower (2 / c) (2/3)).
  { assert (e <= K * Rpower (2 / c) (2/3) / (2 * Rpower (m + 1) (5/3))) as L by apply Rmin_r.
    apply (Rmult_le_compat_r (Rpower (m + 1) (5/3))) in L; [|lra].
    replace (K * Rpower (2 / c) (2/3) / (2 * Rpower (m + 1) (5/3)) * Rpower (m + 1) (5/3)) with (K * Rpower (2 / c) (2/3) / 2) in L by (field; lra).
    assert (0 < K * Rpower (2 / c) (2/3)) by (apply Rmult_lt_0_compat; lra). lra. }
  assert (M : 0 <= m) by (unfold m; pose proof t_nonneg; assert (0 <= d * t) by (apply Rmult_le_pos; lra); lra).
  assert (F0 : ff e < 0).
  { unfold ff, aa, pp.
    assert (A1 : Rpower (Ac w th e) (5/3) <= Rpower e (2/3) * (e * Rpower (m + 1) (5/3))).
    { replace (Rpower e (2/3) * (e * Rpower (m + 1) (5/3))) with (Rpower (e * (m + 1)) (5/3)).
      - apply Rpower_mono; [lra|]. split; [apply Ac_pos; exact e1|]. unfold Ac. fold t. apply Rmult_le_compat_l; [lra|].
        unfold m. pose proof t_nonneg. assert (e * t <= d * t) by (apply Rmult_le_compat_r; lra). lra.
      - rewrite <- Rpower_mult_distr by lra. replace (Rpower e (5/3)) with (Rpower e (2/3) * e); [ring|].
        replace (5/3) with (2/3 + 1) by lra. rewrite Rpower_plus, Rpower_1 by lra. reflexivity. }
    assert (A2 : Rpower e (2/3) * (K * Rpower (2 / c) (2/3)) <= K * Rpower (Pw w th e) (2/3)).
    { replace (Rpower e (2/3) * (K * Rpower (2 / c) (2/3))) with (K * (Rpower e (2/3) * Rpower (2 / c) (2/3))) by ring.
      apply Rmult_le_compat_l; [lra|]. rewrite Rpower_mult_distr by lra. apply Rpower_mono; [lra|].
      split; [apply Rmult_lt_0_compat; lra|]. unfold Pw. fold c. replace (e * (2 / c)) with (2 * e / c) by (field; lra). lra. }
    assert (Rpower e (2/3) * (e * Rpower (m + 1) (5/3)) < Rpower e (2/3) * (K * Rpower (2 / c) (2/3))).
    { apply Rmult_lt_compat_l; [apply Rpower_pos|exact e3]. }
    lra. }
  destruct (IVT_interv ff e d) as (r & Hr & E); try lra.
  - intros a Ha. apply derivable_continuous_pt. exists (ff' a). apply ff_deriv. lra.
  - exists r. split; [lra|exact E].
Qed.
End Cell.
