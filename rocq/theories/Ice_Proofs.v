From Coq Require Import Reals Arith Bool List Lra Lia.
From Verif Require Import Wave_Spec Wave_Proofs Ice_Model Ice_Spec.
Import ListNotations.
Local Open Scope R_scope.

(* ---------- sums ---------- *)
Lemma rsumn_S n f : rsumn (S n) f = rsumn n f + f n.
Proof.
  unfold rsumn. rewrite seq_S. cbn [plus]. generalize (seq 0 n). intros l. induction l as [|a l IH].
  - unfold rsuml. cbn [app fold_right]. lra.
  - unfold rsuml in *. cbn [app fold_right] in *. rewrite IH. lra.
Qed.
Lemma rsumn_0 f : rsumn 0 f = 0. Proof. reflexivity. Qed.
Lemma rsumn_plus n f h : rsumn n (fun i => f i + h i) = rsumn n f + rsumn n h.
Proof. induction n as [|n IH]; [rewrite !rsumn_0; lra | rewrite !rsumn_S, IH; lra]. Qed.
Lemma rsumn_minus n f h : rsumn n (fun i => f i - h i) = rsumn n f - rsumn n h.
Proof. induction n as [|n IH]; [rewrite !rsumn_0; lra | rewrite !rsumn_S, IH; lra]. Qed.
Lemma rsumn_scale n k f : rsumn n (fun i => k * f i) = k * rsumn n f.
Proof. induction n as [|n IH]; [rewrite !rsumn_0; lra | rewrite !rsumn_S, IH; lra]. Qed.
Lemma rsumn_tele n f : rsumn n (fun i => f i - f (S i)) = f 0%nat - f n.
Proof. induction n as [|n IH]; [rewrite rsumn_0; lra | rewrite rsumn_S, IH; lra]. Qed.
Lemma rsumn_zero n f : (forall i, (i < n)%nat -> f i = 0) -> rsumn n f = 0.
Proof.
  induction n as [|n IH]; intros E; [reflexivity|]. rewrite rsumn_S, IH, (E n); [lra | lia | intros; apply E; lia].
Qed.
Lemma rsumn_swap n m (f : nat -> nat -> R) : rsumn n (fun i => rsumn m (f i)) = rsumn m (fun j => rsumn n (fun i => f i j)).
Proof.
  induction n as [|n IH].
  - rewrite rsumn_0. symmetry. apply rsumn_zero. intros. apply rsumn_0.
  - rewrite rsumn_S, IH, <- rsumn_plus. apply rsumn_ext. intros j _. now rewrite rsumn_S.
Qed.

Section Grid.
Variables ny nx : nat.
Notation gsum := (gsum ny nx).
Notation everywhere := (everywhere ny nx).

Lemma gsum_ext f h : everywhere (fun r c => f r c = h r c) -> gsum f = gsum h.
Proof. intros E. apply rsumn_ext. intros r Hr. apply rsumn_ext. intros c Hc. apply E; assumption. Qed.
Lemma gsum_plus f h : gsum (fun r c => f r c + h r c) = gsum f + gsum h.
Proof. unfold Ice_Spec.gsum. rewrite <- rsumn_plus. apply rsumn_ext. intros. apply rsumn_plus. Qed.
Lemma gsum_minus f h : gsum (fun r c => f r c - h r c) = gsum f - gsum h.
Proof. unfold Ice_Spec.gsum. rewrite <- rsumn_minus. apply rsumn_ext. intros. apply rsumn_minus. Qed.
Lemma gsum_scale k f : gsum (fun r c => k * f r c) = k * gsum f.
Proof. unfold Ice_Spec.gsum. rewrite <- rsumn_scale. apply rsumn_ext. intros. apply rsumn_scale. Qed.
Lemma gsum_nonneg f : everywhere (fun r c => 0 <= f r c) -> 0 <= gsum f.
Proof. intros E. apply rsumn_nonneg. intros r Hr. apply rsumn_nonneg. intros c Hc. apply E; assumption. Qed.
Lemma gsum_le f h : everywhere (fun r c => f r c <= h r c) -> gsum f <= gsum h.
Proof. intros E. apply rsumn_le. intros r Hr. apply rsumn_le. intros c Hc. apply E; assumption. Qed.
Lemma gsum_zero f : everywhere (fun r c => f r c = 0) -> gsum f = 0.
Proof. intros E. apply rsumn_zero. intros r Hr. apply rsumn_zero. intros c Hc. apply E; assumption. Qed.

Lemma gsum_inflow dx dy qx qy : gsum (inflow dx dy qx qy) = edge_inflow ny nx dx dy qx qy.
Proof.
  unfold inflow, edge_inflow. rewrite gsum_plus. f_equal.
  - unfold Ice_Spec.gsum, Rdiv, west, east.
    rewrite (rsumn_ext ny _ (fun r => / dx * (qx (S r) 0%nat - qx (S r) nx))).
    2:{ intros r Hr. rewrite <- (rsumn_tele nx (fun c => qx (S r) c)), <- rsumn_scale. apply rsumn_ext. intros. ring. }
    rewrite rsumn_scale. ring.
  - unfold Ice_Spec.gsum, Rdiv, south, north. rewrite rsumn_swap.
    rewrite (rsumn_ext nx _ (fun c => / dy * (qy 0%nat (S c) - qy ny (S c)))).
    2:{ intros c Hc. rewrite <- (rsumn_tele ny (fun r => qy r (S c))), <- rsumn_scale. apply rsumn_ext. intros. ring. }
    rewrite rsumn_scale. ring.
Qed.

(* ---------- one step in one cell ---------- *)
Lemma melt_cell m b dt : 0 < dt -> m + Rmax (- m / dt) b * dt = Rmax 0 (m + b * dt).
Proof.
  intros Hd. assert (E : - m / dt * dt = - m) by (field; lra).
  unfold Rmax. destruct (Rle_dec (- m / dt) b) as [L|L]; destruct (Rle_dec 0 (m + b * dt)) as [K|K]; try lra.
  - exfalso. apply K. apply Rmult_le_compat_r with (r := dt) in L; lra.
  - apply Rnot_le_lt in L. apply Rmult_lt_compat_r with (r := dt) in L; lra.
Qed.

Lemma dHdt_inflow dx dy qx qy r c : dHdt dx dy qx qy r c = inflow dx dy qx qy r c.
Proof. unfold dHdt, inflow, west, east, south, north. rewrite !Nat.add_1_r. unfold Rdiv. ring. Qed.

Definition moved dx dy (H B qx qy : grid) dt : grid := fun r c => H r c + dt * Rmax 0 (B r c) + dt * inflow dx dy qx qy r c.
Definition melted dx dy (H B qx qy : grid) dt : grid := fun r c =>
  Rmin (Rmax 0 (moved dx dy H B qx qy dt r c)) (dt * Rmax 0 (- B r c)).
Definition made dx dy (H B qx qy : grid) dt : grid := fun r c => Rmax 0 (- moved dx dy H B qx qy dt r c).

Definition new_H dx dy (H Zb B qx qy : grid) dt ci : grid := fst (fst (fst (update_vars ny nx dx dy H Zb B qx qy dt ci))).
Definition new_Z dx dy (H Zb B qx qy : grid) dt ci : grid := snd (fst (fst (update_vars ny nx dx dy H Zb B qx qy dt ci))).
Definition new_mr dx dy (H Zb B qx qy : grid) dt ci : grid := snd (fst (update_vars ny nx dx dy H Zb B qx qy dt ci)).
Definition new_ci dx dy (H Zb B qx qy : grid) dt ci : R := snd (update_vars ny nx dx dy H Zb B qx qy dt ci).

Lemma new_H_eq dx dy H Zb B qx qy dt ci r c : 0 < dt ->
  new_H dx dy H Zb B qx qy dt ci r c = Rmax 0 (moved dx dy H B qx qy dt r c + dt * Rmin 0 (B r c)).
Proof.
  intros Hd. unfold new_H, update_vars. cbn [fst snd]. rewrite melt_cell by assumption. rewrite dHdt_inflow. unfold moved.
  f_equal. ring.
Qed.

Lemma min_max b : Rmin 0 b = - Rmax 0 (- b).
Proof. unfold Rmin, Rmax. destruct (Rle_dec 0 b), (Rle_dec 0 (- b)); lra. Qed.

Lemma melt_amount dx dy H (Zb : grid) B qx qy dt r c : 0 < dt ->
  dt * Rmax (- moved dx dy H B qx qy dt r c / dt) (Rmin 0 (B r c)) = made dx dy H B qx qy dt r c - melted dx dy H B qx qy dt r c.
Proof.
  intros Hd. pose proof (melt_cell (moved dx dy H B qx qy dt r c) (Rmin 0 (B r c)) dt Hd) as E.
  unfold made, melted. set (m := moved dx dy H B qx qy dt r c) in *. rewrite min_max in *.
  assert (0 <= dt * Rmax 0 (- B r c)) by (apply Rmult_le_pos; [lra | apply Rmax_l]).
  set (b := Rmax 0 (- B r c)) in *. clearbody b m.
  replace (dt * Rmax (- m / dt) (- b)) with (Rmax 0 (m + - b * dt) - m) by lra.
  replace (- b * dt) with (- (dt * b)) by ring. set (x := dt * b) in *. clearbody x. clear E.
  unfold Rmax, Rmin. destruct (Rle_dec 0 (m + - x)), (Rle_dec 0 (- m)), (Rle_dec 0 m); destruct (Rle_dec _ x); lra.
Qed.

Lemma step_account dx dy H Zb B qx qy dt ci : 0 < dt ->
  account ny nx dx dy dt qx qy B H (new_H dx dy H Zb B qx qy dt ci) (melted dx dy H B qx qy dt) (made dx dy H B qx qy dt).
Proof.
  intros Hd r c Hr Hc. cbn zeta. rewrite new_H_eq by assumption. unfold melted, made, moved.
  rewrite min_max. set (m := H r c + dt * Rmax 0 (B r c) + dt * inflow dx dy qx qy r c).
  assert (Hb : 0 <= dt * Rmax 0 (- B r c)) by (apply Rmult_le_pos; [lra | apply Rmax_l]).
  replace (dt * - Rmax 0 (- B r c)) with (- (dt * Rmax 0 (- B r c))) by ring.
  set (x := dt * Rmax 0 (- B r c)) in *. clearbody x m.
  unfold Rmax, Rmin. destruct (Rle_dec 0 (m + - x)), (Rle_dec 0 (- m)), (Rle_dec 0 m); destruct (Rle_dec _ x); lra.
Qed.

Lemma new_mr_eq dx dy H Zb B qx qy dt ci r c : 0 < dt ->
  new_mr dx dy H Zb B qx qy dt ci r c = melted dx dy H B qx qy dt r c / dt * (rhoI / rhoW) / sec_per_year.
Proof.
  intros Hd. unfold new_mr, update_vars. cbn [fst snd].
  pose proof (melt_amount dx dy H Zb B qx qy dt r c Hd) as E.
  unfold moved at 1 in E. rewrite <- dHdt_inflow in E.
  replace (H r c + Rmax 0 (B r c) * dt + dHdt dx dy qx qy r c * dt) with (H r c + dt * Rmax 0 (B r c) + dt * dHdt dx dy qx qy r c) by ring.
  set (u := Rmax _ (Rmin 0 (B r c))) in *.
  replace (u * dt / dt) with u by (field; lra).
  assert (Eu : - u = (melted dx dy H B qx qy dt r c - made dx dy H B qx qy dt r c) / dt).
  { apply Rmult_eq_reg_l with dt; [|lra]. replace (dt * ((melted dx dy H B qx qy dt r c - made dx dy H B qx qy dt r c) / dt)) with
    (melted dx dy H B qx qy dt r c - made dx dy H B qx qy dt r c) by (field; lra). lra. }
  clearbody u. clear E.
  assert (K : 0 < rhoI / rhoW / sec_per_year) by (unfold rhoI, rhoW, sec_per_year; lra).
  set (k := rhoI / rhoW / sec_per_year) in *.
  replace (- u * (rhoI / rhoW) / sec_per_year) with (- u * k) by (unfold k, Rdiv; ring).
  replace (melted dx dy H B qx qy dt r c / dt * (rhoI / rhoW) / sec_per_year) with (melted dx dy H B qx qy dt r c / dt * k) by (unfold k, Rdiv; ring).
  clearbody k. unfold Rdiv in *.
  unfold melted, made in *. set (m := moved dx dy H B qx qy dt r c) in *. clearbody m.
  assert (Hb : 0 <= dt * Rmax 0 (- B r c)) by (apply Rmult_le_pos; [lra | apply Rmax_l]).
  set (x := dt * Rmax 0 (- B r c)) in *. clearbody x.
  assert (Hi : 0 < / dt) by (apply Rinv_0_lt_compat; lra). set (i := / dt) in *. clearbody i.
  rewrite Eu. clear Eu u.
  destruct (Rle_dec 0 m) as [Hm|Hm].
  - replace (Rmax 0 (- m)) with 0 by (unfold Rmax; destruct (Rle_dec 0 (- m)); lra). rewrite Rminus_0_r. apply Rmax_left.
    apply Rmult_le_pos; [|lra]. apply Rmult_le_pos; [|lra]. apply Rmin_glb; [apply Rmax_l | lra].
  - replace (Rmax 0 m) with 0 by (unfold Rmax; destruct (Rle_dec 0 m); lra). rewrite Rmin_left by lra.
    rewrite (Rmax_right 0 (- m)) by lra. rewrite Rmult_0_l, Rmult_0_l. apply Rmax_right.
    apply Rmult_le_reg_r with (/ k); [now apply Rinv_0_lt_compat|]. rewrite Rmult_assoc, Rinv_r by lra.
    assert (0 <= - m * i) by (apply Rmult_le_pos; lra). lra.
Qed.

Lemma new_ci_eq dx dy H Zb B qx qy dt ci : 0 < dt ->
  new_ci dx dy H Zb B qx qy dt ci =
  ci + gsum (fun r c => dt * Rmax 0 (B r c)) + gsum (fun r c => melted dx dy H B qx qy dt r c - made dx dy H B qx qy dt r c)
  + dt * edge_inflow ny nx dx dx qx qy.
Proof.
  intros Hd. unfold new_ci, update_vars. cbn [fst snd].
  match goal with |- _ = ci + ?A + ?M + ?E => replace (ci + A + M + E) with (ci + (A + M) + E) by ring end.
  rewrite <- gsum_plus. unfold Ice_Spec.gsum at 1. f_equal; [f_equal|].
  - apply rsumn_ext. intros r Hr. apply rsumn_ext. intros c Hc.
    pose proof (melt_amount dx dy H Zb B qx qy dt r c Hd) as E. unfold moved at 1 in E. rewrite <- dHdt_inflow in E.
    replace (H r c + Rmax 0 (B r c) * dt + dHdt dx dy qx qy r c * dt) with (H r c + dt * Rmax 0 (B r c) + dt * dHdt dx dy qx qy r c) by ring.
    set (u := Rmax _ (Rmin 0 (B r c))) in *. lra.
  - unfold edge_inflow. rewrite !rsumn_minus.
    rewrite (rsumn_ext nx (fun c => qy 0%nat (c + 1)%nat) (fun c => qy 0%nat (S c))) by (intros; f_equal; lia).
    rewrite (rsumn_ext nx (fun c => qy ny (c + 1)%nat) (fun c => qy ny (S c))) by (intros; f_equal; lia).
    rewrite (rsumn_ext ny (fun r => qx (r + 1)%nat 0%nat) (fun r => qx (S r) 0%nat)) by (intros; f_equal; lia).
    rewrite (rsumn_ext ny (fun r => qx (r + 1)%nat nx) (fun r => qx (S r) nx)) by (intros; f_equal; lia).
    unfold Rdiv. ring.
Qed.
End Grid.
