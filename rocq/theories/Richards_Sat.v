(* A reachable state: a column that starts saturated, after its first update without supply. *)
From Coq Require Import Reals List Lra Lia Arith Bool.
From Verif Require Import Base ChanR_Model ChanR_Proofs Richards_Model Richards_Spec Richards_Proofs SoilFun_Proofs.
Import ListNotations.
Local Open Scope R_scope.

Section Sat.
Variables (sps : list soilp) (dzs : list R) (dt : R) (th psi k0 : R).
Notation nz := (length sps).
Hypothesis Hnz : (2 <= nz)%nat.
Hypothesis Hsat : forall k, (k < nz)%nat -> let s := get sp0 sps k in
  qi s = th /\ qs s = th /\ qr s + 1 / 1000 <= th /\ pA s = - psi /\ Ki s = k0.

Lemma below_lt k : (k < nz)%nat -> (below sps k < nz)%nat.
Proof. intros. unfold below. destruct (Nat.eqb_spec (S k) nz); lia. Qed.
Lemma above_lt k : (k < nz)%nat -> (above sps k < nz)%nat.
Proof. intros. unfold above. destruct (Nat.eqb_spec k 0); lia. Qed.
Lemma init_theta r k : (k < nz)%nat -> (0 < k)%nat -> (k < nz - 1)%nat \/ (2 < nz)%nat ->
  get 0 (theta_with_BCs sps dzs dt r (col_init sps)) k = th.
Proof.
  intros Hk H0 H2. unfold theta_with_BCs.
  assert (E : forall k, (k < nz)%nat -> get 0 (update_theta sps dzs dt (col_init sps)) k = th).
  { clear k Hk H0 H2. intros k Hk. unfold update_theta. rewrite get_tab by exact Hk. unfold col_init, avg_fwd, avg_bwd, deriv_fwd, deriv_bwd. cbn [q p K].
    pose proof (below_lt k Hk). pose proof (above_lt k Hk). rewrite !get_tab by assumption.
    destruct (Hsat k Hk) as (E1 & _ & _ & _ & E2). destruct (Hsat (below sps k) H) as (_ & _ & _ & _ & E3).
    destruct (Hsat (above sps k) H0) as (_ & _ & _ & _ & E4). rewrite E1, E2, E3, E4.
    unfold Rdiv. replace (0 - 0) with 0 by ring. rewrite !Rmult_0_l.
    destruct (Nat.eqb k 0); [ring|]. destruct (Nat.eqb k (nz - 1)); ring. }
  unfold bottom_BC, surface_BC. destruct (Nat.eq_dec k (nz - 1)) as [->|D].
  - rewrite get_set_same by (rewrite set_length, update_theta_length; lia).
    rewrite get_set_other by lia. apply E. lia.
  - rewrite get_set_other by lia. rewrite get_set_other by lia. apply E. exact Hk.
Qed.
Lemma init_theta_0 r : (1 < nz)%nat -> get 0 (theta_with_BCs sps dzs dt r (col_init sps)) 0 = th + r * dt / get 0 dzs 0.
Proof.
  intros H. unfold theta_with_BCs, bottom_BC, surface_BC. rewrite get_set_other by lia.
  rewrite get_set_same by (rewrite update_theta_length; lia). unfold update_theta. rewrite get_tab by lia. cbn [Nat.eqb].
  unfold col_init. cbn [q v]. rewrite !get_tab by lia. rewrite (proj1 (Hsat 0%nat ltac:(lia))). unfold Rdiv. ring.
Qed.
Lemma init_theta_all k : (k < nz)%nat -> get 0 (theta_with_BCs sps dzs dt 0 (col_init sps)) k = th.
Proof.
  intros Hk. destruct (Nat.eq_dec k 0) as [->|D0].
  - rewrite init_theta_0 by lia. unfold Rdiv. ring.
  - destruct (Nat.eq_dec nz 2) as [E2|D2]; [|apply init_theta; lia].
    assert (k = 1%nat) by lia. subst k. unfold theta_with_BCs, bottom_BC.
    replace (nz - 1)%nat with 1%nat by lia. rewrite get_set_same.
    + replace (1 - 1)%nat with 0%nat by lia. pose proof (init_theta_0 0 ltac:(lia)) as E.
      unfold theta_with_BCs, bottom_BC in E. rewrite get_set_other in E by lia. rewrite E. unfold Rdiv. ring.
    + unfold surface_BC. rewrite set_length, update_theta_length. lia.
Qed.
Notation s1 := (col_update sps dzs dt (col_init sps) 0).
Lemma s1_q k : (k < nz)%nat -> get 0 (q s1) k = th.
Proof.
  intros Hk. cbn [col_update q]. rewrite enforce_id; [apply init_theta_all; exact Hk|exact Hk|].
  unfold in_range. rewrite init_theta_all by exact Hk. destruct (Hsat k Hk) as (_ & E & H & _). lra.
Qed.
Lemma s1_sat k : (k < nz)%nat -> saturation sps (q s1) k = 1.
Proof. intros Hk. unfold saturation. rewrite s1_q by exact Hk. destruct (Hsat k Hk) as (_ & E & H & _). rewrite E. field. lra. Qed.
Lemma s1_p k : (k < nz)%nat -> get 0 (p s1) k = psi.
Proof.
  intros Hk. change (p s1) with (update_psi sps (q s1)). unfold update_psi. rewrite get_tab by exact Hk. rewrite s1_sat by exact Hk.
  unfold psi_of_sat. rewrite powr_one. replace (1 - 1) with 0 by ring. rewrite powr_0.
  destruct (Hsat k Hk) as (_ & _ & _ & E & _). rewrite E. ring.
Qed.
Lemma s1_K k : (k < nz)%nat -> get 0 (K s1) k = Ks (get sp0 sps k).
Proof.
  intros Hk. change (K s1) with (update_K sps (q s1)). unfold update_K. rewrite get_tab by exact Hk. rewrite s1_sat by exact Hk.
  unfold K_of_sat. rewrite powr_one. ring.
Qed.
Lemma s1_flux k : (k < nz - 1)%nat -> flux sps dzs s1 k = (Ks (get sp0 sps (S k)) + Ks (get sp0 sps k)) / 2.
Proof.
  intros Hk. unfold flux, avg_fwd, deriv_fwd. rewrite below_in by lia. rewrite !s1_p, !s1_K by lia. unfold Rdiv. ring.
Qed.
End Sat.
