From Coq Require Import Reals List Lra Lia Arith Bool.
From Verif Require Import Base ChanR_Model ChanR_Proofs Richards_Model Richards_Spec.
Import ListNotations.
Local Open Scope R_scope.

Lemma rsumn_ext n f g : (forall k, (k < n)%nat -> f k = g k) -> rsumn n f = rsumn n g.
Proof. induction n; intros H; cbn; [reflexivity|]. rewrite IHn, (H n) by (intros; try apply H; lia). reflexivity. Qed.
Lemma rsumn_minus n f g : rsumn n (fun k => f k - g k) = rsumn n f - rsumn n g.
Proof. induction n; cbn; [ring|]. rewrite IHn. ring. Qed.
Lemma telescope n (J : nat -> R) : rsumn n (fun k => J k - J (S k)) = J 0%nat - J n.
Proof. induction n; cbn; [ring|]. rewrite IHn. ring. Qed.

Section Column.
Variables (sps : list soilp) (dzs : list R) (dt : R).
Notation nz := (length sps).

Lemma update_theta_length s : length (update_theta sps dzs dt s) = nz.
Proof. apply tab_length. Qed.
Lemma col_update_darcy s r : darcy sps dzs (col_update sps dzs dt s r).
Proof. unfold darcy, col_update. cbn [q p K v Rg v0]. split; [apply tab_length|]. auto. Qed.
Lemma col_run_darcy rs r s : darcy sps dzs (col_run sps dzs dt s (rs ++ [r])).
Proof. unfold col_run. rewrite fold_left_app. apply col_update_darcy. Qed.

Lemma enforce_in_range th k : range_ok sps -> (k < nz)%nat -> in_range sps (enforce_theta_range sps th) k.
Proof.
  intros H Hk. specialize (H k Hk). unfold in_range, enforce_theta_range. rewrite get_tab by exact Hk.
  unfold Rmax, Rmin. destruct (Rle_dec (get 0 th k) (qs (get sp0 sps k)));
  match goal with |- context [Rle_dec ?a ?b] => destruct (Rle_dec a b) end; lra.
Qed.
Lemma enforce_id th k : (k < nz)%nat -> in_range sps th k -> get 0 (enforce_theta_range sps th) k = get 0 th k.
Proof.
  intros Hk [H1 H2]. unfold enforce_theta_range. rewrite get_tab by exact Hk.
  rewrite Rmin_left by exact H2. rewrite Rmax_left by exact H1. reflexivity.
Qed.
Lemma col_run_in_range rs r s k : range_ok sps -> (k < nz)%nat -> in_range sps (q (col_run sps dzs dt s (rs ++ [r]))) k.
Proof. intros H Hk. unfold col_run. rewrite fold_left_app. apply enforce_in_range; assumption. Qed.

Section Uniform.
Variable d : R.
Hypothesis Hu : uniform sps dzs d.
Hypothesis Hd : 0 < d.
Hypothesis Hnz : (2 <= nz)%nat.

Lemma zpos_uniform k : (k < nz)%nat -> zpos dzs k = INR (S k) * d.
Proof.
  destruct Hu as [HL HD]. rewrite <- HL. intros Hk. unfold zpos.
  assert (G : forall j l, (j <= length l)%nat -> (forall i, (i < length l)%nat -> get 0 l i = d) ->
              fold_right Rplus 0 (firstn j l) = INR j * d).
  { induction j as [|j IH]; intros l Hj Hl; [cbn; ring|]. destruct l as [|a l]; [cbn in Hj; lia|].
    cbn [firstn fold_right]. rewrite IH.
    - rewrite S_INR. pose proof (Hl 0%nat ltac:(cbn; lia)) as E. cbn in E. rewrite E. ring.
    - cbn in Hj; lia.
    - intros i Hi. apply (Hl (S i)). cbn. lia. }
  rewrite G; [reflexivity|lia|]. intros i Hi. apply HD. lia.
Qed.

(* downward flux through the bottom of node k *)
Definition flux (s : column) (k : nat) : R := avg_fwd sps (K s) k * (1 - deriv_fwd sps dzs (p s) k).

Lemma below_in k : (k < nz - 1)%nat -> below sps k = S k.
Proof. intros. unfold below. replace (Nat.eqb (S k) nz) with false; [reflexivity|]. symmetry. apply Nat.eqb_neq. lia. Qed.
Lemma above_in k : (0 < k)%nat -> above sps k = (k - 1)%nat.
Proof. intros. unfold above. replace (Nat.eqb k 0) with false; [reflexivity|]. symmetry. apply Nat.eqb_neq. lia. Qed.

Lemma theta_interior s k : (0 < k)%nat -> (k < nz - 1)%nat ->
  get 0 (update_theta sps dzs dt s) k = get 0 (q s) k + dt / d * (flux s (k - 1) - flux s k).
Proof.
  intros H0 H1. unfold update_theta. rewrite get_tab by lia. f_equal.
  replace (Nat.eqb k 0) with false by (symmetry; apply Nat.eqb_neq; lia).
  replace (Nat.eqb k (nz - 1)) with false by (symmetry; apply Nat.eqb_neq; lia).
  rewrite below_in, above_in by lia. rewrite !zpos_uniform by lia.
  assert (EZ : INR (S (S k)) * d - INR (S (k - 1)) * d = 2 * d).
  { replace (S (k - 1)) with k by lia. rewrite !S_INR. ring. }
  rewrite EZ. unfold flux.
  assert (E1 : avg_bwd sps (K s) k = avg_fwd sps (K s) (k - 1)).
  { unfold avg_bwd, avg_fwd. rewrite above_in, below_in by lia. replace (S (k - 1)) with k by lia. reflexivity. }
  assert (E2 : deriv_bwd sps dzs (p s) k = deriv_fwd sps dzs (p s) (k - 1)).
  { unfold deriv_bwd, deriv_fwd. rewrite above_in, below_in by lia. replace (S (k - 1)) with k by lia.
    rewrite (proj2 Hu k), (proj2 Hu (k - 1)%nat) by lia. reflexivity. }
  rewrite E1, E2. field. lra.
Qed.
Lemma theta_top s : get 0 (update_theta sps dzs dt s) 0 = get 0 (q s) 0.
Proof. unfold update_theta. rewrite get_tab by lia. cbn [Nat.eqb]. ring. Qed.

Lemma v_flux s k : darcy sps dzs s -> (k < nz - 1)%nat -> get 0 (v s) k = flux s k.
Proof.
  intros (_ & E & _) Hk. rewrite E. unfold update_v. rewrite get_set_other by lia. rewrite get_tab by lia. reflexivity.
Qed.
Lemma Rg_flux s : darcy sps dzs s -> Rg s = flux s (nz - 2).
Proof.
  intros (_ & E & ER & _). rewrite ER, E. unfold update_v. rewrite get_set_same by (rewrite tab_length; lia).
  rewrite get_tab by lia. replace (nz - 1 - 1)%nat with (nz - 2)%nat by lia. reflexivity.
Qed.

Lemma theta_BC_at r s k : darcy sps dzs s -> (k < nz - 1)%nat ->
  get 0 (theta_with_BCs sps dzs dt r s) k = get 0 (q s) k + dt / d * ((if Nat.eqb k 0 then r else flux s (k - 1)) - flux s k).
Proof.
  intros HD Hk. unfold theta_with_BCs, bottom_BC, surface_BC. rewrite get_set_other by lia.
  destruct (Nat.eqb k 0) eqn:E.
  - apply Nat.eqb_eq in E. subst k. rewrite get_set_same by (rewrite update_theta_length; lia). rewrite theta_top.
    rewrite (v_flux s 0 HD Hk), (proj2 Hu 0%nat) by lia. field. lra.
  - apply Nat.eqb_neq in E. rewrite get_set_other by lia. apply theta_interior; lia.
Qed.

Lemma water_balance r s : darcy sps dzs s ->
  stored (nz - 1) dzs (theta_with_BCs sps dzs dt r s) - stored (nz - 1) dzs (q s) = dt * (r - Rg s).
Proof.
  intros HD. unfold stored. rewrite <- rsumn_minus.
  set (J := fun k => match k with O => r | S j => flux s j end).
  rewrite (rsumn_ext _ _ (fun k => dt * J k - dt * J (S k))).
  - rewrite (telescope (nz - 1) (fun k => dt * J k)). rewrite (Rg_flux s HD).
    replace (nz - 1)%nat with (S (nz - 2)) by lia. unfold J. ring.
  - intros k Hk. rewrite (theta_BC_at r s k HD Hk). rewrite (proj2 Hu k) by lia.
    destruct k as [|k]; cbn [Nat.eqb J]; [|replace (S k - 1)%nat with k by lia]; field; lra.
Qed.

Lemma rsumn_head n f : rsumn (S n) f = f 0%nat + rsumn n (fun k => f (S k)).
Proof. induction n; [cbn; ring|]. change (rsumn (S (S n)) f) with (rsumn (S n) f + f (S n)). rewrite IHn. cbn. ring. Qed.

(* the top node is filled up to qs at most: the supply that enters is min(r, vmax) *)
Lemma infiltration_balance r s : 0 < dt -> darcy sps dzs s -> range_ok sps ->
  (forall k, (0 < k)%nat -> (k < nz - 1)%nat -> in_range sps (theta_with_BCs sps dzs dt r s) k) ->
  qr (get sp0 sps 0) + 1 / 1000 <= get 0 (theta_with_BCs sps dzs dt r s) 0 ->
  stored (nz - 1) dzs (q (col_update sps dzs dt s r)) - stored (nz - 1) dzs (q s) =
  dt * (Rmin r (v0 s + (qs (get sp0 sps 0) - get 0 (q s) 0) * (d / dt)) - Rg s).
Proof.
  intros Hdt HD HR Hin Hlo. cbn [col_update q].
  set (th := theta_with_BCs sps dzs dt r s) in *.
  assert (EB := water_balance r s HD). fold th in EB.
  assert (ES : stored (nz - 1) dzs (enforce_theta_range sps th) - stored (nz - 1) dzs th =
               d * (get 0 (enforce_theta_range sps th) 0 - get 0 th 0)).
  { unfold stored. rewrite <- rsumn_minus. replace (nz - 1)%nat with (S (nz - 2)) by lia. rewrite rsumn_head.
    rewrite (rsumn_ext _ _ (fun _ => 0)).
    - assert (Z : forall n, rsumn n (fun _ => 0) = 0) by (induction n; cbn; lra). rewrite Z.
      rewrite (proj2 Hu 0%nat) by lia. ring.
    - intros k Hk. rewrite enforce_id; [ring|lia|]. apply Hin; lia. }
  assert (E0 : get 0 (enforce_theta_range sps th) 0 = Rmin (get 0 th 0) (qs (get sp0 sps 0))).
  { unfold enforce_theta_range. rewrite get_tab by lia. apply Rmax_left. specialize (HR 0%nat ltac:(lia)).
    unfold Rmin. destruct (Rle_dec _ _); lra. }
  assert (ET : get 0 th 0 = get 0 (q s) 0 + dt / d * (r - v0 s)).
  { unfold th. rewrite (theta_BC_at r s 0 HD ltac:(lia)). cbn [Nat.eqb].
    destruct HD as (H1 & H2 & H3 & H4). rewrite H4, (v_flux s 0); [reflexivity|unfold darcy; auto|lia]. }
  assert (EM : d * Rmin (get 0 th 0) (qs (get sp0 sps 0)) =
               d * get 0 (q s) 0 + dt * (Rmin r (v0 s + (qs (get sp0 sps 0) - get 0 (q s) 0) * (d / dt)) - v0 s)).
  { rewrite ET. set (Q0 := get 0 (q s) 0). set (QS := qs (get sp0 sps 0)). set (V := v0 s).
    assert (G : V + (QS - Q0) * (d / dt) - r = (d / dt) * (QS - (Q0 + dt / d * (r - V)))) by (field; lra).
    assert (Gp : 0 < d / dt) by (apply Rdiv_lt_0_compat; lra).
    unfold Rmin. destruct (Rle_dec (Q0 + dt / d * (r - V)) QS) as [L|L], (Rle_dec r (V + (QS - Q0) * (d / dt))) as [M|M].
    - field; lra.
    - exfalso. assert (0 <= d / dt * (QS - (Q0 + dt / d * (r - V)))) by (apply Rmult_le_pos; lra). lra.
    - exfalso. assert (d / dt * (QS - (Q0 + dt / d * (r - V))) < 0); [|lra].
      rewrite <- (Rmult_0_r (d / dt)). apply Rmult_lt_compat_l; lra.
    - field; lra. }
  rewrite E0 in ES. unfold stored in *.
  assert (ET' : d * get 0 th 0 = d * get 0 (q s) 0 + dt * (r - v0 s)) by (rewrite ET; field; lra).
  lra.
Qed.
End Uniform.
End Column.
