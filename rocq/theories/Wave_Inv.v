From Coq Require Import ZArith Reals List Bool Lia Lra Psatz.
From Verif Require Import Base D8_Spec D8_Proofs D8_Walk ChanR_Model ChanR_Proofs Wave_Model Wave_Spec Wave_Proofs.
From Verif Require D8_Model.
Import ListNotations.
Local Open Scope R_scope.

Lemma get_repeat {X} (d x : X) n i : (i < n)%nat -> get d (repeat x n) i = x.
Proof. intros Hi. unfold get. revert i Hi. induction n as [|n IH]; intros [|i] Hi; cbn; try lia; [reflexivity|]. apply IH. lia. Qed.
Lemma get_repeat0 n i : get 0 (repeat 0 n) i = 0.
Proof. unfold get. revert i. induction n as [|n IH]; intros [|i]; cbn; try reflexivity. apply IH. Qed.

Section Grid.
Variable G : D8_Model.geom.
Hypothesis HG : geom_ok G.
Notation n := (D8_Model.ncells G).
Variables (d8 : list Z) (O : D8_Model.opts) (c : chan).
Hypothesis Hclosed : forall i, (i < n)%nat -> closed_side G O i -> get 0%Z d8 i = 0%Z.
Hypothesis Hcodes : code_grid G d8.
Hypothesis Hok : chan_ok G c.
Notation pid := (D8_Model.update_parent_ID_grid G O d8).
Notation upd := (update G d8 pid c).
Notation newv := (new_vol G d8 c).

Lemma new_vol_nonneg s r i : 0 <= newv s r i.
Proof. apply Rmax_r. Qed.
Lemma chan_part_nonneg v i : (i < n)%nat -> 0 <= v -> 0 <= chan_part c v i.
Proof. intros Hi Hv. unfold chan_part. pose proof (ok_bank G c Hok i Hi). destruct (FLOOD c); [apply Rmin_glb; assumption|exact Hv]. Qed.
Lemma parts v i : 0 <= vol_bankfull c i -> Rmin v (vol_bankfull c i) + flood_of c v i = v.
Proof.
  intros Hb. unfold flood_of. destruct (Rle_dec v (vol_bankfull c i)) as [H|H].
  - rewrite Rmin_left, Rmax_right by lra. ring.
  - rewrite Rmin_right, Rmax_left by lra. ring.
Qed.
Lemma depth_ok v i : (i < n)%nat -> 0 <= v ->
  0 <= depth_of c v i /\ ChanR_Model.A_wet (depth_of c v i) (width c i) (angle c i) * ds c i = chan_part c v i.
Proof.
  intros Hi Hv. pose proof (ok_width G c Hok i Hi) as Hw. pose proof (ok_ds G c Hok i Hi) as Hds.
  destruct (depth_spec (chan_part c v i) (width c i) (ds c i) (angle c i)) as (H1 & H2 & _).
  - apply chan_part_nonneg; assumption.
  - lra.
  - exact Hds.
  - apply (ok_angle G c Hok i Hi).
  - left. exact Hw.
  - unfold depth_of, ChanR_Model.A_wet. split; [exact H1|]. transitivity (ds c i * (channel_depth (chan_part c v i) (width c i) (ds c i) (angle c i) * (width c i + channel_depth (chan_part c v i) (width c i) (ds c i) (angle c i) * tan (angle c i)))); [ring|exact H2].
Qed.
Lemma flood_depth_ok v i : (i < n)%nat -> 0 <= v -> 0 <= flood_depth v (width c i) (ds c i) /\ 5 * width c i * flood_depth v (width c i) (ds c i) * ds c i = v.
Proof.
  intros Hi Hv. pose proof (ok_width G c Hok i Hi) as Hw. pose proof (ok_ds G c Hok i Hi) as Hds. unfold flood_depth.
  assert (Hp : 0 < 5 * width c i * ds c i) by nra.
  assert (0 <= v / (5 * width c i * ds c i)) by (apply Rmult_le_pos; [exact Hv|left; apply Rinv_0_lt_compat; exact Hp]).
  rewrite Rmax_left by assumption. split; [assumption|]. field. lra.
Qed.
Lemma velocity_nonneg rh d S z : 0 < z -> 0 <= velocity c rh d S z.
Proof. intros Hz. unfold velocity. destruct (form c); [apply manning_nonneg; exact Hz|apply wall_nonneg]. Qed.

Lemma upd_df0 s r i : FLOOD c = false -> get 0 (w_df (upd s r)) i = get 0 (w_df s) i.
Proof. intros HF. unfold update. cbn [w_df]. rewrite HF. reflexivity. Qed.

Definition no_flood (s : wave) : Prop := FLOOD c = false -> forall i, get 0 (w_df s) i = 0.

Lemma upd_fits s r : no_flood s -> fits G d8 c (upd s r) /\ no_flood (upd s r).
Proof.
  intros Hnf. assert (Hnf' : no_flood (upd s r)) by (intros HF i; rewrite upd_df0 by exact HF; apply Hnf; exact HF).
  split; [|exact Hnf']. constructor.
  - intros i Hi. rewrite upd_vol by assumption. destruct (flows G d8 i); [apply new_vol_nonneg|lra].
  - intros i Hi. rewrite upd_d by assumption. pose proof (new_vol_nonneg s r i) as Hv. split.
    + destruct (flows G d8 i); [apply depth_ok; assumption|lra].
    + destruct (FLOOD c) eqn:HF; [|rewrite (Hnf' HF); lra]. rewrite upd_df by assumption.
      destruct (flows G d8 i); [|lra]. apply flood_depth_ok; [exact Hi|apply Rmax_r].
  - intros i Hi. rewrite upd_u by assumption. destruct (flows G d8 i); [|lra]. apply velocity_nonneg. apply (ok_rough G c Hok i Hi).
  - intros i Hi Hf. rewrite upd_u by assumption. rewrite Hf. split; [reflexivity|].
    destruct (FLOOD c) eqn:HF; [|apply Hnf'; exact HF]. rewrite upd_df, Hf by assumption. reflexivity.
  - intros i Hi Hf. pose proof (new_vol_nonneg s r i) as Hv. destruct (depth_ok _ i Hi Hv) as [Hd HA].
    rewrite upd_A, upd_d, upd_vol, Hf by assumption. split; [reflexivity|]. rewrite HA. unfold chan_part.
    destruct (FLOOD c) eqn:HF.
    + rewrite upd_df, Hf by assumption.
      destruct (flood_depth_ok (flood_of c (newv s r i) i) i Hi (Rmax_r _ _)) as [_ E]. rewrite E.
      apply parts. apply (ok_bank G c Hok i Hi).
    + rewrite (Hnf' HF). ring.
Qed.

Lemma init_fits d0 : (forall i, (i < n)%nat -> 0 <= d0 i) -> fits G d8 c (initialize G c d0) /\ no_flood (initialize G c d0).
Proof.
  intros Hd. split; [constructor|].
  - intros i Hi. unfold initialize. cbn [w_vol]. rewrite !get_tab by exact Hi. unfold ChanR_Model.A_wet.
    pose proof (ok_width G c Hok i Hi). pose proof (ok_ds G c Hok i Hi). pose proof (Hd i Hi). pose proof (tan_nonneg _ (ok_angle G c Hok i Hi)).
    apply Rmult_le_pos; [|lra]. apply Rmult_le_pos; [assumption|]. nra.
  - intros i Hi. unfold initialize. cbn [w_d w_df]. rewrite get_tab by exact Hi. rewrite get_repeat0. split; [apply Hd; exact Hi|lra].
  - intros i Hi. unfold initialize. cbn [w_u]. rewrite get_repeat0. lra.
  - intros i Hi _. unfold initialize. cbn [w_u w_df]. rewrite !get_repeat0. auto.
  - intros i Hi _. unfold initialize. cbn [w_A w_d w_df w_vol]. rewrite !get_tab by exact Hi. rewrite get_repeat0. split; [reflexivity|ring].
  - intros _ i. unfold initialize. cbn [w_df]. apply get_repeat0.
Qed.

Lemma run_fits d0 rs : (forall i, (i < n)%nat -> 0 <= d0 i) ->
  let s := run G d8 pid c (initialize G c d0) rs in fits G d8 c s /\ no_flood s.
Proof.
  intros Hd. cbv zeta. induction rs as [|r rs IH] using rev_ind; [apply init_fits; exact Hd|].
  unfold run. rewrite fold_left_app. cbn [fold_left]. apply upd_fits. apply IH.
Qed.

(* ---------------------------------------------------------------- Courant *)
Lemma powr_mul_self x : 0 <= x -> powr x (2/3) * x = powr x (5/3).
Proof.
  intros Hx. destruct (Req_dec x 0) as [->|Hne]; [rewrite !powr_0; ring|]. unfold powr. destruct (Rle_dec x 0); [lra|].
  rewrite <- (Rpower_1 x) at 2 by lra. rewrite <- Rpower_plus. f_equal. lra.
Qed.

Lemma discharge_get s i : (i < n)%nat -> no_flood s -> get 0 (discharge G c s) i =
  get 0 (w_u s) i * get 0 (w_A s) i + (if FLOOD c then flood_velocity c s i * (5 * width c i * get 0 (w_df s) i) else 0).
Proof. intros Hi _. unfold discharge. rewrite get_tab by exact Hi. reflexivity. Qed.

Lemma discharge_edge s i : (i < n)%nat -> fits G d8 c s -> flows G d8 i = false -> get 0 (discharge G c s) i = 0.
Proof.
  intros Hi Hf E. destruct (f_edge _ _ _ _ Hf i Hi E) as [H1 H2]. unfold discharge. rewrite get_tab by exact Hi. rewrite H1, H2.
  unfold flood_discharge. destruct (FLOOD c); ring.
Qed.
Lemma flood_velocity_nonneg s i : 0 <= flood_velocity c s i.
Proof. unfold flood_velocity. apply Rmult_le_pos; [apply Rmult_le_pos; [apply powr_nonneg|apply sqrt_pos]|lra]. Qed.
Lemma A_nonneg s i : (i < n)%nat -> fits G d8 c s -> flows G d8 i = true -> 0 <= get 0 (w_A s) i.
Proof.
  intros Hi Hf E. destruct (f_A _ _ _ _ Hf i Hi E) as [-> _]. destruct (f_d _ _ _ _ Hf i Hi) as [Hd _].
  pose proof (ok_width G c Hok i Hi). pose proof (tan_nonneg _ (ok_angle G c Hok i Hi)). apply Rmult_le_pos; [exact Hd|nra].
Qed.
Lemma discharge_nonneg s i : (i < n)%nat -> fits G d8 c s -> 0 <= get 0 (discharge G c s) i.
Proof.
  intros Hi Hf. destruct (flows G d8 i) eqn:E; [|rewrite discharge_edge; auto; lra].
  unfold discharge. rewrite get_tab by exact Hi.
  assert (0 <= get 0 (w_u s) i * get 0 (w_A s) i) by (apply Rmult_le_pos; [apply (f_u _ _ _ _ Hf i Hi)|apply A_nonneg; assumption]).
  destruct (FLOOD c); [|lra]. destruct (f_d _ _ _ _ Hf i Hi) as [_ Hd]. pose proof (ok_width G c Hok i Hi).
  assert (0 <= flood_velocity c s i * (5 * width c i * get 0 (w_df s) i)) by (apply Rmult_le_pos; [apply flood_velocity_nonneg|nra]).
  unfold flood_velocity in *. unfold flood_discharge. lra.
Qed.
Lemma inflow_nonneg s i : fits G d8 c s -> 0 <= inflow G d8 (get 0 (discharge G c s)) i.
Proof. intros Hf. apply rsumn_nonneg. intros j Hj. destruct (flows_to G d8 j i); [apply discharge_nonneg; assumption|lra]. Qed.

(* within the Courant limit no cell gives away more than it holds *)
Lemma courant_outflow s i : (i < n)%nat -> fits G d8 c s -> no_flood s -> courant G d8 c 1 s ->
  get 0 (discharge G c s) i * dt c <= get 0 (w_vol s) i.
Proof.
  intros Hi Hf Hnf Hc. destruct (flows G d8 i) eqn:E.
  2:{ rewrite discharge_edge by assumption. rewrite Rmult_0_l. apply (f_vol _ _ _ _ Hf i Hi). }
  destruct (Hc i Hi E) as [H1 H2]. destruct (f_A _ _ _ _ Hf i Hi E) as [_ <-].
  rewrite discharge_get by assumption. pose proof (A_nonneg s i Hi Hf E) as HA. destruct (f_d _ _ _ _ Hf i Hi) as [_ Hdf].
  pose proof (ok_width G c Hok i Hi) as Hw. rewrite Rmult_1_l in H1.
  assert (K1 : get 0 (w_u s) i * get 0 (w_A s) i * dt c <= get 0 (w_A s) i * ds c i).
  { replace (get 0 (w_u s) i * get 0 (w_A s) i * dt c) with (get 0 (w_A s) i * (get 0 (w_u s) i * dt c)) by ring.
    apply Rmult_le_compat_l; assumption. }
  assert (Hp : 0 <= 5 * width c i * get 0 (w_df s) i) by (apply Rmult_le_pos; [lra|exact Hdf]).
  destruct (FLOOD c) eqn:HF.
  - specialize (H2 eq_refl). rewrite Rmult_1_l in H2. rewrite Rmult_plus_distr_r. apply Rplus_le_compat; [exact K1|].
    replace (flood_velocity c s i * (5 * width c i * get 0 (w_df s) i) * dt c) with (5 * width c i * get 0 (w_df s) i * (flood_velocity c s i * dt c)) by ring.
    apply Rmult_le_compat_l; assumption.
  - rewrite (Hnf HF). lra.
Qed.

Lemma upd_stock s r : fits G d8 c s -> no_flood s -> courant G d8 c 1 s ->
  (forall i, (i < n)%nat -> 0 <= r i * da c i) ->
  stock G (upd s r) = stock G s + supplied G c r.
Proof.
  intros Hf Hnf Hc Hr. unfold stock, supplied. rewrite upd_edge by assumption.
  rewrite (rsumn_ext n _ (fun i => if flows G d8 i then newv s r i else 0)) by (intros i Hi; apply upd_vol; assumption).
  pose proof (ok_dt G c Hok) as Hdt.
  set (q := get 0 (discharge G c s)).
  assert (E : forall i, (i < n)%nat -> newv s r i = get 0 (w_vol s) i + r i * da c i * dt c + (dt c * inflow G d8 q i - dt c * (if flows G d8 i then q i else 0))).
  { intros i Hi. unfold new_vol. fold q. pose proof (courant_outflow s i Hi Hf Hnf Hc) as H1. fold q in H1.
    pose proof (inflow_nonneg s i Hf) as H2. fold q in H2. pose proof (Hr i Hi) as H3.
    assert (0 <= r i * da c i * dt c) by (apply Rmult_le_pos; lra).
    assert (0 <= dt c * inflow G d8 q i) by (apply Rmult_le_pos; lra).
    rewrite Rmax_left by lra. destruct (flows G d8 i) eqn:Ef; [ring|].
    unfold q. rewrite discharge_edge by assumption. ring. }
  assert (T : rsumn n (newv s r) = rsumn n (get 0 (w_vol s)) + rsumn n (fun i => r i * da c i * dt c)).
  { rewrite (rsumn_ext n _ _ E). unfold rsumn at 1.
    rewrite (rsuml_plus (fun i => get 0 (w_vol s) i + r i * da c i * dt c)), rsuml_plus, rsuml_minus, !rsuml_scale.
    pose proof (total_inflow G HG d8 q) as Ht. unfold rsumn in *. rewrite Ht. ring. }
  assert (U : rsumn n (newv s r) = rsumn n (fun i => if flows G d8 i then newv s r i else 0) + rsumn n (fun i => if flows G d8 i then 0 else newv s r i)).
  { unfold rsumn. rewrite <- rsuml_plus. apply rsuml_ext. intros i _. destruct (flows G d8 i); ring. }
  lra.
Qed.

Lemma run_stock rs : forall s, fits G d8 c s -> no_flood s -> along G d8 pid c (courant G d8 c 1) s rs ->
  (forall r, In r rs -> forall i, (i < n)%nat -> 0 <= r i * da c i) ->
  stock G (run G d8 pid c s rs) = stock G s + rsuml (supplied G c) rs.
Proof.
  induction rs as [|r rs IH]; intros s Hf Hnf Ha Hr; [unfold run; cbn [fold_left]; rewrite rsuml_nil; ring|].
  destruct Ha as [Hc Ha]. change (run G d8 pid c s (r :: rs)) with (run G d8 pid c (upd s r) rs).
  destruct (upd_fits s r Hnf) as [Hf' Hnf']. rewrite IH; [|assumption|assumption|exact Ha|intros r' Hr'; apply Hr; right; exact Hr'].
  rewrite upd_stock; [|assumption|assumption|exact Hc|apply Hr; left; reflexivity]. rewrite rsuml_cons. ring.
Qed.
End Grid.
