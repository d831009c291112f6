From Coq Require Import ZArith Reals List Bool Lia Lra Psatz.
From Verif Require Import Base D8_Spec D8_Proofs D8_Walk ChanR_Model ChanR_Proofs Depth_Proofs Calib_Model Calib_Props Wave_Model Wave_Spec Wave_Proofs Wave_Inv.
From Verif Require D8_Model.
Import ListNotations.
Local Open Scope R_scope.

(* x^(5/3) grows by at most 5/3 x^(2/3) per unit *)
Lemma pow53_lip a b : 0 <= a <= b -> powr b (5/3) - powr a (5/3) <= 5/3 * powr b (2/3) * (b - a).
Proof.
  intros [Ha Hab]. destruct (Req_dec b 0) as [E|E]; [replace a with 0 by lra; rewrite E, !powr_0; lra|].
  pose proof (powr_tangent (5/3) b a ltac:(lra) ltac:(lra) Ha) as T.
  replace (Rpower b (5/3 - 1)) with (powr b (2/3)) in T.
  2:{ rewrite powr_Rpower by lra. f_equal. lra. }
  lra.
Qed.

(* Manning's discharge A*u through sections 1 and 2, the second larger in area and wetted perimeter *)
Lemma manning_flow_lip A1 A2 P1 P2 S nv : 0 <= A1 <= A2 -> 0 < P1 <= P2 -> 0 < nv ->
  manning (A2 / P2) S nv * A2 - manning (A1 / P1) S nv * A1 <= 5/3 * manning (A2 / P2) S nv * (A2 - A1).
Proof.
  intros [HA HAA] [HP HPP] Hn. unfold manning. set (k := sqrt (Rabs S) / nv).
  assert (Hk : 0 <= k) by (apply Rmult_le_pos; [apply sqrt_pos|left; apply Rinv_0_lt_compat; exact Hn]).
  assert (Q : forall A P, 0 <= A -> 0 < P -> powr (A / P) (2/3) = powr A (2/3) * powr (/ P) (2/3)).
  { intros A P H1 H2. apply powr_mult; [exact H1|left; apply Rinv_0_lt_compat; exact H2]. }
  rewrite !Q by lra. set (p1 := powr (/ P1) (2/3)). set (p2 := powr (/ P2) (2/3)).
  assert (Hp : 0 <= p2 <= p1).
  { split; [apply powr_nonneg|]. apply powr_mono; [lra|]. apply Rinv_le_contravar; lra. }
  replace (powr A2 (2/3) * p2 * sqrt (Rabs S) / nv * A2) with (k * p2 * (powr A2 (2/3) * A2)) by (unfold k; field; lra).
  replace (powr A1 (2/3) * p1 * sqrt (Rabs S) / nv * A1) with (k * p1 * (powr A1 (2/3) * A1)) by (unfold k; field; lra).
  replace (5/3 * (powr A2 (2/3) * p2 * sqrt (Rabs S) / nv) * (A2 - A1)) with (k * p2 * (5/3 * powr A2 (2/3) * (A2 - A1))) by (unfold k; field; lra).
  rewrite !powr_mul_self by lra. pose proof (pow53_lip A1 A2 (conj HA HAA)) as L. pose proof (powr_nonneg A1 (5/3)).
  assert (k * p2 * powr A1 (5/3) <= k * p1 * powr A1 (5/3)).
  { apply Rmult_le_compat_r; [assumption|]. apply Rmult_le_compat_l; lra. }
  assert (0 <= k * p2) by (apply Rmult_le_pos; lra).
  assert (k * p2 * (powr A2 (5/3) - powr A1 (5/3)) <= k * p2 * (5/3 * powr A2 (2/3) * (A2 - A1))) by (apply Rmult_le_compat_l; lra).
  lra.
Qed.

Section Grid.
Variable G : D8_Model.geom.
Hypothesis HG : geom_ok G.
Notation n := (D8_Model.ncells G).
Variables (d8 : list Z) (O : D8_Model.opts) (c : chan).
Hypothesis Hclosed : forall i, (i < n)%nat -> closed_side G O i -> get 0%Z d8 i = 0%Z.
Hypothesis Hcodes : code_grid G d8.
Hypothesis Hok : chan_ok G c.
Hypothesis HK : KINEMATIC c = true.
Hypothesis HM : form c = Manning.
Notation pid := (D8_Model.update_parent_ID_grid G O d8).
Notation upd := (update G d8 pid c).
Notation newv := (new_vol G d8 c).

(* velocity and discharge of a cell as functions of its volume *)
Definition u_of (v : R) (i : nat) : R := manning (Rh false (depth_of c v i) (width c i) (angle c i)) (S_bed c i) (rough c i).
Definition uf_of (v : R) (i : nat) : R := powr (flood_depth (flood_of c v i) (width c i) (ds c i)) (2/3) * sqrt (Rabs (S_bed c i)) / (1/10).
Definition q_of (v : R) (i : nat) : R := u_of v i * (chan_part c v i / ds c i) + (if FLOOD c then uf_of v i * (flood_of c v i / ds c i) else 0).

Lemma upd_u_of s r i : (i < n)%nat -> get 0 (w_u (upd s r)) i = if flows G d8 i then u_of (newv s r i) i else 0.
Proof. intros Hi. rewrite upd_u by assumption. unfold slope_of, velocity, u_of. rewrite HK, HM. reflexivity. Qed.
Lemma upd_uf_of s r i : (i < n)%nat -> FLOOD c = true -> flows G d8 i = true -> flood_velocity c (upd s r) i = uf_of (newv s r i) i.
Proof. intros Hi HF E. unfold flood_velocity, slope_of, uf_of. rewrite HK, upd_df, E by assumption. reflexivity. Qed.
Lemma upd_q_of s r i : (i < n)%nat -> get 0 (discharge G c (upd s r)) i = if flows G d8 i then q_of (newv s r i) i else 0.
Proof.
  intros Hi. pose proof (new_vol_nonneg G d8 c s r i) as Hv. destruct (depth_ok G c Hok _ i Hi Hv) as [Hd HA].
  pose proof (ok_ds G c Hok i Hi) as Hds. unfold discharge. rewrite get_tab by exact Hi. rewrite upd_u_of, upd_A by assumption.
  destruct (flows G d8 i) eqn:E.
  - unfold q_of. rewrite <- HA. f_equal; [field; lra|]. destruct (FLOOD c) eqn:HF; [|reflexivity].
    rewrite upd_df, E by assumption. unfold flood_discharge, slope_of, uf_of. rewrite HK.
    destruct (flood_depth_ok G c Hok (flood_of c (newv s r i) i) i Hi (Rmax_r _ _)) as [_ E5].
    set (x := flood_depth (flood_of c (newv s r i) i) (width c i) (ds c i)) in *. rewrite <- E5. field. lra.
  - destruct (FLOOD c) eqn:HF; [|ring]. rewrite upd_df, E by assumption. unfold flood_discharge. ring.
Qed.

Lemma chan_part_mono v w i : v <= w -> chan_part c v i <= chan_part c w i.
Proof. intros H. unfold chan_part. destruct (FLOOD c); [|exact H]. apply Rle_min_compat_r. exact H. Qed.
Lemma flood_of_mono v w i : v <= w -> flood_of c v i <= flood_of c w i.
Proof. intros H. unfold flood_of. apply Rle_max_compat_r. lra. Qed.
Lemma depth_mono v w i : (i < n)%nat -> 0 <= v <= w -> depth_of c v i <= depth_of c w i.
Proof.
  intros Hi [Hv Hw]. destruct (depth_ok G c Hok v i Hi Hv) as [D1 A1]. destruct (depth_ok G c Hok w i Hi ltac:(lra)) as [D2 A2].
  destruct (Rle_dec (depth_of c v i) (depth_of c w i)) as [|N]; [assumption|exfalso].
  pose proof (chan_part_mono v w i Hw) as M. rewrite <- A1, <- A2 in M. pose proof (ok_ds G c Hok i Hi) as Hds. pose proof (ok_width G c Hok i Hi) as Hwd.
  pose proof (tan_nonneg _ (ok_angle G c Hok i Hi)) as Ht. apply Rmult_le_reg_r in M; [|exact Hds]. unfold ChanR_Model.A_wet in M.
  set (x := depth_of c v i) in *. set (y := depth_of c w i) in *. set (t := tan (angle c i)) in *. set (b := width c i) in *. clearbody x y t b.
  assert (y * (b + y * t) < x * (b + x * t)); [|lra].
  assert (0 <= (x - y) * t) by (apply Rmult_le_pos; lra). assert (0 <= (x - y) * t * (x + y)) by (apply Rmult_le_pos; lra).
  assert (0 < (x - y) * b) by (apply Rmult_lt_0_compat; lra). nra.
Qed.
Lemma flood_depth_mono v w i : (i < n)%nat -> 0 <= v <= w -> flood_depth v (width c i) (ds c i) <= flood_depth w (width c i) (ds c i).
Proof.
  intros Hi [Hv Hw]. pose proof (ok_width G c Hok i Hi) as Hwd. pose proof (ok_ds G c Hok i Hi) as Hds. unfold flood_depth. apply Rle_max_compat_r.
  apply Rmult_le_compat_r; [|exact Hw]. left. apply Rinv_0_lt_compat. nra.
Qed.
Lemma u_of_mono v w i : (i < n)%nat -> 0 <= v <= w -> 0 <= u_of v i <= u_of w i.
Proof.
  intros Hi H. pose proof (ok_rough G c Hok i Hi) as Hr. split; [apply manning_nonneg; exact Hr|].
  pose proof (ok_width G c Hok i Hi) as Hwd. pose proof (ok_angle G c Hok i Hi) as Ha.
  destruct (depth_ok G c Hok v i Hi ltac:(lra)) as [D1 _]. pose proof (depth_mono v w i Hi H).
  apply manning_mono; [exact Hr| |lra]. split; [apply Rh_nonneg; try assumption; lra|apply Rh_mono; try assumption; lra].
Qed.
Lemma uf_of_mono v w i : (i < n)%nat -> v <= w -> 0 <= uf_of v i <= uf_of w i.
Proof.
  intros Hi H. unfold uf_of. assert (0 <= sqrt (Rabs (S_bed c i))) by apply sqrt_pos. split.
  - apply Rmult_le_pos; [apply Rmult_le_pos; [apply powr_nonneg|assumption]|lra].
  - apply Rmult_le_compat_r; [lra|]. apply Rmult_le_compat_r; [assumption|]. apply powr_mono; [lra|].
    apply flood_depth_mono; [exact Hi|]. split; [apply Rmax_r|apply flood_of_mono; exact H].
Qed.
Lemma q_of_mono v w i : (i < n)%nat -> 0 <= v <= w -> 0 <= q_of v i <= q_of w i.
Proof.
  intros Hi H. pose proof (u_of_mono v w i Hi H) as [U1 U2]. pose proof (uf_of_mono v w i Hi (proj2 H)) as [F1 F2].
  pose proof (ok_ds G c Hok i Hi) as Hds. assert (Hi' : 0 < / ds c i) by (apply Rinv_0_lt_compat; exact Hds).
  pose proof (chan_part_mono v w i (proj2 H)) as C2. pose proof (chan_part_nonneg G c Hok v i Hi (proj1 H)) as C1.
  assert (B1 : 0 <= flood_of c v i) by apply Rmax_r. pose proof (flood_of_mono v w i (proj2 H)) as B2.
  assert (K1 : 0 <= chan_part c v i / ds c i <= chan_part c w i / ds c i) by (split; [apply Rmult_le_pos; lra|apply Rmult_le_compat_r; lra]).
  assert (K2 : 0 <= flood_of c v i / ds c i <= flood_of c w i / ds c i) by (split; [apply Rmult_le_pos; lra|apply Rmult_le_compat_r; lra]).
  assert (X1 : 0 <= u_of v i * (chan_part c v i / ds c i) <= u_of w i * (chan_part c w i / ds c i)) by (split; [apply Rmult_le_pos; lra|apply Rmult_le_compat; lra]).
  assert (X2 : 0 <= uf_of v i * (flood_of c v i / ds c i) <= uf_of w i * (flood_of c w i / ds c i)) by (split; [apply Rmult_le_pos; lra|apply Rmult_le_compat; lra]).
  unfold q_of. destruct (FLOOD c); lra.
Qed.

(* the Courant limit for the wave speed at volume w *)
Definition slow (w : R) (i : nat) : Prop := 5/3 * (u_of w i * dt c) <= ds c i /\ (FLOOD c = true -> 5/3 * (uf_of w i * dt c) <= ds c i).

Lemma q_of_lip v w i : (i < n)%nat -> 0 <= v <= w -> slow w i -> dt c * (q_of w i - q_of v i) <= w - v.
Proof.
  intros Hi H [C1 C2]. pose proof (ok_ds G c Hok i Hi) as Hds. pose proof (ok_dt G c Hok) as Hdt.
  pose proof (ok_width G c Hok i Hi) as Hwd. pose proof (ok_angle G c Hok i Hi) as Ha. pose proof (ok_rough G c Hok i Hi) as Hr.
  assert (Hinv : 0 < / ds c i) by (apply Rinv_0_lt_compat; exact Hds).
  (* channel *)
  assert (CH : dt c * (u_of w i * (chan_part c w i / ds c i) - u_of v i * (chan_part c v i / ds c i)) <= chan_part c w i - chan_part c v i).
  { destruct (depth_ok G c Hok v i Hi ltac:(lra)) as [D1 A1]. destruct (depth_ok G c Hok w i Hi ltac:(lra)) as [D2 A2].
    pose proof (depth_mono v w i Hi H) as DM. set (x := depth_of c v i) in *. set (y := depth_of c w i) in *.
    pose proof (chan_part_mono v w i (proj2 H)) as CM. pose proof (chan_part_nonneg G c Hok v i Hi (proj1 H)) as CN.
    assert (E1 : chan_part c v i / ds c i = ChanR_Model.A_wet x (width c i) (angle c i)) by (rewrite <- A1; field; lra).
    assert (E2 : chan_part c w i / ds c i = ChanR_Model.A_wet y (width c i) (angle c i)) by (rewrite <- A2; field; lra).
    rewrite E1, E2. set (a1 := ChanR_Model.A_wet x (width c i) (angle c i)) in *. set (a2 := ChanR_Model.A_wet y (width c i) (angle c i)) in *.
    assert (HA : 0 <= a1 <= a2) by (rewrite <- E1, <- E2; split; [apply Rmult_le_pos; lra|apply Rmult_le_compat_r; lra]).
    assert (HP1 : 0 < P_wet false x (width c i) (angle c i)) by (apply P_pos; try assumption; lra).
    assert (HPP : P_wet false x (width c i) (angle c i) <= P_wet false y (width c i) (angle c i)).
    { unfold P_wet. pose proof (cos_pos _ Ha) as Hc. apply Rplus_le_compat_l. apply Rmult_le_compat_r; [left; apply Rinv_0_lt_compat; exact Hc|lra]. }
    pose proof (manning_flow_lip a1 a2 _ _ (S_bed c i) (rough c i) HA (conj HP1 HPP) Hr) as L.
    change (manning (a2 / P_wet false y (width c i) (angle c i)) (S_bed c i) (rough c i)) with (u_of w i) in L.
    change (manning (a1 / P_wet false x (width c i) (angle c i)) (S_bed c i) (rough c i)) with (u_of v i) in L.
    rewrite <- A1, <- A2. fold a1 a2.
    apply Rle_trans with (dt c * (5/3 * u_of w i * (a2 - a1))); [apply Rmult_le_compat_l; lra|].
    replace (dt c * (5/3 * u_of w i * (a2 - a1))) with (5/3 * (u_of w i * dt c) * (a2 - a1)) by ring.
    replace (a2 * ds c i - a1 * ds c i) with (ds c i * (a2 - a1)) by ring. apply Rmult_le_compat_r; lra. }
  unfold q_of. destruct (FLOOD c) eqn:HF.
  - specialize (C2 eq_refl).
    assert (FL : dt c * (uf_of w i * (flood_of c w i / ds c i) - uf_of v i * (flood_of c v i / ds c i)) <= flood_of c w i - flood_of c v i).
    { pose proof (flood_of_mono v w i (proj2 H)) as M. destruct (flood_depth_ok G c Hok (flood_of c v i) i Hi (Rmax_r _ _)) as [D1 E1].
      destruct (flood_depth_ok G c Hok (flood_of c w i) i Hi (Rmax_r _ _)) as [D2 E2].
      pose proof (flood_depth_mono (flood_of c v i) (flood_of c w i) i Hi (conj (Rmax_r _ _) M)) as DM.
      unfold uf_of in *. set (x := flood_depth (flood_of c v i) (width c i) (ds c i)) in *. set (y := flood_depth (flood_of c w i) (width c i) (ds c i)) in *.
      rewrite <- E1, <- E2. set (k := sqrt (Rabs (S_bed c i)) / (1/10)). assert (Hk : 0 <= k) by (apply Rmult_le_pos; [apply sqrt_pos|lra]).
      pose proof (pow53_lip x y (conj D1 DM)) as L.
      replace (powr y (2/3) * sqrt (Rabs (S_bed c i)) / (1/10)) with (powr y (2/3) * k) in * by (unfold k; field).
      replace (powr x (2/3) * sqrt (Rabs (S_bed c i)) / (1/10)) with (powr x (2/3) * k) by (unfold k; field).
      replace (dt c * (powr y (2/3) * k * (5 * width c i * y * ds c i / ds c i) - powr x (2/3) * k * (5 * width c i * x * ds c i / ds c i)))
        with (dt c * k * (5 * width c i) * (powr y (2/3) * y - powr x (2/3) * x)) by (field; lra).
      rewrite !powr_mul_self by assumption.
      apply Rle_trans with (dt c * k * (5 * width c i) * (5/3 * powr y (2/3) * (y - x))).
      { apply Rmult_le_compat_l; [|exact L]. apply Rmult_le_pos; [apply Rmult_le_pos; lra|lra]. }
      replace (dt c * k * (5 * width c i) * (5/3 * powr y (2/3) * (y - x))) with (5/3 * (powr y (2/3) * k * dt c) * (5 * width c i * (y - x))) by ring.
      replace (5 * width c i * y * ds c i - 5 * width c i * x * ds c i) with (ds c i * (5 * width c i * (y - x))) by ring.
      apply Rmult_le_compat_r; [|exact C2]. apply Rmult_le_pos; lra. }
    unfold chan_part in *. rewrite HF in *. pose proof (ok_bank G c Hok i Hi) as Hb. pose proof (parts c v i Hb). pose proof (parts c w i Hb). lra.
  - unfold chan_part in *. rewrite HF in *. lra.
Qed.

(* ---------------------------------------------------------------- comparison of two runs *)
(* [v], [q]: volumes and discharges of the cells *)
Definition below (v1 q1 v2 q2 : nat -> R) : Prop := forall i, (i < n)%nat ->
  v1 i <= v2 i /\ q1 i <= q2 i /\ v1 i - dt c * q1 i <= v2 i - dt c * q2 i.
Definition step (v q r : nat -> R) (i : nat) : R :=
  Rmax (v i + r i * da c i * dt c + dt c * inflow G d8 q i - q i * dt c) 0.

Lemma inflow_mono q1 q2 i : (forall j, (j < n)%nat -> q1 j <= q2 j) -> inflow G d8 q1 i <= inflow G d8 q2 i.
Proof. intros H. apply rsumn_le. intros j Hj. destruct (flows_to G d8 j i); [apply H; exact Hj|lra]. Qed.
Lemma step_mono v1 q1 r1 v2 q2 r2 i : (i < n)%nat -> below v1 q1 v2 q2 -> r1 i * da c i <= r2 i * da c i -> step v1 q1 r1 i <= step v2 q2 r2 i.
Proof.
  intros Hi Hb Hr. destruct (Hb i Hi) as (_ & _ & H). pose proof (ok_dt G c Hok) as Hdt.
  pose proof (inflow_mono q1 q2 i (fun j Hj => proj1 (proj2 (Hb j Hj)))) as HI. unfold step. apply Rle_max_compat_r.
  assert (r1 i * da c i * dt c <= r2 i * da c i * dt c) by (apply Rmult_le_compat_r; lra).
  assert (dt c * inflow G d8 q1 i <= dt c * inflow G d8 q2 i) by (apply Rmult_le_compat_l; lra). lra.
Qed.
Notation V s := (get 0 (w_vol s)).
Notation Q s := (get 0 (discharge G c s)).
Lemma newv_step s r i : newv s r i = step (V s) (Q s) r i.
Proof. reflexivity. Qed.

Lemma upd_slow s r i : (i < n)%nat -> flows G d8 i = true -> courant G d8 c (5/3) (upd s r) -> slow (newv s r i) i.
Proof.
  intros Hi E Hc. destruct (Hc i Hi E) as [H1 H2]. rewrite upd_u_of, E in H1 by assumption. split; [exact H1|].
  intros HF. rewrite upd_uf_of in H2 by assumption. apply H2. exact HF.
Qed.

Lemma upd_below s1 r1 s2 r2 : below (V s1) (Q s1) (V s2) (Q s2) -> (forall i, (i < n)%nat -> r1 i * da c i <= r2 i * da c i) ->
  courant G d8 c (5/3) (upd s2 r2) -> below (V (upd s1 r1)) (Q (upd s1 r1)) (V (upd s2 r2)) (Q (upd s2 r2)).
Proof.
  intros Hb Hr Hc i Hi. rewrite !upd_vol, !upd_q_of by assumption. destruct (flows G d8 i) eqn:E; [|lra].
  pose proof (step_mono _ _ r1 _ _ r2 i Hi Hb (Hr i Hi)) as M. rewrite <- !newv_step in M.
  pose proof (new_vol_nonneg G d8 c s1 r1 i) as N.
  pose proof (q_of_mono _ _ i Hi (conj N M)) as QM. pose proof (q_of_lip _ _ i Hi (conj N M) (upd_slow s2 r2 i Hi E Hc)) as QL. lra.
Qed.
Lemma upd_below_du s1 r1 s2 r2 : below (V s1) (Q s1) (V s2) (Q s2) -> (forall i, (i < n)%nat -> r1 i * da c i <= r2 i * da c i) ->
  forall i, (i < n)%nat -> get 0 (w_d (upd s1 r1)) i <= get 0 (w_d (upd s2 r2)) i /\ get 0 (w_u (upd s1 r1)) i <= get 0 (w_u (upd s2 r2)) i.
Proof.
  intros Hb Hr i Hi. rewrite !upd_d, !upd_u_of by assumption. destruct (flows G d8 i) eqn:E; [|lra].
  pose proof (step_mono _ _ r1 _ _ r2 i Hi Hb (Hr i Hi)) as M. rewrite <- !newv_step in M.
  pose proof (new_vol_nonneg G d8 c s1 r1 i) as N. split; [apply depth_mono; auto|apply (u_of_mono _ _ i Hi (conj N M))].
Qed.
End Grid.
