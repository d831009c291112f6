From Coq Require Import ZArith Reals List Bool Lia Lra Psatz.
From Verif Require Import Base D8_Spec D8_Proofs D8_Walk ChanR_Model ChanR_Proofs Depth_Proofs Calib_Props Wave_Model Wave_Spec Wave_Proofs Wave_Inv Wave_Order Wave_Steady.
From Verif Require D8_Model.
Import ListNotations.
Local Open Scope R_scope.

Lemma Un_cv_const x : Un_cv (fun _ => x) x.
Proof. intros e He. exists 0%nat. intros k _. unfold R_dist. rewrite Rminus_diag_eq, Rabs_R0 by reflexivity. exact He. Qed.
Lemma Un_cv_ext a b l : (forall k, a k = b k) -> Un_cv a l -> Un_cv b l.
Proof. intros H C e He. destruct (C e He) as [N HN]. exists N. intros k Hk. rewrite <- H. apply HN. exact Hk. Qed.
Lemma Un_cv_shift a l : Un_cv a l -> Un_cv (fun k => a (S k)) l.
Proof. intros C e He. destruct (C e He) as [N HN]. exists N. intros k Hk. apply HN. lia. Qed.
Lemma Un_cv_rsuml {X} (f : nat -> X -> R) (g : X -> R) l : (forall a, In a l -> Un_cv (fun k => f k a) (g a)) -> Un_cv (fun k => rsuml (f k) l) (rsuml g l).
Proof.
  induction l as [|a l IH]; intros H; [exact (Un_cv_const 0)|]. apply (CV_plus (fun k => f k a) (fun k => rsuml (f k) l)).
  - apply H. left. reflexivity.
  - apply IH. intros b Hb. apply H. right. exact Hb.
Qed.
Lemma Un_cv_squeeze a l x k : 0 < k -> (forall m, 0 <= x - a m <= (x - l m) / k) -> Un_cv l x -> Un_cv a x.
Proof.
  intros Hk H C e He. destruct (C (e * k) ltac:(nra)) as [N HN]. exists N. intros m Hm. specialize (HN m Hm). specialize (H m).
  unfold R_dist in *. assert (E : (x - l m) / k * k = x - l m) by (field; lra).
  rewrite Rabs_minus_sym in HN |- *. rewrite Rabs_pos_eq by lra. apply Rle_lt_trans with ((x - l m) / k); [lra|].
  apply (Rmult_lt_reg_r k); [exact Hk|]. rewrite E. apply Rle_lt_trans with (Rabs (x - l m)); [apply Rle_abs|exact HN].
Qed.

Section Grid.
Variable G : D8_Model.geom.
Hypothesis HG : geom_ok G.
Notation n := (D8_Model.ncells G).
Variables (d8 : list Z) (O : D8_Model.opts) (c : chan).
Hypothesis Hclosed : forall i, (i < n)%nat -> closed_side G O i -> get 0%Z d8 i = 0%Z.
Hypothesis Hcodes : code_grid G d8.
Hypothesis Hac : acyclic G d8.
Hypothesis Hok : chan_ok G c.
Notation pid := (D8_Model.update_parent_ID_grid G O d8).
Notation upd := (update G d8 pid c).
Notation newv := (new_vol G d8 c).
Notation V s := (get 0 (w_vol s)).
Notation Q s := (get 0 (discharge G c s)).

(* ---------------------------------------------------------------- steady states, any solver *)
Lemma steady_balance s r : fits G d8 c s -> no_flood c s -> (forall i, (i < n)%nat -> 0 <= r i * da c i) ->
  forall i, (i < n)%nat -> flows G d8 i = true ->
  (get 0 (w_vol s) i = 0 -> get 0 (w_df s) i = 0 -> get 0 (w_A s) i = 0) ->
  (V (upd s r) i = V s i <-> Q s i = r i * da c i + inflow G d8 (Q s) i).
Proof.
  intros Hf Hnf Hr i Hi E HA. rewrite upd_vol, E by assumption. unfold new_vol. pose proof (ok_dt G c Hok) as Hdt.
  pose proof (f_vol _ _ _ _ Hf i Hi) as Hv. pose proof (inflow_nonneg G d8 c Hok s i Hf) as HI. pose proof (Hr i Hi) as Hri.
  set (q := Q s i) in *. set (I := inflow G d8 (Q s) i) in *. split.
  - intros H. destruct (Req_dec (V s i) 0) as [Z|NZ].
    + assert (Hdf : get 0 (w_df s) i = 0).
      { destruct (f_A _ _ _ _ Hf i Hi E) as [_ B]. rewrite Z in B. pose proof (A_nonneg G d8 c Hok s i Hi Hf E). destruct (f_d _ _ _ _ Hf i Hi) as [_ D].
        pose proof (ok_ds G c Hok i Hi). pose proof (ok_width G c Hok i Hi). set (y := get 0 (w_df s) i) in *. set (x := get 0 (w_A s) i) in *.
        assert (0 <= x * ds c i) by (apply Rmult_le_pos; lra). assert (P : 0 < 5 * width c i * ds c i) by nra.
        assert (5 * width c i * ds c i * y <= 0) by lra. destruct (Rle_lt_or_eq_dec 0 y D) as [Y|Y]; [|lra].
        assert (0 < 5 * width c i * ds c i * y) by (apply Rmult_lt_0_compat; assumption). lra. }
      assert (Hq : q = 0).
      { unfold q. rewrite discharge_get by assumption. rewrite (HA Z Hdf), Hdf. destruct (FLOOD c); ring. }
      rewrite Hq, Z in *. pose proof (Rmax_l (0 + r i * da c i * dt c + dt c * I - 0 * dt c) 0) as M. rewrite H in M.
      assert (0 <= dt c * (r i * da c i)) by (apply Rmult_le_pos; lra). assert (0 <= dt c * I) by (apply Rmult_le_pos; lra).
      assert (dt c * (r i * da c i + I) = 0) by lra. assert (r i * da c i + I = 0); [|lra].
      apply (Rmult_eq_reg_l (dt c)); lra.
    + destruct (Rle_dec 0 (V s i + r i * da c i * dt c + dt c * I - q * dt c)) as [P|P].
      * rewrite Rmax_left in H by exact P. apply (Rmult_eq_reg_l (dt c)); lra.
      * rewrite Rmax_right in H by lra. lra.
  - intros H. rewrite H. replace (V s i + r i * da c i * dt c + dt c * I - (r i * da c i + I) * dt c) with (V s i) by ring. apply Rmax_left. exact Hv.
Qed.

(* ---------------------------------------------------------------- constant runoff from a dry start *)
Hypothesis HK : KINEMATIC c = true.
Hypothesis HM : form c = Manning.
Hypothesis HF : FLOOD c = false.
Variable r : nat -> R.
Hypothesis Hr : forall i, (i < n)%nat -> 0 <= r i * da c i.
Variable h : nat -> R.
Definition supply (i : nat) : R := rsuml (fun j => r j * da c j) (upstream G d8 i).
Hypothesis Hh : forall i, (i < n)%nat -> flows G d8 i = true -> 0 <= h i /\
  manning (Rh false (h i) (width c i) (angle c i)) (S_bed c i) (rough c i) * ChanR_Model.A_wet (h i) (width c i) (angle c i) = supply i /\
  5/3 * (manning (Rh false (h i) (width c i) (angle c i)) (S_bed c i) (rough c i) * dt c) <= ds c i.
Notation u_of := (u_of c).
Notation q_of := (q_of c).
Notation slow := (slow c).
Notation step := (step G d8 c).

Definition vs (i : nat) : R := if flows G d8 i then ChanR_Model.A_wet (h i) (width c i) (angle c i) * ds c i else 0.
Definition qs (i : nat) : R := if flows G d8 i then supply i else 0.

Lemma vs_pos i : (i < n)%nat -> 0 <= vs i.
Proof.
  intros Hi. unfold vs. destruct (flows G d8 i) eqn:E; [|lra]. destruct (Hh i Hi E) as [H0 _].
  pose proof (ok_width G c Hok i Hi). pose proof (ok_ds G c Hok i Hi). pose proof (tan_nonneg _ (ok_angle G c Hok i Hi)).
  apply Rmult_le_pos; [|lra]. unfold ChanR_Model.A_wet. apply Rmult_le_pos; [exact H0|nra].
Qed.
Lemma depth_vs i : (i < n)%nat -> flows G d8 i = true -> depth_of c (vs i) i = h i.
Proof.
  intros Hi E. unfold depth_of, chan_part. rewrite HF. pose proof (vs_pos i Hi) as Hv. destruct (Hh i Hi E) as [H0 _].
  destruct (depth_spec (vs i) (width c i) (ds c i) (angle c i) Hv) as (_ & _ & U).
  - left. apply (ok_width G c Hok i Hi).
  - apply (ok_ds G c Hok i Hi).
  - apply (ok_angle G c Hok i Hi).
  - left. apply (ok_width G c Hok i Hi).
  - symmetry. apply U; [exact H0|]. unfold vs. rewrite E. unfold ChanR_Model.A_wet. ring.
Qed.
Lemma q_vs i : (i < n)%nat -> flows G d8 i = true -> q_of (vs i) i = supply i.
Proof.
  intros Hi E. unfold Wave_Order.q_of, Wave_Order.u_of. rewrite HF, depth_vs by assumption. unfold chan_part. rewrite HF.
  destruct (Hh i Hi E) as (_ & <- & _). unfold vs. rewrite E. pose proof (ok_ds G c Hok i Hi). field. lra.
Qed.
Lemma slow_vs v i : (i < n)%nat -> flows G d8 i = true -> 0 <= v <= vs i -> slow v i.
Proof.
  intros Hi E Hv. split; [|rewrite HF; discriminate]. destruct (Hh i Hi E) as (_ & _ & C).
  pose proof (u_of_mono G c Hok v (vs i) i Hi Hv) as [U1 U2]. unfold Wave_Order.u_of at 2 in U2. rewrite depth_vs in U2 by assumption.
  pose proof (ok_dt G c Hok). apply Rle_trans with (2 := C). apply Rmult_le_compat_l; [lra|]. apply Rmult_le_compat_r; lra.
Qed.
Lemma q_of_0 i : (i < n)%nat -> q_of 0 i = 0.
Proof.
  intros Hi. unfold Wave_Order.q_of. rewrite HF. unfold chan_part. rewrite HF. pose proof (ok_ds G c Hok i Hi). field. lra.
Qed.
Lemma supply_nonneg i : 0 <= supply i.
Proof. apply rsuml_nonneg. intros j Hj. apply Hr. unfold upstream in Hj. apply filter_In in Hj. destruct Hj as [Hj _]. apply in_seq in Hj. lia. Qed.
Lemma step_vs i : (i < n)%nat -> flows G d8 i = true -> step vs qs r i = vs i.
Proof.
  intros Hi E. unfold Wave_Order.step. pose proof (upstream_balance G HG d8 Hac (fun j => r j * da c j) i Hi) as B. fold (supply i) in B.
  assert (I : inflow G d8 qs i = inflow G d8 (fun j => rsuml (fun j => r j * da c j) (upstream G d8 j)) i).
  { apply rsumn_ext. intros j _. unfold flows_to, qs, supply, flows. destruct (next G d8 j); [|reflexivity]. reflexivity. }
  rewrite I. unfold qs at 1. rewrite E, B. match goal with |- Rmax ?x 0 = _ => replace x with (vs i) by ring end. apply Rmax_left, vs_pos, Hi.
Qed.

Notation bel := (below G c).
(* the general step of a comparison *)
Lemma below_step v1 q1 v2 q2 : bel v1 q1 v2 q2 -> (forall i, (i < n)%nat -> flows G d8 i = true -> slow (step v2 q2 r i) i) ->
  bel (fun i => if flows G d8 i then step v1 q1 r i else 0) (fun i => if flows G d8 i then q_of (step v1 q1 r i) i else 0)
      (fun i => if flows G d8 i then step v2 q2 r i else 0) (fun i => if flows G d8 i then q_of (step v2 q2 r i) i else 0).
Proof.
  intros Hb Hs i Hi. destruct (flows G d8 i) eqn:E; [|lra].
  pose proof (step_mono G d8 c Hok v1 q1 r v2 q2 r i Hi Hb (Rle_refl _)) as M.
  assert (N : 0 <= step v1 q1 r i) by apply Rmax_r.
  pose proof (q_of_mono G c Hok _ _ i Hi (conj N M)). pose proof (q_of_lip G c Hok _ _ i Hi (conj N M) (Hs i Hi E)). lra.
Qed.

Definition dry : wave := initialize G c (fun _ => 0).
Definition at_ (k : nat) : wave := run G d8 pid c dry (repeat r k).
Lemma at_S k : at_ (S k) = upd (at_ k) r.
Proof.
  unfold at_, run. assert (E : repeat r (S k) = repeat r k ++ [r]) by apply (repeat_cons k r).
  rewrite E, fold_left_app. reflexivity.
Qed.
Lemma dry_V i : (i < n)%nat -> V (at_ 0) i = 0.
Proof. intros Hi. unfold at_, run, dry, initialize. cbn [repeat fold_left w_vol]. rewrite !get_tab by exact Hi. unfold ChanR_Model.A_wet. ring. Qed.
Lemma dry_Q i : (i < n)%nat -> Q (at_ 0) i = 0.
Proof. intros Hi. unfold discharge. rewrite get_tab by exact Hi. rewrite HF. unfold at_, run, dry, initialize. cbn [repeat fold_left w_u]. rewrite get_repeat0. ring. Qed.
Lemma at_V k i : (i < n)%nat -> V (at_ (S k)) i = if flows G d8 i then step (V (at_ k)) (Q (at_ k)) r i else 0.
Proof. intros Hi. rewrite at_S, upd_vol by assumption. reflexivity. Qed.
Lemma at_Q k i : (i < n)%nat -> Q (at_ (S k)) i = if flows G d8 i then q_of (step (V (at_ k)) (Q (at_ k)) r i) i else 0.
Proof. intros Hi. rewrite at_S. rewrite upd_q_of by assumption. reflexivity. Qed.
Lemma below_ext v1 q1 v2 q2 v1' q1' v2' q2' : bel v1 q1 v2 q2 ->
  (forall i, (i < n)%nat -> v1' i = v1 i /\ q1' i = q1 i /\ v2' i = v2 i /\ q2' i = q2 i) -> bel v1' q1' v2' q2'.
Proof. intros Hb H i Hi. destruct (H i Hi) as (-> & -> & -> & ->). apply Hb. exact Hi. Qed.

(* below the equilibrium *)
Lemma at_below k : bel (V (at_ k)) (Q (at_ k)) vs qs.
Proof.
  induction k as [|k IH].
  - intros i Hi. rewrite dry_V, dry_Q by exact Hi. pose proof (vs_pos i Hi). unfold qs. destruct (flows G d8 i) eqn:E; [|lra].
    pose proof (supply_nonneg i). pose proof (q_of_lip G c Hok 0 (vs i) i Hi ltac:(lra) (slow_vs (vs i) i Hi E ltac:(lra))) as L.
    rewrite q_vs, q_of_0 in L by assumption. lra.
  - eapply below_ext; [apply (below_step _ _ _ _ IH)|].
    + intros i Hi E. rewrite step_vs by assumption. apply slow_vs; [exact Hi|exact E|]. pose proof (vs_pos i Hi). lra.
    + intros i Hi. cbv beta. rewrite at_V, at_Q by exact Hi. unfold vs, qs. destruct (flows G d8 i) eqn:E; [|auto].
      pose proof (step_vs i Hi E) as S1. unfold vs in S1 at 2. rewrite E in S1. fold vs qs. rewrite S1.
      pose proof (q_vs i Hi E) as S2. unfold vs in S2. rewrite E in S2. rewrite S2. auto.
Qed.
Lemma at_nonneg k i : (i < n)%nat -> 0 <= V (at_ k) i /\ 0 <= Q (at_ k) i.
Proof.
  intros Hi. destruct (run_fits G HG d8 O c Hclosed Hcodes Hok (fun _ => 0) (repeat r k) (fun _ _ => Rle_refl 0)) as [F N].
  fold dry in F, N. fold (at_ k) in F, N. split; [apply (f_vol _ _ _ _ F i Hi)|apply (discharge_nonneg G d8 c Hok); assumption].
Qed.
Lemma at_slow k i : (i < n)%nat -> flows G d8 i = true -> slow (V (at_ k) i) i.
Proof. intros Hi E. apply slow_vs; [exact Hi|exact E|]. split; [apply at_nonneg; exact Hi|apply (at_below k i Hi)]. Qed.
(* the water rises *)
Lemma at_rises k : bel (V (at_ k)) (Q (at_ k)) (V (at_ (S k))) (Q (at_ (S k))).
Proof.
  induction k as [|k IH].
  - intros i Hi. rewrite dry_V, dry_Q by exact Hi. destruct (at_nonneg 1 i Hi) as [H1 H2].
    destruct (flows G d8 i) eqn:E.
    + pose proof (at_slow 1 i Hi E) as SL. rewrite at_Q, at_V in * by exact Hi. rewrite E in *.
      pose proof (q_of_lip G c Hok 0 _ i Hi (conj (Rle_refl 0) H1) SL) as L. rewrite q_of_0 in L by exact Hi. lra.
    + rewrite at_Q, at_V, E in * by exact Hi. lra.
  - eapply below_ext; [apply (below_step _ _ _ _ IH)|].
    + intros i Hi E. pose proof (at_slow (S (S k)) i Hi E) as SL. rewrite (at_V (S k)), E in SL by exact Hi. exact SL.
    + intros i Hi. cbv beta. rewrite (at_V (S k)), (at_Q (S k)), at_V, at_Q by exact Hi. auto.
Qed.
Lemma at_q k i : (i < n)%nat -> flows G d8 i = true -> Q (at_ k) i = q_of (V (at_ k) i) i.
Proof.
  intros Hi E. destruct k as [|k]; [rewrite dry_Q, dry_V, q_of_0 by exact Hi; reflexivity|]. rewrite at_Q, at_V, E by exact Hi. reflexivity.
Qed.
(* no clipping *)
Lemma at_balance k i : (i < n)%nat -> flows G d8 i = true ->
  V (at_ (S k)) i = V (at_ k) i + r i * da c i * dt c + dt c * inflow G d8 (Q (at_ k)) i - Q (at_ k) i * dt c.
Proof.
  intros Hi E. rewrite at_V, E by exact Hi. unfold Wave_Order.step. apply Rmax_left. pose proof (ok_dt G c Hok) as Hdt.
  destruct (at_nonneg k i Hi) as [HV HQ]. pose proof (q_of_lip G c Hok 0 _ i Hi (conj (Rle_refl 0) HV) (at_slow k i Hi E)) as L.
  rewrite q_of_0, <- at_q in L by assumption. pose proof (Hr i Hi).
  assert (0 <= inflow G d8 (Q (at_ k)) i).
  { apply rsumn_nonneg. intros j Hj. destruct (flows_to G d8 j i); [apply at_nonneg; exact Hj|lra]. }
  assert (0 <= r i * da c i * dt c) by (apply Rmult_le_pos; lra). assert (0 <= dt c * inflow G d8 (Q (at_ k)) i) by (apply Rmult_le_pos; lra). lra.
Qed.

(* and tends to the equilibrium *)
Lemma V_cv i : (i < n)%nat -> { l | Un_cv (fun k => V (at_ k) i) l }.
Proof.
  intros Hi. apply growing_cv.
  - intros k. apply (at_rises k i Hi).
  - exists (vs i). intros x [k ->]. apply (at_below k i Hi).
Qed.
Lemma V_lim i l : (i < n)%nat -> Un_cv (fun k => V (at_ k) i) l -> (forall k, V (at_ k) i <= l) /\ 0 <= l <= vs i.
Proof.
  intros Hi C. assert (M : forall k, V (at_ k) i <= l) by (apply growing_ineq; [intros k; apply (at_rises k i Hi)|exact C]).
  split; [exact M|]. split; [apply Rle_trans with (2 := M 0%nat); apply at_nonneg; exact Hi|].
  destruct (Rle_dec l (vs i)) as [|N]; [assumption|exfalso]. destruct (C (l - vs i) ltac:(lra)) as [K HK']. specialize (HK' K (Nat.le_refl _)).
  unfold R_dist in HK'. destruct (at_below K i Hi) as [B _]. rewrite Rabs_minus_sym in HK'. pose proof (Rle_abs (l - V (at_ K) i)). lra.
Qed.
Lemma Q_cv i l : (i < n)%nat -> flows G d8 i = true -> Un_cv (fun k => V (at_ k) i) l -> Un_cv (fun k => Q (at_ k) i) (q_of l i).
Proof.
  intros Hi E C. destruct (V_lim i l Hi C) as [M [L1 L2]]. pose proof (ok_dt G c Hok) as Hdt.
  assert (B : forall m, 0 <= q_of l i - Q (at_ m) i <= (l - V (at_ m) i) / dt c).
  { intros m. rewrite at_q by assumption. destruct (at_nonneg m i Hi) as [HV _].
    pose proof (q_of_mono G c Hok _ l i Hi (conj HV (M m))). pose proof (q_of_lip G c Hok _ l i Hi (conj HV (M m)) (slow_vs l i Hi E (conj L1 L2))) as L.
    split; [lra|]. apply (Rmult_le_reg_l (dt c)); [exact Hdt|]. replace (dt c * ((l - V (at_ m) i) / dt c)) with (l - V (at_ m) i) by (field; lra). exact L. }
  intros e He. destruct (C (e * dt c) ltac:(nra)) as [N HN]. exists N. intros m Hm. specialize (HN m Hm). specialize (B m).
  unfold R_dist in *. rewrite Rabs_minus_sym in HN |- *. rewrite Rabs_pos_eq by lra. apply Rle_lt_trans with ((l - V (at_ m) i) / dt c); [lra|].
  apply (Rmult_lt_reg_r (dt c)); [exact Hdt|]. replace ((l - V (at_ m) i) / dt c * dt c) with (l - V (at_ m) i) by (field; lra).
  apply Rle_lt_trans with (Rabs (l - V (at_ m) i)); [apply Rle_abs|exact HN].
Qed.
Lemma limit_discharge i : (i < n)%nat -> flows G d8 i = true -> Un_cv (fun k => Q (at_ k) i) (supply i).
Proof.
  intros Hi E.
  set (lim := fun j => match lt_dec j n with left H => proj1_sig (V_cv j H) | right _ => 0 end).
  assert (CL : forall j, (j < n)%nat -> Un_cv (fun k => V (at_ k) j) (lim j)).
  { intros j Hj. unfold lim. destruct (lt_dec j n) as [H|]; [|lia]. exact (proj2_sig (V_cv j H)). }
  set (ql := fun j => q_of (lim j) j).
  assert (CQ : forall j, (j < n)%nat -> flows G d8 j = true -> Un_cv (fun k => Q (at_ k) j) (ql j)) by (intros j Hj Ej; apply Q_cv; auto).
  assert (BAL : forall j, (j < n)%nat -> flows G d8 j = true -> ql j = r j * da c j + inflow G d8 ql j).
  { intros j Hj Ej. pose proof (CQ j Hj Ej) as C1. pose proof (CL j Hj) as C2.
    assert (C3 : Un_cv (fun k => inflow G d8 (Q (at_ k)) j) (inflow G d8 ql j)).
    { apply (Un_cv_rsuml (fun k j' => if flows_to G d8 j' j then Q (at_ k) j' else 0)). intros a Ha. apply in_seq in Ha.
      destruct (flows_to G d8 a j) eqn:Fa; [|apply Un_cv_const]. apply CQ; [lia|]. unfold flows_to in Fa. unfold flows. destruct (next G d8 a); [reflexivity|discriminate]. }
    pose proof (Un_cv_shift _ _ C2) as C4.
    assert (C5 : Un_cv (fun k => V (at_ (S k)) j) (lim j + r j * da c j * dt c + dt c * inflow G d8 ql j - ql j * dt c)).
    { eapply Un_cv_ext; [intros k; symmetry; apply at_balance; assumption|].
      apply CV_minus; [apply CV_plus; [apply CV_plus; [exact C2|apply Un_cv_const]|]|].
      - apply (CV_mult (fun _ => dt c)); [apply Un_cv_const|exact C3].
      - apply CV_mult; [exact C1|apply Un_cv_const]. }
    pose proof (UL_sequence _ _ _ C4 C5) as EQ. pose proof (ok_dt G c Hok) as Hdt. apply (Rmult_eq_reg_l (dt c)); lra. }
  assert (EQ : ql i = supply i).
  { apply (upstream_solve G HG d8 Hac ql (fun j => r j * da c j) BAL i _ Hi E). apply upstream_is; assumption. }
  rewrite <- EQ. apply CQ; assumption.
Qed.
Lemma at_d k i : (i < n)%nat -> flows G d8 i = true -> get 0 (w_d (at_ k)) i = depth_of c (V (at_ k) i) i.
Proof.
  intros Hi E. destruct k as [|k].
  - rewrite dry_V by exact Hi. unfold at_, run, dry, initialize. cbn [repeat fold_left w_d]. rewrite get_tab by exact Hi.
    destruct (depth_ok G c Hok 0 i Hi (Rle_refl 0)) as [D A]. unfold chan_part in A. rewrite HF in A.
    pose proof (ok_ds G c Hok i Hi). pose proof (ok_width G c Hok i Hi). pose proof (tan_nonneg _ (ok_angle G c Hok i Hi)).
    apply Rmult_integral in A. destruct A as [A|A]; [|lra]. unfold ChanR_Model.A_wet in A. apply Rmult_integral in A. destruct A as [A|A]; [lra|]. nra.
  - rewrite at_S, upd_d, upd_vol, E by assumption. reflexivity.
Qed.
Lemma rise i k : (i < n)%nat -> flows G d8 i = true ->
  get 0 (w_d (at_ k)) i <= get 0 (w_d (at_ (S k))) i <= h i /\ Q (at_ k) i <= Q (at_ (S k)) i <= supply i.
Proof.
  intros Hi E. destruct (at_rises k i Hi) as (A1 & A2 & _). destruct (at_below (S k) i Hi) as (B1 & B2 & _). unfold qs in B2. rewrite E in B2.
  split; [|lra]. rewrite !at_d by assumption. split; [apply (depth_mono G c Hok); [exact Hi|split; [apply at_nonneg; exact Hi|exact A1]]|].
  rewrite <- (depth_vs i Hi E). apply (depth_mono G c Hok); [exact Hi|]. split; [apply at_nonneg; exact Hi|exact B1].
Qed.
End Grid.
