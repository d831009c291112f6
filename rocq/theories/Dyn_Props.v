(* C87: momentum in the dynamic wave component; recharge of the attenuating groundwater component. *)
From Coq Require Import Reals List Bool Arith Lra Lia.
From Verif Require Import Dyn_Model.
Import ListNotations.
Local Open Scope R_scope.

(* ---------- specification ---------- *)
(* what flows into a cell from its neighbours *)
Definition inflow (N : net) (C : chan) (i : nat) : R := csum (n N) (child N i) (Q C).
Definition momentum_inflow (N : net) (C : chan) (i : nat) : R := csum (n N) (child N i) (fun j => u C j * Q C j).
(* change of the depth in a time step: volume change over the area of the water surface *)
Definition deepening (N : net) (C : chan) (i : nat) : R := dt C * (inflow N C i - Q C i + Rn C i * da C) / Atop C i.
Definition wet (C : chan) (i : nat) : Prop := 0 < d C i /\ 0 < wtop C i /\ 0 < Pw C i /\ 0 < ds C i.

Lemma csum_ext m b f g : (forall j, (j < m)%nat -> b j = true -> f j = g j) -> csum m b f = csum m b g.
Proof. induction m as [|m IH]; intro H; [reflexivity|]. cbn [csum]. rewrite IH by (intros; apply H; [lia | assumption]). destruct (b m) eqn:E; [rewrite (H m) by (auto with arith); reflexivity | reflexivity]. Qed.
Lemma csum_scal m b f x : csum m b (fun j => x * f j) = x * csum m b f.
Proof. induction m as [|m IH]; cbn [csum]; [ring|]. rewrite IH. destruct (b m); ring. Qed.
Lemma csum_plus m b f g : csum m b (fun j => f j + g j) = csum m b f + csum m b g.
Proof. induction m as [|m IH]; cbn [csum]; [ring|]. rewrite IH. destruct (b m); ring. Qed.
Lemma csum_nonneg m b f : (forall j, (j < m)%nat -> 0 <= f j) -> 0 <= csum m b f.
Proof. induction m as [|m IH]; intro H; cbn [csum]; [lra|]. pose proof (IH ltac:(intros; apply H; lia)). pose proof (H m ltac:(lia)). destruct (b m); lra. Qed.

(* as it stands the component has no velocities *)
Theorem C87_velocity_refuted N C : update_velocity N C None = NameError.
Proof. reflexivity. Qed.
Print Assumptions C87_velocity_refuted.

(* with 1/d for the missing name: depth times velocity changes by gravity, friction and the momentum that flows in and out *)
Theorem C87_momentum N C v i : wet C i -> v i * d C i = 1 ->
  d C i * u2 N C v i + u C i * deepening N C i = d C i * u C i + dt C * (g C * (S_free C i * d C i) - f C i * u C i ^ 2 + (momentum_inflow N C i - u C i * Q C i) / A2 C i).
Proof.
  intros (D & T & P & L) V. unfold u2, deepening, inflow, momentum_inflow, acc. cbv zeta.
  rewrite (csum_ext _ _ _ (fun j => (dt C / A2 C i * v i) * (u C j * Q C j) + (- (u C i * (Pw C i / wtop C i)) * (dt C / A2 C i * v i)) * Q C j)) by (intros; ring). rewrite csum_plus, !csum_scal.
  set (M := csum _ _ (fun j => u C j * Q C j)). set (I := csum _ _ (Q C)). assert (E : v i = / d C i) by (apply Rmult_eq_reg_r with (d C i); [rewrite V; field; lra | lra]). rewrite E. unfold A2, Atop. field. repeat split; lra.
Qed.
Print Assumptions C87_momentum.
(* uniform steady flow is an equilibrium: one neighbour with the same velocity and discharge, no lateral inflow, gravity balances friction *)
Theorem C87_uniform N C v i j : wet C i -> v i * d C i = 1 -> (forall k, (k < n N)%nat -> child N i k = Nat.eqb k j) -> (j < n N)%nat -> u C j = u C i -> Q C j = Q C i -> Rn C i = 0 -> g C * (S_free C i * d C i) = f C i * u C i ^ 2 -> u2 N C v i = u C i.
Proof.
  intros W V H J EU EQ ER EG. assert (S1 : forall h, csum (n N) (child N i) h = h j).
  { intro h. assert (X : forall m, (m <= n N)%nat -> csum m (child N i) h = if (j <? m)%nat then h j else 0).
    { induction m as [|m IH]; intro LM; [reflexivity|]. cbn [csum]. rewrite IH by lia. rewrite (H m) by lia. destruct (Nat.eqb_spec m j) as [->|NE]; [rewrite Nat.ltb_irrefl; replace (j <? S j)%nat with true by (symmetry; apply Nat.ltb_lt; lia); ring|]. destruct (Nat.ltb_spec j m), (Nat.ltb_spec j (S m)); try lia; ring. }
    rewrite X by lia. replace (j <? n N)%nat with true by (symmetry; apply Nat.ltb_lt; exact J). reflexivity. }
  pose proof (C87_momentum N C v i W V) as M. unfold deepening, inflow, momentum_inflow in M. rewrite !S1, EU, EQ, ER, EG in M. destruct W as (D & T & P & L). unfold Rdiv in M. rewrite !Rmult_0_l, Rplus_0_r, !Rminus_diag_eq, !Rmult_0_r, !Rmult_0_l in M by reflexivity. rewrite !Rplus_0_r, Rmult_0_r, Rplus_0_r in M. apply Rmult_eq_reg_l with (d C i); lra.
Qed.
Print Assumptions C87_uniform.
(* water at rest with a level surface stays at rest, a slope sets it in motion *)
Theorem C87_rest N C v i : wet C i -> v i * d C i = 1 -> u C i = 0 -> (forall j, (j < n N)%nat -> child N i j = true -> u C j = 0) -> u2 N C v i = dt C * g C * S_free C i.
Proof.
  intros W V U H. pose proof (C87_momentum N C v i W V) as M. destruct W as (D & T & P & L). assert (M0 : momentum_inflow N C i = 0).
  { unfold momentum_inflow. rewrite (csum_ext _ _ _ (fun j => 0 * 0)) by (intros j J B; rewrite (H j J B); ring). rewrite csum_scal. ring. }
  rewrite M0, U in M. apply Rmult_eq_reg_l with (d C i); [|lra]. unfold Rdiv in M. ring_simplify in M. rewrite M. ring.
Qed.
Print Assumptions C87_rest.
Theorem C87_not_negative N C v w : update_velocity N C v = Velocity w -> forall i, 0 <= w i /\ (0 <= u2 N C (match v with Some x => x | None => fun _ => 0 end) i -> w i = u2 N C (match v with Some x => x | None => fun _ => 0 end) i).
Proof.
  destruct v as [v|]; [|discriminate]. intro E. injection E as <-. intro i. split; [apply Rmax_r | intro H; apply Rmax_left, H].
Qed.
Print Assumptions C87_not_negative.
(* the momentum of two merging streams: the new velocity grows with the velocity of every inflow *)
Theorem C87_inflow_drags N C v i : wet C i -> v i * d C i = 1 -> u C i = 0 -> 0 < dt C -> 0 <= g C * S_free C i -> (forall j, (j < n N)%nat -> 0 <= u C j * Q C j) -> dt C * g C * S_free C i <= u2 N C v i.
Proof.
  intros W V U T G H. pose proof (C87_momentum N C v i W V) as M. destruct W as (D & TP & P & L). assert (M0 : 0 <= momentum_inflow N C i) by (apply csum_nonneg; exact H). rewrite U in M. assert (AP : 0 < A2 C i) by (unfold A2; apply Rmult_lt_0_compat; assumption). apply Rmult_le_reg_l with (d C i); [exact D|]. assert (X : 0 <= momentum_inflow N C i / A2 C i) by (apply Rmult_le_pos; [exact M0 | left; apply Rinv_0_lt_compat, AP]).
  replace (momentum_inflow N C i - 0 * Q C i) with (momentum_inflow N C i) in M by ring. nra.
Qed.
Print Assumptions C87_inflow_drags.
(* a wide rectangular channel 2 m deep, two cells in a row *)
Definition net2 : net := mkNet 2 (fun j => Nat.eqb j 0) (fun _ => 1%nat).
Definition ch2 : chan := mkChan 10 1 100 (fun _ => 5) (fun _ => 0) (fun _ => 10) (fun _ => 1 / 5) (fun _ => 2) (fun _ => 3) (fun _ => 30) (fun _ => 9 / 100) (fun _ => 0).
Example C87_uniform_case : wet ch2 1 /\ u2 net2 ch2 (fun _ => 1 / 2) 1 = 3.
Proof.
  assert (W : wet ch2 1). { unfold wet, wtop, Pw, ch2. cbn. rewrite tan_0, cos_0. repeat split; lra. }
  split; [exact W|]. apply (C87_uniform net2 ch2 _ 1 0 W); try reflexivity.
  - cbn. lra.
  - intros k K. cbn in K. destruct k as [|[|k]]; [reflexivity | reflexivity | lia].
  - cbn. lia.
  - cbn. lra.
Qed.

(* ---------- groundwater ---------- *)
(* the recharge from the infiltration component has no effect, the rain goes straight to the water table *)
Theorem C87_recharge_refuted N dt da P_rain Rg Rg' Q_gw i : attenuate_dzw N dt da P_rain Rg Q_gw i = attenuate_dzw N dt da P_rain Rg' Q_gw i.
Proof. reflexivity. Qed.
Print Assumptions C87_recharge_refuted.
Definition all : nat -> bool := fun _ => true.
Lemma csum_swap m k b f : csum m all (fun i => csum k (b i) f) = csum k all (fun j => csum m (fun i => b i j) (fun _ => f j)).
Proof.
  induction m as [|m IH]; cbn [csum all].
  - induction k as [|k IHk]; cbn [csum all]; [reflexivity|]. rewrite <- IHk. ring.
  - rewrite IH. clear IH. induction k as [|k IHk]; cbn [csum all]; [ring|]. rewrite <- IHk. ring.
Qed.
Lemma csum_one m p x : csum m (fun i => Nat.eqb p i) (fun _ => x) = if (p <? m)%nat then x else 0.
Proof.
  induction m as [|m IH]; [reflexivity|]. cbn [csum]. rewrite IH. destruct (Nat.eqb_spec p m) as [->|NE]; [rewrite Nat.ltb_irrefl; replace (m <? S m)%nat with true by (symmetry; apply Nat.ltb_lt; lia); ring|]. destruct (Nat.ltb_spec p m), (Nat.ltb_spec p (S m)); try lia; ring.
Qed.
(* what the cells gain is the rain minus the groundwater that leaves from cells without a flow direction *)
Theorem C87_groundwater N dt da P_rain Rg Q_gw : 0 < da -> (forall j, (j < n N)%nat -> flows N j = true -> (pid N j < n N)%nat) ->
  csum (n N) all (fun i => attenuate_dzw N dt da P_rain Rg Q_gw i * da) = dt * (csum (n N) all (fun i => P_rain i * da) - csum (n N) (fun j => negb (flows N j)) Q_gw).
Proof.
  intros D H. rewrite (csum_ext _ _ _ (fun i => (dt * (P_rain i * da) + (- dt) * Q_gw i) + csum (n N) (child N i) (fun j => dt * Q_gw j))) by (intros; unfold attenuate_dzw; cbv zeta; field; lra).
  rewrite csum_plus, csum_plus, !csum_scal, csum_swap. unfold child.
  rewrite (csum_ext (n N) all (fun j => csum (n N) (fun i => flows N j && Nat.eqb (pid N j) i) (fun _ => dt * Q_gw j)) (fun j => dt * (if flows N j then Q_gw j else 0))).
  - rewrite csum_scal. assert (X : forall m, csum m all Q_gw = csum m all (fun j => if flows N j then Q_gw j else 0) + csum m (fun j => negb (flows N j)) Q_gw) by (induction m as [|m IH]; cbn [csum all]; [ring|]; rewrite IH; destruct (flows N m); cbn [negb]; ring). rewrite X. ring.
  - intros j J _. destruct (flows N j) eqn:F; cbn [andb].
    + rewrite csum_one. replace (pid N j <? n N)%nat with true by (symmetry; apply Nat.ltb_lt, H; assumption). reflexivity.
    + assert (Z : forall m, csum m (fun _ => false) (fun _ => dt * Q_gw j) = 0) by (induction m as [|m IH]; cbn [csum]; lra). rewrite Z. ring.
Qed.
Print Assumptions C87_groundwater.
(* the cross section is a trapezoid: the water surface is wider than the bed by the run of the two banks (depth times tangent of the
   bank angle), and the wetted perimeter is the bed and the two slant banks *)
Theorem C87_cross_section C i : 0 <= d C i -> 0 < cos (angle C i) -> let run := (wtop C i - width C i) / 2 in let bank := (Pw C i - width C i) / 2 in
  run * cos (angle C i) = d C i * sin (angle C i) /\ 0 <= bank /\ bank ^ 2 = d C i ^ 2 + run ^ 2.
Proof.
  intros D K run bank. unfold run, bank, wtop, Pw, tan. set (c := cos (angle C i)) in *. set (s := sin (angle C i)).
  assert (SC : s * s + c * c = 1) by (pose proof (sin2_cos2 (angle C i)) as X; unfold Rsqr in X; exact X). clearbody c s.
  split; [field; lra|]. split.
  - replace ((width C i + 2 * d C i / c - width C i) / 2) with (d C i * / c) by (field; lra). apply Rmult_le_pos; [exact D|]. left. now apply Rinv_0_lt_compat.
  - replace ((width C i + 2 * d C i / c - width C i) / 2) with (d C i * / c) by (field; lra).
    replace ((width C i + 2 * d C i * (s / c) - width C i) / 2) with (d C i * s * / c) by (field; lra).
    replace (d C i ^ 2 + (d C i * s * / c) ^ 2) with (d C i ^ 2 * (s * s + c * c) * (/ c) ^ 2) by (field; lra). rewrite SC. ring.
Qed.
Print Assumptions C87_cross_section.
