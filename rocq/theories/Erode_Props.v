(* C76: one update of the landscape-evolution component, and a run of it. *)
From Coq Require Import ZArith QArith Qminmax List Bool Lia Lqa ZifyBool.
From Verif Require Import Base D8_Spec D8_Proofs D8_Walk Chan_Model Erode_Model Erode_Spec Erode_Proofs.
From Verif Require D8_Model.
Import ListNotations.
Local Open Scope Q_scope.

(* The claims about a step share these names: grid G, D8 options O, pixel areas da, distances ds, transport
   law, uplift U, base-level rate BLR, CFL factor, base-level cells, boundary condition b. *)

(* Each step: a base-level cell drops by BLR*dt; any other cell rises by dt times its uplift, minus what it
   sends out, plus what its upstream neighbours send in. *)
Theorem C76_cell_changes : forall G O da ds law U BLR CFL base b z o i,
  geom_ok G -> (forall j, In j base -> (j < D8_Model.ncells G)%nat) ->
  step G O da ds law U BLR CFL base b z = Some o -> (i < D8_Model.ncells G)%nat ->
  0 < o_dt o /\
  (In i base -> get 0 (o_z o) i == get 0 (o_z0 o) i - BLR * o_dt o) /\
  (~ In i base -> get 0 (o_z o) i ==
     get 0 (o_z0 o) i + o_dt o * (U i - get 0 (o_Qs o) i / da i + received G (o_d8 o) da (o_Qs o) i)).
Proof.
  intros G O da ds law U BLR CFL base b z o i HG Hb H Hi. destruct (step_parts _ _ _ _ _ _ _ _ _ _ _ _ H) as [P _].
  split; [apply (dt_facts _ _ _ _ _ _ _ (p_dt _ _ _ _ _ _ _ _ _ _ P))|].
  destruct (rate_at G HG O da U BLR base (o_d8 o) (o_Qs o) i (closed_codes G HG O _ _ (p_d8 _ _ _ _ _ _ _ _ _ _ P)) Hi Hb) as [R1 R2].
  rewrite <- (p_rate _ _ _ _ _ _ _ _ _ _ P) in R1, R2.
  rewrite (p_z _ _ _ _ _ _ _ _ _ _ P), get_tab by exact Hi. split; intros K.
  - rewrite (R1 K). ring.
  - rewrite (R2 K). ring.
Qed.
Print Assumptions C76_cell_changes.

(* With one pixel area for all cells, the volume of the land (all cells but those at base level) changes by
   uplift, minus the sediment that reaches base level, plus what base-level cells send back. *)
Theorem C76_sediment_balance : forall G O a ds law U BLR CFL base b z o,
  geom_ok G -> (forall j, In j base -> (j < D8_Model.ncells G)%nat) ->
  0 < a -> (forall d i, law d i 0 == 0) ->
  step G O (fun _ => a) ds law U BLR CFL base b z = Some o ->
  land G base (fun i => a * (get 0 (o_z o) i - get 0 (o_z0 o) i)) ==
  o_dt o * (land G base (fun i => a * U i) - to_base G (o_d8 o) base (o_Qs o) + from_base G (o_d8 o) base (o_Qs o)).
Proof.
  intros G O a ds law U BLR CFL base b z o HG Hb Ha Hl H.
  destruct (step_parts _ _ _ _ _ _ _ _ _ _ _ _ H) as [P _].
  set (n := D8_Model.ncells G). set (dt := o_dt o). set (Qs := o_Qs o). set (d := o_d8 o).
  assert (E1 : land G base (fun i => a * (get 0 (o_z o) i - get 0 (o_z0 o) i)) ==
     qsum n (fun i => if at_base base i then 0 else dt * (a * U i) - dt * get 0 Qs i + dt * (a * received G d (fun _ => a) Qs i))).
  { unfold land. apply qsum_ext. intros i Hi. destruct (at_base base i) eqn:B; [reflexivity|].
    destruct (C76_cell_changes _ _ _ _ _ _ _ _ _ _ _ _ i HG Hb H Hi) as (_ & _ & K).
    rewrite K; [fold dt Qs d; field; lra|]. intros I. apply at_base_in in I. congruence. }
  rewrite E1. clear E1.
  transitivity (dt * land G base (fun i => a * U i) - dt * land G base (fun i => get 0 Qs i)
                + dt * land G base (fun i => a * received G d (fun _ => a) Qs i)).
  { unfold land. rewrite <- !qsum_scale, <- qsum_minus, <- qsum_plus. apply qsum_ext. intros i Hi.
    destruct (at_base base i); ring. }
  assert (E2 : land G base (fun i => a * received G d (fun _ => a) Qs i) ==
     qsum n (fun j => match next G d j with Some i => if at_base base i then 0 else get 0 Qs j | None => 0 end)).
  { unfold land, received. fold n.
    transitivity (qsum n (fun i => qsum n (fun j => match next G d j with
        | Some i' => if Nat.eqb i' i then (if at_base base i then 0 else get 0 Qs j) else 0 | None => 0 end))).
    { apply qsum_ext. intros i Hi. destruct (at_base base i).
      - symmetry. apply qsum_zero. intros j Hj. destruct (next G d j) as [i'|]; [|reflexivity]. destruct (Nat.eqb i' i); reflexivity.
      - rewrite <- qsum_scale. apply qsum_ext. intros j Hj. destruct (next G d j) as [i'|]; [|ring].
        destruct (Nat.eqb i' i); [field; lra|ring]. }
    rewrite qsum_swap. apply qsum_ext. intros j Hj. destruct (next G d j) as [i'|] eqn:En.
    - rewrite (qsum_single n _ i'); [rewrite Nat.eqb_refl; reflexivity|eapply next_lt; eassumption|].
      intros i Hi Ne. assert (Nat.eqb i' i = false) as -> by (apply Nat.eqb_neq; congruence). reflexivity.
    - apply qsum_zero. reflexivity. }
  rewrite E2. clear E2.
  assert (E3 : land G base (fun i => get 0 Qs i) ==
     qsum n (fun j => match next G d j with Some i => if at_base base j then 0 else get 0 Qs j | None => 0 end)).
  { unfold land. apply qsum_ext. intros j Hj. destruct (at_base base j); [destruct (next G d j); reflexivity|].
    destruct (next G d j) as [i|] eqn:En; [reflexivity|].
    unfold Qs. rewrite (p_Qs _ _ _ _ _ _ _ _ _ _ P j Hj). fold d.
    destruct (Z.eqb_spec (get 0%Z d j) 0) as [E|E]; [apply Hl|]. exfalso.
    destruct (flow_grid_codes G HG O (map Some (o_z0 o))) as (d' & Ed & _ & K & _).
    assert (d' = d) as -> by (unfold d; rewrite (p_d8 _ _ _ _ _ _ _ _ _ _ P) in Ed; congruence).
    destruct (K j Hj E) as (j' & _ & _ & N & _). congruence. }
  rewrite E3. clear E3.
  assert (E4 : qsum n (fun j => match next G d j with Some i => if at_base base i then 0 else get 0 Qs j | None => 0 end) -
               qsum n (fun j => match next G d j with Some i => if at_base base j then 0 else get 0 Qs j | None => 0 end) ==
               from_base G d base Qs - to_base G d base Qs).
  { unfold from_base, to_base. rewrite <- !qsum_minus. apply qsum_ext. intros j Hj. destruct (next G d j) as [i|]; [|ring].
    destruct (at_base base i), (at_base base j); cbn [negb andb]; ring. }
  fold dt d Qs. transitivity (dt * land G base (fun i => a * U i) + dt * (from_base G d base Qs - to_base G d base Qs)).
  - rewrite <- E4. ring.
  - ring.
Qed.
Print Assumptions C76_sediment_balance.

(* ------------------------------------------------------------------ the time step *)

(* With flats left alone (as the component sets), every cell flows strictly downhill, and a positive transport
   law makes every step succeed: no exit on a negative slope, no time step of zero. *)
Theorem C76_step_succeeds : forall G O da ds law U BLR CFL base b z,
  geom_ok G -> D8_Model.LINK_FLATS O = false -> List.length z = D8_Model.ncells G ->
  (forall i, (i < D8_Model.ncells G)%nat -> 0 < da i) ->
  (forall d i, (i < D8_Model.ncells G)%nat -> 0 < ds d i) ->
  (forall d i s, 0 < s -> 0 < law d i s) -> 0 < CFL ->
  exists o, step G O da ds law U BLR CFL base b z = Some o /\ 0 < o_dt o /\
    forall i j, (i < D8_Model.ncells G)%nat -> next G (o_d8 o) i = Some j ->
      get 0 (o_z0 o) j < get 0 (o_z0 o) i /\ 0 < get 0 (o_Qs o) i.
Proof.
  intros G O da ds law U BLR CFL base b z HG HL Hlen Hda Hds Hlaw HC.
  set (n := D8_Model.ncells G) in *. set (z0 := edge_values G b z).
  assert (Hz0 : List.length z0 = n) by (apply edge_length; exact Hlen).
  destruct (flow_grid_codes G HG O (map Some z0)) as (d & Ed & Hcg & Hnx & Hcl & _ & _).
  set (pid := D8_Model.update_parent_ID_grid G O d).
  assert (Hflow : forall i, (i < n)%nat -> get 0%Z d i <> 0%Z ->
     exists j, next G d i = Some j /\ get 0%Z pid i = Z.of_nat j /\ 0 < del_z pid z0 i).
  { intros i Hi Hd. destruct (Hnx i Hi Hd) as (j & _ & _ & Hn & Hj & _). exists j. split; [exact Hn|].
    pose proof (pid_some G HG O d i j Hcl Hi Hn) as Hp. split; [exact Hp|].
    destruct (strictly_down G O _ _ i j HG HL Ed Hi Hn) as (zi & zj & E1 & E2 & Hlt).
    rewrite elev_some, Hz0 in E1, E2. fold n in Hj. apply Nat.ltb_lt in Hi, Hj. rewrite Hi in E1. rewrite Hj in E2.
    injection E1 as <-. injection E2 as <-. unfold del_z. fold pid in Hp. rewrite Hp, Nat2Z.id. lra. }
  set (s := tab n (fun i => if Z.eqb (get 0%Z d i) 0 then 0 else del_z pid z0 i / ds d i)).
  assert (Hs : forall i, (i < n)%nat -> (get 0%Z d i = 0%Z -> get 0 s i = 0) /\ (get 0%Z d i <> 0%Z -> 0 < get 0 s i)).
  { intros i Hi. unfold s. rewrite get_tab by exact Hi. split; intros K; destruct (Z.eqb_spec (get 0%Z d i) 0); try congruence.
    destruct (Hflow i Hi K) as (j & _ & _ & Hdz). apply Qlt_shift_div_l; [apply Hds; exact Hi|lra]. }
  assert (Es : slope_grid G ds d pid z0 = Some s).
  { unfold slope_grid. fold n. fold s. destruct (existsb (fun x => Qltb x 0) s) eqn:E; [|reflexivity]. exfalso.
    apply existsb_exists in E. destruct E as (x & Hx & Hneg). apply Qltb_lt in Hneg. unfold s in Hx. apply in_tab in Hx.
    destruct Hx as (i & Hi & ->). destruct (Hs i Hi) as [S1 S2]. unfold s in S1, S2. rewrite get_tab in S1, S2 by exact Hi.
    destruct (Z.eq_dec (get 0%Z d i) 0) as [K|K]; [rewrite S1 in Hneg by exact K; lra|specialize (S2 K); lra]. }
  set (Qs := Qs_grid G law d s).
  assert (HQs : forall i, (i < n)%nat -> get 0%Z d i <> 0%Z -> 0 < get 0 Qs i).
  { intros i Hi K. unfold Qs, Qs_grid. rewrite get_tab by exact Hi. apply Hlaw. apply (Hs i Hi). exact K. }
  destruct (no_exit_conv G HG da CFL Hda pid z0 Qs) as (dt & Edt); [|exact HC|].
  { intros i Hi Hp. destruct (Z.eq_dec (get 0%Z d i) 0) as [K|K].
    - exfalso. apply Hp. apply (pid_none G HG O d i Hcl Hi K).
    - split; [apply HQs; assumption|]. destruct (Hflow i Hi K) as (j & _ & _ & Hdz). exact Hdz. }
  set (r := dz_dt_grid G da U BLR base d pid Qs).
  assert (Em : exists m, lmax (tab n (fun i => get 0 r i * dt)) = Some m).
  { pose proof (n_pos G HG) as Hn. fold n in Hn. destruct n as [|k]; [lia|]. cbn. eauto. }
  destruct Em as (m & Em).
  eexists. split.
  { unfold step. fold z0. rewrite Ed. fold pid. rewrite Es. fold Qs. rewrite Edt. fold r. fold n. rewrite Em. reflexivity. }
  cbn [o_dt o_d8 o_z0 o_Qs]. split; [apply (dt_facts _ _ _ _ _ _ _ Edt)|].
  intros i j Hi Hn. assert (K : get 0%Z d i <> 0%Z).
  { intros E. apply next_spec in Hn. destruct Hn as (k & Hk & Ek & _). pose proof (g_range k Hk). lia. }
  split; [|apply HQs; assumption]. destruct (Hflow i Hi K) as (j' & Hn' & Hp & Hdz). assert (j' = j) by congruence. subst j'.
  unfold del_z in Hdz. rewrite Hp, Nat2Z.id in Hdz. lra.
Qed.
Print Assumptions C76_step_succeeds.

(* Conversely a single cell that flows (to a cell other than cell 0) without discharge - no rain, say -
   makes the time step zero: the program exits. *)
Theorem C76_no_discharge_exits : forall G O da ds law U BLR CFL base b z d i j,
  geom_ok G -> D8_Model.LINK_FLATS O = false -> List.length z = D8_Model.ncells G ->
  D8_Model.update_flow_grid G O (map Some (edge_values G b z)) = Some d ->
  (i < D8_Model.ncells G)%nat -> next G d i = Some j -> j <> 0%nat -> (forall s, law d i s == 0) ->
  step G O da ds law U BLR CFL base b z = None.
Proof.
  intros G O da ds law U BLR CFL base b z d i j HG HL Hlen Ed Hi Hn Hj Hlaw.
  destruct (step G O da ds law U BLR CFL base b z) as [o|] eqn:H; [exfalso|reflexivity].
  destruct (step_parts _ _ _ _ _ _ _ _ _ _ _ _ H) as [P Ez].
  assert (Eo : o_d8 o = d).
  { pose proof (p_d8 _ _ _ _ _ _ _ _ _ _ P) as E. rewrite Ez in E. congruence. }
  rewrite <- Eo in Hn, Hlaw.
  destruct (flow_down G HG O da ds law U BLR CFL base o i j HL P) as (Hjn & Hd & Hp & Hdz & Hlt);
    [rewrite Ez; apply edge_length; exact Hlen|exact Hi|exact Hn|].
  destruct (dt_facts _ _ _ _ _ _ _ (p_dt _ _ _ _ _ _ _ _ _ _ P)) as (H0 & H1 & _). specialize (H1 i Hi). unfold dt_at in H1.
  destruct (Z.eqb_spec (get 0%Z (D8_Model.update_parent_ID_grid G O (o_d8 o)) i) 0) as [E|E]; [rewrite Hp in E; lia|].
  destruct (Qltb (del_z _ (o_z0 o) i) 0) eqn:E1; [apply Qltb_lt in E1; rewrite Hdz in E1; lra|].
  destruct (Qltb 0 (get 0 (o_Qs o) i)) eqn:E2; [|lra]. apply Qltb_lt in E2.
  rewrite (p_Qs _ _ _ _ _ _ _ _ _ _ P i Hi) in E2. rewrite Hlaw in E2. lra.
Qed.
Print Assumptions C76_no_discharge_exits.

(* In one step a cell whose parent is not cell 0 sends out at most CFL/2 of its drop to the parent; with
   nonnegative uplift and CFL <= 2 it stays above where its parent was. *)
Theorem C76_step_bounded : forall G O da ds law U BLR CFL base b z o i j,
  geom_ok G -> D8_Model.LINK_FLATS O = false -> List.length z = D8_Model.ncells G ->
  (forall k, (k < D8_Model.ncells G)%nat -> 0 < da k) ->
  (forall k, In k base -> (k < D8_Model.ncells G)%nat) ->
  (forall d k s, 0 <= s -> 0 <= law d k s) ->
  step G O da ds law U BLR CFL base b z = Some o ->
  (i < D8_Model.ncells G)%nat -> next G (o_d8 o) i = Some j -> j <> 0%nat ->
  let drop := get 0 (o_z0 o) i - get 0 (o_z0 o) j in
  0 < drop /\ o_dt o * (get 0 (o_Qs o) i / da i) <= CFL * drop / 2 /\
  (~ In i base -> 0 <= U i -> CFL <= 2 -> get 0 (o_z0 o) j <= get 0 (o_z o) i).
Proof.
  intros G O da ds law U BLR CFL base b z o i j HG HL Hlen Hda Hb Hlaw H Hi Hn Hj drop.
  destruct (step_parts _ _ _ _ _ _ _ _ _ _ _ _ H) as [P Ez].
  destruct (flow_down G HG O da ds law U BLR CFL base o i j HL P) as (Hjn & Hd & Hp & Hdz & Hlt);
    [rewrite Ez; apply edge_length; exact Hlen|exact Hi|exact Hn|].
  fold drop in Hdz. assert (Hdrop : 0 < drop) by (unfold drop; lra). split; [exact Hdrop|].
  destruct (dt_cell G da CFL Hda _ _ _ _ i (p_dt _ _ _ _ _ _ _ _ _ _ P) Hi) as [_ K]; [rewrite Hp; lia|rewrite Hdz; lra|].
  rewrite Hdz in K. split; [exact K|]. intros Nb HU HC.
  destruct (C76_cell_changes _ _ _ _ _ _ _ _ _ _ _ _ i HG Hb H Hi) as (Hdt & _ & Kz). rewrite (Kz Nb).
  assert (0 <= received G (o_d8 o) da (o_Qs o) i).
  { unfold received. apply qsum_nonneg. intros k Hk. destruct (next G (o_d8 o) k) as [i'|]; [|lra].
    destruct (Nat.eqb i' i); [|lra]. apply Qle_shift_div_l; [apply Hda; exact Hk|].
    setoid_replace (0 * da k) with 0 by ring. apply (Qs_nonneg _ _ _ _ _ _ _ _ _ _ _ Hlaw P Hk). }
  assert (0 <= o_dt o * (U i + received G (o_d8 o) da (o_Qs o) i)) by (apply Qmult_le_0_compat; lra).
  assert (CFL * drop / 2 <= drop).
  { apply Qle_shift_div_r; [lra|]. rewrite Qmult_comm. apply Qmult_le_l; assumption. }
  unfold drop in *. lra.
Qed.
Print Assumptions C76_step_bounded.

(* What the step is meant to prevent: "no D8 kid pixel can contribute enough sediment to its D8 parent to make its
   parent have a higher elevation than it does".  It holds for a parent (not cell 0) with that one kid only. *)
Theorem C76_one_donor_stays_higher : forall G O a ds law U BLR CFL base b z o i j,
  geom_ok G -> D8_Model.LINK_FLATS O = false -> List.length z = D8_Model.ncells G ->
  0 < a -> (forall k, In k base -> (k < D8_Model.ncells G)%nat) ->
  (forall d k s, 0 <= s -> 0 <= law d k s) -> CFL <= 1 ->
  step G O (fun _ => a) ds law U BLR CFL base b z = Some o ->
  (i < D8_Model.ncells G)%nat -> next G (o_d8 o) i = Some j -> j <> 0%nat ->
  (forall k, (k < D8_Model.ncells G)%nat -> next G (o_d8 o) k = Some j -> k = i) ->
  ~ In i base -> (if at_base base j then - BLR <= U i else U j <= U i) ->
  get 0 (o_z o) j <= get 0 (o_z o) i.
Proof.
  intros G O a ds law U BLR CFL base b z o i j HG HL Hlen Ha Hb Hlaw HC H Hi Hn Hj Hone Nb HU.
  destruct (C76_step_bounded G O (fun _ => a) ds law U BLR CFL base b z o i j HG HL Hlen (fun _ _ => Ha) Hb Hlaw H Hi Hn Hj)
    as (Hdrop & Hq & _).
  destruct (step_parts _ _ _ _ _ _ _ _ _ _ _ _ H) as [P _].
  pose proof (next_lt G HG _ _ _ Hn) as Hjn.
  destruct (C76_cell_changes _ _ _ _ _ _ _ _ _ _ _ _ i HG Hb H Hi) as (Hdt & _ & Ki). specialize (Ki Nb).
  destruct (C76_cell_changes _ _ _ _ _ _ _ _ _ _ _ _ j HG Hb H Hjn) as (_ & Kj1 & Kj2).
  assert (Hpos : forall k, (k < D8_Model.ncells G)%nat -> 0 <= get 0 (o_Qs o) k / a).
  { intros k Hk. apply Qle_shift_div_l; [exact Ha|].
    setoid_replace (0 * a) with 0 by ring. apply (Qs_nonneg _ _ _ _ _ _ _ _ _ _ _ Hlaw P Hk). }
  assert (Hrec : forall k, 0 <= received G (o_d8 o) (fun _ => a) (o_Qs o) k).
  { intros k. unfold received. apply qsum_nonneg. intros k' Hk'. destruct (next G (o_d8 o) k') as [i'|]; [|lra].
    destruct (Nat.eqb i' k); [|lra]. apply Hpos. exact Hk'. }
  assert (Hj1 : received G (o_d8 o) (fun _ => a) (o_Qs o) j == get 0 (o_Qs o) i / a).
  { unfold received. rewrite (qsum_single _ _ i).
    - rewrite Hn, Nat.eqb_refl. reflexivity.
    - exact Hi.
    - intros k Hk Ne. destruct (next G (o_d8 o) k) as [j'|] eqn:E; [|reflexivity].
      destruct (Nat.eqb_spec j' j) as [->|]; [|reflexivity]. exfalso. apply Ne. apply Hone; assumption. }
  pose proof (Hrec i) as Hri. pose proof (Hpos j Hjn) as Hpj. pose proof (Hpos i Hi) as Hpi.
  set (dt := o_dt o) in *. set (qi := get 0 (o_Qs o) i / a) in *. set (drop := get 0 (o_z0 o) i - get 0 (o_z0 o) j) in *.
  assert (Hcd : CFL * drop / 2 <= drop / 2).
  { apply Qle_shift_div_r; [lra|]. setoid_replace (drop / 2 * 2) with (1 * drop) by (field). apply Qmult_le_compat_r; lra. }
  assert (Hri' : 0 <= dt * received G (o_d8 o) (fun _ => a) (o_Qs o) i) by (apply Qmult_le_0_compat; lra).
  assert (Hpj' : 0 <= dt * (get 0 (o_Qs o) j / a)) by (apply Qmult_le_0_compat; lra).
  assert (Hhalf : drop / 2 + drop / 2 == drop) by field.
  assert (Hpi' : 0 <= dt * qi) by (apply Qmult_le_0_compat; lra).
  rewrite Ki. destruct (at_base base j) eqn:B.
  - rewrite (Kj1 (proj1 (at_base_in base j) B)).
    assert (0 <= dt * (U i - - BLR)) by (apply Qmult_le_0_compat; lra). unfold drop in *. lra.
  - rewrite Kj2 by (intros K; apply at_base_in in K; congruence). rewrite Hj1.
    assert (0 <= dt * (U i - U j)) by (apply Qmult_le_0_compat; lra). unfold drop in *. lra.
Qed.
Print Assumptions C76_one_donor_stays_higher.

(* ------------------------------------------------------------------ concrete grids *)

Definition cellsG (nx ny : Z) : D8_Model.geom := D8_Model.mkGeom nx ny 1 1 (7#5).
Lemma cellsG_ok nx ny : (0 < nx)%Z -> (0 < ny)%Z -> geom_ok (cellsG nx ny).
Proof. intros A B. repeat split; assumption || reflexivity. Qed.
Definition demoO : D8_Model.opts := D8_Model.mkOpts true false false false (-9999).
Definition demo_ds (G : D8_Model.geom) (d : list Z) (i : nat) : Q :=
  if Z.eqb (get 0%Z d i) 0 then 1 else step_length G (get 0%Z d i).
(* discharge proportional to slope *)
Definition linear (d : list Z) (i : nat) (s : Q) : Q := s / 10.

Lemma demo_ds_pos G d i : geom_ok G -> 0 < demo_ds G d i.
Proof.
  intros (_ & _ & A & B & C). unfold demo_ds. destruct (Z.eqb _ _); [lra|]. unfold step_length.
  repeat match goal with |- context [match ?x with _ => _ end] => destruct x end; lra.
Qed.

Definition ok_out (o : option outcome) : bool := match o with Some _ => true | None => false end.
Definition the_out (o : option outcome) : outcome :=
  match o with Some x => x | None => mkOut [] [] [] [] 0 [] 0 end.
Lemma the_out_some o : ok_out o = true -> o = Some (the_out o).
Proof. destruct o; [reflexivity|discriminate]. Qed.

(* a 5x4 valley draining to the bottom row *)
Definition valleyG := cellsG 4 5.
Definition valley : list Q := [9;9;9;9; 9;5;8;9; 9;4;6;9; 9;3;5;9; 9;1;9;9].
Definition valley_base : list nat := [16; 17; 18; 19]%nat.
Definition valley_step (CFL : Q) : option outcome :=
  step valleyG demoO (fun _ => 2) (demo_ds valleyG) linear (fun _ => 1#100) (1#50) CFL valley_base FOUR_SIDES valley.

Example C76_demo :
  geom_ok valleyG /\ (forall j, In j valley_base -> (j < D8_Model.ncells valleyG)%nat) /\
  (forall d i, linear d i 0 == 0) /\ (forall d i s, 0 < s -> 0 < linear d i s) /\
  valley_step (1#5) = Some (the_out (valley_step (1#5))) /\
  o_d8 (the_out (valley_step (1#5))) = [0;0;0;0; 0;8;32;0; 0;8;16;0; 0;8;16;0; 0;0;0;0]%Z /\
  next valleyG (o_d8 (the_out (valley_step (1#5)))) 13 = Some 17%nat /\
  to_base valleyG (o_d8 (the_out (valley_step (1#5)))) valley_base (o_Qs (the_out (valley_step (1#5)))) == 17#35.
Proof.
  split; [apply cellsG_ok; reflexivity|]. split; [intros j; cbn; intuition (subst; vm_compute; lia)|].
  split; [intros d i; unfold linear; field|].
  split; [intros d i s H; unfold linear; apply Qlt_shift_div_l; lra|].
  split; [apply the_out_some; vm_compute; reflexivity|]. split; [vm_compute; reflexivity|].
  split; vm_compute; reflexivity.
Qed.

(* Two kids, one much higher: the parent ends above the lower kid, although CFL = 1/5. *)
Definition forkG := cellsG 5 3.
Definition fork : list Q := [200;200;200;200;200; 200;100;1;2;200; 200;200;200;200;200].
Definition fork_step : option outcome :=
  step forkG demoO (fun _ => 1) (demo_ds forkG) linear (fun _ => 0) 0 (1#5) [] NO_BC fork.

Theorem C76_donors_stay_higher_refuted :
  ~ (forall G O a ds law U BLR CFL base b z o i j,
       geom_ok G -> D8_Model.LINK_FLATS O = false -> List.length z = D8_Model.ncells G -> 0 < a ->
       (forall d k s, 0 <= s -> 0 <= law d k s) -> CFL <= 1 # 5 ->
       step G O (fun _ => a) ds law U BLR CFL base b z = Some o ->
       (i < D8_Model.ncells G)%nat -> next G (o_d8 o) i = Some j -> j <> 0%nat ->
       ~ In i base -> ~ In j base -> U j <= U i -> get 0 (o_z o) j <= get 0 (o_z o) i).
Proof.
  intros H. assert (E : fork_step = Some (the_out fork_step)) by (apply the_out_some; vm_compute; reflexivity).
  specialize (H forkG demoO 1 (demo_ds forkG) linear (fun _ => 0) 0 (1#5) [] NO_BC fork (the_out fork_step) 8%nat 7%nat).
  assert (K : get 0 (o_z (the_out fork_step)) 7 <= get 0 (o_z (the_out fork_step)) 8).
  { apply H; [apply cellsG_ok; reflexivity|reflexivity|reflexivity|reflexivity|intros d k s Hs; unfold linear; apply Qle_shift_div_l; lra|lra|exact E|
             vm_compute; lia|vm_compute; reflexivity|lia|intros []|intros []|lra]. }
  vm_compute in K. apply K. reflexivity.
Qed.
Print Assumptions C76_donors_stay_higher_refuted.

(* A cell that flows into cell 0 (the upper left corner) looks like a cell without parent: it does not limit
   the time step and can end far below its parent. *)
Definition cornerG := cellsG 3 3.
Definition corner : list Q := [1;9;9; 9;5;9; 9;9;9].
Definition corner_step : option outcome :=
  step cornerG demoO (fun _ => 1) (demo_ds cornerG) linear (fun _ => 0) 0 (1#5) [] NO_BC corner.
Theorem C76_cell_zero_refuted :
  ~ (forall G O da ds law U BLR CFL base b z o i j,
       geom_ok G -> D8_Model.LINK_FLATS O = false -> List.length z = D8_Model.ncells G ->
       (forall k, (k < D8_Model.ncells G)%nat -> 0 < da k) -> (forall k, In k base -> (k < D8_Model.ncells G)%nat) ->
       (forall d k s, 0 <= s -> 0 <= law d k s) ->
       step G O da ds law U BLR CFL base b z = Some o ->
       (i < D8_Model.ncells G)%nat -> next G (o_d8 o) i = Some j ->
       ~ In i base -> 0 <= U i -> CFL <= 2 -> get 0 (o_z0 o) j <= get 0 (o_z o) i).
Proof.
  intros H. assert (E : corner_step = Some (the_out corner_step)) by (apply the_out_some; vm_compute; reflexivity).
  specialize (H cornerG demoO (fun _ => 1) (demo_ds cornerG) linear (fun _ => 0) 0 (1#5) [] NO_BC corner (the_out corner_step) 4%nat 0%nat).
  assert (K : get 0 (o_z0 (the_out corner_step)) 0 <= get 0 (o_z (the_out corner_step)) 4).
  { apply H; [apply cellsG_ok; reflexivity|reflexivity|reflexivity|intros; reflexivity|intros k []|intros d k s Hs; unfold linear; apply Qle_shift_div_l; lra|exact E|
             vm_compute; lia|vm_compute; reflexivity|intros []|lra|lra]. }
  vm_compute in K. apply K. reflexivity.
Qed.
Print Assumptions C76_cell_zero_refuted.

(* Pixel areas that differ (as on a geographic grid): what leaves a cell is spread over the DONOR's area in the
   receiving cell too, so that sediment is made or lost. *)
Definition varying (i : nat) : Q := if Nat.eqb i 7 then 2 else 1.
Definition spread : option outcome :=
  step forkG demoO varying (demo_ds forkG) linear (fun _ => 0) 0 (1#5) [] NO_BC fork.
Theorem C76_balance_areas_refuted :
  ~ (forall G O da ds law U BLR CFL b z o,
       geom_ok G -> (forall i, (i < D8_Model.ncells G)%nat -> 0 < da i) -> (forall d i, law d i 0 == 0) ->
       (forall i, U i == 0) ->
       step G O da ds law U BLR CFL [] b z = Some o ->
       qsum (D8_Model.ncells G) (fun i => da i * (get 0 (o_z o) i - get 0 (o_z0 o) i)) == 0).
Proof.
  intros H. assert (E : spread = Some (the_out spread)) by (apply the_out_some; vm_compute; reflexivity).
  specialize (H forkG demoO varying (demo_ds forkG) linear (fun _ => 0) 0 (1#5) NO_BC fork (the_out spread)).
  assert (K : qsum (D8_Model.ncells forkG) (fun i => varying i * (get 0 (o_z (the_out spread)) i - get 0 (o_z0 (the_out spread)) i)) == 0).
  { apply H.
    - apply cellsG_ok; reflexivity.
    - intros i _. unfold varying. destruct (Nat.eqb i 7); lra.
    - intros d i. unfold linear. field.
    - reflexivity.
    - exact E. }
  vm_compute in K. discriminate K.
Qed.
Print Assumptions C76_balance_areas_refuted.

(* ------------------------------------------------------------------ flat land *)

Lemma flat_no_codes G O c z d : geom_ok G -> D8_Model.LINK_FLATS O = false -> List.length z = D8_Model.ncells G ->
  (forall i, (i < D8_Model.ncells G)%nat -> get 0 z i == c) ->
  D8_Model.update_flow_grid G O (map Some z) = Some d ->
  forall i, (i < D8_Model.ncells G)%nat -> get 0%Z d i = 0%Z.
Proof.
  intros HG HL Hlen Hc Ed i Hi. destruct (Z.eq_dec (get 0%Z d i) 0) as [E|E]; [exact E|exfalso].
  destruct (flow_grid_codes G HG O (map Some z)) as (d' & Ed' & _ & K & _).
  assert (d' = d) as -> by congruence. destruct (K i Hi E) as (j & _ & _ & Hn & Hj & _).
  destruct (strictly_down G O _ _ i j HG HL Ed Hi Hn) as (zi & zj & E1 & E2 & Hlt).
  rewrite elev_some, Hlen in E1, E2. apply Nat.ltb_lt in Hi, Hj. rewrite Hi in E1. rewrite Hj in E2. apply Nat.ltb_lt in Hi, Hj.
  injection E1 as <-. injection E2 as <-. pose proof (Hc i Hi). pose proof (Hc j Hj). lra.
Qed.

(* Level ground gives a time step of 1e20 years: with an uplift of more than 1e-17 m/yr (or a rise of the base
   level) anywhere, the first update ends the run with status failed. *)
Theorem C76_flat_land_fails : forall G O da ds law U BLR CFL base b z c sc s,
  geom_ok G -> D8_Model.LINK_FLATS O = false -> List.length z = D8_Model.ncells G ->
  (b = FOUR_SIDES \/ b = NO_BC) -> (forall k, In k base -> (k < D8_Model.ncells G)%nat) ->
  (forall d i, law d i 0 == 0) ->
  (forall i, (i < D8_Model.ncells G)%nat -> get 0 z i == c) -> r_z s = z ->
  (exists i, (i < D8_Model.ncells G)%nat /\ ~ In i base /\ 1 # 100000000000000000 < U i) ->
  exists s', update G O da ds law U BLR CFL base b (-1) sc s = Some s' /\
    r_failed s' = true /\ r_DONE s' = true /\ r_dt s' == 100000000000000000000.
Proof.
  intros G O da ds law U BLR CFL base b z c sc s HG HL Hlen Hb Hbase Hl Hc Hs (i0 & Hi0 & Nb & HU).
  set (n := D8_Model.ncells G) in *.
  assert (Ez : edge_values G b z = z) by (destruct Hb as [-> | ->]; reflexivity).
  destruct (flow_grid_codes G HG O (map Some z)) as (d & Ed & _ & _ & Hcl & _ & _).
  pose proof (flat_no_codes G O c z d HG HL Hlen Hc Ed) as H0. fold n in H0.
  set (pid := D8_Model.update_parent_ID_grid G O d).
  assert (Hp : forall i, (i < n)%nat -> get 0%Z pid i = 0%Z) by (intros i Hi; apply (pid_none G HG O d i Hcl Hi); apply H0; exact Hi).
  set (sl := tab n (fun i => if Z.eqb (get 0%Z d i) 0 then 0 else del_z pid z i / ds d i)).
  assert (Hsl : forall i, (i < n)%nat -> get 0 sl i = 0).
  { intros i Hi. unfold sl. rewrite get_tab by exact Hi. rewrite (H0 i Hi). reflexivity. }
  assert (Es : slope_grid G ds d pid z = Some sl).
  { unfold slope_grid. fold n. fold sl. destruct (existsb (fun x => Qltb x 0) sl) eqn:E; [|reflexivity]. exfalso.
    apply existsb_exists in E. destruct E as (x & Hx & Hneg). apply Qltb_lt in Hneg. unfold sl in Hx. apply in_tab in Hx.
    destruct Hx as (i & Hi & ->). rewrite (H0 i Hi) in Hneg. cbn in Hneg. lra. }
  set (Qs := Qs_grid G law d sl).
  assert (HQ : forall i, (i < n)%nat -> get 0 Qs i == 0).
  { intros i Hi. unfold Qs, Qs_grid. rewrite get_tab by exact Hi. rewrite (Hsl i Hi). apply Hl. }
  assert (Hat : forall i, (i < n)%nat -> dt_at da CFL pid z Qs i = dt_limit).
  { intros i Hi. unfold dt_at. rewrite (Hp i Hi). reflexivity. }
  assert (Et : exists dt, dt_min G da CFL pid z Qs = Some dt /\ dt == dt_limit).
  { unfold dt_min. fold n. destruct (lmin (tab n (dt_at da CFL pid z Qs))) as [m|] eqn:E.
    - destruct (lmin_in _ _ E) as (y & Hy & Em). apply in_tab in Hy. destruct Hy as (i & Hi & ->). rewrite (Hat i Hi) in Em.
      assert (Qle_bool m 0 = false) as ->; [|exists m; auto].
      destruct (Qle_bool m 0) eqn:El; [|reflexivity]. apply Qle_bool_iff in El. unfold dt_limit in Em. lra.
    - pose proof (n_pos G HG) as Hn. fold n in Hn. destruct n; [lia|discriminate]. }
  destruct Et as (dt & Et & Edt).
  set (r := dz_dt_grid G da U BLR base d pid Qs).
  assert (Em : exists m, lmax (tab n (fun i => get 0 r i * dt)) = Some m).
  { pose proof (n_pos G HG) as Hn. fold n in Hn. destruct n as [|k]; [lia|]. cbn. eauto. }
  destruct Em as (m & Em).
  assert (Hr : get 0 r i0 == U i0).
  { destruct (rate_at G HG O da U BLR base d Qs i0 Hcl Hi0 Hbase) as [_ R]. fold pid in R. fold r in R. rewrite (R Nb).
    assert (received G d da Qs i0 == 0) as ->.
    { unfold received. apply qsum_zero. intros j Hj. destruct (next G d j) as [i'|]; [|reflexivity].
      destruct (Nat.eqb i' i0); [|reflexivity]. rewrite (HQ j Hj). unfold Qdiv. ring. }
    rewrite (HQ i0 Hi0). unfold Qdiv. ring. }
  assert (Hm : 1000 < m).
  { apply Qlt_le_trans with (get 0 r i0 * dt).
    - rewrite Hr, Edt. unfold dt_limit. lra.
    - apply (lmax_ge _ _ Em). apply in_tab. exists i0. auto. }
  unfold update. rewrite Hs. unfold step. rewrite Ez, Ed. fold pid. rewrite Es. fold Qs. rewrite Et. fold r. fold n. rewrite Em.
  eexists. split; [reflexivity|]. cbn [r_failed r_DONE r_dt o_dzmax o_dt].
  apply Qltb_lt in Hm. rewrite Hm. split; [reflexivity|]. split; [rewrite orb_true_r; reflexivity|]. exact Edt.
Qed.
Print Assumptions C76_flat_land_fails.

Example C76_flat_case :
  let z := repeat (7#1) 12 in
  List.length z = D8_Model.ncells (cellsG 4 3) /\ (forall i, (i < D8_Model.ncells (cellsG 4 3))%nat -> get 0 z i == 7) /\
  (exists i, (i < D8_Model.ncells (cellsG 4 3))%nat /\ ~ In i [0; 1; 2]%nat /\ 1 # 100000000000000000 < (1 # 1000)).
Proof.
  cbv zeta. split; [reflexivity|]. split.
  - intros i Hi. do 12 (destruct i as [|i]; [reflexivity|]). vm_compute in Hi. lia.
  - exists 5%nat. split; [vm_compute; lia|]. split; [cbn; lia|reflexivity].
Qed.

(* ------------------------------------------------------------------ runs *)

(* updates one after another, ignoring DONE, with the time step each of them used *)
Fixpoint updates G O da ds law U BLR CFL base b (sc : stop) (k : nat) (s : rstate) : option (rstate * list Q) :=
  match k with
  | Datatypes.O => Some (s, [])
  | Datatypes.S k' =>
      match update G O da ds law U BLR CFL base b (-1) sc s with
      | None => None
      | Some s1 => match updates G O da ds law U BLR CFL base b sc k' s1 with
                   | None => None
                   | Some (s2, l) => Some (s2, r_dt s1 :: l)
                   end
      end
  end.

(* The clock: after any number of updates it shows the sum of the (positive) time steps by which the land was
   advanced, and time_index the number of updates. *)
Theorem C76_clock : forall G O da ds law U BLR CFL base b sc k s s' l,
  updates G O da ds law U BLR CFL base b sc k s = Some (s', l) ->
  List.length l = k /\ (forall t, In t l -> 0 < t) /\
  r_time s' == r_time s + qsuml (fun t => t) l /\ r_index s' == r_index s + inject_Z (Z.of_nat k).
Proof.
  intros G O da ds law U BLR CFL base b sc k. induction k as [|k IH]; intros s s' l H; cbn [updates] in H.
  - inversion H; subst. split; [reflexivity|]. split; [intros t []|]. rewrite qsuml_nil. cbn. split; ring.
  - destruct (update G O da ds law U BLR CFL base b (-1) sc s) as [s1|] eqn:E; [|discriminate].
    destruct (updates G O da ds law U BLR CFL base b sc k s1) as [[s2 l2]|] eqn:E2; [|discriminate]. inversion H; subst s' l.
    destruct (IH s1 s2 l2 E2) as (L & P & T & I).
    unfold update in E. destruct (step G O da ds law U BLR CFL base b (r_z s)) as [o|] eqn:Eo; [|discriminate].
    destruct (step_parts _ _ _ _ _ _ _ _ _ _ _ _ Eo) as [Pa _].
    pose proof (proj1 (dt_facts _ _ _ _ _ _ _ (p_dt _ _ _ _ _ _ _ _ _ _ Pa))) as Hdt.
    injection E as <-. cbn [r_dt r_time r_index] in *. change (Qeq_bool (-1) (-1)) with true in T. cbv iota in T.
    split; [cbn [List.length]; lia|]. split; [intros t [<-|Ht]; [exact Hdt|apply P; exact Ht]|].
    rewrite qsuml_cons. split; [rewrite T; ring|]. rewrite I, Nat2Z.inj_succ. unfold Z.succ. rewrite inject_Z_plus. ring.
Qed.
Print Assumptions C76_clock.

(* A caller that gives update() a time step moves the clock by it - not the land. *)
Definition plane_state : rstate := mkR valley 1 0 0 0 false false.
Definition told (dt : Q) : option rstate :=
  update valleyG demoO (fun _ => 2) (demo_ds valleyG) linear (fun _ => 1#100) (1#50) (1#5) valley_base FOUR_SIDES dt (N_steps 10) plane_state.
Definition ok_state (o : option rstate) : bool := match o with Some _ => true | None => false end.
Definition the_state (o : option rstate) : rstate := match o with Some x => x | None => plane_state end.
Lemma the_state_some o : ok_state o = true -> o = Some (the_state o).
Proof. destruct o; [reflexivity|discriminate]. Qed.
Theorem C76_given_step_used_refuted :
  ~ (forall G O da ds law U BLR CFL base b dt sc s s', dt <> -1 -> 0 < dt ->
       update G O da ds law U BLR CFL base b dt sc s = Some s' -> r_time s' - r_time s == r_dt s').
Proof.
  intros H. assert (E : told 1 = Some (the_state (told 1))) by (apply the_state_some; vm_compute; reflexivity).
  assert (K : r_time (the_state (told 1)) - r_time plane_state == r_dt (the_state (told 1))).
  { refine (H _ _ _ _ _ _ _ _ _ _ 1 _ _ _ _ _ E); [discriminate|reflexivity]. }
  vm_compute in K. discriminate K.
Qed.
Print Assumptions C76_given_step_used_refuted.

(* The reported uplift volume vol_U is 1000 times (millimetres for metres) the uplift over the time steps
   BEFORE each update: that of the first counts one year, that of the last is left out. *)
Fixpoint but_last (x : Q) (l : list Q) : list Q := match l with [] => [] | y :: t => x :: but_last y t end.
Theorem C76_uplift_total : forall G O da ds law U BLR CFL base b sc k s s' l,
  updates G O da ds law U BLR CFL base b sc k s = Some (s', l) ->
  r_volU s' == r_volU s + 1000 * qsum (D8_Model.ncells G) (fun i => U i * da i) * qsuml (fun t => t) (but_last (r_dt s) l).
Proof.
  intros G O da ds law U BLR CFL base b sc k. induction k as [|k IH]; intros s s' l H; cbn [updates] in H.
  - inversion H; subst. cbn [but_last]. rewrite qsuml_nil. ring.
  - destruct (update G O da ds law U BLR CFL base b (-1) sc s) as [s1|] eqn:E; [|discriminate].
    destruct (updates G O da ds law U BLR CFL base b sc k s1) as [[s2 l2]|] eqn:E2; [|discriminate]. inversion H; subst s' l.
    rewrite (IH s1 s2 l2 E2). cbn [but_last]. rewrite qsuml_cons.
    assert (V1 : r_volU s1 == r_volU s + 1000 * qsum (D8_Model.ncells G) (fun i => U i * da i) * r_dt s).
    { unfold update in E. destruct (step G O da ds law U BLR CFL base b (r_z s)) as [o|]; [|discriminate].
      injection E as <-. cbn [r_volU]. apply Qplus_comp; [reflexivity|].
      transitivity ((1000 * r_dt s) * qsum (D8_Model.ncells G) (fun i => U i * da i)); [|ring].
      rewrite <- qsum_scale. apply qsum_ext. intros i Hi. ring. }
    rewrite V1. ring.
Qed.
Print Assumptions C76_uplift_total.
Theorem C76_uplift_total_refuted :
  ~ (forall G O da ds law U BLR CFL base b sc k s s' l,
       r_volU s == 0 -> updates G O da ds law U BLR CFL base b sc k s = Some (s', l) ->
       r_volU s' == qsum (D8_Model.ncells G) (fun i => U i * da i) * qsuml (fun t => t) l).
Proof.
  intros H.
  assert (E : exists s' l, updates valleyG demoO (fun _ => 2) (demo_ds valleyG) linear (fun _ => 1#100) (1#50) (1#5) valley_base FOUR_SIDES
              (N_steps 10) 1 plane_state = Some (s', l) /\
              ~ r_volU s' == qsum (D8_Model.ncells valleyG) (fun i => (1#100) * 2) * qsuml (fun t => t) l).
  { cbn [updates]. fold (told (-1)).
    assert (E : told (-1) = Some (the_state (told (-1)))) by (apply the_state_some; vm_compute; reflexivity).
    rewrite E. eexists _, _. split; [reflexivity|]. vm_compute. discriminate. }
  destruct E as (s' & l & E & N). apply N. apply (H _ _ _ _ _ _ _ _ _ _ _ _ _ _ _ (reflexivity 0) E).
Qed.
Print Assumptions C76_uplift_total_refuted.

(* A run of k steps that neither exits nor fails does k updates, and never more. *)
Lemma run_n_steps G O da ds law U BLR CFL base b k : forall m fuel s, (0 < m)%nat -> (m <= fuel)%nat ->
  r_DONE s = false -> r_index s == inject_Z (Z.of_nat k) - inject_Z (Z.of_nat m) ->
  forall s' f, run G O da ds law U BLR CFL base b fuel (N_steps (inject_Z (Z.of_nat k))) s = Some (s', f) ->
  f = false /\ r_index s' <= inject_Z (Z.of_nat k) /\ (r_failed s' = false -> r_index s' == inject_Z (Z.of_nat k)).
Proof.
  induction m as [|m IH]; intros fuel s Hm Hf Hd Hx s' f H; [lia|].
  destruct fuel as [|fuel]; [lia|]. cbn [run] in H. rewrite Hd in H.
  destruct (update G O da ds law U BLR CFL base b (-1) (N_steps (inject_Z (Z.of_nat k))) s) as [s1|] eqn:E; [|discriminate].
  unfold update in E. destruct (step G O da ds law U BLR CFL base b (r_z s)) as [o|]; [|discriminate].
  assert (Hi1 : r_index s1 == r_index s + 1) by (injection E as <-; reflexivity).
  assert (Hd1 : r_DONE s1 = r_failed s1 || Qle_bool (inject_Z (Z.of_nat k)) (r_index s1)).
  { injection E as <-. cbn [r_DONE r_failed r_index]. rewrite Hd. reflexivity. }
  assert (Hx1 : r_index s1 == inject_Z (Z.of_nat k) - inject_Z (Z.of_nat m)).
  { rewrite Hi1, Hx, Nat2Z.inj_succ. unfold Z.succ. rewrite inject_Z_plus. ring. }
  assert (Hm0 : 0 <= inject_Z (Z.of_nat m)) by (change 0 with (inject_Z 0); rewrite <- Zle_Qle; lia).
  destruct (r_DONE s1) eqn:D1.
  - assert (Hr : run G O da ds law U BLR CFL base b fuel (N_steps (inject_Z (Z.of_nat k))) s1 = Some (s1, false)) by (destruct fuel; cbn [run]; rewrite D1; reflexivity).
    rewrite Hr in H. inversion H; subst s' f. split; [reflexivity|]. split; [rewrite Hx1; lra|]. intros Hfl.
    rewrite Hfl in Hd1. cbn [orb] in Hd1. symmetry in Hd1. apply Qle_bool_iff in Hd1. lra.
  - symmetry in Hd1. apply orb_false_iff in Hd1. destruct Hd1 as [_ Hle].
    assert (Hm' : (0 < m)%nat).
    { destruct m; [|lia]. exfalso. assert (inject_Z (Z.of_nat k) <= r_index s1) as K by (rewrite Hx1; change (inject_Z (Z.of_nat 0)) with 0; lra).
      apply Qle_bool_iff in K. congruence. }
    apply (IH fuel s1 Hm' ltac:(lia) D1 Hx1 s' f H).
Qed.
Theorem C76_n_steps : forall G O da ds law U BLR CFL base b k fuel s s' f,
  (0 < k)%nat -> (k <= fuel)%nat -> r_DONE s = false -> r_index s == 0 ->
  run G O da ds law U BLR CFL base b fuel (N_steps (inject_Z (Z.of_nat k))) s = Some (s', f) ->
  f = false /\ r_index s' <= inject_Z (Z.of_nat k) /\ (r_failed s' = false -> r_index s' == inject_Z (Z.of_nat k)).
Proof.
  intros G O da ds law U BLR CFL base b k fuel s s' f Hk Hf Hd Hx H.
  apply (run_n_steps G O da ds law U BLR CFL base b k k fuel s Hk Hf Hd); [rewrite Hx; ring|exact H].
Qed.
Print Assumptions C76_n_steps.

(* The run "until steady" and the stability test look at the largest RISE: an update that only lowers cells, by
   however much, counts as steady and as stable. *)
Definition slab : list Q := [20000;20000;20000; 20000;20000;20000; 20000;0;20000].
Definition slab_state : rstate := mkR slab 1 0 0 0 false false.
Definition slab_update : option rstate :=
  update cornerG demoO (fun _ => 1) (demo_ds cornerG) linear (fun _ => 0) 0 1 [0;1;2;3;5;6;7;8]%nat FOUR_SIDES (-1) Until_dz_small slab_state.
Theorem C76_steady_refuted :
  ~ (forall G O da ds law U BLR CFL base b s s' i,
       geom_ok G -> r_DONE s = false ->
       update G O da ds law U BLR CFL base b (-1) Until_dz_small s = Some s' -> r_DONE s' = true -> r_failed s' = false ->
       (i < D8_Model.ncells G)%nat -> get 0 (r_z s) i - 1 <= get 0 (r_z s') i).
Proof.
  intros H. assert (E : slab_update = Some (the_state slab_update)) by (apply the_state_some; vm_compute; reflexivity).
  specialize (H cornerG demoO (fun _ => 1) (demo_ds cornerG) linear (fun _ => 0) 0 1 [0;1;2;3;5;6;7;8]%nat FOUR_SIDES slab_state (the_state slab_update) 4%nat).
  assert (K : get 0 (r_z slab_state) 4 - 1 <= get 0 (r_z (the_state slab_update)) 4).
  { apply H; [apply cellsG_ok; reflexivity|reflexivity|exact E|vm_compute; reflexivity|vm_compute; reflexivity|vm_compute; lia]. }
  vm_compute in K. apply K. reflexivity.
Qed.
Print Assumptions C76_steady_refuted.

(* What the two tests do say: nothing rose by 1e-6 m or more; nothing rose by more than 1000 m. *)
Theorem C76_tests_look_at_rises : forall G O da ds law U BLR CFL base b s s' i,
  (b = FOUR_SIDES \/ b = NO_BC) ->
  update G O da ds law U BLR CFL base b (-1) Until_dz_small s = Some s' -> r_DONE s = false ->
  (i < D8_Model.ncells G)%nat ->
  (r_DONE s' = true -> r_failed s' = false -> get 0 (r_z s') i < get 0 (r_z s) i + (1 # 1000000)) /\
  (r_failed s' = false -> get 0 (r_z s') i <= get 0 (r_z s) i + 1000).
Proof.
  intros G O da ds law U BLR CFL base b s s' i Hb H Hd Hi. unfold update in H.
  destruct (step G O da ds law U BLR CFL base b (r_z s)) as [o|] eqn:Eo; [|discriminate].
  destruct (step_parts _ _ _ _ _ _ _ _ _ _ _ _ Eo) as [P Ez].
  assert (Ez' : o_z0 o = r_z s) by (rewrite Ez; destruct Hb as [-> | ->]; reflexivity).
  injection H as <-. cbn [r_DONE r_failed r_z]. rewrite Hd. cbn [orb].
  assert (Hz : get 0 (o_z o) i <= get 0 (r_z s) i + o_dzmax o).
  { rewrite (p_z _ _ _ _ _ _ _ _ _ _ P), get_tab by exact Hi. rewrite Ez'.
    assert (get 0 (o_rate o) i * o_dt o <= o_dzmax o); [|lra].
    apply (lmax_ge _ _ (p_max _ _ _ _ _ _ _ _ _ _ P)). apply in_tab. exists i. auto. }
  split.
  - intros K F. rewrite F in K. cbn [orb] in K. apply Qltb_lt in K. unfold dz_tolerance in K. lra.
  - intros F. apply Qltb_ge in F. lra.
Qed.
Print Assumptions C76_tests_look_at_rises.

(* ------------------------------------------------------------------ boundary conditions *)

(* FOUR_SIDES: the base-level cells are exactly the perimeter, each once. *)
Theorem C76_four_sides : forall nx ny dem, (2 <= nx)%nat -> (2 <= ny)%nat ->
  exists l, init_bc FOUR_SIDES nx ny dem = Some (Some l, dem) /\ NoDup l /\ forall i, In i l <-> perimeter nx ny i.
Proof.
  intros nx ny dem Hx Hy. eexists. split; [reflexivity|]. 
  assert (Hdiv : forall r c, (c < nx)%nat -> ((r * nx + c) / nx = r)%nat /\ ((r * nx + c) mod nx = c)%nat).
  { intros r c Hc. split; [rewrite Nat.div_add_l by lia; rewrite Nat.div_small by exact Hc; lia|].
    rewrite Nat.add_comm, Nat.mod_add by lia. apply Nat.mod_small. exact Hc. }
  assert (HT : forall i, In i (tab nx (fun c => c)) <-> (i < nx)%nat).
  { intros i. rewrite in_tab. split; [intros (c & Hc & ->); exact Hc|intros H; exists i; auto]. }
  assert (HB : forall i, In i (map (fun c => (c + nx * (ny - 1))%nat) (tab nx (fun c => c))) <-> exists c, (c < nx)%nat /\ i = ((ny - 1) * nx + c)%nat).
  { intros i. rewrite in_map_iff. split.
    - intros (c & E & Hc). apply HT in Hc. exists c. split; [exact Hc|]. rewrite <- E. lia.
    - intros (c & Hc & ->). exists c. split; [lia|]. apply HT. exact Hc. }
  assert (HL : forall i, In i (tab (ny - 2) (fun r => (nx * (r + 1))%nat)) <-> exists r, (1 <= r < ny - 1)%nat /\ i = (r * nx + 0)%nat).
  { intros i. rewrite in_tab. split.
    - intros (r & Hr & ->). exists (r + 1)%nat. split; lia.
    - intros (r & Hr & ->). exists (r - 1)%nat. split; [lia|]. replace (r - 1 + 1)%nat with r by lia. lia. }
  assert (HR : forall i, In i (map (fun i => (i + (nx - 1))%nat) (tab (ny - 2) (fun r => (nx * (r + 1))%nat))) <->
                         exists r, (1 <= r < ny - 1)%nat /\ i = (r * nx + (nx - 1))%nat).
  { intros i. rewrite in_map_iff. split.
    - intros (x & E & Hx'). apply HL in Hx'. destruct Hx' as (r & Hr & ->). exists r. split; [exact Hr|lia].
    - intros (r & Hr & ->). exists (r * nx + 0)%nat. split; [lia|]. apply HL. exists r. auto. }
  assert (NT : NoDup (tab nx (fun c => c))) by (unfold tab; rewrite map_id; apply seq_NoDup).
  assert (NB : NoDup (map (fun c => (c + nx * (ny - 1))%nat) (tab nx (fun c => c)))).
  { apply FinFun.Injective_map_NoDup; [|exact NT]. intros x y E. lia. }
  assert (NL : NoDup (tab (ny - 2) (fun r => (nx * (r + 1))%nat))).
  { unfold tab. apply FinFun.Injective_map_NoDup; [|apply seq_NoDup]. intros x y E. nia. }
  assert (NR : NoDup (map (fun i => (i + (nx - 1))%nat) (tab (ny - 2) (fun r => (nx * (r + 1))%nat)))).
  { apply FinFun.Injective_map_NoDup; [|exact NL]. intros x y E. lia. }
  assert (app_NoDup : forall (a c : list nat), NoDup a -> NoDup c -> (forall x, In x a -> ~ In x c) -> NoDup (a ++ c)).
  { clear. induction a as [|x a IH]; intros c Ha Hc Hd; [exact Hc|]. cbn. apply NoDup_cons_iff in Ha. destruct Ha as [A1 A2].
    constructor; [rewrite in_app_iff; intros [K|K]; [contradiction|apply (Hd x); [left; reflexivity|exact K]]|].
    apply IH; [exact A2|exact Hc|]. intros y Hy. apply Hd. right. exact Hy. }
  assert (nz : (nx <> 0)%nat) by lia.
  split.
  - apply app_NoDup; [exact NT| |].
    { apply app_NoDup; [exact NB| |].
      - apply app_NoDup; [exact NL|exact NR|]. intros x H1 H2. apply HL in H1. apply HR in H2.
        destruct H1 as (r & Hr & E1). destruct H2 as (r' & Hr' & E2). rewrite E1 in E2.
        apply (f_equal (fun q => (q mod nx)%nat)) in E2. rewrite (proj2 (Hdiv r 0%nat ltac:(lia))), (proj2 (Hdiv r' (nx - 1)%nat ltac:(lia))) in E2. lia.
      - intros x H1 H2. apply HB in H1. destruct H1 as (c & Hc & E1). rewrite in_app_iff in H2.
        destruct H2 as [H2|H2]; [apply HL in H2|apply HR in H2]; destruct H2 as (r & Hr & E2); rewrite E1 in E2;
          apply (f_equal (fun q => (q / nx)%nat)) in E2.
        + rewrite (proj1 (Hdiv (ny-1)%nat c Hc)), (proj1 (Hdiv r 0%nat ltac:(lia))) in E2. lia.
        + rewrite (proj1 (Hdiv (ny-1)%nat c Hc)), (proj1 (Hdiv r (nx - 1)%nat ltac:(lia))) in E2. lia. }
    intros x H1 H2. apply HT in H1. rewrite !in_app_iff in H2.
    assert (X0 : (x / nx = 0)%nat) by (apply Nat.div_small; exact H1).
    destruct H2 as [H2|[H2|H2]]; [apply HB in H2|apply HL in H2|apply HR in H2]; destruct H2 as (r & Hr & E2); rewrite E2 in X0.
    + rewrite (proj1 (Hdiv (ny-1)%nat r Hr)) in X0. lia.
    + rewrite (proj1 (Hdiv r 0%nat ltac:(lia))) in X0. lia.
    + rewrite (proj1 (Hdiv r (nx-1)%nat ltac:(lia))) in X0. lia.
  - intros i. rewrite !in_app_iff, HT, HB, HL, HR. unfold perimeter. split.
    + intros [H|[(c & Hc & ->)|[(r & Hr & ->)|(r & Hr & ->)]]].
      * split; [nia|]. left. apply Nat.div_small. exact H.
      * split; [nia|]. right. left. apply Hdiv. exact Hc.
      * split; [nia|]. right. right. left. apply Hdiv. lia.
      * split; [nia|]. right. right. right. apply Hdiv. lia.
    + intros [Hi H]. pose proof (Nat.div_mod i nx nz) as E. pose proof (Nat.mod_upper_bound i nx nz) as Hm.
      assert (Hq : (i / nx < ny)%nat) by (apply Nat.div_lt_upper_bound; [exact nz|lia]).
      set (q := (i / nx)%nat) in *. set (c := (i mod nx)%nat) in *.
      destruct (Nat.eq_dec q 0) as [Q0|Q0]; [left; nia|].
      destruct (Nat.eq_dec q (ny - 1)) as [Q1|Q1]; [right; left; exists c; split; [exact Hm|nia]|].
      destruct H as [H|[H|[H|H]]]; [contradiction|contradiction| |].
      * right. right. left. exists q. split; [lia|]. nia.
      * right. right. right. exists q. split; [lia|]. nia.
Qed.
Print Assumptions C76_four_sides.
Example C76_four_sides_case : init_bc FOUR_SIDES 4 3 [] = Some (Some [0;1;2;3; 8;9;10;11; 4; 7]%nat, []).
Proof. reflexivity. Qed.

(* BOTTOM raises an error unless the grid has at least twice as many rows as columns, RIGHT unless it has one
   row or one column, CORNER always. *)
Theorem C76_other_sides : forall nx ny dem, (1 <= nx)%nat -> (1 <= ny)%nat ->
  (init_bc BOTTOM nx ny dem <> None <-> (2 * nx <= ny)%nat) /\
  (init_bc RIGHT nx ny dem <> None <-> nx = 1%nat \/ ny = 1%nat) /\
  init_bc CORNER nx ny dem = None.
Proof.
  intros nx ny dem Hx Hy. split; [|split; [|reflexivity]].
  - unfold init_bc. destruct (Nat.leb_spec (2 * nx) ny); split; intros K; try lia; try discriminate; congruence.
  - unfold init_bc. destruct (forallb _ _) eqn:F; split; intros K; try discriminate; try congruence.
    + rewrite forallb_forall in F. specialize (F (ny - 1)%nat). rewrite in_seq in F. specialize (F ltac:(lia)).
      apply Nat.ltb_lt in F. destruct (Nat.eq_dec nx 1); [left; assumption|]. right. nia.
    + exfalso. apply Bool.not_true_iff_false in F. apply F. apply forallb_forall. intros r Hr. apply in_seq in Hr.
      apply Nat.ltb_lt. destruct K as [-> | ->]; nia.
Qed.
Print Assumptions C76_other_sides.
Theorem C76_square_grid_refuted : ~ (forall b nx dem, (2 <= nx)%nat -> init_bc b nx nx dem <> None).
Proof. intros H. apply (H BOTTOM 2%nat [] (le_n 2)). reflexivity. Qed.
Print Assumptions C76_square_grid_refuted.

(* And where BOTTOM is accepted it does not copy row 1 to row 0: it overwrites the first nx rows by the next nx. *)
Theorem C76_bottom_overwrites : forall nx ny dem r c, (1 <= nx)%nat -> (2 * nx <= ny)%nat -> (r < ny)%nat -> (c < nx)%nat ->
  exists l z, init_bc BOTTOM nx ny dem = Some (Some l, z) /\ l = tab nx (fun c => (c + nx * (ny - 1))%nat) /\
    get 0 z (r * nx + c) = if (r <? nx)%nat then get 0 dem ((r + nx) * nx + c) else get 0 dem (r * nx + c).
Proof.
  intros nx ny dem r c H1 H2 H3 H4. unfold init_bc. assert ((2 * nx <=? ny)%nat = true) as -> by (apply Nat.leb_le; exact H2).
  eexists _, _. split; [reflexivity|]. split; [reflexivity|]. rewrite get_tab by nia.
  assert (((r * nx + c) / nx = r)%nat) as -> by (rewrite Nat.div_add_l by lia; rewrite Nat.div_small by exact H4; lia).
  destruct (Nat.ltb_spec r nx); [|reflexivity]. f_equal. nia.
Qed.
Print Assumptions C76_bottom_overwrites.

(* Before each step the side opposite the base is set float32(0.01) m above its neighbours; nothing else moves. *)
Theorem C76_edge_values : forall G b z i, geom_ok G -> (2 <= D8_Model.ny G)%Z -> (2 <= D8_Model.nx G)%Z ->
  List.length z = D8_Model.ncells G -> (i < D8_Model.ncells G)%nat ->
  get 0 (edge_values G b z) i =
  match b with
  | BOTTOM => if (D8_Model.row G i =? 0)%Z then get 0 z (D8_Model.flat G 1 (D8_Model.col G i)) + (5368709 # 536870912) else get 0 z i
  | RIGHT => if (D8_Model.col G i =? 0)%Z then get 0 z (D8_Model.flat G (D8_Model.row G i) 1) + (5368709 # 536870912) else get 0 z i
  | _ => get 0 z i
  end.
Proof.
  intros G b z i HG Hy Hx Hlen Hi. unfold edge_values, hundredth32, D8_Model.top_edge, D8_Model.left_edge. pose proof (flat_row_col G HG i) as E.
  destruct b; try reflexivity; rewrite get_tab by exact Hi.
  - destruct (Z.eqb_spec (D8_Model.row G i) 0) as [R|R]; [|reflexivity]. rewrite R in E. unfold D8_Model.flat in *.
    replace (Z.to_nat (1 * D8_Model.nx G + D8_Model.col G i)) with (i + Z.to_nat (D8_Model.nx G))%nat; [reflexivity|].
    pose proof (col_range G HG i). lia.
  - destruct (Z.eqb_spec (D8_Model.col G i) 0) as [R|R]; [|reflexivity]. rewrite R in E. unfold D8_Model.flat in *.
    replace (Z.to_nat (D8_Model.row G i * D8_Model.nx G + 1)) with (i + 1)%nat; [reflexivity|].
    pose proof (row_range G HG i Hi). nia.
Qed.
Print Assumptions C76_edge_values.
(* nonvacuity of the theorems above on the valley: cell 5 is the only cell that flows into cell 9 *)
Example C76_one_donor_case :
  let o := the_out (valley_step (1#5)) in
  next valleyG (o_d8 o) 5 = Some 9%nat /\ ~ In 5%nat valley_base /\
  (forall k, (k < D8_Model.ncells valleyG)%nat -> next valleyG (o_d8 o) k = Some 9%nat -> k = 5%nat) /\
  (forall d k s, 0 <= s -> 0 <= linear d k s) /\ ~ get 0 (o_z o) 9 == get 0 (o_z0 o) 9.
Proof.
  cbv zeta. split; [vm_compute; reflexivity|]. split; [cbn; lia|]. split.
  - set (d := o_d8 _). vm_compute in d. intros k Hk. vm_compute in Hk.
    do 20 (destruct k as [|k]; [vm_compute; intros K; first [reflexivity|discriminate K]|]). lia.
  - split; [intros d k s Hs; unfold linear; apply Qle_shift_div_l; lra|]. vm_compute. discriminate.
Qed.
Example C76_dry_case :
  exists d, D8_Model.update_flow_grid valleyG demoO (map Some (edge_values valleyG FOUR_SIDES valley)) = Some d /\
    next valleyG d 5 = Some 9%nat.
Proof. eexists. split; vm_compute; reflexivity. Qed.
Example C76_run_case :
  match run valleyG demoO (fun _ => 2) (demo_ds valleyG) linear (fun _ => 1#100) (1#50) (1#5) valley_base FOUR_SIDES
          4 (N_steps 2) plane_state with
  | Some (s, f) => f = false /\ r_failed s = false /\ r_index s == 2
  | None => False
  end.
Proof. vm_compute. repeat split; reflexivity. Qed.
