From Coq Require Import ZArith QArith Qminmax List Bool Lia Lqa ZifyBool.
From Verif Require Import Base D8_Spec D8_Proofs D8_Walk Chan_Model Chan_Spec Chan_Proofs Erode_Model Erode_Spec.
From Verif Require D8_Model.
Import ListNotations.
Local Open Scope Q_scope.

(* ------------------------------------------------------------ minima and maxima *)

Lemma fold_min_le l : forall x, fold_left Qmin l x <= x /\ forall y, In y l -> fold_left Qmin l x <= y.
Proof.
  induction l as [|a l IH]; intros x; cbn [fold_left].
  - split; [lra|intros y []].
  - destruct (IH (Qmin x a)) as [H1 H2]. pose proof (Q.le_min_l x a). pose proof (Q.le_min_r x a). split; [lra|].
    intros y [<-|Hy]; [lra|apply H2; exact Hy].
Qed.
Lemma fold_min_in l : forall x, fold_left Qmin l x == x \/ exists y, In y l /\ fold_left Qmin l x == y.
Proof.
  induction l as [|a l IH]; intros x; cbn [fold_left]; [left; reflexivity|].
  destruct (IH (Qmin x a)) as [H|(y & Hy & H)].
  - destruct (Q.min_dec x a) as [E|E]; pose proof (Qeq_trans _ _ _ H E) as H'.
    + left. exact H'.
    + right. exists a. split; [left; reflexivity|exact H'].
  - right. exists y. split; [right; exact Hy|exact H].
Qed.
Lemma lmin_le l m : lmin l = Some m -> forall y, In y l -> m <= y.
Proof.
  destruct l as [|a l]; [discriminate|]. cbn [lmin]. intros E. injection E as <-. intros y [<-|Hy]; [apply (proj1 (fold_min_le l a))|].
  apply (proj2 (fold_min_le l a)). exact Hy.
Qed.
Lemma lmin_in l m : lmin l = Some m -> exists y, In y l /\ m == y.
Proof.
  destruct l as [|a l]; [discriminate|]. cbn [lmin]. intros E. injection E as <-.
  destruct (fold_min_in l a) as [H|(y & Hy & H)]; [exists a|exists y]; (split; [|exact H]); [left; reflexivity|right; exact Hy].
Qed.
Lemma fold_max_ge l : forall x, x <= fold_left Qmax l x /\ forall y, In y l -> y <= fold_left Qmax l x.
Proof.
  induction l as [|a l IH]; intros x; cbn [fold_left].
  - split; [lra|intros y []].
  - destruct (IH (Qmax x a)) as [H1 H2]. pose proof (Q.le_max_l x a). pose proof (Q.le_max_r x a). split; [lra|].
    intros y [<-|Hy]; [lra|apply H2; exact Hy].
Qed.
Lemma fold_max_in l : forall x, fold_left Qmax l x == x \/ exists y, In y l /\ fold_left Qmax l x == y.
Proof.
  induction l as [|a l IH]; intros x; cbn [fold_left]; [left; reflexivity|].
  destruct (IH (Qmax x a)) as [H|(y & Hy & H)].
  - destruct (Q.max_dec x a) as [E|E]; pose proof (Qeq_trans _ _ _ H E) as H'.
    + left. exact H'.
    + right. exists a. split; [left; reflexivity|exact H'].
  - right. exists y. split; [right; exact Hy|exact H].
Qed.
Lemma lmax_ge l m : lmax l = Some m -> forall y, In y l -> y <= m.
Proof.
  destruct l as [|a l]; [discriminate|]. cbn [lmax]. intros E. injection E as <-. intros y [<-|Hy]; [apply (proj1 (fold_max_ge l a))|].
  apply (proj2 (fold_max_ge l a)). exact Hy.
Qed.
Lemma lmax_in l m : lmax l = Some m -> exists y, In y l /\ m == y.
Proof.
  destruct l as [|a l]; [discriminate|]. cbn [lmax]. intros E. injection E as <-.
  destruct (fold_max_in l a) as [H|(y & Hy & H)]; [exists a|exists y]; (split; [|exact H]); [left; reflexivity|right; exact Hy].
Qed.
Lemma in_tab {A} m (f : nat -> A) x : In x (tab m f) <-> exists i, (i < m)%nat /\ x = f i.
Proof.
  unfold tab. rewrite in_map_iff. split.
  - intros (i & E & Hi). apply in_seq in Hi. exists i. split; [lia|congruence].
  - intros (i & Hi & E). exists i. split; [congruence|]. apply in_seq. lia.
Qed.

(* ------------------------------------------------------------ strictly downhill *)

Lemma elev_some z i : D8_Model.elev (map Some z) i = if (i <? List.length z)%nat then Some (get 0 z i) else None.
Proof.
  unfold D8_Model.elev, get. destruct (Nat.ltb_spec i (List.length z)) as [H|H].
  - rewrite (nth_indep _ None (Some 0)) by (rewrite map_length; exact H). apply map_nth.
  - apply nth_overflow. rewrite map_length. exact H.
Qed.

Lemma strictly_down G O dem d i j : geom_ok G -> D8_Model.LINK_FLATS O = false ->
  D8_Model.update_flow_grid G O dem = Some d -> (i < D8_Model.ncells G)%nat -> next G d i = Some j ->
  exists zi zj, D8_Model.elev dem i = Some zi /\ D8_Model.elev dem j = Some zj /\ zj < zi.
Proof.
  intros HG HL Hu Hi Hn. unfold D8_Model.update_flow_grid in Hu. rewrite HL in Hu. cbn [option_map] in Hu. injection Hu as <-.
  pose proof (Inv_start G O dem) as HI. cbv zeta in HI.
  apply next_spec in Hn. destruct Hn as (k & Hk & Ek & ->).
  rewrite get_final in Ek.
  set (d0 := if D8_Model.BREAK_TIES O then _ else _) in *.
  rewrite final_code_spec in Ek. destruct (is_gk (get 0%Z d0 i)) eqn:Eg.
  2:{ pose proof (g_range k Hk). lia. }
  destruct (inv_pos _ _ _ _ _ _ HI i k Hi Hk Ek) as (m & Hs & [Hm|(_ & _ & _ & Hbad)]); [|lia].
  destruct (steep_slope G dem i k m HG Hk Hs) as (zi & zj & Ei & Ej & Em).
  exists zi, zj. split; [exact Ei|]. split; [exact Ej|]. pose proof (dist_pos G HG k Hk) as Hd.
  pose proof (Qmult_lt_0_compat _ _ Hm Hd). lra.
Qed.

(* ------------------------------------------------------------ one step *)

Section Step.
Variable G : D8_Model.geom.
Hypothesis HG : geom_ok G.
Variable O : D8_Model.opts.
Notation n := (D8_Model.ncells G).
Variable da : nat -> Q.
Variable ds : list Z -> nat -> Q.
Variable law : list Z -> nat -> Q -> Q.
Variable U : nat -> Q.
Variables (BLR CFL : Q).
Variable base : list nat.
Variable b : bc.
Notation step := (step G O da ds law U BLR CFL base b).
Notation pid d := (D8_Model.update_parent_ID_grid G O d).

Lemma at_base_in i : at_base base i = true <-> In i base.
Proof.
  unfold at_base. rewrite existsb_exists. split.
  - intros (x & Hx & E). apply Nat.eqb_eq in E. congruence.
  - intros H. exists i. split; [exact H|apply Nat.eqb_refl].
Qed.

Lemma n_pos : (0 < n)%nat.
Proof. unfold D8_Model.ncells. destruct HG as (H1 & H2 & _). nia. Qed.

Lemma closed_codes z d : D8_Model.update_flow_grid G O z = Some d ->
  forall i, (i < n)%nat -> closed_side G O i -> get 0%Z d i = 0%Z.
Proof.
  intros E. destruct (flow_grid_codes G HG O z) as (d2 & E2 & _ & _ & H & _). assert (d2 = d) as <- by congruence. exact H.
Qed.

(* the parent's ID is the next cell, or 0 *)
Lemma pid_some d i j : (forall i, (i < n)%nat -> closed_side G O i -> get 0%Z d i = 0%Z) -> (i < n)%nat ->
  next G d i = Some j -> get 0%Z (pid d) i = Z.of_nat j.
Proof. intros Hc Hi Hn. destruct (parent_grid G HG O d Hc) as (_ & H & _). apply (proj1 (H i Hi)). exact Hn. Qed.
Lemma pid_none d i : (forall i, (i < n)%nat -> closed_side G O i -> get 0%Z d i = 0%Z) -> (i < n)%nat ->
  get 0%Z d i = 0%Z -> get 0%Z (pid d) i = 0%Z.
Proof. intros Hc Hi Hn. destruct (parent_grid G HG O d Hc) as (_ & H & _). apply (proj2 (H i Hi)). exact Hn. Qed.

Lemma edge_length z : List.length z = n -> List.length (edge_values G b z) = n.
Proof. intros H. unfold edge_values. destruct b; try exact H; apply tab_length. Qed.

(* the parts of a successful step *)
Record parts (o : outcome) : Prop := {
  p_d8 : D8_Model.update_flow_grid G O (map Some (o_z0 o)) = Some (o_d8 o);
  p_Qs : forall i, (i < n)%nat -> get 0 (o_Qs o) i =
           law (o_d8 o) i (if Z.eqb (get 0%Z (o_d8 o) i) 0 then 0 else del_z (pid (o_d8 o)) (o_z0 o) i / ds (o_d8 o) i);
  p_S : forall i, (i < n)%nat ->
           0 <= (if Z.eqb (get 0%Z (o_d8 o) i) 0 then 0 else del_z (pid (o_d8 o)) (o_z0 o) i / ds (o_d8 o) i);
  p_rate : o_rate o = dz_dt_grid G da U BLR base (o_d8 o) (pid (o_d8 o)) (o_Qs o);
  p_dt : dt_min G da CFL (pid (o_d8 o)) (o_z0 o) (o_Qs o) = Some (o_dt o);
  p_z : o_z o = tab n (fun i => get 0 (o_z0 o) i + get 0 (o_rate o) i * o_dt o);
  p_max : lmax (tab n (fun i => get 0 (o_rate o) i * o_dt o)) = Some (o_dzmax o)
}.

Lemma step_parts z o : step z = Some o -> parts o /\ o_z0 o = edge_values G b z.
Proof.
  unfold Erode_Model.step. set (z0 := edge_values G b z). destruct (D8_Model.update_flow_grid G O (map Some z0)) as [d|] eqn:Ed; [|discriminate].
  destruct (slope_grid G ds d (pid d) z0) as [s|] eqn:Es; [|discriminate].
  destruct (dt_min _ _ _ _ _ _) as [dt|] eqn:Et; [|discriminate].
  destruct (lmax _) as [m|] eqn:Em; [|discriminate]. intros E. injection E as <-. split; [|reflexivity].
  unfold slope_grid in Es. destruct (existsb _ _) eqn:Ex; [discriminate|]. injection Es as <-.
  constructor; cbn [o_z0 o_d8 o_Qs o_rate o_dt o_z o_dzmax].
  - exact Ed.
  - intros i Hi. unfold Qs_grid. rewrite !get_tab by exact Hi. reflexivity.
  - intros i Hi. apply Qltb_ge. destruct (Qltb _ 0) eqn:El; [|reflexivity]. exfalso. apply Bool.not_true_iff_false in Ex. apply Ex.
    apply existsb_exists. eexists. split; [apply in_tab; exists i; split; [exact Hi|reflexivity]|exact El].
  - reflexivity.
  - exact Et.
  - apply tab_ext. intros i Hi. rewrite get_tab by exact Hi. reflexivity.
  - exact Em.
Qed.

Lemma rate_at d Qs i : (forall i, (i < n)%nat -> closed_side G O i -> get 0%Z d i = 0%Z) -> (i < n)%nat ->
  (forall j, In j base -> (j < n)%nat) ->
  let r := dz_dt_grid G da U BLR base d (pid d) Qs in
  (In i base -> get 0 r i = - BLR) /\
  (~ In i base -> get 0 r i == U i - get 0 Qs i / da i + received G d da Qs i).
Proof.
  intros Hc Hi Hb r. unfold r, dz_dt_grid.
  set (fl := tab n (fun i => get 0 Qs i / da i)).
  set (r0 := tab n (fun i => get 0 (tab n (fun i => - get 0 fl i)) i + U i)).
  assert (Hr0 : List.length r0 = n) by apply tab_length.
  destruct (route_inflow_spec G HG d O Hc 1 fl r0 Hr0) as [H1 H2].
  split; intros Hin.
  - apply fancy_set_in; [|exact Hin]. intros p Hp. rewrite H1. apply Hb. exact Hp.
  - rewrite fancy_set_out by exact Hin. rewrite H2 by exact Hi. unfold r0. rewrite !get_tab by exact Hi.
    unfold fl at 1. rewrite get_tab by exact Hi.
    assert (inflow G d fl i == received G d da Qs i) as ->.
    { unfold inflow, received. apply qsum_ext. intros j Hj. unfold flows_to. destruct (next G d j) as [i'|]; [|reflexivity].
      destruct (Nat.eqb i' i); [|reflexivity]. unfold fl. rewrite get_tab by exact Hj. reflexivity. }
    ring.
Qed.

Lemma dt_facts p z Qs dt : dt_min G da CFL p z Qs = Some dt ->
  0 < dt /\ (forall i, (i < n)%nat -> dt <= dt_at da CFL p z Qs i) /\
  (exists i, (i < n)%nat /\ dt == dt_at da CFL p z Qs i).
Proof.
  unfold dt_min. destruct (lmin _) as [m|] eqn:E; [|discriminate]. destruct (Qle_bool m 0) eqn:El; [discriminate|].
  intros K. injection K as <-. repeat split.
  - apply Qnot_le_lt. intros H. apply Qle_bool_iff in H. congruence.
  - intros i Hi. apply (lmin_le _ _ E). apply in_tab. exists i. auto.
  - destruct (lmin_in _ _ E) as (y & Hy & Hm). apply in_tab in Hy. destruct Hy as (i & Hi & ->). exists i. auto.
Qed.

Hypothesis Hda : forall i, (i < n)%nat -> 0 < da i.

(* the time step keeps each cell from losing more than CFL/2 of its drop *)
Lemma dt_cell p z Qs dt i : dt_min G da CFL p z Qs = Some dt -> (i < n)%nat ->
  get 0%Z p i <> 0%Z -> 0 <= del_z p z i ->
  0 < get 0 Qs i /\ dt * (get 0 Qs i / da i) <= CFL * del_z p z i / 2.
Proof.
  intros Hdt Hi Hp Hz. destruct (dt_facts _ _ _ _ Hdt) as (H0 & H1 & _). specialize (H1 i Hi). unfold dt_at in H1.
  destruct (Z.eqb_spec (get 0%Z p i) 0) as [E|E]; [congruence|].
  destruct (Qltb (del_z p z i) 0) eqn:E1; [apply Qltb_lt in E1; lra|].
  destruct (Qltb 0 (get 0 Qs i)) eqn:E2; [|lra]. apply Qltb_lt in E2. split; [exact E2|].
  specialize (Hda i Hi).
  apply Qle_trans with (CFL * (da i / 2 * del_z p z i / get 0 Qs i) * (get 0 Qs i / da i)).
  - apply Qmult_le_compat_r; [exact H1|]. apply Qle_shift_div_l; lra.
  - apply Qle_lteq. right. field. split; lra.
Qed.

Lemma no_exit_conv p z Qs : (forall i, (i < n)%nat -> get 0%Z p i <> 0%Z -> 0 < get 0 Qs i /\ 0 < del_z p z i) -> 0 < CFL ->
  exists dt, dt_min G da CFL p z Qs = Some dt.
Proof.
  intros H HC. unfold dt_min. destruct (lmin (tab n (dt_at da CFL p z Qs))) as [m|] eqn:E.
  - destruct (Qle_bool m 0) eqn:El; [|exists m; reflexivity]. exfalso. apply Qle_bool_iff in El.
    destruct (lmin_in _ _ E) as (y & Hy & Hm). apply in_tab in Hy. destruct Hy as (i & Hi & ->). unfold dt_at in Hm.
    destruct (Z.eqb_spec (get 0%Z p i) 0) as [E0|E0]; [unfold dt_limit in Hm; lra|].
    destruct (H i Hi E0) as [H1 H2]. destruct (Qltb (del_z p z i) 0) eqn:E1; [apply Qltb_lt in E1; lra|].
    destruct (Qltb 0 (get 0 Qs i)) eqn:E2; [|apply Qltb_ge in E2; lra].
    specialize (Hda i Hi).
    assert (0 < CFL * (da i / 2 * del_z p z i / get 0 Qs i)).
    { apply Qmult_lt_0_compat; [exact HC|]. apply Qlt_shift_div_l; [exact H1|].
      assert (0 < da i / 2) by (apply Qlt_shift_div_l; lra).
      pose proof (Qmult_lt_0_compat _ _ H0 H2). lra. }
    lra.
  - destruct n as [|k] eqn:En; [pose proof n_pos; lia|]. discriminate.
Qed.

Lemma Qs_nonneg o i : (forall d k s, 0 <= s -> 0 <= law d k s) -> parts o -> (i < n)%nat -> 0 <= get 0 (o_Qs o) i.
Proof. intros Hl P Hi. rewrite (p_Qs o P i Hi). apply Hl. apply (p_S o P i Hi). Qed.

(* ---- flow cells of an outcome *)
Lemma flow_down o i j : D8_Model.LINK_FLATS O = false -> parts o -> List.length (o_z0 o) = n -> (i < n)%nat ->
  next G (o_d8 o) i = Some j ->
  (j < n)%nat /\ get 0%Z (o_d8 o) i <> 0%Z /\ get 0%Z (pid (o_d8 o)) i = Z.of_nat j /\
  del_z (pid (o_d8 o)) (o_z0 o) i = get 0 (o_z0 o) i - get 0 (o_z0 o) j /\ get 0 (o_z0 o) j < get 0 (o_z0 o) i.
Proof.
  intros HL P Hlen Hi Hn. pose proof (next_lt G HG (o_d8 o) i j Hn) as Hj.
  pose proof (pid_some (o_d8 o) i j (closed_codes _ _ (p_d8 o P)) Hi Hn) as Hp.
  destruct (strictly_down G O _ _ i j HG HL (p_d8 o P) Hi Hn) as (zi & zj & E1 & E2 & Hlt).
  rewrite elev_some, Hlen in E1, E2. apply Nat.ltb_lt in Hi, Hj. rewrite Hi in E1. rewrite Hj in E2.
  apply Nat.ltb_lt in Hi, Hj. injection E1 as <-. injection E2 as <-.
  split; [exact Hj|]. split.
  - intros E. apply next_spec in Hn. destruct Hn as (k & Hk & Ek & _). pose proof (g_range k Hk). lia.
  - split; [exact Hp|]. split; [|exact Hlt]. unfold del_z. rewrite Hp, Nat2Z.id. reflexivity.
Qed.
End Step.
