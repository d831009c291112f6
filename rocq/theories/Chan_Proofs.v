From Coq Require Import ZArith QArith Qminmax List Bool Lia Lqa ZifyBool.
From Verif Require Import Base D8_Spec D8_Proofs D8_Walk Chan_Model Chan_Spec.
From Verif Require D8_Model.
Import ListNotations.
Local Open Scope Q_scope.

Lemma fancy_set_length a ps v : length (fancy_set a ps v) = length a.
Proof. unfold fancy_set. revert a. induction ps as [|p ps IH]; intros a; [reflexivity|]. cbn [fold_left]. rewrite IH. apply set_length. Qed.

Lemma fancy_set_in a ps v i : (forall p, In p ps -> (p < length a)%nat) -> In i ps -> get 0 (fancy_set a ps v) i = v.
Proof.
  unfold fancy_set. revert a. induction ps as [|p ps IH]; intros a Hl Hi; [destruct Hi|]. cbn [fold_left].
  destruct (in_dec Nat.eq_dec i ps) as [Hin|Hni].
  - apply IH; [|exact Hin]. intros q Hq. rewrite set_length. apply Hl. right. exact Hq.
  - destruct Hi as [<-|Hi]; [|contradiction].
    assert (H : forall l a, ~ In p l -> get 0 (fold_left (fun acc q => set acc q v) l a) p = get 0 a p).
    { clear. induction l as [|q l IH]; intros a Hn; [reflexivity|]. cbn [fold_left]. rewrite IH by (intros H; apply Hn; right; exact H).
      apply get_set_other. intros ->. apply Hn. left. reflexivity. }
    rewrite H by exact Hni. apply get_set_same. apply Hl. left. reflexivity.
Qed.

Lemma fancy_set_out a ps v i : ~ In i ps -> get 0 (fancy_set a ps v) i = get 0 a i.
Proof.
  unfold fancy_set. revert a. induction ps as [|p ps IH]; intros a Hn; [reflexivity|]. cbn [fold_left].
  rewrite IH by (intros H; apply Hn; right; exact H). apply get_set_other. intros ->. apply Hn. left. reflexivity.
Qed.

(* for distinct indices, the fancy-index addition adds to each listed cell its own value *)
Lemma fancy_add_get a (src : list nat) (p : nat -> nat) (x : nat -> Q) :
  NoDup (map p src) -> (forall j, In j src -> (p j < length a)%nat) ->
  length (fancy_add a (map p src) (map x src)) = length a /\
  forall i, get 0 (fancy_add a (map p src) (map x src)) i ==
            get 0 a i + qsuml (fun j => if Nat.eqb (p j) i then x j else 0) src.
Proof.
  intros Hnd Hl. unfold fancy_add.
  assert (H : forall src acc, NoDup (map p src) -> (forall j, In j src -> (p j < length acc)%nat) ->
     (forall j, In j src -> get 0 acc (p j) = get 0 a (p j)) ->
     let r := fold_left (fun acc px => set acc (fst px) (get 0 a (fst px) + snd px)) (combine (map p src) (map x src)) acc in
     length r = length acc /\ forall i, get 0 r i == get 0 acc i + qsuml (fun j => if Nat.eqb (p j) i then x j else 0) src).
  { clear. induction src as [|j src IH]; intros acc Hnd Hl Hsame.
    - cbv zeta; cbn [map combine fold_left]. split; [reflexivity|]. intros i. rewrite qsuml_nil. ring.
    - cbn [map combine fold_left fst snd]. inversion Hnd as [|? ? Hni Hnd']; subst.
      destruct (IH (set acc (p j) (get 0 a (p j) + x j))) as [H1 H2]; [exact Hnd'| | |].
      { intros k Hk. rewrite set_length. apply Hl. right. exact Hk. }
      { intros k Hk. rewrite get_set_other; [apply Hsame; right; exact Hk|].
        intros E. apply Hni. rewrite E. apply in_map. exact Hk. }
      rewrite set_length in H1. split; [exact H1|]. intros i. rewrite H2, qsuml_cons.
      destruct (Nat.eqb (p j) i) eqn:E.
      + apply Nat.eqb_eq in E. subst i. rewrite get_set_same by (apply Hl; left; reflexivity).
        rewrite (Hsame j) by (left; reflexivity). ring.
      + apply Nat.eqb_neq in E. rewrite get_set_other by congruence. ring. }
  destruct (H src a Hnd Hl (fun _ _ => eq_refl)) as [H1 H2]. split; assumption.
Qed.

Lemma qsuml_if_filter {A} (p : A -> bool) f l : qsuml f (filter p l) == qsuml (fun a => if p a then f a else 0) l.
Proof.
  induction l as [|a l IH]; [reflexivity|]. cbn [filter]. rewrite qsuml_cons.
  destruct (p a); [rewrite qsuml_cons, IH; reflexivity|rewrite IH; ring].
Qed.

Section Grid.
Variable G : D8_Model.geom.
Hypothesis HG : geom_ok G.
Notation n := (D8_Model.ncells G).
Variables (d8 : list Z) (O : D8_Model.opts).
Hypothesis Hclosed : forall i, (i < n)%nat -> closed_side G O i -> get 0%Z d8 i = 0%Z.
Notation pid := (D8_Model.update_parent_ID_grid G O d8).

Lemma pid_next k i : (i < n)%nat -> (k < 8)%nat -> get 0%Z d8 i = D8_Model.g k ->
  Z.to_nat (get 0%Z pid i) = D8_Model.nbr G k i.
Proof.
  intros Hi Hk E. destruct (parent_grid G HG O d8 Hclosed) as (_ & H & _).
  destruct (H i Hi) as [H1 _]. rewrite (H1 (D8_Model.nbr G k i)); [apply Nat2Z.id|].
  apply next_spec. exists k. auto.
Qed.

Lemma flow_to_map k : (k < 8)%nat ->
  D8_Model.flow_to G d8 pid k = map (D8_Model.nbr G k) (D8_Model.flow_from G d8 k).
Proof.
  intros Hk. unfold D8_Model.flow_to. apply map_ext_in. intros i Hi. apply filter_In in Hi. destruct Hi as [Hi E].
  apply in_seq in Hi. apply pid_next; [lia|exact Hk|lia].
Qed.

Lemma flow_to_NoDup k : (k < 8)%nat -> NoDup (map (D8_Model.nbr G k) (D8_Model.flow_from G d8 k)).
Proof.
  intros Hk. assert (Hn : NoDup (D8_Model.flow_from G d8 k)) by (apply NoDup_filter; apply seq_NoDup).
  assert (Hl : forall i, In i (D8_Model.flow_from G d8 k) -> (i < n)%nat).
  { intros i Hi. apply filter_In in Hi. destruct Hi as [Hi _]. apply in_seq in Hi. lia. }
  induction (D8_Model.flow_from G d8 k) as [|a l IH]; [constructor|]. inversion Hn; subst. cbn. constructor.
  - intros Hin. apply in_map_iff in Hin. destruct Hin as (b & E & Hb).
    assert (b = a); [|congruence]. apply (nbr_inj G HG k); auto. apply Hl. right. exact Hb. apply Hl. left. reflexivity.
  - apply IH; [assumption|]. intros i Hi. apply Hl. right. exact Hi.
Qed.

Variable dt : Q.

Lemma route_inflow_spec Qg v : length v = n ->
  length (route_inflow G d8 pid dt Qg v) = n /\
  forall i, (i < n)%nat -> get 0 (route_inflow G d8 pid dt Qg v) i == get 0 v i + dt * inflow G d8 Qg i.
Proof.
  intros Hv. unfold route_inflow.
  assert (H : forall ks v, (forall k, In k ks -> (k < 8)%nat) -> length v = n ->
    let r := fold_left (fun v k => fancy_add v (D8_Model.flow_to G d8 pid k)
                (map (fun i => dt * get 0 Qg i) (D8_Model.flow_from G d8 k))) ks v in
    length r = n /\ forall i, get 0 r i == get 0 v i +
       qsuml (fun k => qsuml (fun j => if Nat.eqb (D8_Model.nbr G k j) i then dt * get 0 Qg j else 0) (D8_Model.flow_from G d8 k)) ks).
  { clear v Hv. induction ks as [|k ks IH]; intros v Hk Hv; cbn [fold_left].
    - split; [exact Hv|]. intros i. rewrite qsuml_nil. ring.
    - assert (Hk0 : (k < 8)%nat) by (apply Hk; left; reflexivity). rewrite flow_to_map by exact Hk0.
      destruct (fancy_add_get v (D8_Model.flow_from G d8 k) (D8_Model.nbr G k) (fun i => dt * get 0 Qg i)) as [H1 H2].
      { apply flow_to_NoDup. exact Hk0. } { intros j _. rewrite Hv. apply nbr_lt. exact HG. }
      destruct (IH (fancy_add v (map (D8_Model.nbr G k) (D8_Model.flow_from G d8 k))
               (map (fun i => dt * get 0 Qg i) (D8_Model.flow_from G d8 k)))) as [H3 H4].
      { intros k' Hk'. apply Hk. right. exact Hk'. } { rewrite H1. exact Hv. }
      split; [exact H3|]. intros i. rewrite H4, H2, qsuml_cons. ring. }
  destruct (H D8_Model.dirs v) as [H1 H2]; [intros k; apply In_dirs|exact Hv|].
  split; [exact H1|]. intros i Hi. rewrite H2. apply Qplus_comp; [reflexivity|].
  unfold inflow. rewrite <- qsum_scale. unfold qsum.
  transitivity (qsuml (fun k => qsuml (fun j => if Z.eqb (get 0%Z d8 j) (D8_Model.g k) then
      (if Nat.eqb (D8_Model.nbr G k j) i then dt * get 0 Qg j else 0) else 0) (seq 0 n)) D8_Model.dirs).
  { apply qsuml_ext. intros k _. unfold D8_Model.flow_from. rewrite qsuml_if_filter. reflexivity. }
  rewrite qsuml_swap. apply qsuml_ext. intros j Hj. apply in_seq in Hj. unfold flows_to.
  destruct (next G d8 j) as [i'|] eqn:En.
  - apply next_spec in En. destruct En as (k0 & Hk0 & E0 & ->).
    rewrite (qsuml_single _ _ k0).
    + rewrite E0, Z.eqb_refl. destruct (Nat.eqb _ i); ring.
    + repeat constructor; cbn; intuition discriminate.
    + apply In_dirs. exact Hk0.
    + intros k Hk Hne. apply In_dirs in Hk. destruct (Z.eqb _ _) eqn:E; [|reflexivity].
      exfalso. apply Hne. apply g_inj; [exact Hk|exact Hk0|]. lia.
  - setoid_replace (dt * 0) with 0 by ring. apply qsuml_zero. intros k Hk. apply In_dirs in Hk. destruct (Z.eqb _ _) eqn:E; [|reflexivity].
    exfalso. assert (next G d8 j = Some (D8_Model.nbr G k j)); [|congruence].
    apply next_spec. exists k. split; [exact Hk|]. split; [lia|reflexivity].
Qed.

(* summed over all cells, inflow is the outflow of the cells that have a parent *)
Lemma total_inflow Qg : qsum n (inflow G d8 Qg) == qsum n (fun j => if has_parent G d8 j then get 0 Qg j else 0).
Proof.
  unfold inflow. rewrite qsum_swap. apply qsum_ext. intros j Hj. unfold flows_to, has_parent.
  destruct (next G d8 j) as [i'|] eqn:E.
  - rewrite (qsum_single n _ i'); [rewrite Nat.eqb_refl; reflexivity|eapply next_lt; eassumption|].
    intros i Hi Hne. assert (Nat.eqb i' i = false) as -> by (apply Nat.eqb_neq; congruence). reflexivity.
  - apply qsum_zero. reflexivity.
Qed.

Variable da : nat -> Q.
Notation lateral := (Chan_Spec.lateral da dt).

Lemma flow_volume_spec att R Qg v st : length v = n -> length st = n ->
  let r := update_flow_volume G d8 pid da dt att R Qg v st in
  length (fst r) = n /\ length (snd r) = n /\
  (forall i, (i < n)%nat -> get 0 (fst r) i == Qmax (unclipped G d8 dt (lateral att R st) Qg v i) 0) /\
  (forall i, (i < n)%nat -> get 0 (snd r) i == get 0 st i + fat R i * da i * dt * (match att with None => 0 | _ => 1 end)
                              - lateral att R st i * (match att with None => 0 | _ => 1 end)).
Proof.
  intros Hv Hst. unfold update_flow_volume.
  set (p := match att with Some nd => _ | None => _ end).
  assert (Hp : length (fst p) = n /\ length (snd p) = n /\
    (forall i, (i < n)%nat -> get 0 (fst p) i == get 0 v i + lateral att R st i) /\
    (forall i, (i < n)%nat -> get 0 (snd p) i == get 0 st i + fat R i * da i * dt * (match att with None => 0 | _ => 1 end)
                              - lateral att R st i * (match att with None => 0 | _ => 1 end))).
  { unfold p, Chan_Spec.lateral. destruct att as [nd|]; cbn [fst snd]; rewrite ?tab_length.
    - split; [reflexivity|]. split; [reflexivity|]. split; intros i Hi; rewrite ?get_tab by exact Hi; [reflexivity|].
      cbv zeta. set (s := get 0 st i + fat R i * da i * dt). set (q := s / (3600 * 24 * nd) * dt).
      pose proof (Q.le_min_r q s). rewrite Q.max_l by lra. unfold q, s. ring.
    - split; [reflexivity|]. split; [exact Hst|]. split; intros i Hi; rewrite ?get_tab by exact Hi; [reflexivity|lra]. }
  destruct p as [v1 st1]. cbn [fst snd] in Hp. destruct Hp as (H1 & H2 & H3 & H4).
  destruct (route_inflow_spec Qg v1 H1) as [H5 H6]. cbn [fst snd]. rewrite !tab_length.
  split; [reflexivity|]. split; [exact H2|]. split; [|exact H4].
  intros i Hi. rewrite !get_tab by exact Hi. unfold unclipped. rewrite H6, H3 by exact Hi.
  assert (E : get 0 v i + lateral att R st i + dt * inflow G d8 Qg i - get 0 Qg i * dt ==
              get 0 v i + lateral att R st i + dt * inflow G d8 Qg i - dt * get 0 Qg i) by ring.
  rewrite E. reflexivity.
Qed.

Lemma qmax_over x : Qmax x 0 == x + Qmax (- x) 0.
Proof.
  destruct (Qlt_le_dec x 0) as [H|H].
  - rewrite Q.max_r by lra. rewrite Q.max_l by lra. lra.
  - rewrite Q.max_l by lra. rewrite Q.max_r by lra. lra.
Qed.

(* one step *)
Theorem flow_volume_balance att R Qg v st : length v = n -> length st = n ->
  let r := update_flow_volume G d8 pid da dt att R Qg v st in
  total (fst r) + total (snd r) ==
  total v + total st + dt * qsum n (fun i => fat R i * da i)
  - dt * qsum n (fun i => if has_parent G d8 i then 0 else get 0 Qg i)
  + qsum n (overdraft G d8 dt (lateral att R st) Qg v).
Proof.
  intros Hv Hst r. destruct (flow_volume_spec att R Qg v st Hv Hst) as (H1 & H2 & H3 & H4). fold r in H1, H2, H3, H4.
  rewrite !total_get, H1, H2, Hv, Hst.
  rewrite (qsum_ext n (get 0 (fst r)) (fun i => unclipped G d8 dt (lateral att R st) Qg v i + overdraft G d8 dt (lateral att R st) Qg v i)).
  2:{ intros i Hi. rewrite H3 by exact Hi. apply qmax_over. }
  rewrite qsum_plus.
  assert (Hsum : qsum n (unclipped G d8 dt (lateral att R st) Qg v) + qsum n (get 0 (snd r)) ==
     qsum n (get 0 v) + qsum n (get 0 st) + dt * qsum n (fun i => fat R i * da i)
       - dt * qsum n (fun i => if has_parent G d8 i then 0 else get 0 Qg i)).
  { rewrite (qsum_ext n (get 0 (snd r)) (fun i => get 0 st i + (fat R i * da i * dt - lateral att R st i))).
    2:{ intros i Hi. rewrite H4 by exact Hi. destruct att; [ring|]. unfold Chan_Spec.lateral. ring. }
    assert (Hout : qsum n (fun i => if has_parent G d8 i then 0 else get 0 Qg i) ==
              qsum n (get 0 Qg) - qsum n (inflow G d8 Qg)).
    { rewrite total_inflow, <- qsum_minus. apply qsum_ext. intros i _. destruct (has_parent G d8 i); ring. }
    rewrite Hout.
    transitivity (qsum n (fun i => (get 0 v i + get 0 st i + dt * (fat R i * da i)) - dt * (get 0 Qg i - inflow G d8 Qg i))).
    { rewrite <- qsum_plus. apply qsum_ext. intros i _. unfold unclipped. ring. }
    rewrite qsum_minus, !qsum_plus, !qsum_scale, qsum_minus. reflexivity. }
  rewrite <- Hsum. ring.
Qed.

Lemma overdraft_nonneg lat Qg v i : 0 <= overdraft G d8 dt lat Qg v i.
Proof. apply Q.le_max_r. Qed.

Lemma overdraft_zero lat Qg v i : overdraft G d8 dt lat Qg v i == 0 <->
  dt * get 0 Qg i <= get 0 v i + lat i + dt * inflow G d8 Qg i.
Proof.
  unfold overdraft, unclipped. set (x := - (_ - _)). split; intros H.
  - assert (x <= 0) by (rewrite <- H; apply Q.le_max_l). unfold x in *. lra.
  - apply Q.max_r. unfold x. lra.
Qed.

Lemma qsum_zero_iff m f : (forall i, (i < m)%nat -> 0 <= f i) -> (qsum m f == 0 <-> forall i, (i < m)%nat -> f i == 0).
Proof.
  intros Hf. split; [|apply qsum_zero]. induction m as [|m IH]; intros H i Hi; [lia|].
  rewrite qsum_S in H.
  assert (Hm : 0 <= qsum m f) by (apply qsum_nonneg; intros j Hj; apply Hf; lia).
  assert (Hl : 0 <= f m) by (apply Hf; lia).
  assert (H1 : qsum m f == 0) by lra. assert (H2 : f m == 0) by lra.
  destruct (Nat.eq_dec i m) as [->|Hne]; [exact H2|]. apply IH; [|exact H1|lia]. intros j Hj. apply Hf. lia.
Qed.

(* ---------------------------------------------------------------- runs *)

Variables (ds width : nat -> Q) (bank : list Q).
Variables (FLOOD scalar_da : bool) (att : option Q).
Hypothesis Hcodes : code_grid G d8.
Hypothesis Hscalar : scalar_da = true -> forall i, (i < n)%nat -> da i == da 0%nat.
Notation upd := (update G d8 pid da ds width bank dt FLOOD scalar_da att).
Notation noflow := (noflow_IDs G d8).
Notation ok := (Chan_Spec.ok G d8 FLOOD).
Notation sized := (Chan_Spec.sized G).
Notation step_overdraft := (Chan_Spec.step_overdraft G d8 da dt width FLOOD att).
Notation run_overdraft := (Chan_Spec.run_overdraft G d8 da dt pid ds width bank FLOOD scalar_da att).

Lemma noflow_spec i : In i noflow <-> (i < n)%nat /\ has_parent G d8 i = false.
Proof.
  unfold noflow_IDs. rewrite filter_In, in_seq. unfold has_parent, next, target. split.
  - intros [Hi E]. split; [lia|]. destruct Hcodes as [_ Hc]. destruct (Hc i) as [Hz|Hz]; [lia|rewrite Hz; reflexivity|].
    apply offset_some in Hz. destruct Hz as (k & Hk & Ek). pose proof (g_range k Hk). lia.
  - intros [Hi E]. split; [lia|]. destruct Hcodes as [_ Hc]. destruct (Hc i Hi) as [Hz|Hz]; [lia|].
    unfold is_code in Hz. destruct (offset (get 0%Z d8 i)) as [[a b]|]; [discriminate|congruence].
Qed.

Lemma noflow_lt i : In i noflow -> (i < n)%nat.
Proof. intros H. apply noflow_spec in H. apply H. Qed.

Lemma R_integral R w : update_R_integral G da dt scalar_da R w == w + dt * qsum n (fun i => fat R i * da i).
Proof.
  unfold update_R_integral.
  assert (H : qsum n (fun i => fat R i * da i * dt) == dt * qsum n (fun i => fat R i * da i)).
  { rewrite <- qsum_scale. apply qsum_ext. intros i _. ring. }
  destruct R as [r|l]; [|rewrite H; reflexivity]. destruct scalar_da eqn:E; [|rewrite H; reflexivity].
  apply Qplus_comp; [reflexivity|]. cbn [fat].
  rewrite (qsum_ext n (fun i => r * da i) (fun _ => r * da 0%nat)).
  2:{ intros i Hi. rewrite (Hscalar eq_refl i Hi). reflexivity. }
  unfold qsum. rewrite qsuml_const, seq_length. ring.
Qed.

Lemma noflow_NoDup : NoDup noflow.
Proof. apply NoDup_filter, seq_NoDup. Qed.

Lemma sum_split l : length l = n -> total l == total (fancy_set l noflow 0) + qsuml (get 0 l) noflow.
Proof.
  intros Hl. rewrite !total_get, fancy_set_length, Hl. unfold noflow_IDs at 2. rewrite qsuml_if_filter.
  fold (qsum n (fun a => if (get 0%Z d8 a <=? 0)%Z then get 0 l a else 0)). rewrite <- qsum_plus.
  apply qsum_ext. intros i Hi. destruct (in_dec Nat.eq_dec i noflow) as [Hin|Hni].
  - rewrite fancy_set_in; [|intros p Hp; rewrite Hl; apply noflow_lt; exact Hp|exact Hin].
    apply filter_In in Hin. destruct Hin as [_ ->]. ring.
  - rewrite fancy_set_out by exact Hni. destruct (get 0%Z d8 i <=? 0)%Z eqn:E; [|ring].
    exfalso. apply Hni. apply filter_In. split; [apply in_seq; lia|exact E].
Qed.

Lemma update_balance s x : ok s -> sized x ->
  ok (upd s x) /\
  stock (upd s x) - vol_R (upd s x) == stock s - vol_R s + qsum n (step_overdraft s x).
Proof.
  intros Hs Hx. unfold update.
  pose proof (flow_volume_spec att (iR x) (discharge G width FLOOD s x) (vol s) (vol_stored s) (ok_vol _ _ _ _ Hs) (ok_st _ _ _ _ Hs)) as (H1 & H2 & _ & _).
  pose proof (flow_volume_balance att (iR x) (discharge G width FLOOD s x) (vol s) (vol_stored s) (ok_vol _ _ _ _ Hs) (ok_st _ _ _ _ Hs)) as Hb.
  cbv zeta in H1, H2, Hb.
  destruct (update_flow_volume G d8 pid da dt att (iR x) (discharge G width FLOOD s x) (vol s) (vol_stored s)) as [v st].
  cbn [fst snd] in *. split.
  - split; cbn [vol vol_stored u d_flood].
    + rewrite fancy_set_length. exact H1.
    + exact H2.
    + intros i Hi. rewrite fancy_set_in; [reflexivity| |exact Hi]. intros p Hp. rewrite (Hx : length (iu x) = n). apply noflow_lt. exact Hp.
    + intros HF i Hi. rewrite HF, fancy_set_in; [reflexivity| |exact Hi].
      intros p Hp. unfold update_flood_depth. rewrite tab_length. apply noflow_lt. exact Hp.
  - unfold stock. cbn [vol vol_stored vol_edge vol_R]. rewrite R_integral. rewrite (sum_split v H1) in Hb.
    assert (Hq : qsum n (fun i => if has_parent G d8 i then 0 else get 0 (discharge G width FLOOD s x) i) == 0).
    { apply qsum_zero. intros i Hi. destruct (has_parent G d8 i) eqn:E; [reflexivity|].
      assert (Hin : In i noflow) by (apply noflow_spec; auto).
      unfold discharge. rewrite get_tab by exact Hi. rewrite (ok_u _ _ _ _ Hs i Hin).
      destruct FLOOD eqn:EF; [rewrite (ok_df _ _ _ _ Hs eq_refl i Hin)|]; ring. }
    rewrite Hq in Hb. change (qsum n (step_overdraft s x)) with (qsum n (overdraft G d8 dt (lateral att (iR x) (vol_stored s)) (discharge G width FLOOD s x) (vol s))). lra.
Qed.

Theorem run_balance xs : forall s, ok s -> Forall sized xs ->
  let s' := run G d8 pid da ds width bank dt FLOOD scalar_da att s xs in
  ok s' /\ stock s' - vol_R s' == stock s - vol_R s + run_overdraft s xs /\ 0 <= run_overdraft s xs.
Proof.
  unfold run. induction xs as [|x xs IH]; intros s Hs Hx.
  - cbn. split; [exact Hs|]. split; lra.
  - inversion Hx; subst. destruct (update_balance s x Hs H1) as [Hs1 Hb1].
    destruct (IH (upd s x) Hs1 H2) as (Hs2 & Hb2 & Hn). cbn [fold_left run_overdraft].
    split; [exact Hs2|].
    assert (0 <= qsum n (step_overdraft s x)) by (apply qsum_nonneg; intros i _; apply overdraft_nonneg).
    split; [rewrite Hb2, Hb1; ring|lra].
Qed.

Lemma vol_nonneg xs : forall s, ok s -> Forall sized xs -> (forall i, (i < n)%nat -> 0 <= get 0 (vol s) i) ->
  forall i, (i < n)%nat -> 0 <= get 0 (vol (run G d8 pid da ds width bank dt FLOOD scalar_da att s xs)) i.
Proof.
  unfold run. induction xs as [|x xs IH]; intros s Hs Hx Hv i Hi; [apply Hv; exact Hi|].
  inversion Hx; subst. cbn [fold_left]. destruct (update_balance s x Hs H1) as [Hs1 _]. apply IH; auto.
  clear i Hi. intros i Hi. unfold update.
  pose proof (flow_volume_spec att (iR x) (discharge G width FLOOD s x) (vol s) (vol_stored s) (ok_vol _ _ _ _ Hs) (ok_st _ _ _ _ Hs)) as (H3 & _ & H4 & _).
  cbv zeta in H3, H4.
  destruct (update_flow_volume G d8 pid da dt att (iR x) (discharge G width FLOOD s x) (vol s) (vol_stored s)) as [v st].
  cbn [fst snd] in *. cbn [vol]. destruct (in_dec Nat.eq_dec i noflow) as [Hin|Hni].
  - rewrite fancy_set_in; [lra| |exact Hin]. intros p Hp. rewrite H3. apply noflow_lt. exact Hp.
  - rewrite fancy_set_out by exact Hni. rewrite H4 by exact Hi. apply Q.le_max_r.
Qed.

(* ---------------------------------------------------------------- channel / flood split *)

Lemma split_spec v i : (i < n)%nat ->
  let c := get 0 (update_channel_volume G bank v) i in
  let f := get 0 (update_flood_volume G bank v) i in
  c + f == get 0 v i /\ c <= get 0 bank i /\ 0 <= f /\ (0 < f -> c == get 0 bank i) /\
  (0 <= get 0 v i -> 0 <= get 0 bank i -> 0 <= c).
Proof.
  intros Hi c f. unfold c, f, update_channel_volume, update_flood_volume. rewrite !get_tab by exact Hi.
  set (v0 := get 0 v i). set (b := get 0 bank i).
  destruct (Qlt_le_dec v0 b) as [H|H].
  - rewrite Q.min_l by lra. rewrite Q.max_r by lra. repeat split; try lra.
  - rewrite Q.min_r by lra. rewrite Q.max_l by lra. repeat split; try lra.
Qed.

(* ---------------------------------------------------------------- runoff *)

Lemma fat_lift2 op a b i : (i < n)%nat -> fat (lift2 n op a b) i = op (fat a i) (fat b i).
Proof. intros Hi. destruct a, b; cbn [lift2 fat]; rewrite ?get_tab by exact Hi; reflexivity. Qed.

Lemma R_spec v P SM GW MR ET IN : (forall i, (i < n)%nat -> 0 <= get 0 v i) ->
  let r := update_R G da dt v P SM GW MR ET IN in
  forall i, (i < n)%nat -> exists et,
    fat (fst r) i == fat P i + fat SM i + fat GW i + fat MR i - (et + fat IN i) /\
    et * da i * dt <= get 0 v i /\
    (et == 0 \/ et == fat ET i) /\
    ((forall q, ET <> Scalar q) -> et == fat (snd r) i /\ (fat ET i * da i * dt <= get 0 v i -> et == fat ET i)).
Proof.
  intros Hv r i Hi. unfold r, update_R. destruct ET as [q|l]; cbn [fst snd].
  - exists 0. rewrite !fat_lift2 by exact Hi. cbn [fat]. specialize (Hv i Hi).
    split; [lra|]. split; [lra|]. split; [left; reflexivity|intros C; destruct (C q eq_refl)].
  - rewrite !fat_lift2 by exact Hi. cbn [fat]. rewrite !get_tab by exact Hi.
    destruct (Qltb (get 0 v i) (get 0 l i * da i * dt)) eqn:E.
    + exists 0. specialize (Hv i Hi). split; [lra|]. split; [lra|]. split; [left; reflexivity|]. intros _.
      split; [reflexivity|]. intros C. apply Qltb_lt in E. lra.
    + exists (get 0 l i). apply Qltb_ge in E. split; [lra|]. split; [exact E|]. split; [right; reflexivity|].
      intros _. split; reflexivity.
Qed.
End Grid.

(* ---------------------------------------------------------------- peaks *)

Lemma update_peak_is init hist q t p : is_peak init hist p -> is_peak init (hist ++ [(q, t)]) (update_peak p q t).
Proof.
  intros [Hmax (b & a & E & Hb)]. unfold update_peak. destruct (Qltb (fst p) q) eqn:Eq.
  - apply Qltb_lt in Eq. split.
    + intros x Hx. rewrite app_comm_cons in Hx. apply in_app_or in Hx. destruct Hx as [Hx|[<-|[]]]; cbn [fst]; [|lra].
      specialize (Hmax x Hx). lra.
    + exists (init :: hist), []. split; [reflexivity|]. intros x Hx. cbn [fst]. specialize (Hmax x Hx). lra.
  - apply Qltb_ge in Eq. split.
    + intros x Hx. rewrite app_comm_cons in Hx. apply in_app_or in Hx. destruct Hx as [Hx|[<-|[]]]; [apply Hmax; exact Hx|exact Eq].
    + exists b, (a ++ [(q, t)]). split; [|exact Hb]. rewrite app_comm_cons, E, <- app_assoc. reflexivity.
Qed.

Lemma is_peak_nil p : is_peak p [] p.
Proof. split; [intros q [<-|[]]; lra|]. exists [], []. split; [reflexivity|intros q []]. Qed.

Lemma peaks_run hist : forall done p init,
  is_peak (Q_peak init) (map (fun s => (s_Q s, s_t s)) done) (Q_peak p) ->
  is_peak (u_peak init) (map (fun s => (s_u s, s_t s)) done) (u_peak p) ->
  is_peak (d_peak init) (map (fun s => (s_d s, s_t s)) done) (d_peak p) ->
  let p' := fold_left update_peak_values hist p in
  is_peak (Q_peak init) (map (fun s => (s_Q s, s_t s)) (done ++ hist)) (Q_peak p') /\
  is_peak (u_peak init) (map (fun s => (s_u s, s_t s)) (done ++ hist)) (u_peak p') /\
  is_peak (d_peak init) (map (fun s => (s_d s, s_t s)) (done ++ hist)) (d_peak p').
Proof.
  induction hist as [|s hist IH]; intros done p init H1 H2 H3.
  - rewrite app_nil_r. cbn. auto.
  - cbn [fold_left]. replace (done ++ s :: hist) with ((done ++ [s]) ++ hist) by (rewrite <- app_assoc; reflexivity).
    apply IH; rewrite map_app; cbn [map]; apply update_peak_is; assumption.
Qed.

(* ---------------------------------------------------------------- NaN-aware checks *)

Lemma existsb_false {A} (f : A -> bool) l : existsb f l = false <-> forall x, In x l -> f x = false.
Proof.
  split.
  - intros H x Hx. destruct (f x) eqn:E; [|reflexivity]. rewrite <- H. symmetry. apply existsb_exists. eauto.
  - intros H. destruct (existsb f l) eqn:E; [|reflexivity]. apply existsb_exists in E. destruct E as (x & Hx & Ex).
    rewrite (H x Hx) in Ex. discriminate.
Qed.

Lemma bad_slope_spec x : bad_slope x = false <-> good x.
Proof.
  unfold good. destruct x as [q| | |]; cbn; split; intros H; try discriminate; try (destruct H as (q' & E & _); discriminate).
  - exists q. split; [reflexivity|]. unfold bad_slope in H. cbn in H. rewrite orb_false_r in H. apply orb_false_iff in H.
    destruct H as [H1 H2]. apply Qeqb_neq in H1. apply Qltb_ge in H2. lra.
  - destruct H as (q' & E & Hq). inversion E; subst q'. unfold bad_slope. cbn. rewrite orb_false_r. apply orb_false_iff. split.
    + apply Qeqb_neq. lra.
    + apply Qltb_ge. lra.
Qed.

Lemma ev_min_spec l m : (forall x, In x l -> good x) -> ev_min l = Some m ->
  In m l /\ exists q, m = Fin q /\ forall q', In (Fin q') l -> q <= q'.
Proof.
  intros Hg. destruct l as [|x t]; [discriminate|]. cbn [ev_min]. intros E. inversion E as [E']. clear E.
  assert (H : forall t x, good x -> (forall y, In y t -> good y) ->
     let m := fold_left (fun m y => if ev_lt y m then y else m) t x in
     (m = x \/ In m t) /\ exists q, m = Fin q /\ forall q', (Fin q' = x \/ In (Fin q') t) -> q <= q').
  { clear. induction t as [|y t IH]; intros x Hx Ht; cbn [fold_left].
    - split; [left; reflexivity|]. destruct Hx as (q & -> & _). exists q. split; [reflexivity|].
      intros q' [H|[]]. inversion H. lra.
    - destruct Hx as (qx & -> & Hx). destruct (Ht y (or_introl eq_refl)) as (qy & -> & Hy). cbn [ev_lt].
      destruct (Qltb qy qx) eqn:E.
      + apply Qltb_lt in E. destruct (IH (Fin qy)) as [H1 (q & Eq & H2)].
        { exists qy. auto. } { intros z Hz. apply Ht. right. exact Hz. }
        split.
        * right. destruct H1 as [->|H1]; [left; reflexivity|right; exact H1].
        * exists q. split; [exact Eq|]. intros q' [H|[H|H]].
          -- inversion H; subst. specialize (H2 qy (or_introl eq_refl)). lra.
          -- apply H2. left. congruence.
          -- apply H2. right. exact H.
      + apply Qltb_ge in E. destruct (IH (Fin qx)) as [H1 (q & Eq & H2)].
        { exists qx. auto. } { intros z Hz. apply Ht. right. exact Hz. }
        split.
        * destruct H1 as [->|H1]; [left; reflexivity|right; right; exact H1].
        * exists q. split; [exact Eq|]. intros q' [H|[H|H]].
          -- apply H2. left. exact H.
          -- inversion H; subst. specialize (H2 qx (or_introl eq_refl)). lra.
          -- apply H2. right. exact H. }
  destruct (H t x) as [H1 (q & Eq & H2)].
  { apply Hg. left. reflexivity. } { intros y Hy. apply Hg. right. exact Hy. }
  split; [destruct H1 as [->|H1]; [left; reflexivity|right; exact H1]|].
  exists q. split; [exact Eq|]. intros q' [Hq|Hq]; apply H2; [left; congruence|right; exact Hq].
Qed.

Lemma remove_bad_slopes_spec sl :
  ((exists x, In x sl /\ good x) ->
   exists sl', remove_bad_slopes sl = Some sl' /\ length sl' = length sl /\
     (forall x, In x sl' -> good x) /\
     forall i, (i < length sl)%nat ->
       (good (nth i sl NaN) -> nth i sl' NaN = nth i sl NaN) /\
       (~ good (nth i sl NaN) -> exists m, nth i sl' NaN = Fin m /\ In (Fin m) sl /\ 0 < m /\
                                forall q, In (Fin q) sl -> 0 < q -> m <= q)) /\
  ((forall x, In x sl -> ~ good x) -> sl <> [] -> remove_bad_slopes sl = None).
Proof.
  assert (Hfg : forall x, In x (filter (fun x => negb (bad_slope x)) sl) <-> In x sl /\ good x).
  { intros x. rewrite filter_In. rewrite <- bad_slope_spec. destruct (bad_slope x); cbn; intuition discriminate. }
  split.
  - intros (x0 & Hx0 & Hg0). unfold remove_bad_slopes. destruct (existsb bad_slope sl) eqn:Eb; cbn [negb].
    + destruct (ev_min _) as [m|] eqn:Em.
      * destruct (ev_min_spec _ _ (fun x Hx => proj2 (proj1 (Hfg x) Hx)) Em) as [Hin (q & -> & Hmin)].
        apply Hfg in Hin. destruct Hin as [Hin Hgm].
        assert (Hq : 0 < q) by (destruct Hgm as (q' & E & H); inversion E; subst; exact H).
        exists (map (fun x => if bad_slope x then Fin q else x) sl). split; [reflexivity|].
        split; [apply map_length|]. split.
        { intros x Hx. apply in_map_iff in Hx. destruct Hx as (y & <- & Hy).
          destruct (bad_slope y) eqn:E; [exact Hgm|apply bad_slope_spec; exact E]. }
        intros i Hi.
        assert (En : nth i (map (fun x => if bad_slope x then Fin q else x) sl) NaN =
                     (if bad_slope (nth i sl NaN) then Fin q else nth i sl NaN)).
        { rewrite (nth_indep _ NaN ((fun x => if bad_slope x then Fin q else x) NaN)) by (rewrite map_length; exact Hi).
          apply (map_nth (fun x => if bad_slope x then Fin q else x)). }
        rewrite En. split.
        { intros Hg. apply bad_slope_spec in Hg. rewrite Hg. reflexivity. }
        { intros Hg. destruct (bad_slope (nth i sl NaN)) eqn:E; [|exfalso; apply Hg; apply bad_slope_spec; exact E].
          exists q. split; [reflexivity|]. split; [exact Hin|]. split; [exact Hq|]. intros q' Hin' Hq'. apply Hmin.
          apply Hfg. split; [exact Hin'|]. exists q'. auto. }
      * exfalso. destruct (filter _ sl) eqn:Ef in Em; [|discriminate].
        assert (H : In x0 (filter (fun x => negb (bad_slope x)) sl)) by (apply Hfg; auto). rewrite Ef in H. destruct H.
    + exists sl. split; [reflexivity|]. split; [reflexivity|].
      assert (Hall : forall x, In x sl -> good x).
      { intros x Hx. apply bad_slope_spec. apply (proj1 (existsb_false _ _) Eb x Hx). }
      split; [exact Hall|]. intros i Hi. split; [reflexivity|]. intros Hn. exfalso. apply Hn. apply Hall. apply nth_In. exact Hi.
  - intros Hno Hne. unfold remove_bad_slopes. destruct (existsb bad_slope sl) eqn:Eb; cbn [negb].
    + assert (Ef : filter (fun x => negb (bad_slope x)) sl = []).
      { destruct (filter _ sl) as [|y t] eqn:E; [reflexivity|]. exfalso.
        pose proof (proj1 (Hfg y) (or_introl eq_refl)) as H. destruct H as [H1 H2]. apply (Hno y H1 H2). }
      rewrite Ef. reflexivity.
    + exfalso. destruct sl as [|x sl]; [congruence|]. apply (Hno x (or_introl eq_refl)).
      apply bad_slope_spec. apply (proj1 (existsb_false _ _) Eb x). left. reflexivity.
Qed.

Lemma check_velocity_spec u : check_flow_velocity u = true <-> forall x, In x u -> exists q, x = Fin q /\ 0 <= q.
Proof.
  unfold check_flow_velocity. rewrite !andb_true_iff, !negb_true_iff, !existsb_false. split.
  - intros [[H1 H2] H3] x Hx. specialize (H1 x Hx). specialize (H2 x Hx). specialize (H3 x Hx).
    destruct x as [q| | |]; cbn in *; try discriminate. apply Qltb_ge in H1. eauto.
  - intros H. repeat split; intros x Hx; destruct (H x Hx) as (q & -> & Hq); cbn; try reflexivity. apply Qltb_ge. exact Hq.
Qed.

Lemma check_depth_spec d : check_flow_depth d = true <-> forall x, In x d -> x = NaN \/ exists q, x = Fin q /\ 0 <= q.
Proof.
  unfold check_flow_depth. rewrite !andb_true_iff, !negb_true_iff, !existsb_false. split.
  - intros [H1 H3] x Hx. specialize (H1 x Hx). specialize (H3 x Hx).
    destruct x as [q| | |]; cbn in *; try discriminate; [|left; reflexivity]. apply Qltb_ge in H1. eauto.
  - intros H. repeat split; intros x Hx; destruct (H x Hx) as [->|(q & -> & Hq)]; cbn; try reflexivity. apply Qltb_ge. exact Hq.
Qed.
