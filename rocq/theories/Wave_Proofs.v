From Coq Require Import ZArith Reals List Bool Lia Lra Psatz ZifyBool.
From Verif Require Import Base D8_Spec D8_Proofs D8_Walk ChanR_Model ChanR_Proofs Wave_Model Wave_Spec.
From Verif Require D8_Model Chan_Proofs.
Import ListNotations.
Local Open Scope R_scope.

(* ---------------------------------------------------------------- sums *)
Lemma rsuml_nil {X} (f : X -> R) : rsuml f [] = 0.
Proof. reflexivity. Qed.
Lemma rsuml_cons {X} (f : X -> R) a l : rsuml f (a :: l) = f a + rsuml f l.
Proof. reflexivity. Qed.
Global Arguments rsuml : simpl never.
Lemma rsuml_ext {X} (f g : X -> R) l : (forall a, In a l -> f a = g a) -> rsuml f l = rsuml g l.
Proof.
  induction l as [|a l IH]; intros H; [reflexivity|]. rewrite !rsuml_cons.
  rewrite (H a) by (left; reflexivity). rewrite IH; [reflexivity|]. intros b Hb. apply H. right. exact Hb.
Qed.
Lemma rsuml_plus {X} (f g : X -> R) l : rsuml (fun a => f a + g a) l = rsuml f l + rsuml g l.
Proof. induction l as [|a l IH]; [rewrite !rsuml_nil; ring|]. rewrite !rsuml_cons, IH. ring. Qed.
Lemma rsuml_minus {X} (f g : X -> R) l : rsuml (fun a => f a - g a) l = rsuml f l - rsuml g l.
Proof. induction l as [|a l IH]; [rewrite !rsuml_nil; ring|]. rewrite !rsuml_cons, IH. ring. Qed.
Lemma rsuml_scale {X} c (f : X -> R) l : rsuml (fun a => c * f a) l = c * rsuml f l.
Proof. induction l as [|a l IH]; [rewrite !rsuml_nil; ring|]. rewrite !rsuml_cons, IH. ring. Qed.
Lemma rsuml_zero {X} (f : X -> R) l : (forall a, In a l -> f a = 0) -> rsuml f l = 0.
Proof.
  induction l as [|a l IH]; intros H; [reflexivity|]. rewrite rsuml_cons, (H a) by (left; reflexivity).
  rewrite IH; [ring|]. intros b Hb. apply H. right. exact Hb.
Qed.
Lemma rsuml_le {X} (f g : X -> R) l : (forall a, In a l -> f a <= g a) -> rsuml f l <= rsuml g l.
Proof.
  induction l as [|a l IH]; intros H; [rewrite !rsuml_nil; lra|]. rewrite !rsuml_cons.
  pose proof (H a (or_introl eq_refl)). assert (rsuml f l <= rsuml g l) by (apply IH; intros b Hb; apply H; right; exact Hb). lra.
Qed.
Lemma rsuml_nonneg {X} (f : X -> R) l : (forall a, In a l -> 0 <= f a) -> 0 <= rsuml f l.
Proof.
  intros H. apply Rle_trans with (rsuml (fun _ => 0) l); [rewrite rsuml_zero by auto; lra|apply rsuml_le; exact H].
Qed.
Lemma rsuml_map {X Y} (g : X -> Y) (f : Y -> R) l : rsuml f (map g l) = rsuml (fun a => f (g a)) l.
Proof. induction l as [|a l IH]; [reflexivity|]. cbn [map]. rewrite !rsuml_cons, IH. reflexivity. Qed.
Lemma rsuml_swap {X Y} (f : X -> Y -> R) l m :
  rsuml (fun a => rsuml (f a) m) l = rsuml (fun b => rsuml (fun a => f a b) l) m.
Proof.
  induction l as [|a l IH].
  - rewrite rsuml_nil. symmetry. apply rsuml_zero. intros b _. reflexivity.
  - rewrite rsuml_cons, IH, <- rsuml_plus. apply rsuml_ext. intros b _. reflexivity.
Qed.
Lemma rsuml_single {X} (f : X -> R) (l : list X) i0 :
  NoDup l -> In i0 l -> (forall a, In a l -> a <> i0 -> f a = 0) -> rsuml f l = f i0.
Proof.
  induction l as [|a l IH]; intros Hnd Hin H; [destruct Hin|].
  inversion Hnd as [|? ? Hni Hnd']; subst. rewrite rsuml_cons. destruct Hin as [->|Hin].
  - rewrite (rsuml_zero f l); [ring|]. intros b Hb. apply H; [right; exact Hb|]. intros ->. contradiction.
  - rewrite IH; [|assumption|assumption|intros b Hb; apply H; right; exact Hb].
    rewrite (H a); [ring|left; reflexivity|]. intros ->. contradiction.
Qed.
Lemma rsuml_filter {X} (p : X -> bool) f l : rsuml f (filter p l) = rsuml (fun a => if p a then f a else 0) l.
Proof.
  induction l as [|a l IH]; [reflexivity|]. cbn [filter]. rewrite rsuml_cons.
  destruct (p a); [rewrite rsuml_cons, IH; reflexivity|rewrite IH; ring].
Qed.
Lemma rsumn_ext n f g : (forall i, (i < n)%nat -> f i = g i) -> rsumn n f = rsumn n g.
Proof. intros H. apply rsuml_ext. intros a Ha. apply in_seq in Ha. apply H. lia. Qed.
Lemma rsumn_le n f g : (forall i, (i < n)%nat -> f i <= g i) -> rsumn n f <= rsumn n g.
Proof. intros H. apply rsuml_le. intros a Ha. apply in_seq in Ha. apply H. lia. Qed.
Lemma rsumn_nonneg n f : (forall i, (i < n)%nat -> 0 <= f i) -> 0 <= rsumn n f.
Proof. intros H. apply rsuml_nonneg. intros a Ha. apply in_seq in Ha. apply H. lia. Qed.
Lemma rsumn_single n f i0 : (i0 < n)%nat -> (forall i, (i < n)%nat -> i <> i0 -> f i = 0) -> rsumn n f = f i0.
Proof.
  intros Hi H. apply rsuml_single; [apply seq_NoDup|apply in_seq; lia|]. intros a Ha Hne. apply in_seq in Ha. apply H; [lia|exact Hne].
Qed.

(* ---------------------------------------------------------------- index lists *)
Lemma rset_length a ps v : length (rset a ps v) = length a.
Proof. unfold rset. revert a. induction ps as [|p ps IH]; intros a; [reflexivity|]. cbn [fold_left]. rewrite IH. apply set_length. Qed.
Lemma rset_out a ps v i : ~ In i ps -> get 0 (rset a ps v) i = get 0 a i.
Proof.
  unfold rset. revert a. induction ps as [|p ps IH]; intros a Hn; [reflexivity|]. cbn [fold_left].
  rewrite IH by (intros H; apply Hn; right; exact H). apply get_set_other. intros ->. apply Hn. left. reflexivity.
Qed.
Lemma rset_in a ps v i : (forall p, In p ps -> (p < length a)%nat) -> In i ps -> get 0 (rset a ps v) i = v.
Proof.
  revert a. induction ps as [|p ps IH]; intros a Hl Hi; [destruct Hi|]. change (rset a (p :: ps) v) with (rset (set a p v) ps v).
  destruct (in_dec Nat.eq_dec i ps) as [Hin|Hni].
  - apply IH; [|exact Hin]. intros q Hq. rewrite set_length. apply Hl. right. exact Hq.
  - destruct Hi as [<-|Hi]; [|contradiction]. rewrite rset_out by exact Hni. apply get_set_same. apply Hl. left. reflexivity.
Qed.
Lemma radd_get a (src : list nat) (p : nat -> nat) (x : nat -> R) :
  NoDup (map p src) -> (forall j, In j src -> (p j < length a)%nat) ->
  length (radd a (map p src) (map x src)) = length a /\
  forall i, get 0 (radd a (map p src) (map x src)) i =
            get 0 a i + rsuml (fun j => if Nat.eqb (p j) i then x j else 0) src.
Proof.
  intros Hnd Hl. unfold radd.
  assert (H : forall src acc, NoDup (map p src) -> (forall j, In j src -> (p j < length acc)%nat) ->
     (forall j, In j src -> get 0 acc (p j) = get 0 a (p j)) ->
     let r := fold_left (fun acc px => set acc (fst px) (get 0 a (fst px) + snd px)) (combine (map p src) (map x src)) acc in
     length r = length acc /\ forall i, get 0 r i = get 0 acc i + rsuml (fun j => if Nat.eqb (p j) i then x j else 0) src).
  { clear. induction src as [|j src IH]; intros acc Hnd Hl Hsame.
    - cbv zeta; cbn [map combine fold_left]. split; [reflexivity|]. intros i. rewrite rsuml_nil. ring.
    - cbn [map combine fold_left fst snd]. inversion Hnd as [|? ? Hni Hnd']; subst.
      destruct (IH (set acc (p j) (get 0 a (p j) + x j))) as [H1 H2]; [exact Hnd'| | |].
      { intros k Hk. rewrite set_length. apply Hl. right. exact Hk. }
      { intros k Hk. rewrite get_set_other; [apply Hsame; right; exact Hk|].
        intros E. apply Hni. rewrite E. apply in_map. exact Hk. }
      rewrite set_length in H1. split; [exact H1|]. intros i. rewrite H2, rsuml_cons.
      destruct (Nat.eqb (p j) i) eqn:E.
      + apply Nat.eqb_eq in E. subst i. rewrite get_set_same by (apply Hl; left; reflexivity).
        rewrite (Hsame j) by (left; reflexivity). ring.
      + apply Nat.eqb_neq in E. rewrite get_set_other by congruence. ring. }
  destruct (H src a Hnd Hl (fun _ _ => eq_refl)) as [H1 H2]. split; assumption.
Qed.

Section Grid.
Variable G : D8_Model.geom.
Hypothesis HG : geom_ok G.
Notation n := (D8_Model.ncells G).
Variables (d8 : list Z) (O : D8_Model.opts) (c : chan).
Hypothesis Hclosed : forall i, (i < n)%nat -> closed_side G O i -> get 0%Z d8 i = 0%Z.
Hypothesis Hcodes : code_grid G d8.
Notation pid := (D8_Model.update_parent_ID_grid G O d8).
Notation upd := (update G d8 pid c).
Notation nofl := (noflow G d8).

Lemma route_spec Qg v : length v = n ->
  length (route G d8 pid c Qg v) = n /\
  forall i, (i < n)%nat -> get 0 (route G d8 pid c Qg v) i = get 0 v i + dt c * inflow G d8 (get 0 Qg) i.
Proof.
  intros Hv. unfold route.
  assert (H : forall ks v, (forall k, In k ks -> (k < 8)%nat) -> length v = n ->
    let r := fold_left (fun v k => radd v (D8_Model.flow_to G d8 pid k)
                (map (fun i => dt c * get 0 Qg i) (D8_Model.flow_from G d8 k))) ks v in
    length r = n /\ forall i, get 0 r i = get 0 v i +
       rsuml (fun k => rsuml (fun j => if Nat.eqb (D8_Model.nbr G k j) i then dt c * get 0 Qg j else 0) (D8_Model.flow_from G d8 k)) ks).
  { clear v Hv. induction ks as [|k ks IH]; intros v Hk Hv; cbn [fold_left].
    - split; [exact Hv|]. intros i. rewrite rsuml_nil. ring.
    - assert (Hk0 : (k < 8)%nat) by (apply Hk; left; reflexivity).
      rewrite (Chan_Proofs.flow_to_map G HG d8 O Hclosed) by exact Hk0.
      destruct (radd_get v (D8_Model.flow_from G d8 k) (D8_Model.nbr G k) (fun i => dt c * get 0 Qg i)) as [H1 H2].
      { apply (Chan_Proofs.flow_to_NoDup G HG d8). exact Hk0. } { intros j _. rewrite Hv. apply nbr_lt. exact HG. }
      destruct (IH (radd v (map (D8_Model.nbr G k) (D8_Model.flow_from G d8 k))
               (map (fun i => dt c * get 0 Qg i) (D8_Model.flow_from G d8 k)))) as [H3 H4].
      { intros k' Hk'. apply Hk. right. exact Hk'. } { rewrite H1. exact Hv. }
      split; [exact H3|]. intros i. rewrite H4, H2, rsuml_cons. ring. }
  destruct (H D8_Model.dirs v) as [H1 H2]; [intros k; apply In_dirs|exact Hv|].
  split; [exact H1|]. intros i Hi. rewrite H2. f_equal.
  unfold inflow, rsumn. rewrite <- rsuml_scale.
  transitivity (rsuml (fun k => rsuml (fun j => if Z.eqb (get 0%Z d8 j) (D8_Model.g k) then
      (if Nat.eqb (D8_Model.nbr G k j) i then dt c * get 0 Qg j else 0) else 0) (seq 0 n)) D8_Model.dirs).
  { apply rsuml_ext. intros k _. unfold D8_Model.flow_from. rewrite rsuml_filter. reflexivity. }
  rewrite rsuml_swap. apply rsuml_ext. intros j Hj. apply in_seq in Hj. unfold flows_to.
  destruct (next G d8 j) as [i'|] eqn:En.
  - apply next_spec in En. destruct En as (k0 & Hk0 & E0 & ->).
    rewrite (rsuml_single _ _ k0).
    + rewrite E0, Z.eqb_refl. destruct (Nat.eqb _ i); ring.
    + repeat constructor; cbn; intuition discriminate.
    + apply In_dirs. exact Hk0.
    + intros k Hk Hne. apply In_dirs in Hk. destruct (Z.eqb _ _) eqn:E; [|reflexivity].
      exfalso. apply Hne. apply g_inj; [exact Hk|exact Hk0|]. lia.
  - rewrite Rmult_0_r. apply rsuml_zero. intros k Hk. apply In_dirs in Hk. destruct (Z.eqb _ _) eqn:E; [|reflexivity].
    exfalso. assert (next G d8 j = Some (D8_Model.nbr G k j)); [|congruence].
    apply next_spec. exists k. split; [exact Hk|]. split; [lia|reflexivity].
Qed.

Lemma total_inflow q : rsumn n (inflow G d8 q) = rsumn n (fun j => if flows G d8 j then q j else 0).
Proof.
  unfold inflow, rsumn. rewrite rsuml_swap. apply rsuml_ext. intros j Hj. apply in_seq in Hj. unfold flows_to, flows.
  destruct (next G d8 j) as [i'|] eqn:E.
  - rewrite (rsuml_single _ _ i'); [rewrite Nat.eqb_refl; reflexivity|apply seq_NoDup|apply in_seq; apply next_lt in E; [lia|exact HG]|].
    intros a _ Ha. destruct (Nat.eqb i' a) eqn:Ea; [|reflexivity]. apply Nat.eqb_eq in Ea. congruence.
  - apply rsuml_zero. reflexivity.
Qed.

Lemma no_flow_flows i : (i < n)%nat -> no_flow d8 i = negb (flows G d8 i).
Proof.
  intros Hi. unfold no_flow, flows, next, target. destruct Hcodes as [_ Hc]. destruct (Hc i Hi) as [Hz|Hz].
  - rewrite Hz. reflexivity.
  - pose proof Hz as Hz'. apply offset_some in Hz'. destruct Hz' as (k & Hk & Ek). pose proof (D8_Proofs.g_range k Hk).
    unfold is_code in Hz. destruct (offset (get 0%Z d8 i)) as [[a b]|]; [|congruence]. cbn [negb]. lia.
Qed.
Lemma noflow_In i : In i nofl <-> (i < n)%nat /\ flows G d8 i = false.
Proof.
  unfold noflow. rewrite filter_In, in_seq. split.
  - intros [Hi E]. rewrite no_flow_flows in E by lia. split; [lia|]. destruct (flows G d8 i); [discriminate|reflexivity].
  - intros [Hi E]. rewrite no_flow_flows by lia. rewrite E. split; [lia|reflexivity].
Qed.
Lemma rset_noflow a i : length a = n -> (i < n)%nat -> get 0 (rset a nofl 0) i = if flows G d8 i then get 0 a i else 0.
Proof.
  intros Ha Hi. destruct (flows G d8 i) eqn:E.
  - apply rset_out. intros H. apply noflow_In in H. destruct H. congruence.
  - apply rset_in; [|apply noflow_In; auto]. intros p Hp. apply noflow_In in Hp. lia.
Qed.
Lemma parent_next i j : (i < n)%nat -> next G d8 i = Some j -> parent pid i = j.
Proof.
  intros Hi E. apply next_spec in E. destruct E as (k & Hk & E & ->). unfold parent. apply (Chan_Proofs.pid_next G HG d8 O Hclosed); assumption.
Qed.

(* ---------------------------------------------------------------- one cell in one update *)
(* the volume that the update gives to cell i, before the edges are emptied *)
Definition new_vol (s : wave) (r : nat -> R) (i : nat) : R :=
  Rmax (get 0 (w_vol s) i + r i * da c i * dt c + dt c * inflow G d8 (get 0 (discharge G c s)) i
        - get 0 (discharge G c s) i * dt c) 0.

Lemma flow_volume_get s r i : (i < n)%nat -> get 0 (flow_volume G d8 pid c r (discharge G c s) (w_vol s)) i = new_vol s r i.
Proof.
  intros Hi. unfold flow_volume, new_vol.
  set (v1 := tab n (fun i => get 0 (w_vol s) i + r i * da c i * dt c)).
  destruct (route_spec (discharge G c s) v1 (tab_length _ _)) as [_ H]. rewrite !get_tab by exact Hi.
  rewrite H by exact Hi. unfold v1. rewrite get_tab by exact Hi. reflexivity.
Qed.

Definition chan_part (v : R) (i : nat) : R := if FLOOD c then Rmin v (vol_bankfull c i) else v.
Definition depth_of (v : R) (i : nat) : R := channel_depth (chan_part v i) (width c i) (ds c i) (angle c i).
Definition flood_of (v : R) (i : nat) : R := Rmax (v - vol_bankfull c i) 0.

Lemma upd_vol s r i : (i < n)%nat -> get 0 (w_vol (upd s r)) i = if flows G d8 i then new_vol s r i else 0.
Proof.
  intros Hi. unfold update. cbn [w_vol]. rewrite rset_noflow; [|apply tab_length|exact Hi]. rewrite flow_volume_get by exact Hi. reflexivity.
Qed.
Lemma get_if {X} (b : bool) (d : X) l1 l2 i : get d (if b then l1 else l2) i = if b then get d l1 i else get d l2 i.
Proof. destruct b; reflexivity. Qed.
Lemma upd_A s r i : (i < n)%nat -> get 0 (w_A (upd s r)) i = ChanR_Model.A_wet (depth_of (new_vol s r i) i) (width c i) (angle c i).
Proof.
  intros Hi. unfold update. cbn [w_A]. rewrite !get_tab by exact Hi. unfold depth_of, chan_part.
  rewrite get_if, ?get_tab, !flow_volume_get by exact Hi. reflexivity.
Qed.
Lemma upd_d s r i : (i < n)%nat -> get 0 (w_d (upd s r)) i = if flows G d8 i then depth_of (new_vol s r i) i else 0.
Proof.
  intros Hi. unfold update. cbn [w_d]. rewrite rset_noflow; [|apply tab_length|exact Hi]. rewrite !get_tab by exact Hi.
  unfold depth_of, chan_part. rewrite get_if, ?get_tab, !flow_volume_get by exact Hi. reflexivity.
Qed.
Lemma upd_chan s r i : (i < n)%nat -> flows G d8 i = true -> get 0 (w_chan (upd s r)) i = chan_part (new_vol s r i) i.
Proof.
  intros Hi Hf. unfold update. cbn [w_chan]. unfold chan_part. rewrite get_if.
  destruct (FLOOD c); [rewrite get_tab, flow_volume_get by exact Hi; reflexivity|].
  rewrite rset_noflow; [|apply tab_length|exact Hi]. rewrite Hf, flow_volume_get by exact Hi. reflexivity.
Qed.
Lemma upd_df s r i : FLOOD c = true -> (i < n)%nat ->
  get 0 (w_df (upd s r)) i = if flows G d8 i then flood_depth (flood_of (new_vol s r i) i) (width c i) (ds c i) else 0.
Proof.
  intros HF Hi. unfold update. cbn [w_df]. rewrite HF. rewrite rset_noflow; [|apply tab_length|exact Hi].
  rewrite !get_tab, flow_volume_get by exact Hi. reflexivity.
Qed.
Lemma upd_flood s r i : FLOOD c = true -> (i < n)%nat ->
  get 0 (w_flood (upd s r)) i = if flows G d8 i then flood_of (new_vol s r i) i else 0.
Proof.
  intros HF Hi. unfold update. cbn [w_flood]. rewrite HF. rewrite rset_noflow; [|apply tab_length|exact Hi].
  rewrite !get_tab, flow_volume_get by exact Hi. reflexivity.
Qed.
Lemma upd_u s r i : (i < n)%nat -> get 0 (w_u (upd s r)) i =
  if flows G d8 i then
    velocity c (ChanR_Model.Rh false (depth_of (new_vol s r i) i) (width c i) (angle c i)) (depth_of (new_vol s r i) i)
             (slope_of c (upd s r) i) (rough c i)
  else 0.
Proof.
  intros Hi. unfold update at 1. cbn [w_u]. rewrite rset_noflow; [|apply tab_length|exact Hi]. destruct (flows G d8 i) eqn:E; [|reflexivity].
  rewrite get_tab by exact Hi. rewrite (get_tab 0 n (fun i => ChanR_Model.Rh _ _ _ _)) by exact Hi.
  rewrite no_flow_flows by exact Hi. rewrite E. cbn [negb].
  rewrite (get_tab 0 n (fun i => channel_depth _ _ _ _)) by exact Hi. unfold depth_of, chan_part.
  rewrite get_if, ?get_tab, !flow_volume_get by exact Hi. unfold slope_of, update. cbn [w_S]. destruct (KINEMATIC c); reflexivity.
Qed.
Lemma upd_edge s r : w_edge (upd s r) = w_edge s + rsumn n (fun i => if flows G d8 i then 0 else new_vol s r i).
Proof.
  unfold update. cbn [w_edge]. f_equal. transitivity (rsuml (fun i => get 0 (flow_volume G d8 pid c r (discharge G c s) (w_vol s)) i) nofl).
  { unfold rsuml. generalize nofl. intros l. induction l as [|a l IH]; [reflexivity|]. cbn [map fold_right]. rewrite IH. reflexivity. }
  unfold noflow. rewrite rsuml_filter. apply rsuml_ext. intros i Hi. apply in_seq in Hi. rewrite no_flow_flows by lia.
  destruct (flows G d8 i); cbn [negb]; [reflexivity|]. apply flow_volume_get. lia.
Qed.
Lemma upd_S s r i : KINEMATIC c = false -> (i < n)%nat ->
  get 0 (w_S (upd s r)) i = S_bed c i +
    (let tot k := depth_of (new_vol s r k) k + (if FLOOD c then flood_depth (flood_of (new_vol s r k) k) (width c k) (ds c k) else 0) in
     (tot i - tot (parent pid i)) / ds c i) \/ (n <= parent pid i)%nat.
Proof.
  intros HK Hi. destruct (le_lt_dec n (parent pid i)) as [Hp|Hp]; [right; exact Hp|left].
  unfold update. cbn [w_S]. rewrite HK. unfold free_surface_slope. rewrite get_tab by exact Hi. cbv zeta.
  unfold depth_of, chan_part, flood_of. destruct (FLOOD c); rewrite !get_tab, ?flow_volume_get by assumption; [reflexivity|]. rewrite !Rplus_0_r. reflexivity.
Qed.
End Grid.
