From Coq Require Import ZArith QArith Qminmax List Bool Lia Lqa ZifyBool Permutation.
From Verif Require Import Base Fill_Model Fill_Spec.
From Verif Require D8_Proofs.
Import ListNotations.
Local Open Scope Q_scope.

Lemma highest_cons z c l : l <> [] -> highest z (c :: l) = Qmax (z c) (highest z l).
Proof. destruct l; [congruence|reflexivity]. Qed.

Lemma route_ne adj st ok c l : route adj st ok c l -> l <> [].
Proof. destruct 1; discriminate. Qed.

Lemma route_head adj st ok c l : route adj st ok c l -> exists t, l = c :: t.
Proof. destruct 1; eauto. Qed.

(* ---------------------------------------------------------------- heappop *)

Lemma heappop_none h : heappop h = None <-> h = [].
Proof.
  split; [|intros ->; reflexivity]. destruct h as [|p t]; [auto|]. cbn.
  destruct (heappop t) as [[m t']|]; [destruct (pair_lt m p)|]; discriminate.
Qed.

Lemma pair_lt_le a b : pair_lt a b = true -> fst a <= fst b.
Proof.
  unfold pair_lt. intros H. apply orb_true_iff in H. destruct H as [H|H].
  - apply Qltb_lt in H. lra.
  - apply andb_true_iff in H. destruct H as [H _]. apply Qeq_bool_iff in H. lra.
Qed.
Lemma pair_lt_ge a b : pair_lt a b = false -> fst b <= fst a.
Proof.
  unfold pair_lt. intros H. apply orb_false_iff in H. destruct H as [H _]. apply Qltb_ge in H. exact H.
Qed.

Lemma heappop_spec h m t : heappop h = Some (m, t) ->
  Permutation h (m :: t) /\ forall p, In p h -> fst m <= fst p.
Proof.
  revert m t. induction h as [|p h IH]; intros m t; cbn; [discriminate|].
  destruct (heappop h) as [[m' t']|] eqn:E.
  - destruct (IH m' t' eq_refl) as [Hp Hm]. destruct (pair_lt m' p) eqn:El; intros H; inversion H; subst.
    + split; [rewrite Hp; apply perm_swap|]. intros q [<-|Hq]; [apply pair_lt_le; exact El|apply Hm; exact Hq].
    + split; [reflexivity|]. intros q [<-|Hq]; [lra|].
      pose proof (pair_lt_ge _ _ El). specialize (Hm q Hq). lra.
  - apply heappop_none in E. subst. intros H. inversion H; subst. split; [reflexivity|].
    intros q [<-|[]]. lra.
Qed.

(* ---------------------------------------------------------------- neighbours *)

Section Fill.
Variables nx ny : nat.
Hypothesis Hnx : (1 <= nx)%nat.
Hypothesis Hny : (1 <= ny)%nat.
Notation n := (nx * ny)%nat.

Lemma npix_pos : (1 <= n)%nat.
Proof. nia. Qed.

Lemma near_spec i j : In j (near nx ny i) ->
  (j < n)%nat /\ exists dr dc, (-1 <= dr <= 1)%Z /\ (-1 <= dc <= 1)%Z /\ (dr, dc) <> (0, 0)%Z /\
    Z.of_nat j = (Z.of_nat i + dr * Z.of_nat nx + dc)%Z.
Proof.
  unfold near. intros H. apply in_map_iff in H. destruct H as (v & <- & H). apply filter_In in H.
  destruct H as [H Hb]. assert (Hv : (0 <= v < Z.of_nat (npix nx ny))%Z) by lia. clear Hb.
  unfold npix in Hv. split; [lia|]. rewrite Z2Nat.id by lia.
  apply in_map_iff in H. destruct H as (inc & <- & H). unfold incs in H.
  set (m := Z.of_nat nx) in *. cbn [In] in H.
  destruct H as [<-|[<-|[<-|[<-|[<-|[<-|[<-|[<-|[]]]]]]]]].
  - exists (-1)%Z, (-1)%Z. repeat split; try lia; try discriminate.
  - exists (-1)%Z, 0%Z. repeat split; try lia; try discriminate.
  - exists (-1)%Z, 1%Z. repeat split; try lia; try discriminate.
  - exists 0%Z, (-1)%Z. repeat split; try lia; try discriminate.
  - exists 0%Z, 1%Z. repeat split; try lia; try discriminate.
  - exists 1%Z, (-1)%Z. repeat split; try lia; try discriminate.
  - exists 1%Z, 0%Z. repeat split; try lia; try discriminate.
  - exists 1%Z, 1%Z. repeat split; try lia; try discriminate.
Qed.

Lemma near_adj i j : In j (near nx ny i) <-> id_adjacent nx ny i j.
Proof.
  split; [apply near_spec|].
  intros (Hj & dr & dc & Hr & Hc & Hne & E). unfold near. apply in_map_iff. exists (Z.of_nat j).
  split; [apply Nat2Z.id|]. apply filter_In. split; [|unfold npix; lia].
  apply in_map_iff. exists (dr * Z.of_nat nx + dc)%Z. split; [lia|]. unfold incs. set (m := Z.of_nat nx) in *.
  assert (Hd : (dr = -1 \/ dr = 0 \/ dr = 1)%Z) by lia. assert (Hd' : (dc = -1 \/ dc = 0 \/ dc = 1)%Z) by lia.
  cbn [In].
  destruct Hd as [->|[->| ->]], Hd' as [->|[->| ->]]; try congruence; clear -m; lia.
Qed.

Lemma near_nonempty i : (i < n)%nat -> near nx ny i <> [].
Proof.
  intros Hi E. assert (Hx : exists j, In j (near nx ny i)).
  { destruct (Nat.eq_dec n 1) as [E1|E1].
    - exists 0%nat. apply near_adj. assert (nx = 1%nat) by nia. assert (i = 0%nat) by lia. subst i. split; [lia|].
      exists 1%Z, (-1)%Z. repeat split; try lia. discriminate.
    - destruct (Nat.eq_dec i 0) as [->|H0].
      + exists 1%nat. apply near_adj. pose proof npix_pos. split; [lia|]. exists 0%Z, 1%Z. repeat split; try lia. discriminate.
      + exists (i - 1)%nat. apply near_adj. split; [lia|]. exists 0%Z, (-1)%Z. repeat split; try lia. discriminate. }
  destruct Hx as (j & Hj). rewrite E in Hj. destruct Hj.
Qed.

Lemma near_length i : (length (near nx ny i) <= 8)%nat.
Proof.
  unfold near. rewrite map_length.
  assert (H : forall (f : Z -> bool) l, (length (filter f l) <= length l)%nat).
  { induction l as [|a l IH]; cbn; [lia|]. destruct (f a); cbn; lia. }
  etransitivity; [apply H|]. rewrite map_length. reflexivity.
Qed.

(* ---------------------------------------------------------------- one batch of neighbours *)

Definition raise (zmin z : Q) : Q := if Qltb z zmin then zmin else z.

Lemma raise_idem zmin z : raise zmin (raise zmin z) = raise zmin z.
Proof.
  unfold raise. destruct (Qltb z zmin) eqn:E; [|rewrite E; reflexivity].
  destruct (Qltb zmin zmin) eqn:E'; reflexivity.
Qed.
Lemma raise_max zmin z : raise zmin z == Qmax zmin z.
Proof.
  unfold raise. destruct (Qltb z zmin) eqn:E.
  - apply Qltb_lt in E. symmetry. apply Q.max_l. lra.
  - apply Qltb_ge in E. symmetry. apply Q.max_r. exact E.
Qed.

Lemma visits zmin ids : forall dem C h, length dem = n -> length C = n ->
  (forall j, In j ids -> (j < n)%nat) ->
  let '(dem', C', h') := fold_left (visit zmin) ids (dem, C, h) in
  length dem' = n /\ length C' = n /\ length h' = (length h + length ids)%nat /\
  (forall i, In i ids -> get 0 dem' i = raise zmin (get 0 dem i) /\ get OPEN C' i = ON_HEAP) /\
  (forall i, ~ In i ids -> get 0 dem' i = get 0 dem i /\ get OPEN C' i = get OPEN C i) /\
  (forall p, In p h' <-> In p h \/ exists i, In i ids /\ p = (get 0 dem' i, i)).
Proof.
  induction ids as [|a ids IH]; intros dem C h Hd HC Hids; cbn [fold_left].
  - repeat split; auto; try lia; try contradiction.
    intros [H|(i & [] & _)]. exact H.
  - unfold visit at 2.
    set (dem1 := if Qltb (get 0 dem a) zmin then set dem a zmin else dem).
    assert (Ha : (a < n)%nat) by (apply Hids; left; reflexivity).
    assert (Hd1 : length dem1 = n) by (unfold dem1; destruct (Qltb _ _); [rewrite set_length|]; exact Hd).
    assert (Hda : get 0 dem1 a = raise zmin (get 0 dem a)).
    { unfold dem1, raise. destruct (Qltb (get 0 dem a) zmin); [apply get_set_same; lia|reflexivity]. }
    assert (Hdo : forall i, i <> a -> get 0 dem1 i = get 0 dem i).
    { intros i Hi. unfold dem1. destruct (Qltb _ _); [apply get_set_other; congruence|reflexivity]. }
    specialize (IH dem1 (set C a ON_HEAP) ((get 0 dem1 a, a) :: h) Hd1).
    rewrite set_length in IH. specialize (IH HC (fun j Hj => Hids j (or_intror Hj))).
    destruct (fold_left (visit zmin) ids (dem1, set C a ON_HEAP, (get 0 dem1 a, a) :: h)) as [[dem' C'] h'].
    destruct IH as (H1 & H2 & H3 & H4 & H5 & H6).
    assert (Ha' : get 0 dem' a = get 0 dem1 a).
    { destruct (in_dec Nat.eq_dec a ids) as [Hin|Hin].
      - rewrite (proj1 (H4 a Hin)), Hda. apply raise_idem.
      - apply (H5 a Hin). }
    split; [exact H1|]. split; [exact H2|]. split; [rewrite H3; cbn [length]; lia|]. split; [|split].
    + intros i Hi. destruct (Nat.eq_dec i a) as [->|Hne].
      * split; [rewrite Ha'; exact Hda|]. destruct (in_dec Nat.eq_dec a ids) as [Hin|Hin]; [apply (H4 a Hin)|].
        rewrite (proj2 (H5 a Hin)). apply get_set_same. lia.
      * destruct Hi as [Hi|Hi]; [congruence|]. destruct (H4 i Hi) as [E1 E2]. rewrite E1, Hdo by exact Hne. auto.
    + intros i Hi. destruct (H5 i) as [E1 E2]; [intros Hin; apply Hi; right; exact Hin|].
      assert (i <> a) by (intros ->; apply Hi; left; reflexivity).
      rewrite E1, E2, Hdo, get_set_other by congruence. auto.
    + intros p. rewrite H6. cbn [In]. split.
      * intros [[<-|Hp]|(i & Hi & ->)]; [right; exists a; rewrite Ha'; auto|left; exact Hp|right; exists i; auto].
      * intros [Hp|(i & [<-|Hi] & ->)]; [left; right; exact Hp|left; left; rewrite Ha'; reflexivity|right; exists i; auto].
Qed.

(* ---------------------------------------------------------------- invariant *)

Section Loop.
Variable z0 : list Q.
Hypothesis Hz0 : length z0 = n.
Variable start : nat -> Prop.        (* start pixels *)
Variable blocked : nat -> bool.      (* CLOSED from the outset and not a start pixel *)
Hypothesis Hsb : forall s, start s -> (s < n)%nat /\ blocked s = false.

Notation adj := (id_adjacent nx ny).
Notation rte := (route adj start (fun v => blocked v = false)).
Notation Z0 := (get 0 z0).

Definition reached (C : list status) (i : nat) : Prop := get OPEN C i <> OPEN /\ blocked i = false.

Record FInv (dem : list Q) (C : list status) (h : list (Q * nat)) (L : Q) : Prop := {
  f_len : length dem = n;
  f_lenC : length C = n;
  f_blk : forall i, (i < n)%nat -> blocked i = true -> get OPEN C i = CLOSED;
  f_same : forall i, (i < n)%nat -> ~ reached C i -> get 0 dem i = Z0 i;
  f_route : forall i, (i < n)%nat -> reached C i -> exists l, rte i l /\ get 0 dem i == highest Z0 l /\
     non_ascending (get 0 dem) l /\ forall x, In x l -> (x < n)%nat /\ reached C x;
  f_heap : forall p, In p h -> (snd p < n)%nat /\ reached C (snd p) /\ fst p = get 0 dem (snd p) /\ L <= fst p;
  f_onheap : forall i, (i < n)%nat -> get OPEN C i = ON_HEAP -> In (get 0 dem i, i) h;
  f_popped : forall u v, (u < n)%nat -> get OPEN C u = CLOSED -> blocked u = false -> adj u v ->
     get OPEN C v <> OPEN /\ (blocked v = false -> get 0 dem v <= Qmax (get 0 dem u) (Z0 v));
  f_level : forall v, (v < n)%nat -> reached C v -> get 0 dem v <= Qmax L (Z0 v);
  f_start : forall s, start s -> reached C s /\ get 0 dem s = Z0 s
}.

Lemma reached_dec C i : {reached C i} + {~ reached C i}.
Proof.
  unfold reached. destruct (get OPEN C i) eqn:E; destruct (blocked i); auto;
    try (left; split; congruence); right; intros [H1 H2]; congruence.
Qed.

Lemma non_ascending_ext z z' l : (forall x, In x l -> z x = z' x) -> non_ascending z l -> non_ascending z' l.
Proof.
  induction l as [|a l IH]; [auto|]. intros H Hn. destruct l as [|b l]; [auto|].
  destruct Hn as [H1 H2]. cbn. split.
  - rewrite <- (H a), <- (H b); [exact H1|right; left; reflexivity|left; reflexivity].
  - apply IH; [|exact H2]. intros x Hx. apply H. right. exact Hx.
Qed.

Lemma step_inv dem C h L zmin u h' : FInv dem C h L -> heappop h = Some ((zmin, u), h') ->
  let C1 := set C u CLOSED in
  let ids := filter (fun j => is_OPEN (get OPEN C1 j)) (near nx ny u) in
  let '(dem2, C2, h2) := fold_left (visit zmin) ids (dem, C1, h') in
  FInv dem2 C2 h2 zmin /\ length h2 = (length h - 1 + length ids)%nat /\
  (forall i, (i < n)%nat -> get OPEN C2 i = OPEN -> get OPEN C i = OPEN) /\
  (forall j, In j ids -> (j < n)%nat /\ get OPEN C j = OPEN /\ get OPEN C2 j <> OPEN).
Proof.
  intros HI Hpop C1 ids. destruct (heappop_spec _ _ _ Hpop) as [Hperm Hmin]. cbn [fst] in Hmin.
  assert (Hin : In (zmin, u) h) by (rewrite Hperm; left; reflexivity).
  destruct (f_heap _ _ _ _ HI _ Hin) as (Hu & Hru & Hzu & HLu). cbn [fst snd] in *.
  assert (HC1 : length C1 = n) by (unfold C1; rewrite set_length; apply (f_lenC _ _ _ _ HI)).
  assert (HC1u : get OPEN C1 u = CLOSED) by (apply get_set_same; rewrite (f_lenC _ _ _ _ HI); exact Hu).
  assert (HC1o : forall i, i <> u -> get OPEN C1 i = get OPEN C i) by (intros i Hi; apply get_set_other; congruence).
  assert (Hids : forall j, In j ids -> (j < n)%nat /\ adj u j /\ get OPEN C j = OPEN /\ j <> u).
  { intros j Hj. apply filter_In in Hj. destruct Hj as [Hj Ho]. apply near_adj in Hj.
    split; [apply Hj|]. split; [exact Hj|].
    destruct (Nat.eq_dec j u) as [->|Hne]; [rewrite HC1u in Ho; discriminate|].
    rewrite HC1o in Ho by exact Hne. split; [|exact Hne]. destruct (get OPEN C j); [reflexivity|discriminate..]. }
  pose proof (visits zmin ids dem C1 h' (f_len _ _ _ _ HI) HC1 (fun j Hj => proj1 (Hids j Hj))) as HV.
  destruct (fold_left (visit zmin) ids (dem, C1, h')) as [[dem2 C2] h2].
  destruct HV as (V1 & V2 & V3 & V4 & V5 & V6).
  (* summary of the new state *)
  assert (Hopen2 : forall i, get OPEN C2 i = OPEN -> get OPEN C i = OPEN /\ ~ In i ids /\ i <> u).
  { intros i E. destruct (in_dec Nat.eq_dec i ids) as [Hi|Hi]; [destruct (V4 i Hi); congruence|].
    destruct (V5 i Hi) as [_ E2]. rewrite E2 in E. destruct (Nat.eq_dec i u) as [->|Hne]; [congruence|].
    rewrite HC1o in E by exact Hne. auto. }
  assert (Hreach2 : forall i, reached C2 i <-> reached C i \/ (In i ids /\ blocked i = false)).
  { intros i. unfold reached. split.
    - intros [H1 H2]. destruct (in_dec Nat.eq_dec i ids) as [Hi|Hi]; [right; auto|left].
      split; [|exact H2]. destruct (V5 i Hi) as [_ E2]. rewrite E2 in H1.
      destruct (Nat.eq_dec i u) as [->|Hne]; [apply Hru|]. rewrite HC1o in H1 by exact Hne. exact H1.
    - intros [[H1 H2]|[Hi H2]]; (split; [|exact H2]).
      + intros E. apply Hopen2 in E. destruct E as [E _]. contradiction.
      + destruct (V4 i Hi) as [_ ->]. discriminate. }
  assert (Hnb : forall j, In j ids -> blocked j = false).
  { intros j Hj. destruct (blocked j) eqn:E; [|reflexivity]. destruct (Hids j Hj) as (Hjn & _ & Ho & _).
    rewrite (f_blk _ _ _ _ HI j Hjn E) in Ho. discriminate. }
  assert (Hdem_old : forall i, reached C i -> get 0 dem2 i = get 0 dem i).
  { intros i [Hi _]. apply V5. intros Hin'. destruct (Hids i Hin') as (_ & _ & Ho & _). contradiction. }
  assert (Hdem_u : get 0 dem2 u = zmin) by (rewrite Hdem_old by exact Hru; symmetry; exact Hzu).
  assert (Hidsz : forall j, In j ids -> get 0 dem2 j = raise zmin (Z0 j)).
  { intros j Hj. rewrite (proj1 (V4 j Hj)). f_equal. destruct (Hids j Hj) as (Hjn & _ & Ho & _).
    apply (f_same _ _ _ _ HI j Hjn). intros [H _]. contradiction. }
  split; [|split; [|split]].
  2:{ rewrite V3. apply Permutation_length in Hperm. cbn in Hperm. lia. }
  2:{ intros i _ E. apply Hopen2 in E. apply E. }
  2:{ intros j Hj. destruct (Hids j Hj) as (H1 & _ & H2 & _). split; [exact H1|]. split; [exact H2|].
      rewrite (proj2 (V4 j Hj)). discriminate. }
  split.
  - exact V1.
  - exact V2.
  - intros i Hi Hb. destruct (in_dec Nat.eq_dec i ids) as [Hin'|Hni]; [rewrite (Hnb i Hin') in Hb; discriminate|].
    rewrite (proj2 (V5 i Hni)). destruct (Nat.eq_dec i u) as [->|Hne]; [exact HC1u|].
    rewrite HC1o by exact Hne. apply (f_blk _ _ _ _ HI); assumption.
  - intros i Hi Hnr. rewrite Hreach2 in Hnr.
    assert (Hni : ~ In i ids) by (intros Hj; apply Hnr; right; auto).
    rewrite (proj1 (V5 i Hni)). apply (f_same _ _ _ _ HI i Hi). intros H. apply Hnr. left. exact H.
  - intros i Hi Hr. apply Hreach2 in Hr. destruct (in_dec Nat.eq_dec i ids) as [Hin'|Hni].
    + destruct (f_route _ _ _ _ HI u Hu Hru) as (l & Hl & Hz & Hna & Hall).
      exists (i :: l). split; [|split; [|split]].
      * eapply route_step; [exact Hl|apply (Hids i Hin')|apply Hnb; exact Hin'].
      * rewrite highest_cons by (eapply route_ne; exact Hl). rewrite Hidsz, raise_max by exact Hin'.
        rewrite Q.max_comm. rewrite Hzu, Hz. reflexivity.
      * destruct (route_head _ _ _ _ _ Hl) as (t & ->).
        change (get 0 dem2 u <= get 0 dem2 i /\ non_ascending (get 0 dem2) (u :: t)). split.
        -- rewrite Hdem_u, Hidsz, raise_max by exact Hin'. apply Q.le_max_l.
        -- apply non_ascending_ext with (get 0 dem); [|exact Hna]. intros x Hx. symmetry. apply Hdem_old. apply Hall. exact Hx.
      * intros x [<-|Hx]; [split; [exact Hi|apply Hreach2; right; auto]|].
        destruct (Hall x Hx) as [Hxn Hxr]. split; [exact Hxn|]. apply Hreach2. left. exact Hxr.
    + destruct Hr as [Hr|[Hr _]]; [|contradiction].
      destruct (f_route _ _ _ _ HI i Hi Hr) as (l & Hl & Hz & Hna & Hall).
      exists l. split; [exact Hl|]. split; [rewrite Hdem_old by exact Hr; exact Hz|]. split.
      * apply non_ascending_ext with (get 0 dem); [|exact Hna]. intros x Hx. symmetry. apply Hdem_old. apply Hall. exact Hx.
      * intros x Hx. destruct (Hall x Hx) as [Hxn Hxr]. split; [exact Hxn|]. apply Hreach2. left. exact Hxr.
  - intros p Hp. apply V6 in Hp. destruct Hp as [Hp|(i & Hi & ->)].
    + assert (Hph : In p h) by (rewrite Hperm; right; exact Hp).
      destruct (f_heap _ _ _ _ HI p Hph) as (H1 & H2 & H3 & H4). split; [exact H1|].
      split; [apply Hreach2; left; exact H2|]. split; [rewrite Hdem_old by exact H2; exact H3|apply Hmin; exact Hph].
    + cbn [fst snd]. split; [apply (Hids i Hi)|]. split; [apply Hreach2; right; auto|]. split; [reflexivity|].
      rewrite Hidsz, raise_max by exact Hi. apply Q.le_max_l.
  - intros i Hi Ei. apply V6. destruct (in_dec Nat.eq_dec i ids) as [Hin'|Hni]; [right; exists i; auto|left].
    rewrite (proj2 (V5 i Hni)) in Ei. destruct (Nat.eq_dec i u) as [->|Hne]; [congruence|].
    rewrite HC1o in Ei by exact Hne. pose proof (f_onheap _ _ _ _ HI i Hi Ei) as Hih.
    rewrite (proj1 (V5 i Hni)). rewrite Hperm in Hih. destruct Hih as [E|E]; [|exact E]. inversion E. congruence.
  - intros w v Hw Ew Hbw Hadj. 
    destruct (in_dec Nat.eq_dec w ids) as [Hwi|Hwi]; [destruct (V4 w Hwi); congruence|].
    destruct (Nat.eq_dec w u) as [->|Hne].
    + assert (Hvn : get OPEN C2 v <> OPEN).
      { intros E. apply Hopen2 in E. destruct E as (E1 & E2 & E3). apply E2. apply filter_In.
        split; [apply near_adj; exact Hadj|]. rewrite HC1o by exact E3. rewrite E1. reflexivity. }
      split; [exact Hvn|]. intros Hbv. rewrite Hdem_u.
      assert (Hrv : reached C2 v) by (split; assumption). apply Hreach2 in Hrv.
      destruct (in_dec Nat.eq_dec v ids) as [Hvi|Hvi].
      * rewrite Hidsz, raise_max by exact Hvi. lra.
      * destruct Hrv as [Hrv|[Hrv _]]; [|contradiction]. rewrite Hdem_old by exact Hrv.
        pose proof (f_level _ _ _ _ HI v (proj1 Hadj) Hrv) as Hlv.
        eapply Qle_trans; [exact Hlv|]. apply Q.max_le_compat_r. exact HLu.
    + rewrite (proj2 (V5 w Hwi)), HC1o in Ew by exact Hne.
      destruct (f_popped _ _ _ _ HI w v Hw Ew Hbw Hadj) as [H1 H2].
      assert (Hrw : reached C w) by (split; [congruence|exact Hbw]).
      split; [intros E; apply Hopen2 in E; destruct E; contradiction|].
      intros Hbv. rewrite (Hdem_old w Hrw). rewrite (Hdem_old v) by (split; assumption). apply H2. exact Hbv.
  - intros v Hv Hr. apply Hreach2 in Hr. destruct (in_dec Nat.eq_dec v ids) as [Hvi|Hvi].
    + rewrite Hidsz, raise_max by exact Hvi. lra.
    + destruct Hr as [Hr|[Hr _]]; [|contradiction]. rewrite Hdem_old by exact Hr.
      eapply Qle_trans; [apply (f_level _ _ _ _ HI v Hv Hr)|]. apply Q.max_le_compat_r. exact HLu.
  - intros s Hs. destruct (f_start _ _ _ _ HI s Hs) as [H1 H2]. split; [apply Hreach2; left; exact H1|].
    rewrite Hdem_old by exact H1. exact H2.
Qed.

Definition n_open (C : list status) : nat := D8_Model.count n (fun i => is_OPEN (get OPEN C i)).

Lemma loop_inv fuel : forall dem C h L, FInv dem C h L -> (length h + 8 * n_open C <= fuel)%nat ->
  exists dem' C' L', fill_loop nx ny fuel dem C h = Done dem' /\ FInv dem' C' [] L'.
Proof.
  induction fuel as [|fuel IH]; intros dem C h L HI Hf.
  - destruct h; [|cbn in Hf; lia]. exists dem, C, L. split; [reflexivity|exact HI].
  - cbn [fill_loop]. destruct (heappop h) as [[[zmin u] h']|] eqn:Hpop.
    2:{ apply heappop_none in Hpop. subst h. exists dem, C, L. split; [reflexivity|exact HI]. }
    pose proof (step_inv dem C h L zmin u h' HI Hpop) as HS. cbv zeta in HS.
    assert (Hu : (u < n)%nat).
    { destruct (heappop_spec _ _ _ Hpop) as [Hperm _].
      assert (Hin : In (zmin, u) h) by (rewrite Hperm; left; reflexivity). apply (f_heap _ _ _ _ HI _ Hin). }
    pose proof (near_nonempty u Hu) as Hne. pose proof (near_length u) as Hnl.
    assert (Hhl : (0 < length h)%nat).
    { destruct (heappop_spec _ _ _ Hpop) as [Hperm _]. apply Permutation_length in Hperm. cbn in Hperm. lia. }
    destruct (near nx ny u) as [|a ids0] eqn:En; [congruence|].
    set (ids := filter (fun j => is_OPEN (get OPEN (set C u CLOSED) j)) (a :: ids0)) in *.
    destruct (fold_left (visit zmin) ids (dem, set C u CLOSED, h')) as [[dem2 C2] h2].
    destruct HS as (HI2 & Hl2 & Hmono & Hids).
    apply (IH dem2 C2 h2 zmin HI2).
    assert (Hil : (length ids <= 8)%nat).
    { assert (H : forall (f : nat -> bool) l, (length (filter f l) <= length l)%nat).
      { induction l as [|b l IHl]; cbn; [lia|]. destruct (f b); cbn; lia. }
      etransitivity; [apply H|exact Hnl]. }
    assert (Hle : (n_open C2 <= n_open C)%nat).
    { apply D8_Proofs.count_le. intros i Hi E. specialize (Hmono i Hi).
      destruct (get OPEN C2 i); try discriminate. rewrite (Hmono eq_refl). reflexivity. }
    destruct ids as [|j ids1] eqn:Ei.
    + cbn [length] in *. lia.
    + assert (n_open C2 < n_open C)%nat; [|lia]. apply D8_Proofs.count_lt.
      * intros i Hi E. specialize (Hmono i Hi).
        destruct (get OPEN C2 i); try discriminate. rewrite (Hmono eq_refl). reflexivity.
      * destruct (Hids j (or_introl eq_refl)) as (Hj & Ho & Hn). exists j. split; [exact Hj|].
        rewrite Ho. split; [|reflexivity]. destruct (get OPEN C2 j); [congruence|reflexivity..].
Qed.

(* what the invariant says once the heap is empty *)
Lemma final_inv dem C L : FInv dem C [] L ->
  (forall c l, rte c l -> (c < n)%nat /\ reached C c /\ get 0 dem c <= highest Z0 l) /\
  (forall c, (c < n)%nat -> reached C c \/ get 0 dem c = Z0 c).
Proof.
  intros HI.
  assert (Hno : forall i, (i < n)%nat -> get OPEN C i <> ON_HEAP).
  { intros i Hi E. destruct (f_onheap _ _ _ _ HI i Hi E). }
  split.
  - intros c l Hr. induction Hr as [s Hs|u l v Hr IH Hadj Hok].
    + destruct (f_start _ _ _ _ HI s Hs) as [H1 H2]. split; [apply Hsb; exact Hs|]. split; [exact H1|].
      cbn. rewrite H2. lra.
    + destruct IH as (Hu & Hru & Hle).
      assert (Eu : get OPEN C u = CLOSED).
      { destruct (get OPEN C u) eqn:E; [destruct Hru; congruence|reflexivity|destruct (Hno u Hu E)]. }
      destruct (f_popped _ _ _ _ HI u v Hu Eu (proj2 Hru) Hadj) as [H1 H2].
      split; [apply Hadj|]. split; [split; assumption|].
      rewrite highest_cons by (eapply route_ne; exact Hr). rewrite Q.max_comm.
      eapply Qle_trans; [apply H2; exact Hok|]. apply Q.max_le_compat_r. exact Hle.
  - intros c Hc. destruct (reached_dec C c) as [H|H]; [left; exact H|right].
    apply (f_same _ _ _ _ HI c Hc H).
Qed.

End Loop.
End Fill.
