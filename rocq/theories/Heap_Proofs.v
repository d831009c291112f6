From Coq Require Import ZArith List Bool Permutation Lia ZifyBool.
From Verif Require Import Heap_Model Heap_Spec.
Import ListNotations.
Local Open Scope Z_scope.
Ltac Zify.zify_post_hook ::= Z.div_mod_to_equations.

Definition contents (h id : Z -> Z) (m : Z) : list (Z * Z) :=
  map (fun k => (h (Z.of_nat k), id (Z.of_nat k))) (seq 1 (Z.to_nat m)).

Definition heap_ok (h : Z -> Z) (m : Z) : Prop :=
  forall j, 2 <= j <= m -> h (j / 2) <= h j.

Lemma upd_same {A} (f : Z -> A) i v : upd f i v i = v.
Proof. unfold upd. rewrite Z.eqb_refl. reflexivity. Qed.

Lemma upd_other {A} (f : Z -> A) i v j : j <> i -> upd f i v j = f j.
Proof. unfold upd. intros H. destruct (Z.eqb_spec j i); [contradiction|reflexivity]. Qed.

(* A range of slots is permuted when two slots in it are exchanged. *)
Lemma map_seq_swap {A} (f g : nat -> A) (m i j : nat) :
  (1 <= i <= m)%nat -> (1 <= j <= m)%nat ->
  g i = f j -> g j = f i ->
  (forall k, k <> i -> k <> j -> g k = f k) ->
  Permutation (map g (seq 1 m)) (map f (seq 1 m)).
Proof.
  intros Hi Hj Hgi Hgj Hk.
  set (sg := fun k => if Nat.eqb k i then j else if Nat.eqb k j then i else k).
  assert (Hg : forall k, g k = f (sg k)).
  { intros k. unfold sg. destruct (Nat.eqb_spec k i) as [->|Hne]; [exact Hgi|].
    destruct (Nat.eqb_spec k j) as [->|Hne']; [exact Hgj|]. apply Hk; assumption. }
  rewrite (map_ext g (fun k => f (sg k)) Hg).
  rewrite <- (map_map sg f).
  apply Permutation_map.
  apply NoDup_Permutation.
  - apply FinFun.Injective_map_NoDup; [|apply seq_NoDup].
    intros a b. unfold sg.
    destruct (Nat.eqb_spec a i); destruct (Nat.eqb_spec b i);
    destruct (Nat.eqb_spec a j); destruct (Nat.eqb_spec b j); subst; intros; congruence.
  - apply seq_NoDup.
  - intros x. rewrite in_map_iff, in_seq. split.
    + intros [k [Hs Hin]]. apply in_seq in Hin. subst x. unfold sg.
      destruct (Nat.eqb_spec k i); [lia|]. destruct (Nat.eqb_spec k j); lia.
    + intros Hx. exists (sg x). split.
      * unfold sg.
        destruct (Nat.eqb_spec x i) as [->|Hxi].
        { destruct (Nat.eqb_spec j i) as [->|]; [reflexivity|].
          rewrite Nat.eqb_refl. reflexivity. }
        destruct (Nat.eqb_spec x j) as [->|Hxj].
        { rewrite Nat.eqb_refl. reflexivity. }
        destruct (Nat.eqb_spec x i); [contradiction|].
        destruct (Nat.eqb_spec x j); [contradiction|reflexivity].
      * apply in_seq. unfold sg.
        destruct (Nat.eqb_spec x i); [lia|]. destruct (Nat.eqb_spec x j); lia.
Qed.

Lemma contents_swap h id h' id' m i j :
  1 <= i <= m -> 1 <= j <= m ->
  h' i = h j -> h' j = h i -> id' i = id j -> id' j = id i ->
  (forall k, k <> i -> k <> j -> h' k = h k) ->
  (forall k, k <> i -> k <> j -> id' k = id k) ->
  Permutation (contents h' id' m) (contents h id m).
Proof.
  intros Hi Hj H1 H2 H3 H4 H5 H6. unfold contents.
  apply (map_seq_swap _ _ _ (Z.to_nat i) (Z.to_nat j)); try lia.
  - rewrite !Z2Nat.id by lia. congruence.
  - rewrite !Z2Nat.id by lia. congruence.
  - intros k Hk1 Hk2. rewrite H5, H6 by lia. reflexivity.
Qed.

(* --- sift up --- *)
Lemma sift_up_spec : forall fuel h id x i m ID,
  1 <= i <= m -> (Z.to_nat i <= fuel)%nat ->
  (forall j, 2 <= j <= m -> j <> i -> upd h i x (j / 2) <= upd h i x j) ->
  (2 <= i -> forall j, 2 <= j <= m -> j / 2 = i -> h (i / 2) <= h j) ->
  exists h' id' i',
    sift_up fuel FloorDiv h id x i = Some (h', id', i') /\
    heap_ok (upd h' i' x) m /\
    Permutation (contents (upd h' i' x) (upd id' i' ID) m)
                (contents (upd h i x) (upd id i ID) m).
Proof.
  induction fuel as [|fuel IH]; intros h id x i m ID Hi Hf Hord Hch.
  - lia.
  - cbn [sift_up half].
    destruct ((x <? h (i / 2)) && (1 <? i)) eqn:Ec.
    + apply andb_true_iff in Ec. destruct Ec as [Ex E1].
      apply Z.ltb_lt in Ex. apply Z.ltb_lt in E1.
      set (p := i / 2) in *.
      assert (Hp : 1 <= p < i) by (unfold p; lia).
      destruct (IH (upd h i (h p)) (upd id i (id p)) x p m ID) as (h' & id' & i' & E & Hok & Hperm).
      * lia.
      * lia.
      * intros j Hj Hjp.
        destruct (Z.eq_dec j i) as [->|Hji].
        { fold p. rewrite upd_same. rewrite upd_other by lia. rewrite upd_same. lia. }
        pose proof (Hord j Hj Hji) as Ho.
        rewrite (upd_other h i x j) in Ho by lia.
        rewrite (upd_other _ p x j) by lia. rewrite (upd_other _ i (h p) j) by lia.
        destruct (Z.eq_dec (j / 2) p) as [Ejp|Njp].
        { rewrite Ejp, upd_same. rewrite Ejp in Ho. rewrite upd_other in Ho by lia. lia. }
        rewrite (upd_other _ p x) by assumption.
        destruct (Z.eq_dec (j / 2) i) as [Eji|Nji].
        { rewrite Eji, upd_same. apply Hch; [lia|lia|assumption]. }
        rewrite upd_other by assumption. rewrite upd_other in Ho by assumption. exact Ho.
      * intros Hp2 j Hj Hjp.
        rewrite (upd_other h i (h p) (p / 2)) by lia.
        assert (Hpp : h (p / 2) <= h p).
        { pose proof (Hord p ltac:(lia) ltac:(lia)) as Ho.
          rewrite !upd_other in Ho by lia. exact Ho. }
        destruct (Z.eq_dec j i) as [->|Hji].
        { rewrite upd_same. exact Hpp. }
        rewrite upd_other by assumption.
        pose proof (Hord j Hj Hji) as Ho. rewrite Hjp in Ho.
        rewrite !upd_other in Ho by lia. lia.
      * exists h', id', i'. split; [exact E|]. split; [exact Hok|].
        eapply Permutation_trans; [exact Hperm|].
        apply (contents_swap _ _ _ _ m i p); try lia.
        -- rewrite upd_other by lia. rewrite upd_same. rewrite upd_other by lia. reflexivity.
        -- rewrite !upd_same. reflexivity.
        -- rewrite upd_other by lia. rewrite upd_same. rewrite upd_other by lia. reflexivity.
        -- rewrite !upd_same. reflexivity.
        -- intros k Hki Hkp. rewrite !upd_other by assumption. reflexivity.
        -- intros k Hki Hkp. rewrite !upd_other by assumption. reflexivity.
    + exists h, id, i. split; [reflexivity|]. split; [|apply Permutation_refl].
      intros j Hj. destruct (Z.eq_dec j i) as [->|Hji]; [|apply Hord; assumption].
      rewrite upd_same, upd_other by lia.
      apply andb_false_iff in Ec. destruct Ec as [Ec|Ec].
      * apply Z.ltb_ge in Ec. exact Ec.
      * apply Z.ltb_ge in Ec. lia.
Qed.

(* --- sift down --- *)
Lemma sift_down_spec : forall fuel h id m last i ID,
  1 <= i -> (1 <= m -> i <= m) -> (Z.to_nat (m - i) <= fuel)%nat ->
  (forall j, 2 <= j <= m -> j / 2 <> i -> upd h i last (j / 2) <= upd h i last j) ->
  (2 <= i -> forall j, 2 <= j <= m -> j / 2 = i -> h (i / 2) <= h j) ->
  exists h' id' i',
    sift_down fuel h id m last i = Some (h', id', i') /\
    heap_ok (upd h' i' last) m /\
    Permutation (contents (upd h' i' last) (upd id' i' ID) m)
                (contents (upd h i last) (upd id i ID) m).
Proof.
  induction fuel as [|fuel IH]; intros h id m last i ID Hi Him Hf Hord Hch.
  - cbn [sift_down]. destruct (Z.leb_spec (i * 2) m); [lia|].
    exists h, id, i. split; [reflexivity|]. split; [|apply Permutation_refl].
    intros j Hj. apply Hord; [assumption|lia].
  - cbn [sift_down]. destruct (Z.leb_spec (i * 2) m) as [Hle|Hgt].
    + set (c := if negb (i * 2 =? m)
                then if h (i * 2 + 1) <? h (i * 2) then i * 2 + 1 else i * 2
                else i * 2) in *.
      assert (Hc : (c = i * 2 \/ c = i * 2 + 1) /\ c <= m /\
                   (forall j, 2 <= j <= m -> j / 2 = i -> h c <= h j)).
      { unfold c. destruct (Z.eqb_spec (i * 2) m) as [E|E]; cbn [negb].
        - split; [lia|]. split; [lia|]. intros j Hj Hji. assert (j = i * 2) by lia. subst j. lia.
        - destruct (Z.ltb_spec (h (i * 2 + 1)) (h (i * 2))) as [E2|E2].
          + split; [lia|]. split; [lia|]. intros j Hj Hji.
            assert (Hjj : j = i * 2 \/ j = i * 2 + 1) by lia. destruct Hjj as [->| ->]; lia.
          + split; [lia|]. split; [lia|]. intros j Hj Hji.
            assert (Hjj : j = i * 2 \/ j = i * 2 + 1) by lia. destruct Hjj as [->| ->]; lia. }
      clearbody c. destruct Hc as (Hcc & Hcm & Hmin).
      assert (Hci : c / 2 = i) by lia.
      destruct (Z.ltb_spec (h c) last) as [Hlt|Hge].
      * destruct (IH (upd h i (h c)) (upd id i (id c)) m last c ID)
          as (h' & id' & i' & E & Hok & Hperm).
        -- lia.
        -- lia.
        -- lia.
        -- intros j Hj Hjc.
           destruct (Z.eq_dec j c) as [->|Njc].
           { rewrite Hci. rewrite upd_same, upd_other by lia. rewrite upd_same. lia. }
           rewrite (upd_other _ c last j) by assumption.
           rewrite (upd_other _ c last (j / 2)) by assumption.
           destruct (Z.eq_dec (j / 2) i) as [Ej|Nj].
           { rewrite Ej, upd_same. rewrite upd_other by lia. apply Hmin; assumption. }
           pose proof (Hord j Hj Nj) as Ho.
           rewrite (upd_other _ i last (j / 2)) in Ho by assumption.
           rewrite (upd_other _ i (h c) (j / 2)) by assumption.
           destruct (Z.eq_dec j i) as [->|Nji].
           { rewrite upd_same. apply Hch; [lia|lia|assumption]. }
           rewrite upd_other by assumption. rewrite upd_other in Ho by assumption. exact Ho.
        -- intros _ j Hj Hjc. rewrite Hci, upd_same. rewrite upd_other by lia.
           pose proof (Hord j Hj ltac:(lia)) as Ho. rewrite Hjc in Ho.
           rewrite !upd_other in Ho by lia. exact Ho.
        -- exists h', id', i'. split; [exact E|]. split; [exact Hok|].
           eapply Permutation_trans; [exact Hperm|].
           apply (contents_swap _ _ _ _ m i c); try lia.
           ++ rewrite upd_other by lia. rewrite upd_same. rewrite upd_other by lia. reflexivity.
           ++ rewrite !upd_same. reflexivity.
           ++ rewrite upd_other by lia. rewrite upd_same. rewrite upd_other by lia. reflexivity.
           ++ rewrite !upd_same. reflexivity.
           ++ intros k Hki Hkp. rewrite !upd_other by assumption. reflexivity.
           ++ intros k Hki Hkp. rewrite !upd_other by assumption. reflexivity.
      * exists h, id, i. split; [reflexivity|]. split; [|apply Permutation_refl].
        intros j Hj. destruct (Z.eq_dec (j / 2) i) as [Ej|Nj]; [|apply Hord; assumption].
        rewrite Ej, upd_same, upd_other by lia. pose proof (Hmin j Hj Ej). lia.
    + exists h, id, i. split; [reflexivity|]. split; [|apply Permutation_refl].
      intros j Hj. apply Hord; [assumption|lia].
Qed.

Definition Inv (s : heap) : Prop :=
  0 <= n s < size s /\ heap_ok (hp s) (n s).

Definition stored (s : heap) := contents (hp s) (ids s) (n s).

Lemma contents_succ h id m : 0 <= m ->
  contents h id (m + 1) = contents h id m ++ [(h (m + 1), id (m + 1))].
Proof.
  intros Hm. unfold contents.
  replace (Z.to_nat (m + 1)) with (Z.to_nat m + 1)%nat by lia.
  rewrite seq_app, map_app. cbn [seq map].
  replace (Z.of_nat (1 + Z.to_nat m)) with (m + 1) by lia. reflexivity.
Qed.

Lemma contents_ext h id h' id' m :
  (forall j, 1 <= j <= m -> h j = h' j) -> (forall j, 1 <= j <= m -> id j = id' j) ->
  contents h id m = contents h' id' m.
Proof.
  intros H1 H2. unfold contents. apply map_ext_in. intros k Hk. apply in_seq in Hk.
  rewrite H1, H2 by lia. reflexivity.
Qed.

Lemma insert_correct s v ID :
  Inv s -> n s + 1 < size s ->
  exists s', insert FloorDiv s (Fin v) ID = (Ok true, s') /\ Inv s' /\
             size s' = size s /\ n s' = n s + 1 /\
             Permutation (stored s') ((v, ID) :: stored s).
Proof.
  intros [Hn Hok] Hsz. unfold insert.
  destruct (Z.leb_spec (size s) (n s + 1)) as [Hbad|_]; [lia|].
  destruct (sift_up_spec (Z.to_nat (n s + 1)) (hp s) (ids s) v (n s + 1) (n s + 1) ID)
    as (h' & id' & i' & E & Hok' & Hperm).
  - lia.
  - lia.
  - intros j Hj Hne. rewrite !upd_other by lia. apply Hok. lia.
  - intros _ j Hj Hji. lia.
  - rewrite E. eexists. split; [reflexivity|]. split; [|split; [reflexivity|split; [reflexivity|]]].
    + split; [cbn; lia|]. exact Hok'.
    + unfold stored. cbn [hp ids n]. eapply Permutation_trans; [exact Hperm|].
      rewrite contents_succ by lia. rewrite !upd_same.
      rewrite (contents_ext _ _ (hp s) (ids s));
        try (intros j Hj; apply upd_other; lia).
      apply Permutation_sym, Permutation_cons_append.
Qed.

Lemma root_min h m : heap_ok h m -> forall j, 1 <= j <= m -> h 1 <= h j.
Proof.
  intros Hok j. 
  assert (Hind : forall k : nat, forall j, j <= Z.of_nat k -> 1 <= j <= m -> h 1 <= h j).
  { induction k as [|k IH]; intros j' Hk Hj; [lia|].
    destruct (Z.eq_dec j' 1) as [->|Hne]; [lia|].
    pose proof (Hok j' ltac:(lia)) as Ho.
    pose proof (IH (j' / 2) ltac:(lia) ltac:(lia)). lia. }
  intros Hj. apply (Hind (Z.to_nat j)); lia.
Qed.

Lemma get_min_correct s :
  Inv s -> 0 < n s ->
  exists s', get_min s = Some (hp s 1, s') /\ Inv s' /\
             size s' = size s /\ n s' = n s - 1 /\
             Permutation (stored s) ((hp s 1, ids s 1) :: stored s') /\
             (forall y J, In (y, J) (stored s) -> hp s 1 <= y).
Proof.
  intros [Hn Hok] Hpos. unfold get_min.
  set (m := n s - 1) in *.
  destruct (sift_down_spec (Z.to_nat m) (hp s) (ids s) m (hp s (n s)) 1 (ids s (n s)))
    as (h' & id' & i' & E & Hok' & Hperm).
  - lia.
  - lia.
  - lia.
  - intros j Hj Hne. rewrite !upd_other by lia. apply Hok. unfold m in Hj. lia.
  - lia.
  - rewrite E. eexists. split; [reflexivity|].
    split; [split; [cbn; unfold m; lia|exact Hok']|].
    split; [reflexivity|]. split; [reflexivity|]. split.
    + unfold stored. cbn [hp ids n].
      eapply Permutation_trans; [|apply perm_skip, Permutation_sym, Hperm].
      replace (n s) with (m + 1) by (unfold m; lia).
      rewrite contents_succ by (unfold m; lia).
      destruct (Z.eq_dec m 0) as [Hm0|Hm0].
      * rewrite Hm0. cbn. apply Permutation_refl.
      * unfold contents.
        destruct (Z.to_nat m) as [|k] eqn:Ek; [unfold m in *; lia|].
        cbn [seq map]. change (Z.of_nat 1) with 1. rewrite !upd_same.
        cbn [app]. apply perm_skip.
        rewrite (map_ext_in (fun k0 => (upd (hp s) 1 (hp s (m + 1)) (Z.of_nat k0),
                                       upd (ids s) 1 (ids s (m + 1)) (Z.of_nat k0)))
                            (fun k0 => (hp s (Z.of_nat k0), ids s (Z.of_nat k0)))).
        -- apply Permutation_sym, Permutation_cons_append.
        -- intros a Ha. apply in_seq in Ha. rewrite !upd_other by lia. reflexivity.
    + intros y J Hin. unfold stored, contents in Hin. apply in_map_iff in Hin.
      destruct Hin as (k & Hk & Hin). apply in_seq in Hin. inversion Hk; subst.
      apply (root_min _ (n s)); [exact Hok|lia].
Qed.

Lemma pq_step_perm l1 l2 o r l1' :
  Permutation l1 l2 -> pq_step l1 o r l1' -> exists l2', pq_step l2 o r l2' /\ Permutation l1' l2'.
Proof.
  intros Hp Hs. inversion Hs; subst.
  - exists l2. split; [constructor|assumption].
  - eexists. split; [constructor|]. apply perm_skip. assumption.
  - eexists. split; [|apply Permutation_refl]. constructor.
    + eapply Permutation_trans; [apply Permutation_sym; exact Hp|assumption].
    + intros y J Hin.
      match goal with Hmin : forall y J, In (y, J) l1 -> _ |- _ => apply (Hmin y J) end.
      eapply Permutation_in; [apply Permutation_sym; exact Hp|exact Hin].
Qed.

Lemma run_correct : forall os s l,
  Inv s -> Permutation (stored s) l -> legal (size s - 1) (n s) os ->
  exists s' rs l', run FloorDiv s os = Some (s', rs) /\ pq_run l os rs l' /\
    Inv s' /\ Permutation (stored s') l'.
Proof.
  induction os as [|o os IH]; intros s l HI Hl Hleg.
  - exists s, [], l. cbn. split; [reflexivity|]. split; [constructor|]. split; assumption.
  - cbn [run]. destruct o as [[x|] ID|].
    + cbn [legal] in Hleg. destruct Hleg as [Hlt Hleg].
      destruct (insert_correct s x ID HI ltac:(lia)) as (s1 & E & HI1 & Hsz & Hn & Hp).
      unfold step. rewrite E.
      destruct (IH s1 ((x, ID) :: l) HI1) as (s' & rs & l' & E' & Hr & HI' & Hp').
      * eapply Permutation_trans; [exact Hp|]. apply perm_skip. exact Hl.
      * rewrite Hsz, Hn. exact Hleg.
      * rewrite E'. exists s', (RIns true :: rs), l'. split; [reflexivity|].
        split; [|split; assumption]. econstructor; [constructor|exact Hr].
    + cbn [legal] in Hleg. cbn [step insert].
      destruct (IH s l HI Hl Hleg) as (s' & rs & l' & E' & Hr & HI' & Hp').
      rewrite E'. exists s', (RIns false :: rs), l'. split; [reflexivity|].
      split; [|split; assumption]. econstructor; [constructor|exact Hr].
    + cbn [legal] in Hleg. destruct Hleg as [Hpos Hleg].
      destruct (get_min_correct s HI Hpos) as (s1 & E & HI1 & Hsz & Hn & Hp & Hmin).
      unfold step. rewrite E. unfold get_min_ID.
      destruct (pq_step_perm (stored s) l OPop (RPop (hp s 1) (ids s 1)) (stored s1) Hl)
        as (l1 & Hst & Hp1); [constructor; assumption|].
      destruct (IH s1 l1 HI1 Hp1) as (s' & rs & l' & E' & Hr & HI' & Hp').
      * rewrite Hsz, Hn. exact Hleg.
      * rewrite E'. exists s', (RPop (hp s 1) (ids s 1) :: rs), l'. split; [reflexivity|].
        split; [|split; assumption]. econstructor; [exact Hst|exact Hr].
Qed.

Lemma heap_history : forall nx ny os,
  0 <= nx -> 0 <= ny ->
  legal (500 * (nx + ny)) 0 os ->
  exists s rs l, run FloorDiv (initialize nx ny) os = Some (s, rs) /\
    pq_run [] os rs l /\ n s = Z.of_nat (length l).
Proof.
  intros nx ny os Hx Hy Hleg.
  destruct (run_correct os (initialize nx ny) []) as (s & rs & l & E & Hr & HI & Hp).
  - split; [cbn [n size initialize]; lia|]. intros j Hj. cbn [n initialize] in Hj. lia.
  - apply Permutation_refl.
  - cbn [size n initialize]. replace (500 * (nx + ny) + 1 - 1) with (500 * (nx + ny)) by lia. exact Hleg.
  - exists s, rs, l. split; [exact E|]. split; [exact Hr|].
    apply Permutation_length in Hp. unfold stored, contents in Hp.
    rewrite map_length, seq_length in Hp. destruct HI as [Hn _]. lia.
Qed.

Lemma insert_true_div s x ID :
  fst (insert TrueDiv s (Fin x) ID) = IndexError /\
  n (snd (insert TrueDiv s (Fin x) ID)) = n s + 1.
Proof.
  unfold insert. destruct (size s <=? n s + 1); [split; reflexivity|].
  destruct (Z.to_nat (n s + 1)); cbn; split; reflexivity.
Qed.
