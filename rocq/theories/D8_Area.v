(* Contributing area. *)
From Coq Require Import ZArith QArith Qminmax List Bool Lia Lqa ZifyBool Permutation.
From Verif Require Import Base D8_Model D8_Spec D8_Proofs D8_Walk.
Import ListNotations.
Local Open Scope Q_scope.

Section Area.
Variable G : geom.
Hypothesis HG : geom_ok G.
Variable d : list Z.
Hypothesis Hac : acyclic G d.
Hypothesis Hcg : code_grid G d.
Variable pa : nat -> Q.
Hypothesis Hpa : forall i, (i < ncells G)%nat -> 0 < pa i.

Notation N := (ncells G).
Notation code i := (get 0%Z d i).

Definition Up (i : nat) (L : list nat) : Prop :=
  NoDup L /\ forall j, In j L <-> (j < N)%nat /\ drains G d j i.

Definition feeders (i : nat) : list nat := filter (fun k => Z.eqb (code (nbr G k i)) (h k)) dirs.

Lemma feeders_In i k : In k (feeders i) <-> (k < 8)%nat /\ code (nbr G k i) = h k.
Proof. unfold feeders. rewrite filter_In, In_dirs. split; intros [H1 H2]; split; auto; lia. Qed.

Lemma feeders_NoDup i : NoDup (feeders i).
Proof. apply NoDup_filter. unfold dirs. repeat (constructor; [cbn; lia|]). constructor. Qed.

Lemma feeder_next i k : (i < N)%nat -> In k (feeders i) -> next G d (nbr G k i) = Some i.
Proof.
  intros Hi Hk. apply feeders_In in Hk. destruct Hk as [Hk E].
  apply next_spec. exists (opp k). split; [apply opp_lt; exact Hk|].
  split; [rewrite E; apply h_opp; exact Hk|]. symmetry. apply nbr_opp; assumption.
Qed.

Lemma next_feeder i x : (x < N)%nat -> next G d x = Some i -> exists k, In k (feeders i) /\ x = nbr G k i.
Proof.
  intros Hx H. apply next_spec in H. destruct H as (k & Hk & E & ->).
  exists (opp k). split.
  - apply feeders_In. split; [apply opp_lt; exact Hk|]. rewrite nbr_opp by assumption.
    rewrite h_opp by (apply opp_lt; exact Hk). rewrite opp_opp by exact Hk. exact E.
  - symmetry. apply nbr_opp; assumption.
Qed.

Lemma feeders_distinct i k k' : In k (feeders i) -> In k' (feeders i) -> nbr G k i = nbr G k' i -> k = k'.
Proof.
  intros Hk Hk' E. apply feeders_In in Hk. apply feeders_In in Hk'. destruct Hk as [H1 H2], Hk' as [H3 H4].
  rewrite E, H4 in H2. rewrite !h_opp in H2 by assumption.
  apply g_inj in H2; [|apply opp_lt; assumption..].
  rewrite <- (opp_opp k H1), <- (opp_opp k' H3). congruence.
Qed.

Lemma new_area_sum A i : new_area G d pa A i == pa i + qsuml (fun k => get 0 A (nbr G k i)) (feeders i).
Proof.
  unfold new_area, feeders.
  assert (H : forall l a, fold_left (fun a k => if Z.eqb (code (nbr G k i)) (h k) then a + get 0 A (nbr G k i) else a) l a
      == a + qsuml (fun k => get 0 A (nbr G k i)) (filter (fun k => Z.eqb (code (nbr G k i)) (h k)) l)).
  { induction l as [|k l IH]; intros a; cbn [fold_left filter].
    - rewrite qsuml_nil. ring.
    - destruct (Z.eqb (code (nbr G k i)) (h k)); rewrite IH; [rewrite qsuml_cons; ring|reflexivity]. }
  apply H.
Qed.

(* two cells that both flow straight into i have no common upstream cell *)
Lemma feeders_disjoint i x y m m' j : (i < N)%nat -> (j < N)%nat ->
  next G d x = Some i -> next G d y = Some i ->
  walk G d m j = Some x -> walk G d m' j = Some y -> x = y.
Proof.
  assert (Haux : forall x y m m', (m <= m')%nat -> (i < N)%nat -> (j < N)%nat ->
     next G d x = Some i -> next G d y = Some i ->
     walk G d m j = Some x -> walk G d m' j = Some y -> x = y).
  { clear x y m m'. intros x y m m' Hle Hi Hj Hx Hy Hwx Hwy.
    destruct (Nat.eq_dec m m') as [->|Hne]; [congruence|]. exfalso.
    replace m' with (m + S (m' - m - 1))%nat in Hwy by lia. rewrite walk_app, Hwx in Hwy.
    cbn [walk] in Hwy. rewrite Hx in Hwy.
    assert (Hc : walk G d (S (m' - m - 1)) i = Some i) by (eapply walk_snoc; eassumption).
    apply Hac in Hc; [lia|exact Hi]. }
  intros Hi Hj Hx Hy Hwx Hwy. destruct (Nat.le_ge_cases m m') as [Hle|Hle].
  - apply (Haux x y m m'); assumption.
  - symmetry. apply (Haux y x m' m); assumption.
Qed.

Lemma Up_build i (Ls : nat -> list nat) : (i < N)%nat ->
  (forall k, In k (feeders i) -> Up (nbr G k i) (Ls k)) ->
  Up i (i :: flat_map Ls (feeders i)).
Proof.
  intros Hi HL. split.
  - constructor.
    + intros Hin. apply in_flat_map in Hin. destruct Hin as (k & Hk & Hin).
      apply (proj2 (HL k Hk)) in Hin. destruct Hin as (_ & m & Hw).
      pose proof (walk_snoc G d _ _ _ _ Hw (feeder_next i k Hi Hk)) as Hc.
      apply Hac in Hc; [lia|exact Hi].
    + assert (Hnd : forall l, NoDup l -> (forall k, In k l -> In k (feeders i)) -> NoDup (flat_map Ls l)).
      { induction l as [|k l IH]; intros Hnd Hsub; cbn; [constructor|].
        inversion Hnd as [|? ? Hni Hnd']; subst.
        assert (Hdis : forall j, In j (Ls k) -> In j (flat_map Ls l) -> False).
        { intros j Hj1 Hj2. apply in_flat_map in Hj2. destruct Hj2 as (k' & Hk' & Hj2).
          pose proof (Hsub k (or_introl eq_refl)) as Hkf. pose proof (Hsub k' (or_intror Hk')) as Hkf'.
          apply (proj2 (HL k Hkf)) in Hj1. apply (proj2 (HL k' Hkf')) in Hj2.
          destruct Hj1 as (Hj & m & Hw), Hj2 as (_ & m' & Hw').
          assert (nbr G k i = nbr G k' i) as E.
          { apply (feeders_disjoint i _ _ m m' j); auto; apply feeder_next; auto. }
          apply feeders_distinct in E; auto. subst. contradiction. }
        assert (H1 : NoDup (Ls k)) by (apply (HL k); apply Hsub; left; reflexivity).
        assert (H2 : NoDup (flat_map Ls l)) by (apply IH; [assumption|intros; apply Hsub; right; assumption]).
        clear -H1 H2 Hdis. induction (Ls k) as [|a ll IH]; cbn; [exact H2|].
        inversion H1; subst. constructor.
        - rewrite in_app_iff. intros [H|H]; [contradiction|]. apply (Hdis a); [left; reflexivity|exact H].
        - apply IH; [|assumption]. intros j Hj Hj'. apply (Hdis j); [right; exact Hj|exact Hj']. }
      apply Hnd; [apply feeders_NoDup|auto].
  - intros j. split.
    + intros [<-|Hin].
      * split; [exact Hi|]. exists 0%nat. reflexivity.
      * apply in_flat_map in Hin. destruct Hin as (k & Hk & Hin).
        apply (proj2 (HL k Hk)) in Hin. destruct Hin as (Hj & m & Hw). split; [exact Hj|].
        exists (S m). eapply walk_snoc; [exact Hw|]. apply feeder_next; assumption.
    + intros (Hj & m & Hw). destruct m as [|m].
      * cbn in Hw. inversion Hw. left. reflexivity.
      * right. apply walk_last in Hw. destruct Hw as (x & Hx & Hn).
        pose proof (walk_lt G HG d _ _ _ Hj Hx) as Hxl.
        destruct (next_feeder i x Hxl Hn) as (k & Hk & ->).
        apply in_flat_map. exists k. split; [exact Hk|]. apply (proj2 (HL k Hk)). split; [exact Hj|]. exists m. exact Hx.
Qed.

Lemma qsuml_flat_map {A B} (f : B -> Q) (Ls : A -> list B) l :
  qsuml f (flat_map Ls l) == qsuml (fun a => qsuml f (Ls a)) l.
Proof.
  induction l as [|a l IH]; [reflexivity|]. cbn [flat_map]. rewrite qsuml_app, qsuml_cons, IH. reflexivity.
Qed.

(* every cell is either still at 0 or already holds the sum over its upstream cells *)
Definition good (A : list Q) : Prop :=
  length A = N /\ forall i, (i < N)%nat ->
    get 0 A i == 0 \/ (code i <> 0%Z /\ 0 < get 0 A i /\ exists L, Up i L /\ get 0 A i == qsuml pa L).

Lemma choose_lists (A : list Q) i l :
  (forall k, In k l -> exists L, Up (nbr G k i) L /\ get 0 A (nbr G k i) == qsuml pa L) ->
  exists Ls, forall k, In k l -> Up (nbr G k i) (Ls k) /\ get 0 A (nbr G k i) == qsuml pa (Ls k).
Proof.
  induction l as [|a l IH]; intros H; [exists (fun _ => []); intros k []|].
  destruct IH as (Ls & HLs); [intros k Hk; apply H; right; exact Hk|].
  destruct (H a (or_introl eq_refl)) as (L & HL).
  exists (fun k => if Nat.eqb k a then L else Ls k). intros k Hk.
  destruct (Nat.eqb k a) eqn:E; [apply Nat.eqb_eq in E; subst; exact HL|].
  apply Nat.eqb_neq in E. destruct Hk as [Hk|Hk]; [congruence|]. apply HLs. exact Hk.
Qed.

Lemma new_area_good A i : good A -> (i < N)%nat -> ready G d A i = true ->
  0 < new_area G d pa A i /\ exists L, Up i L /\ new_area G d pa A i == qsuml pa L.
Proof.
  intros [Hlen HA] Hi Hr.
  assert (Hf : forall k, In k (feeders i) -> 0 < get 0 A (nbr G k i) /\
      exists L, Up (nbr G k i) L /\ get 0 A (nbr G k i) == qsuml pa L).
  { intros k Hk. apply feeders_In in Hk. destruct Hk as [Hk E].
    unfold ready in Hr. rewrite forallb_forall in Hr. specialize (Hr k (proj2 (In_dirs k) Hk)).
    rewrite E, Z.eqb_refl, andb_true_l in Hr. apply negb_true_iff in Hr. apply Qeqb_neq in Hr.
    destruct (HA (nbr G k i) (nbr_lt G HG k i)) as [H0|(_ & Hp & HL)]; [contradiction|]. auto. }
  destruct (choose_lists A i (feeders i)) as (Ls & HLs); [intros k Hk; apply Hf; exact Hk|].
  split.
  - rewrite new_area_sum. specialize (Hpa i Hi).
    assert (0 <= qsuml (fun k => get 0 A (nbr G k i)) (feeders i)); [|lra].
    apply qsuml_nonneg. intros k Hk. destruct (Hf k Hk) as [H _]. lra.
  - exists (i :: flat_map Ls (feeders i)). split.
    + apply Up_build; [exact Hi|]. intros k Hk. apply HLs. exact Hk.
    + rewrite new_area_sum, qsuml_cons, qsuml_flat_map.
      assert (qsuml (fun k => get 0 A (nbr G k i)) (feeders i) == qsuml (fun k => qsuml pa (Ls k)) (feeders i)) as ->;
        [|reflexivity].
      apply qsuml_ext. intros k Hk. apply HLs. exact Hk.
Qed.

Lemma unknown_code A i : unknown d A i = true <-> get 0 A i == 0 /\ code i <> 0%Z.
Proof.
  unfold unknown. rewrite andb_true_iff, Qeq_bool_iff, negb_true_iff, Z.eqb_neq. reflexivity.
Qed.

(* some unknown cell is always ready *)
Lemma some_ready A i0 : good A -> (i0 < N)%nat -> unknown d A i0 = true ->
  exists i, (i < N)%nat /\ unknown d A i && ready G d A i = true.
Proof.
  intros HA Hi0 Hu0.
  destruct (count N (fun i => unknown d A i && ready G d A i)) eqn:Ec.
  2:{ apply count_pos. lia. }
  exfalso. rewrite count_zero in Ec.
  assert (Hup : forall i, (i < N)%nat -> unknown d A i = true ->
     exists x, (x < N)%nat /\ unknown d A x = true /\ next G d x = Some i).
  { intros i Hi Hu. specialize (Ec i Hi). rewrite Hu, andb_true_l in Ec.
    unfold ready in Ec.
    assert (Hex : exists k, In k dirs /\ negb (Z.eqb (code (nbr G k i)) (h k) && Qeq_bool (get 0 A (nbr G k i)) 0) = false).
    { clear -Ec. induction dirs as [|k l IH]; [discriminate|]. cbn in Ec. apply andb_false_iff in Ec.
      destruct Ec as [Ec|Ec]; [exists k; split; [left; reflexivity|exact Ec]|].
      destruct (IH Ec) as (k' & Hk' & H). exists k'. split; [right; exact Hk'|exact H]. }
    destruct Hex as (k & Hk & Hn). apply In_dirs in Hk. apply negb_false_iff in Hn.
    apply andb_true_iff in Hn. destruct Hn as [H1 H2]. apply Z.eqb_eq in H1. apply Qeq_bool_iff in H2.
    exists (nbr G k i). split; [apply nbr_lt; exact HG|]. split.
    - apply unknown_code. split; [exact H2|]. rewrite H1, h_opp by exact Hk.
      pose proof (g_range (opp k) (opp_lt k Hk)). lia.
    - apply feeder_next; [exact Hi|]. apply feeders_In. auto. }
  assert (Hlong : forall m, exists x, (x < N)%nat /\ unknown d A x = true /\ walk G d m x = Some i0).
  { induction m as [|m (x & Hx & Hu & Hw)]; [exists i0; auto|].
    destruct (Hup x Hx Hu) as (y & Hy & Huy & Hn). exists y. split; [exact Hy|]. split; [exact Huy|].
    cbn [walk]. rewrite Hn. exact Hw. }
  destruct (Hlong N) as (x & Hx & _ & Hw). apply (walk_bound G HG d x N i0 Hac Hx) in Hw. lia.
Qed.

Lemma good_pass A : good A ->
  good (tab N (fun i => if unknown d A i && ready G d A i then new_area G d pa A i else get 0 A i)).
Proof.
  intros HA. split; [apply tab_length|]. intros i Hi. rewrite get_tab by exact Hi.
  destruct (unknown d A i && ready G d A i) eqn:E; [|apply (proj2 HA i Hi)].
  apply andb_true_iff in E. destruct E as [Eu Er]. right.
  split; [apply unknown_code in Eu; apply Eu|]. apply new_area_good; assumption.
Qed.

Lemma area_loop_spec fuel : forall A, good A -> (count N (unknown d A) <= fuel)%nat ->
  exists A', area_loop fuel G d pa A = Some (A', false) /\ good A' /\
    forall i, (i < N)%nat -> code i <> 0%Z -> ~ get 0 A' i == 0.
Proof.
  assert (Hdone : forall A, count N (unknown d A) = 0%nat -> forall i, (i < N)%nat -> code i <> 0%Z -> ~ get 0 A i == 0).
  { intros A E i Hi Hc H0. rewrite count_zero in E. specialize (E i Hi).
    assert (unknown d A i = true) by (apply unknown_code; auto). congruence. }
  induction fuel as [|fuel IH]; intros A HA Hc.
  - assert (E : count N (unknown d A) = 0%nat) by lia. exists A. cbn [area_loop]. rewrite E. cbn.
    split; [reflexivity|]. split; [exact HA|]. apply Hdone. exact E.
  - cbn [area_loop]. destruct (Nat.eqb (count N (unknown d A)) 0) eqn:E0.
    + apply Nat.eqb_eq in E0. exists A. split; [reflexivity|]. split; [exact HA|]. apply Hdone. exact E0.
    + apply Nat.eqb_neq in E0.
      assert (Hu : exists i, (i < N)%nat /\ unknown d A i = true) by (apply count_pos; lia).
      destruct Hu as (i0 & Hi0 & Hu0). destruct (some_ready A i0 HA Hi0 Hu0) as (i1 & Hi1 & Hr1).
      set (rdy := fun i => unknown d A i && ready G d A i) in *.
      set (A' := tab N (fun i => if rdy i then new_area G d pa A i else get 0 A i)).
      assert (HA' : good A') by (apply good_pass; exact HA).
      assert (Hrp : (0 < count N rdy)%nat) by (apply count_pos; exists i1; auto).
      assert (Hun : forall i, (i < N)%nat -> unknown d A' i = unknown d A i && negb (rdy i)).
      { intros i Hi. unfold unknown at 1. unfold A'. rewrite get_tab by exact Hi.
        destruct (rdy i) eqn:Er; cbn [negb]; [|rewrite andb_true_r; reflexivity].
        rewrite andb_false_r. apply andb_true_iff in Er. destruct Er as [Eu Er].
        destruct (new_area_good A i HA Hi Er) as [Hp _].
        assert (Qeq_bool (new_area G d pa A i) 0 = false) as -> by (apply Qeqb_neq; lra). reflexivity. }
      assert (Hsub : forall i, (i < N)%nat -> rdy i = true -> unknown d A i = true).
      { intros i _ Hi. apply andb_true_iff in Hi. apply Hi. }
      destruct (Nat.eqb (count N rdy) 0) eqn:E1; [apply Nat.eqb_eq in E1; lia|]. rewrite orb_false_r.
      destruct (Nat.eqb (count N rdy) (count N (unknown d A))) eqn:E2; cbn [negb].
      * apply Nat.eqb_eq in E2. exists A'. split; [reflexivity|]. split; [exact HA'|].
        apply Hdone. apply count_zero. intros i Hi. rewrite Hun by exact Hi.
        destruct (unknown d A i) eqn:Eu; [|reflexivity].
        rewrite (count_eq_all N rdy (unknown d A) Hsub E2 i Hi Eu). reflexivity.
      * change (rdy i1 = true) in Hr1. apply IH; [exact HA'|]. change (count N (unknown d A') <= fuel)%nat.
        assert (count N (unknown d A') < count N (unknown d A))%nat; [|lia]. apply count_lt.
        -- intros i Hi H. rewrite Hun in H by exact Hi. apply andb_true_iff in H. apply H.
        -- exists i1. split; [exact Hi1|]. rewrite Hun by exact Hi1. rewrite Hr1. split; [apply andb_false_r|].
           apply Hsub; assumption.
Qed.

Theorem area_grid A0 : length A0 = N -> (forall i, (i < N)%nat -> 0 <= get 0 A0 i) ->
  exists A, update_area_grid G d pa A0 = Some (A, false) /\ length A = N /\
    forall i, (i < N)%nat ->
      (code i = 0%Z -> get 0 A i == 0) /\
      (code i <> 0%Z -> exists L, NoDup L /\ (forall j, In j L <-> (j < N)%nat /\ drains G d j i) /\
                                  get 0 A i == qsuml pa L).
Proof.
  intros Hl H0.
  assert (Hg : good (map (fun a => Qmin a 0) A0)).
  { split; [rewrite map_length; exact Hl|]. intros i Hi. left.
    unfold get. rewrite (nth_indep _ 0 (Qmin 0 0)) by (rewrite map_length; lia).
    rewrite (map_nth (fun a => Qmin a 0) A0 0 i).
    specialize (H0 i Hi). unfold get in H0. apply Q.min_r. exact H0. }
  destruct (area_loop_spec N _ Hg (count_bound _ _)) as (A & E & [HA1 HA2] & HA3).
  exists A. split; [exact E|]. split; [exact HA1|]. intros i Hi. split.
  - intros Hc. destruct (HA2 i Hi) as [H|(H & _)]; [exact H|contradiction].
  - intros Hc. destruct (HA2 i Hi) as [H|(_ & _ & L & [HL1 HL2] & HL3)].
    + exfalso. apply (HA3 i Hi Hc H).
    + exists L. auto.
Qed.

End Area.

(* ------------------------------------------------------------------ packaged statements *)

Theorem resolve_picks c : (1 <= c <= 255)%Z ->
  is_code (resolve_at c) /\ Z.land c (resolve_at c) = resolve_at c.
Proof.
  intros Hc. destruct (resolve_spec c Hc) as (k & Hk & -> & Ht). split.
  - unfold is_code. rewrite offset_g by exact Hk. discriminate.
  - assert (Hg : g k = (2 ^ Z.of_nat k)%Z) by (by_dir Hk; reflexivity).
    apply Z.bits_inj'. intros m Hm. rewrite Z.land_spec, Hg, Z.pow2_bits_eqb by lia.
    destruct (Z.of_nat k =? m)%Z eqn:E; [|apply andb_false_r].
    apply Z.eqb_eq in E. subst m. rewrite Ht. reflexivity.
Qed.

Theorem flow_grid_main : forall G O dem, geom_ok G ->
  exists d, update_flow_grid G O dem = Some d /\ code_grid G d /\
  (forall i, (i < ncells G)%nat -> get 0%Z d i <> 0%Z ->
     exists j z zj, next G d i = Some j /\ (j < ncells G)%nat /\
       elev dem i = Some z /\ (DEM_nodata O < z)%Q /\ elev dem j = Some zj /\ (zj <= z)%Q /\
       (forall c j', target G i c = Some j' -> exists z', elev dem j' = Some z' /\
          ((z - z') / step_length G c <= (z - zj) / step_length G (get 0%Z d i))%Q)) /\
  (forall i, (i < ncells G)%nat -> closed_side G O i -> get 0%Z d i = 0%Z) /\
  (forall i z, (i < ncells G)%nat -> BREAK_TIES O = true -> ~ closed_side G O i ->
     elev dem i = Some z -> (DEM_nodata O < z)%Q ->
     (forall c j, target G i c = Some j -> elev dem j <> None) ->
     (exists c j zj, target G i c = Some j /\ elev dem j = Some zj /\ (zj < z)%Q) ->
     get 0%Z d i <> 0%Z).
Proof.
  intros G O dem HG. destruct (flow_grid_codes G HG O dem) as (d & H1 & H2 & H3 & H4 & H5 & H6).
  exists d. auto.
Qed.

Theorem flow_grid_walks : forall G O dem d, geom_ok G ->
  update_flow_grid G O dem = Some d ->
  acyclic G d /\
  forall i, (i < ncells G)%nat -> exists m j, (m < ncells G)%nat /\ walk G d m i = Some j /\ get 0%Z d j = 0%Z.
Proof.
  intros G O dem d HG Hu. destruct (flow_grid_codes G HG O dem) as (d' & H1 & [H2 H2'] & H3 & H4 & H5 & H6).
  assert (d' = d) by congruence. subst d'. split; [exact H6|].
  intros i Hi. destruct (walk_ends G HG d i H6 Hi) as (m & j & Hm & Hw & Hn).
  exists m, j. split; [exact Hm|]. split; [exact Hw|].
  destruct (H2' j (walk_lt G HG d _ _ _ Hi Hw)) as [E|E]; [exact E|exfalso].
  unfold next, target, is_code in *. destruct (offset (get 0%Z d j)) as [[? ?]|]; [discriminate|congruence].
Qed.

Theorem area_grid_main : forall G d pa A0, geom_ok G ->
  acyclic G d -> (forall i, (i < ncells G)%nat -> (0 < pa i)%Q) ->
  length A0 = ncells G -> (forall i, (i < ncells G)%nat -> (0 <= get 0 A0 i)%Q) ->
  exists A, update_area_grid G d pa A0 = Some (A, false) /\ length A = ncells G /\
    forall i, (i < ncells G)%nat ->
      (get 0%Z d i = 0%Z -> (get 0 A i == 0)%Q) /\
      (get 0%Z d i <> 0%Z -> exists L, NoDup L /\ (forall j, In j L <-> (j < ncells G)%nat /\ drains G d j i) /\
                                  (get 0 A i == qsuml pa L)%Q).
Proof. intros G d pa A0 HG Ha Hp. apply (area_grid G HG d Ha pa Hp). Qed.
