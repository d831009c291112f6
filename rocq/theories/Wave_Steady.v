From Coq Require Import ZArith Reals List Bool Lia Lra Psatz.
From Verif Require Import Base D8_Spec D8_Proofs D8_Walk ChanR_Model ChanR_Proofs Depth_Proofs Calib_Props Wave_Model Wave_Spec Wave_Proofs Wave_Inv Wave_Order.
From Verif Require D8_Model.
Import ListNotations.
Local Open Scope R_scope.

Section Walks.
Variable G : D8_Model.geom.
Hypothesis HG : geom_ok G.
Notation n := (D8_Model.ncells G).
Variable d8 : list Z.
Hypothesis Hac : acyclic G d8.

Definition hits (m j i : nat) : bool := match walk G d8 m j with Some x => Nat.eqb x i | None => false end.
Lemma hits_spec m j i : hits m j i = true <-> walk G d8 m j = Some i.
Proof.
  unfold hits. destruct (walk G d8 m j) as [x|]; [|split; discriminate]. rewrite Nat.eqb_eq. split; [intros ->; reflexivity|congruence].
Qed.
Lemma hits_S m k i : hits (S m) k i = match next G d8 k with Some j => hits m j i | None => false end.
Proof. unfold hits. cbn [walk]. destruct (next G d8 k); reflexivity. Qed.

(* every cell drains along one path *)
Lemma hits_once m m' j i : (j < n)%nat -> hits m j i = true -> hits m' j i = true -> m = m'.
Proof.
  intros Hj. assert (W : forall a b, hits a j i = true -> hits (a + b) j i = true -> b = 0%nat).
  { intros a b H1 H2. apply hits_spec in H1, H2. rewrite walk_app, H1 in H2. apply Hac in H2; [exact H2|]. exact (walk_lt G HG d8 a j i Hj H1). }
  intros H1 H2. destruct (Nat.le_ge_cases m m') as [L|L].
  - replace m' with (m + (m' - m))%nat in H2 by lia. apply W in H2; [lia|exact H1].
  - replace m with (m' + (m - m'))%nat in H1 by lia. apply W in H1; [lia|exact H2].
Qed.

Definition drainsb (j i : nat) : bool := existsb (fun m => hits m j i) (seq 0 n).
Lemma drainsb_spec j i : (j < n)%nat -> drainsb j i = true <-> drains G d8 j i.
Proof.
  intros Hj. unfold drainsb, drains. rewrite existsb_exists. split.
  - intros (m & _ & H). exists m. apply hits_spec. exact H.
  - intros (m & H). exists m. split; [|apply hits_spec; exact H]. apply in_seq. pose proof (walk_bound G HG d8 j m i Hac Hj H). lia.
Qed.
Definition upstream (i : nat) : list nat := filter (fun j => drainsb j i) (seq 0 n).
Lemma upstream_is i : is_upstream G d8 i (upstream i).
Proof.
  split; [apply NoDup_filter, seq_NoDup|]. intros j. unfold upstream. rewrite filter_In, in_seq. split.
  - intros [H1 H2]. assert (j < n)%nat by lia. split; [assumption|apply drainsb_spec; assumption].
  - intros [H1 H2]. split; [lia|apply drainsb_spec; assumption].
Qed.

Lemma count_once j i (x : R) : (j < n)%nat -> rsumn n (fun m => if hits m j i then x else 0) = if drainsb j i then x else 0.
Proof.
  intros Hj. destruct (drainsb j i) eqn:E.
  - unfold drainsb in E. apply existsb_exists in E. destruct E as (m & Hm & H). apply in_seq in Hm.
    rewrite (rsumn_single n _ m); [rewrite H; reflexivity|lia|]. intros m' _ Hne. destruct (hits m' j i) eqn:E; [|reflexivity].
    exfalso. apply Hne. apply (hits_once m' m j i Hj E H).
  - apply rsuml_zero. intros m Hm. destruct (hits m j i) eqn:E2; [|reflexivity].
    exfalso. assert (drainsb j i = true); [|congruence]. unfold drainsb. apply existsb_exists. exists m. auto.
Qed.

Lemma solve_walk (q f : nat -> R) :
  (forall i, (i < n)%nat -> flows G d8 i = true -> q i = f i + inflow G d8 q i) ->
  forall M i, (i < n)%nat -> flows G d8 i = true ->
    q i = rsumn M (fun m => rsumn n (fun j => if hits m j i then f j else 0)) + rsumn n (fun j => if hits M j i then q j else 0).
Proof.
  intros Hq M i Hi Hf. induction M as [|M IH].
  - change (rsumn 0 _) with 0. rewrite (rsumn_single n _ i Hi).
    + unfold hits. cbn [walk]. rewrite Nat.eqb_refl. ring.
    + intros j _ Hne. unfold hits. cbn [walk]. destruct (Nat.eqb j i) eqn:E; [apply Nat.eqb_eq in E; congruence|reflexivity].
  - assert (ES : forall g, rsumn (S M) g = rsumn M g + g M).
    { intros g. unfold rsumn. rewrite seq_S. cbn [Nat.add]. generalize (seq 0 M). intros l. induction l as [|a l IHl]; [cbn [app]; rewrite rsuml_cons, !rsuml_nil; ring|].
      cbn [app]. rewrite !rsuml_cons, IHl. ring. }
    rewrite ES. rewrite IH at 1. rewrite Rplus_assoc. f_equal.
    transitivity (rsumn n (fun j => (if hits M j i then f j else 0) + (if hits M j i then inflow G d8 q j else 0))).
    { apply rsumn_ext. intros j Hj. destruct (hits M j i) eqn:E; [|ring]. apply Hq; [exact Hj|].
      destruct M as [|M]; [apply hits_spec in E; cbn [walk] in E; injection E as ->; exact Hf|].
      apply hits_spec in E. cbn [walk] in E. unfold flows. destruct (next G d8 j); [reflexivity|discriminate]. }
    unfold rsumn at 1. rewrite rsuml_plus. f_equal. unfold inflow.
    transitivity (rsuml (fun j => rsumn n (fun k => if hits M j i then (if flows_to G d8 k j then q k else 0) else 0)) (seq 0 n)).
    { apply rsuml_ext. intros j _. destruct (hits M j i); [reflexivity|]. symmetry. apply rsuml_zero. reflexivity. }
    unfold rsumn. rewrite rsuml_swap. apply rsuml_ext. intros k Hk. rewrite hits_S. unfold flows_to.
    destruct (next G d8 k) as [j'|] eqn:E.
    + rewrite (rsuml_single _ _ j'); [rewrite Nat.eqb_refl; reflexivity|apply seq_NoDup|apply in_seq; pose proof (next_lt G HG d8 k j' E); lia|].
      intros j _ Hne. destruct (hits M j i); [|reflexivity]. destruct (Nat.eqb j' j) eqn:Ej; [apply Nat.eqb_eq in Ej; congruence|reflexivity].
    + apply rsuml_zero. intros j _. destruct (hits M j i); reflexivity.
Qed.

Lemma upstream_solve (q f : nat -> R) :
  (forall i, (i < n)%nat -> flows G d8 i = true -> q i = f i + inflow G d8 q i) ->
  forall i L, (i < n)%nat -> flows G d8 i = true -> is_upstream G d8 i L -> q i = rsuml f L.
Proof.
  intros Hq i L Hi Hf [HL1 HL2]. rewrite (solve_walk q f Hq n i Hi Hf).
  unfold rsumn at 3. rewrite (rsuml_zero (fun j => if hits n j i then q j else 0)).
  2:{ intros j Hj. apply in_seq in Hj. destruct (hits n j i) eqn:E; [|reflexivity]. apply hits_spec in E.
      pose proof (walk_bound G HG d8 j n i Hac ltac:(lia) E). lia. }
  rewrite Rplus_0_r. unfold rsumn. rewrite rsuml_swap. transitivity (rsuml f (upstream i)).
  - unfold upstream. rewrite rsuml_filter. apply rsuml_ext. intros j Hj. apply in_seq in Hj. apply (count_once j i (f j)). lia.
  - destruct (upstream_is i) as [U1 U2].
    assert (P : Permutation.Permutation (upstream i) L).
    { apply Permutation.NoDup_Permutation; [exact U1|exact HL1|]. intros j. rewrite U2, HL2. reflexivity. }
    clear -P. induction P; rewrite ?rsuml_cons; [reflexivity|congruence|ring|congruence].
Qed.
(* the converse: the upstream sums satisfy the balance *)
Lemma upstream_balance (f : nat -> R) i : (i < n)%nat -> rsuml f (upstream i) = f i + inflow G d8 (fun j => rsuml f (upstream j)) i.
Proof.
  intros Hi. unfold inflow, upstream.
  transitivity (rsumn n (fun j => if drainsb j i then f j else 0)); [apply rsuml_filter|].
  transitivity (f i + rsumn n (fun k => if flows_to G d8 k i then rsumn n (fun j => if drainsb j k then f j else 0) else 0)).
  2:{ f_equal. apply rsumn_ext. intros k _. destruct (flows_to G d8 k i); [|reflexivity]. symmetry. apply rsuml_filter. }
  transitivity (rsumn n (fun j => (if Nat.eqb j i then f j else 0) + rsumn n (fun k => if flows_to G d8 k i then (if drainsb j k then f j else 0) else 0))).
  2:{ unfold rsumn at 1. rewrite rsuml_plus. f_equal.
      - change (rsuml _ (seq 0 n)) with (rsumn n (fun j => if Nat.eqb j i then f j else 0)). rewrite (rsumn_single n _ i Hi), Nat.eqb_refl; [reflexivity|].
        intros j _ Hne. destruct (Nat.eqb j i) eqn:E; [apply Nat.eqb_eq in E; congruence|reflexivity].
      - unfold rsumn. rewrite rsuml_swap. apply rsuml_ext. intros k _. destruct (flows_to G d8 k i); [reflexivity|]. apply rsuml_zero. reflexivity. }
  apply rsumn_ext. intros j Hj. destruct (drainsb j i) eqn:E.
  - apply drainsb_spec in E; [|exact Hj]. destruct E as [m Hm]. destruct (Nat.eqb j i) eqn:Eji.
    + apply Nat.eqb_eq in Eji. subst j. unfold rsumn; rewrite rsuml_zero; [ring|]. intros k Hk. destruct (flows_to G d8 k i) eqn:F; [|reflexivity].
      destruct (drainsb i k) eqn:D; [|reflexivity]. exfalso. apply drainsb_spec in D; [|exact Hi]. destruct D as [m' D].
      unfold flows_to in F. destruct (next G d8 k) as [x|] eqn:Ex; [|discriminate]. apply Nat.eqb_eq in F. subst x.
      pose proof (walk_snoc G d8 m' i i k D Ex) as W. apply Hac in W; [discriminate|exact Hi].
    + apply Nat.eqb_neq in Eji. destruct m as [|m]; [cbn [walk] in Hm; congruence|].
      apply walk_last in Hm. destruct Hm as (k & Hk & Ek). rewrite Rplus_0_l. 
      assert (Hkn : (k < n)%nat) by exact (walk_lt G HG d8 m j k Hj Hk).
      symmetry. rewrite (rsumn_single n _ k Hkn).
      * unfold flows_to. rewrite Ek, Nat.eqb_refl. assert (D : drainsb j k = true) by (apply drainsb_spec; [exact Hj|exists m; exact Hk]). rewrite D. reflexivity.
      * intros k' Hk' Hne. destruct (flows_to G d8 k' i) eqn:F; [|reflexivity]. destruct (drainsb j k') eqn:D; [|reflexivity]. exfalso.
        apply drainsb_spec in D; [|exact Hj]. destruct D as [m' D]. unfold flows_to in F. destruct (next G d8 k') as [x|] eqn:Ex; [|discriminate].
        apply Nat.eqb_eq in F. subst x. pose proof (walk_snoc G d8 m j i k Hk Ek) as W1. pose proof (walk_snoc G d8 m' j i k' D Ex) as W2.
        assert (S m = S m') by (apply (hits_once _ _ j i Hj); apply hits_spec; assumption). assert (m = m') by lia. subst m'. congruence.
  - destruct (Nat.eqb j i) eqn:Eji.
    + apply Nat.eqb_eq in Eji. subst j. exfalso. assert (drainsb i i = true); [|congruence]. apply drainsb_spec; [exact Hi|]. exists 0%nat. reflexivity.
    + rewrite Rplus_0_l. symmetry. apply rsuml_zero. intros k Hk. destruct (flows_to G d8 k i) eqn:F; [|reflexivity]. destruct (drainsb j k) eqn:D; [|reflexivity].
      exfalso. assert (drainsb j i = true); [|congruence]. apply drainsb_spec in D; [|exact Hj]. destruct D as [m D]. unfold flows_to in F.
      destruct (next G d8 k) as [x|] eqn:Ex; [|discriminate]. apply Nat.eqb_eq in F. subst x. apply drainsb_spec; [exact Hj|]. exists (S m).
      exact (walk_snoc G d8 m j i k D Ex).
Qed.
End Walks.
