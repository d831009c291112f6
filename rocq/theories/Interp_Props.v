(* Theorem C34: what get_values returns between two provider updates.
   A history starts with value w at time t and lists the provider's updates (how the array was
   changed, new cell values, new time).  z = true: a 0D array; otherwise a grid of n cells. *)
From Coq Require Import ZArith QArith Qabs Qminmax List Bool Lia Lqa.
From Verif Require Import Base Interp_Model Interp_Spec Interp_Proofs.
Import ListNotations.
Local Open Scope Q_scope.

(* Linear interpolation holds when the provider has replaced its array at some point (or, for a 0D
   array, has been updated before), and every cell changed in the latest update.  Here u at time
   told is the state before the latest update. *)
Theorem C34_linear_between_updates_partial : forall z n w t hist st vs t',
  shape_ok z n -> length w = n -> sized n (hist ++ [(st, vs, t')]) ->
  rebound (hist ++ [(st, vs, t')]) \/ (z = true /\ hist <> []) ->
  let u := last_val w hist in
  let told := last_time t hist in
  all_changed n u vs -> told < t' ->
  exists s, sys_run (sys_init z w t) (hist ++ [(st, vs, t')]) = Some s /\
    forall x i, (i < n)%nat ->
      let v := get 0 (sys_values s x) i in
      v == line told (get 0 u i) t' (get 0 vs i) x /\
      (x == told -> v == get 0 u i) /\
      (x == t' -> v == get 0 vs i) /\
      (told <= x -> x <= t' -> between (get 0 u i) (get 0 vs i) v).
Proof.
  intros z n w t hist st vs t' S L Sz H u told Ch Lt.
  destruct (run_answers z n w t hist st vs t' S L Sz) as (s & R & An & _).
  exists s. split; [exact R|]. intros x i Hi v.
  assert (SH : still_shared z hist && (match st with InPlace => true | Rebind => false end) = false).
  { destruct st; [|apply andb_false_r]. rewrite still_shared_false; [reflexivity|].
    destruct H as [(a & b & Hin)|K]; [|right; exact K]. left. exists a, b.
    apply in_app_iff in Hin. destruct Hin as [Hin|[Hin|[]]]; [exact Hin|discriminate]. }
  rewrite SH in An. fold u told in An.
  assert (NE : ~ t' == told) by (intros K; lra).
  assert (V : forall x, get 0 (sys_values s x) i == line told (get 0 u i) t' (get 0 vs i) x).
  { intros y. destruct (An y) as (_ & A & _). apply A; [split; assumption|exact Hi]. }
  destruct (line_ends told (get 0 u i) t' (get 0 vs i) NE) as [E1 E2].
  assert (Vx : v == line told (get 0 u i) t' (get 0 vs i) x) by apply V.
  clearbody v. clear V An.
  assert (LC : forall a b, a == b -> line told (get 0 u i) t' (get 0 vs i) a == line told (get 0 u i) t' (get 0 vs i) b).
  { intros a b E. unfold line. rewrite E. reflexivity. }
  split; [exact Vx|].
  split; [intros E; exact (Qeq_trans _ _ _ Vx (Qeq_trans _ _ _ (LC _ _ E) E1))|].
  split; [intros E; exact (Qeq_trans _ _ _ Vx (Qeq_trans _ _ _ (LC _ _ E) E2))|].
  intros A B. pose proof (line_between told (get 0 u i) t' (get 0 vs i) x Lt A B) as K.
  unfold between in *. lra.
Qed.

(* In every other case the latest value is returned, at every cell and for every requested time:
   when some cell did not change, or when the array has only ever been written in place. *)
Theorem C34_otherwise_latest_value : forall z n w t hist st vs t',
  shape_ok z n -> length w = n -> sized n (hist ++ [(st, vs, t')]) ->
  (exists i, (i < n)%nat /\ get 0 (last_val w hist) i == get 0 vs i) \/
  (~ rebound (hist ++ [(st, vs, t')]) /\ (z = false \/ hist = [])) ->
  exists s, sys_run (sys_init z w t) (hist ++ [(st, vs, t')]) = Some s /\
    forall x i, (i < n)%nat -> get 0 (sys_values s x) i == get 0 vs i.
Proof.
  intros z n w t hist st vs t' S L Sz H.
  destruct (run_answers z n w t hist st vs t' S L Sz) as (s & R & An & _).
  exists s. split; [exact R|]. intros x i Hi. destruct (An x) as (_ & _ & A). apply A; [|exact Hi].
  intros [Ch _].
  destruct (still_shared z hist && (match st with InPlace => true | Rebind => false end)) eqn:SH.
  - apply (all_changed_irrefl n vs); [apply S|exact Ch].
  - destruct H as [(j & Hj & E)|[N Z]]; [apply (Ch j Hj); exact E|].
    assert (K : still_shared z hist = true).
    { apply still_shared_true; [|exact Z]. intros (a & b & Hin). apply N. exists a, b. apply in_app_iff. auto. }
    destruct st; [rewrite K in SH; discriminate|]. apply N. exists vs, t'. apply in_app_iff. right. left. reflexivity.
Qed.

(* The interpolator never disturbs the provider's own values. *)
Theorem C34_provider_undisturbed : forall z n w t hist st vs t',
  shape_ok z n -> length w = n -> sized n (hist ++ [(st, vs, t')]) ->
  exists s, sys_run (sys_init z w t) (hist ++ [(st, vs, t')]) = Some s /\ sys_provider s = vs.
Proof.
  intros z n w t hist st vs t' S L Sz.
  destruct (run_answers z n w t hist st vs t' S L Sz) as (s & R & _ & P). eauto.
Qed.

(* The full claim is false: with an array written in place there is no interpolation at all, even
   though every cell changed ... *)
Theorem C34_linear_for_in_place_provider_refuted :
  ~ (forall n w t vs t', (0 < n)%nat -> length w = n -> length vs = n -> all_changed n w vs -> t < t' ->
       exists s, sys_run (sys_init false w t) [(InPlace, vs, t')] = Some s /\
         forall x i, (i < n)%nat -> get 0 (sys_values s x) i == line t (get 0 w i) t' (get 0 vs i) x).
Proof.
  intros H. destruct (H 2%nat [0; 1] 0 [10; 11] 10) as (s & R & A); try reflexivity; try lia; try lra.
  - intros i Hi K. destruct i as [|[|i]]; [discriminate K|discriminate K|lia].
  - vm_compute in R. inversion R; subst. specialize (A 0 0%nat ltac:(lia)). vm_compute in A. discriminate A.
Qed.

(* ... and one unchanged cell switches interpolation off for the whole grid. *)
Theorem C34_linear_cell_by_cell_refuted :
  ~ (forall n w t vs t', (0 < n)%nat -> length w = n -> length vs = n -> t < t' ->
       exists s, sys_run (sys_init false w t) [(Rebind, vs, t')] = Some s /\
         forall x i, (i < n)%nat -> get 0 (sys_values s x) i == line t (get 0 w i) t' (get 0 vs i) x).
Proof.
  intros H. destruct (H 2%nat [0; 5] 0 [10; 5] 10) as (s & R & A); try reflexivity; try lia; try lra.
  vm_compute in R. inversion R; subst. specialize (A 5 0%nat ltac:(lia)). vm_compute in A. discriminate A.
Qed.

(* Three updates, the second in place, of a grid first replaced: halfway between the last two. *)
Example C34_demo :
  exists s, sys_run (sys_init false [0; 0] 0) [(Rebind, [1; 2], 10); (InPlace, [3; 6], 20)] = Some s /\
    map Qred (sys_values s 15) = [2; 4] /\
    sized 2 [(Rebind, [1; 2], 10); (InPlace, [3; 6], 20)] /\ shape_ok false 2 /\
    rebound [(Rebind, [1; 2], 10); (InPlace, [3; 6], 20)] /\ all_changed 2 [1; 2] [3; 6].
Proof.
  eexists. split; [vm_compute; reflexivity|]. split; [vm_compute; reflexivity|].
  split; [intros e [<-|[<-|[]]]; reflexivity|]. split; [split; [lia|discriminate]|].
  split; [exists [1; 2], 10; left; reflexivity|].
  intros i Hi K. destruct i as [|[|i]]; [discriminate K|discriminate K|lia].
Qed.

Print Assumptions C34_linear_between_updates_partial.
Print Assumptions C34_otherwise_latest_value.
Print Assumptions C34_provider_undisturbed.
Print Assumptions C34_linear_for_in_place_provider_refuted.
Print Assumptions C34_linear_cell_by_cell_refuted.
