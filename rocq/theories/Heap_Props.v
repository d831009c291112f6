(* C01: heap_base is a priority queue. *)
From Coq Require Import ZArith List.
From Verif Require Import Heap_Model Heap_Spec Heap_Proofs.
Import ListNotations.
Local Open Scope Z_scope.

(* With "i / 2" read as integer halving: every legal history runs without IndexError and its outputs
   are those of a priority queue (pops return a minimum key with an ID stored with it, the multiset of
   stored pairs is exact, non-finite keys are rejected without effect). *)
Theorem C01_heap_is_priority_queue : forall nx ny os,
  0 <= nx -> 0 <= ny ->
  legal (500 * (nx + ny)) 0 os ->
  exists s rs l, run FloorDiv (initialize nx ny) os = Some (s, rs) /\
    pq_run [] os rs l /\ n s = Z.of_nat (length l).
Proof. exact heap_history. Qed.
Print Assumptions C01_heap_is_priority_queue.

(* As shipped ("i / 2" is true division in Python 3) every insertion of a finite key raises IndexError,
   and leaves the element counter already incremented. *)
Theorem C01_shipped_insert_refuted : forall s x ID,
  fst (insert TrueDiv s (Fin x) ID) = IndexError /\
  n (snd (insert TrueDiv s (Fin x) ID)) = n s + 1.
Proof. exact insert_true_div. Qed.
Print Assumptions C01_shipped_insert_refuted.

(* Non-vacuity: a legal history with ties, a rejected NaN, interleaved pops; the model computes it. *)
Definition demo : list op :=
  [OIns (Fin 5) 50; OIns (Fin 3) 30; OIns NonFin 99; OIns (Fin (-1)) 10; OPop;
   OIns (Fin 3) 31; OPop; OPop; OPop].
Example C01_demo_legal : legal (500 * (1 + 1)) 0 demo.
Proof. unfold demo; cbn; repeat split; reflexivity. Qed.
Example C01_demo_run :
  option_map snd (run FloorDiv (initialize 1 1) demo) =
  Some [RIns true; RIns true; RIns false; RIns true; RPop (-1) 10; RIns true; RPop 3 30; RPop 3 31; RPop 5 50].
Proof. vm_compute. reflexivity. Qed.
