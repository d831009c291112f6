(* Specification of a priority queue of (key, ID) pairs, independent of the heap model's internals:
   the queue is just a multiset (list up to permutation). *)
From Coq Require Import ZArith List Permutation.
From Verif Require Import Heap_Model.
Import ListNotations.
Local Open Scope Z_scope.

Inductive pq_step : list (Z * Z) -> op -> out -> list (Z * Z) -> Prop :=
| pq_reject : forall l ID, pq_step l (OIns NonFin ID) (RIns false) l
| pq_insert : forall l x ID, pq_step l (OIns (Fin x) ID) (RIns true) ((x, ID) :: l)
| pq_pop : forall l x ID rest,
    Permutation l ((x, ID) :: rest) ->
    (forall y J, In (y, J) l -> x <= y) ->
    pq_step l OPop (RPop x ID) rest.

Inductive pq_run : list (Z * Z) -> list op -> list out -> list (Z * Z) -> Prop :=
| pq_nil : forall l, pq_run l [] [] l
| pq_cons : forall l o r l1 os rs l2,
    pq_step l o r l1 -> pq_run l1 os rs l2 -> pq_run l (o :: os) (r :: rs) l2.

(* A history is legal for capacity [cap] when it never pops an empty queue and never holds more
   than [cap] pairs; [k] is the current number of stored pairs. *)
Fixpoint legal (cap : Z) (k : Z) (os : list op) : Prop :=
  match os with
  | [] => True
  | OIns NonFin _ :: os' => legal cap k os'
  | OIns (Fin _) _ :: os' => k < cap /\ legal cap (k + 1) os'
  | OPop :: os' => 0 < k /\ legal cap (k - 1) os'
  end.
