(* What one step of a landscape-evolution model should do, independent of how the code computes it. *)
From Coq Require Import ZArith QArith List Bool.
From Verif Require Import Base D8_Spec.
From Verif Require D8_Model.
Import ListNotations.
Local Open Scope Q_scope.

Section S.
Variable G : D8_Model.geom.
Notation n := (D8_Model.ncells G).
Variable d8 : list Z.                 (* the flow codes *)
Variable base : list nat.             (* the cells at base level *)

Definition at_base (i : nat) : bool := existsb (Nat.eqb i) base.

(* thickness per year that cell i receives from the cells that flow into it, when cell j sends out its
   sediment discharge spread over an area [da j] *)
Definition received (da : nat -> Q) (Qs : list Q) (i : nat) : Q :=
  qsum n (fun j => match next G d8 j with
                   | Some i' => if Nat.eqb i' i then get 0 Qs j / da j else 0
                   | None => 0 end).

(* sediment discharge from the land into the cells at base level, and from these back to the land *)
Definition to_base (Qs : list Q) : Q :=
  qsum n (fun j => match next G d8 j with
                   | Some i => if negb (at_base j) && at_base i then get 0 Qs j else 0
                   | None => 0 end).
Definition from_base (Qs : list Q) : Q :=
  qsum n (fun j => match next G d8 j with
                   | Some i => if at_base j && negb (at_base i) then get 0 Qs j else 0
                   | None => 0 end).

(* a sum over the land cells *)
Definition land (f : nat -> Q) : Q := qsum n (fun i => if at_base i then 0 else f i).
End S.

(* cell i lies on the perimeter of a grid with nx columns and ny rows *)
Definition perimeter (nx ny i : nat) : Prop :=
  (i < nx * ny)%nat /\ ((i / nx = 0)%nat \/ (i / nx = ny - 1)%nat \/ (i mod nx = 0)%nat \/ (i mod nx = nx - 1)%nat).
