(** What the theorems on diversions say. *)
From Coq Require Import List ZArith QArith.
Import ListNotations.

(** Entry k of the t-th list of a history, 0 outside. *)
Definition flow (h : list (list Q)) (t k : nat) : Q := nth k (nth t h []) 0%Q.

(** The number of steps of a canal: the smallest whole number of steps that
    lasts at least as long as the travel time. *)
Definition steps_for (dt time : Q) (n : nat) : Prop :=
  (time <= inject_Z (Z.of_nat n) * dt)%Q /\ (inject_Z (Z.of_nat n - 1) * dt < time)%Q.

Fixpoint sum_to (n : nat) (f : nat -> Q) : Q :=
  match n with O => 0%Q | S m => (sum_to m f + f m)%Q end.
