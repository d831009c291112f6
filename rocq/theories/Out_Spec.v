(* Words used to state C70. *)
From Coq Require Import ZArith QArith List Lia.
Import ListNotations.

(* the state after n updates *)
Fixpoint after {X : Type} (f : X -> X) (n : nat) (x : X) : X := match n with O => x | S m => f (after f m x) end.
(* rational of an integer, of a natural number *)
Definition Qz (z : Z) : Q := inject_Z z.
Definition Qnat (n : nat) : Q := inject_Z (Z.of_nat n).
(* centres of the cells of a grid whose rows go from north to south and columns from west to east *)
Definition centre_lon (west cell : Q) (col : Z) : Q := (west + Qz col * cell + cell / 2)%Q.
Definition centre_lat (north cell : Q) (row : Z) : Q := (north - Qz row * cell - cell / 2)%Q.
