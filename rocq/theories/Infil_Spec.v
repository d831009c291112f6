(* What a user expects of an infiltration component, cell by cell. *)
From Coq Require Import ZArith QArith Qminmax Reals List Bool.
From Verif Require Import Base Field Infil_Model.
Import ListNotations.
Local Open Scope Q_scope.

(* water supplied to cell i: rain plus snowmelt *)
Definition supply (x : infil_in) (i : nat) : Q := fat (iP x) i + fat (iSM x) i.
(* soil parameters in their physical range at cell i, and a supply that is not negative *)
Definition soil_ok (x : infil_in) (i : nat) : Prop :=
  0 <= fat (iKs x) i /\ fat (iKi x) i <= fat (iKs x) i /\ fat (iqi x) i <= fat (iqs x) i /\ 0 <= fat (iG x) i /\
  0 <= supply x i.
(* the Green-Ampt capacity at cell i after a cumulative depth I (Smith 2002) *)
Definition green_ampt (x : infil_in) (i : nat) (I : Q) : Q :=
  fat (iG x) i * (fat (iKs x) i - fat (iKi x) i) * (fat (iqs x) i - fat (iqi x) i) / I + fat (iKs x) i.
(* the water table has reached the surface *)
Definition saturated (x : infil_in) (i : nat) : Prop := fat (iz x) i <= fat (ih x) i.

Local Open Scope R_scope.
Definition rsum (l : list R) : R := fold_right Rplus 0 l.
