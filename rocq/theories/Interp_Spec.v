(* Linear interpolation, stated on its own. *)
From Coq Require Import ZArith QArith List Bool.
From Verif Require Import Base Interp_Model.
Import ListNotations.
Local Open Scope Q_scope.

(* the straight line through (s, u) and (t, w), at time x *)
Definition line (s u t w x : Q) : Q := u + (w - u) * ((x - s) / (t - s)).

Definition between (u w x : Q) : Prop := (u <= x /\ x <= w) \/ (w <= x /\ x <= u).

(* every cell of the grid changed *)
Definition all_changed (n : nat) (u w : list Q) : Prop := forall i, (i < n)%nat -> ~ get 0 u i == get 0 w i.

(* all recorded values have n cells *)
Definition sized (n : nat) (hist : list (style * list Q * Q)) : Prop :=
  forall e, In e hist -> length (snd (fst e)) = n.

(* the provider replaced its array at least once *)
Definition rebound (hist : list (style * list Q * Q)) : Prop := exists vs t, In (Rebind, vs, t) hist.

(* a 0D array holds one number *)
Definition shape_ok (z : bool) (n : nat) : Prop := (0 < n)%nat /\ (z = true -> n = 1%nat).

(* last value and time of a history that started with w at t *)
Definition last_val (w : list Q) (hist : list (style * list Q * Q)) : list Q := snd (fst (last hist (InPlace, w, 0))).
Definition last_time (t : Q) (hist : list (style * list Q * Q)) : Q := snd (last hist (InPlace, [], t)).
