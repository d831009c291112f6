(* Accounts kept cell by cell over a sequence of updates, independent of how the components compute them. *)
From Coq Require Import ZArith QArith Qminmax List Bool.
From Verif Require Import Base Field Snow_Model.
Import ListNotations.
Local Open Scope Q_scope.

(* water depth delivered to (or taken from) cell i by a list of rates, each lasting dt *)
Definition depth_at (dt : Q) (i : nat) (rates : list field) : Q := qsuml (fun r => fat r i * dt) rates.

(* Shapes under which no update can raise: a 0D state only with 0D inputs. *)
Definition snow_shapes (m : method) (s : snow) (x : snow_in) : Prop :=
  (is_scalar (SM s) = true -> is_scalar (h_swe s) = true /\
     match m with DegreeDay c0 T0 => is_scalar c0 = true /\ is_scalar T0 = true /\ is_scalar (sT x) = true
                | EnergyBalance => is_scalar (Q_sum x) = true /\ is_scalar (Ecc s) = true end) /\
  (is_scalar (h_swe s) = true -> is_scalar (sP x) = true /\ is_scalar (SM s) = true) /\
  (is_scalar (h_snow s) = true -> is_scalar (h_swe s) = true /\ is_scalar (ratio x) = true) /\
  match m with DegreeDay _ _ => True | EnergyBalance => is_scalar (Ecc s) = true -> is_scalar (Q_sum x) = true end.

(* first and last element of a list of states, with a default *)
Definition final {A} (s : A) (l : list A) : A := last l s.

(* Glacier: stored water non-negative everywhere, snowfall non-negative everywhere, domain total of a depth. *)
Definition gok (n : nat) (s : glacier) : Prop := forall i, (i < n)%nat ->
  0 <= gswe (get gc0 (cells s) i) /\ 0 <= giwe (get gc0 (cells s) i).
Definition snowfall_ok (n : nat) (x : list gin) : Prop := forall i, (i < n)%nat -> 0 <= gP (get gi0 x i).
Definition gtot (n : nat) (da : field) (f : gcell -> Q) (s : glacier) : Q := qsum n (fun i => f (get gc0 (cells s) i) * fat da i).
