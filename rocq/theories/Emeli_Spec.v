(* What the framework properties say, independently of how the framework computes. *)
From Coq Require Import ZArith QArith Qabs List Bool String.
From Verif Require Import Base Emeli_Model.
Import ListNotations.
Local Open Scope Q_scope.

(* ---- C33 ---- *)
(* how often a name occurs among the outputs of all components *)
Definition times_provided (cs : list names) (x : string) : nat :=
  count_occ string_dec (flat_map n_out cs) x.

(* every named input of every component has exactly one provider *)
Definition uniquely_provided (cs : list names) : Prop :=
  forall c x, In c cs -> In x (n_in c) -> x <> ""%string -> times_provided cs x = 1%nat.

(* ---- C31, C32 ---- *)
(* length of a time unit in seconds (a year is 365 days, a month a twelfth of it) *)
Definition unit_seconds (u : tunits) : Q :=
  match u with
  | Years => 365 * 24 * 3600
  | Months => 365 * 24 * 3600 / 12
  | Days => 24 * 3600
  | Hours => 3600
  | Minutes => 60
  | OtherUnits => 1
  end.

(* a component's time step, and its clock, in seconds *)
Definition step_s (c : comp) : Q := c_dt c * unit_seconds (c_units c).
Definition clock_s (cs : list comp) (f : fw) (i : nat) : Q :=
  s_time (get cstate0 (f_comps f) i) * unit_seconds (c_units (get comp0 cs i)).
Definition updates (f : fw) (i : nat) : nat := s_count (get cstate0 (f_comps f) i).

Definition enabled (cs : list comp) (i : nat) : Prop :=
  (i < List.length cs)%nat /\ c_status (get comp0 cs i) = Enabled.

(* d is the smallest step among the components that are not disabled *)
Definition is_min_step (cs : list comp) (d : Q) : Prop :=
  (exists c, In c cs /\ c_status c <> Disabled /\ d == step_s c) /\
  (forall c, In c cs -> c_status c <> Disabled -> d <= step_s c).

Definition positive_steps (cs : list comp) : Prop := forall c, In c cs -> 0 < c_dt c.

Definition Qn (n : nat) : Q := inject_Z (Z.of_nat n).

(* every enabled component's step is a whole number of framework steps *)
Definition multiples (cs : list comp) (fdt : Q) : Prop :=
  forall i, enabled cs i -> exists m, step_s (get comp0 cs i) == Qn m * fdt.

(* n is the first number of updates, counting from 1, at which [stop] holds *)
Definition first_stop (stop : nat -> bool) (n : nat) : Prop :=
  (1 <= n)%nat /\ stop n = true /\ forall m, (1 <= m < n)%nat -> stop m = false.

(* ---- C36 ---- *)
(* the last w differences of the discharge record up to update n are within the tolerance *)
Definition flat_record (qs : nat -> Q) (n w : nat) : Prop :=
  (w <= n)%nat /\ forall i, (n - w < i <= n)%nat -> Qabs (qs i - qs (i - 1)%nat) <= 1 # 100000.
