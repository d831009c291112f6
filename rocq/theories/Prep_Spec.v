(* Vocabulary for the statements about the input-preparation tools. *)
From Coq Require Import Reals List.
Import ListNotations.
Local Open Scope R_scope.

(* the largest value, the smallest positive value *)
Definition is_max (A : list R) (a : R) : Prop := In a A /\ forall x, In x A -> x <= a.
Definition is_min_pos (A : list R) (a : R) : Prop := In a A /\ 0 < a /\ forall x, In x A -> 0 < x -> a <= x.
(* cell i holds x *)
Definition holds (l : list R) (i : nat) (x : R) : Prop := nth_error l i = Some x.

(* a trapezoidal section with bottom width w and bank angle th (from the vertical), filled to depth d > 0 *)
Definition section_area (w th d : R) : R := (w + (w + 2 * d * tan th)) / 2 * d.
Definition wetted_perimeter (w th d : R) : R := w + 2 * (d / cos th).
(* Manning's velocity: R^(2/3) S^(1/2) / n, with R the hydraulic radius *)
Definition manning_velocity (w th n S d : R) : R :=
  Rpower (section_area w th d / wetted_perimeter w th d) (2/3) * Rpower S (1/2) / n.
(* d is the normal depth of the discharge Q: the depth at which the section carries Q *)
Definition normal_depth (w th n S Q d : R) : Prop :=
  (Q = 0 /\ d = 0) \/ (0 < d /\ section_area w th d * manning_velocity w th n S d = Q).
(* a possible channel: some width or slanted banks, angle below 90 degrees, rough, sloping *)
Definition channel_ok (w th n S : R) : Prop := 0 <= w /\ 0 <= th < PI/2 /\ (0 < w \/ 0 < th) /\ 0 < n /\ 0 < S.
