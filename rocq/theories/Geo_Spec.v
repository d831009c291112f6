(* What pixel dimensions and flow lengths are, independent of the code. *)
From Coq Require Import ZArith QArith Reals.
From Verif Require Import Base D8_Model D8_Spec.

Section Earth.
Local Open Scope R_scope.
(* A meridian is the ellipse x^2/a^2 + z^2/b^2 = 1 (x: distance from the axis).  Latitude p (in radians) belongs
   to the point whose outward normal (x/a^2, z/b^2) points in the direction (cos p, sin p). *)
Definition on_meridian (a b p x z : R) : Prop :=
  x ^ 2 / a ^ 2 + z ^ 2 / b ^ 2 = 1 /\ exists k, 0 < k /\ x / a ^ 2 = k * cos p /\ z / b ^ 2 = k * sin p.
(* the speed with which a point moves along the meridian when its latitude grows: sqrt(x'^2 + z'^2) *)
Definition meridian_speed (a b p v : R) : Prop :=
  exists x z : R -> R, (forall q, on_meridian a b q (x q) (z q)) /\
  exists x' z', derivable_pt_lim x p x' /\ derivable_pt_lim z p z' /\ 0 <= v /\ v ^ 2 = x' ^ 2 + z' ^ 2.
End Earth.

Section Flow.
Local Open Scope Q_scope.
(* squared distance between the centres of two cells that differ by (dr, dc) rows and columns of size dy, dx *)
Definition dist2 (dx dy : Q) (dr dc : Z) : Q := (inject_Z dc * dx) * (inject_Z dc * dx) + (inject_Z dr * dy) * (inject_Z dr * dy).
End Flow.
