(** The geometry the solar theorems are stated with: directions as vectors in the frame of the Earth.
    The third axis points to the north pole, the first to the meridian of the place, the second to the east. *)
From Coq Require Import Reals ZArith List.
Local Open Scope R_scope.

Definition vec : Type := R * R * R.
Definition dot (a b : vec) : R := let '(a1, a2, a3) := a in let '(b1, b2, b3) := b in a1 * b1 + a2 * b2 + a3 * b3.
Definition scale (k : R) (a : vec) : vec := let '(a1, a2, a3) := a in (k * a1, k * a2, k * a3).
Definition plus (a b : vec) : vec :=
  let '(a1, a2, a3) := a in let '(b1, b2, b3) := b in (a1 + b1, a2 + b2, a3 + b3).

(** The sun at declination [decl], [th] hours after it crossed the meridian (after noon it stands in the west). *)
Definition sun (decl th : R) : vec :=
  (cos decl * cos (th * PI / 12), - (cos decl * sin (th * PI / 12)), sin decl).
(** The local vertical, north and east at a latitude in degrees. *)
Definition up (lat_deg : R) : vec := (cos (lat_deg * PI / 180), 0, sin (lat_deg * PI / 180)).
Definition north (lat_deg : R) : vec := (- sin (lat_deg * PI / 180), 0, cos (lat_deg * PI / 180)).
Definition east : vec := (0, 1, 0).
(** The normal of a plane tilted by [beta] that faces the azimuth [alpha], clockwise from north. *)
Definition normal (lat_deg alpha beta : R) : vec :=
  plus (scale (sin beta) (plus (scale (sin alpha) east) (scale (cos alpha) (north lat_deg))))
       (scale (cos beta) (up lat_deg)).

(** Height of the sun above the horizon, and above the plane of a slope (sines of the angles). *)
Definition sun_height (lat_deg decl th : R) : R := dot (sun decl th) (up lat_deg).
Definition sun_on_slope (lat_deg alpha beta decl th : R) : R := dot (sun decl th) (normal lat_deg alpha beta).
