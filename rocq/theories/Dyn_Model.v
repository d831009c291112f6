(* Model of the dynamic wave velocity (/repo/topoflow/components/channels_dynamic_wave.py 85-200) and of the recharge of
   the attenuating groundwater component (/repo/topoflow/components/satzone_attenuate.py 239-293).
   Real numbers, grids are functions of the cell number.  flows j: the cell has a flow direction and its parent is pid j;
   each of the eight lists w1..w8 holds the cells of one direction, p1..p8 their parents, so the updates of a cell add up
   over its children.  The order of the additions does not matter for real numbers. *)
From Coq Require Import Reals List Bool Arith.
Import ListNotations.
Local Open Scope R_scope.

Fixpoint csum (n : nat) (b : nat -> bool) (f : nat -> R) : R := match n with 0%nat => 0 | S n => csum n b f + (if b n then f n else 0) end.
Record net := mkNet { n : nat; flows : nat -> bool; pid : nat -> nat }.
(* the cells that flow to i *)
Definition child (N : net) (i j : nat) : bool := flows N j && Nat.eqb (pid N j) i.

Record chan := mkChan { g : R; dt : R; da : R; width : nat -> R; angle : nat -> R; ds : nat -> R; f : nat -> R;
  d : nat -> R; u : nat -> R; Q : nat -> R; S_free : nat -> R; Rn : nat -> R (* self.R: net inflow from above and below *) }.
(* 153, 154, 158, 159 *)
Definition wtop (C : chan) (i : nat) : R := width C i + 2 * d C i * tan (angle C i).
Definition Atop (C : chan) (i : nat) : R := ds C i * wtop C i.
Definition Pw (C : chan) (i : nat) : R := width C i + 2 * d C i / cos (angle C i).
Definition A2 (C : chan) (i : nat) : R := ds C i * Pw C i.
(* 133-134, 156, 161-163 *)
Definition acc (C : chan) (i : nat) : R :=
  let grav := g C * (S_free C i * d C i) in
  let fric := f C i * u C i ^ 2 in
  let Rtrm := (u C i * Rn C i) * (da C / Atop C i) in
  let Atrm := (u C i * Q C i) * (1 / Atop C i - 1 / A2 C i) in
  grav + Atrm - fric - Rtrm.
(* 164-187 with a value for the name dinv *)
Definition u2 (N : net) (C : chan) (dinv : nat -> R) (i : nat) : R :=
  let fac := (dt C / A2 C i) * dinv i in
  let uu := u C i * (Pw C i / wtop C i) in
  u C i + dt C * dinv i * acc C i + csum (n N) (child N i) (fun j => (u C j - uu) * Q C j * fac).
(* update_velocity: the name dinv is not defined anywhere (None) *)
Inductive outcome := NameError | Velocity (u : nat -> R).
Definition update_velocity (N : net) (C : chan) (dinv : option (nat -> R)) : outcome :=
  match dinv with None => NameError | Some v => Velocity (fun i => Rmax (u2 N C v i) 0) end.

(* ---------- satzone_attenuate.update_water_volume_change, 239-293 ---------- *)
Definition attenuate_dzw (N : net) (dt da : R) (P_rain Rg Q_gw : nat -> R) (i : nat) : R :=
  let Rg := fun i => P_rain i * 1 in
  let dV := Rg i * da * dt in
  let dV := dV + csum (n N) (child N i) (fun j => dt * Q_gw j) in
  let dV := dV - Q_gw i * dt in
  dV / da.
