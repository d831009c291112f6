(* What a user expects of the glacier component, in terms of ice thickness, bed, surface and the flux of ice across the
   faces of the cells. *)
From Coq Require Import Reals Arith.
From Verif Require Import Wave_Spec Ice_Model.
Local Open Scope R_scope.

(* the sum over all cells of a grid of ny rows and nx columns *)
Definition gsum (ny nx : nat) (f : grid) : R := rsumn ny (fun r => rsumn nx (fun c => f r c)).

(* what holds in every cell *)
Definition everywhere (ny nx : nat) (P : nat -> nat -> Prop) : Prop := forall r c, (r < ny)%nat -> (c < nx)%nat -> P r c.

(* the faces of the cell (r,c) and what comes in through them in unit time, as thickness *)
Definition west (qx : grid) : grid := fun r c => qx (S r) c.
Definition east (qx : grid) : grid := fun r c => qx (S r) (S c).
Definition south (qy : grid) : grid := fun r c => qy r (S c).
Definition north (qy : grid) : grid := fun r c => qy (S r) (S c).
Definition inflow (dx dy : R) (qx qy : grid) : grid := fun r c =>
  (west qx r c - east qx r c) / dx + (south qy r c - north qy r c) / dy.

(* what comes in across the edges of the whole grid *)
Definition edge_inflow (ny nx : nat) (dx dy : R) (qx qy : grid) : R :=
  rsumn ny (fun r => qx (S r) 0%nat - qx (S r) nx) / dx + rsumn nx (fun c => qy 0%nat (S c) - qy ny (S c)) / dy.

(* An account of one step: snow falls where the balance is positive, ice melts where it is negative, and ice that was
   not there is made up where more has flowed away than there was. *)
Definition account (ny nx : nat) (dx dy dt : R) (qx qy Bxy H H' melted made : grid) : Prop :=
  everywhere ny nx (fun r c =>
    let snow := dt * Rmax 0 (Bxy r c) in
    0 <= melted r c <= dt * Rmax 0 (- Bxy r c) /\
    0 <= made r c /\
    (0 < made r c -> H r c + snow + dt * inflow dx dy qx qy r c < 0) /\
    (melted r c < dt * Rmax 0 (- Bxy r c) -> H' r c = 0) /\
    H' r c = H r c + snow + dt * inflow dx dy qx qy r c - melted r c + made r c).

(* mirror image east-west, and exchange of rows and columns *)
Definition mirror (nx : nat) (x : grid) : grid := fun r c => x r (nx - 1 - c)%nat.
Definition transpose (x : grid) : grid := fun r c => x c r.

(* the textbook flux of ice of thickness h on a surface of slope s (Glen's law with exponent 3, vertically averaged) *)
Definition glen_flux (A rho grav h s : R) : R := - (2/5) * A * (rho * grav * Rabs s) ^ 2 * (rho * grav * s) * h ^ 5.
(* the sliding flux: characteristic speed u0 at the characteristic bed stress t0 *)
Definition slide_flux (u0 t0 rho grav h s : R) : R := - u0 * exp (1 - t0 / (rho * grav * h * Rabs s)) * (s / Rabs s) * h.
