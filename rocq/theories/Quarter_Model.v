(** Model of the slopes, divergences and curvatures of the four quarters of a grid cell: topoflow/utils/hamiltonian.py 148-166 and 263-536.
    Numbers are reals, NaN is None (nodata and S_bad are np.nan: 164-165); rounding, files and printed text are left out.
    A grid is a function of row and column; row 0 is the top. *)

From Coq Require Import Reals Arith List.
Local Open Scope R_scope.

Definition num := option R.
Definition grid := nat -> nat -> num.
Definition o1 (f : R -> R) (x : num) : num := match x with Some a => Some (f a) | None => None end.
Definition o2 (f : R -> R -> R) (x y : num) : num := match x, y with Some a, Some b => Some (f a b) | _, _ => None end.

(** 308-321: np.roll by -1 in columns, the last column is NaN *)
Definition get_d_dx_R (nx : nat) (dx : R) (f : grid) : grid := fun i j =>
  o2 (fun a b => (a - b) / dx) (if Nat.eqb (S j) nx then None else f i (S j)) (f i j).
(** 325-333 *)
Definition get_d_dx_L (dx : R) (f : grid) : grid := fun i j =>
  o2 (fun a b => -1 * (a - b) / dx) (if Nat.eqb j 0 then None else f i (pred j)) (f i j).
(** 337-345 *)
Definition get_d_dy_T (dy : R) (f : grid) : grid := fun i j =>
  o2 (fun a b => (a - b) / dy) (if Nat.eqb i 0 then None else f (pred i) j) (f i j).
(** 349-357 *)
Definition get_d_dy_B (ny : nat) (dy : R) (f : grid) : grid := fun i j =>
  o2 (fun a b => -1 * (a - b) / dy) (if Nat.eqb (S i) ny then None else f (S i) j) (f i j).

(** the shape of the grid: 287-290, or read with it: 219-222 *)
Record geom := { nx : nat; ny : nat; dx : R; dy : R }.
(** which quarter: right or left, top or bottom *)
Inductive side_x := Rt | Lf.
Inductive side_y := Tp | Bt.
Definition d_dx (g : geom) (s : side_x) : grid -> grid := match s with Rt => get_d_dx_R (nx g) (dx g) | Lf => get_d_dx_L (dx g) end.
Definition d_dy (g : geom) (s : side_y) : grid -> grid := match s with Tp => get_d_dy_T (dy g) | Bt => get_d_dy_B (ny g) (dy g) end.
(** 371-408: the slopes; a slope of 0 becomes S_bad, NaN *)
Definition get_qp_slopes (g : geom) (sx : side_x) (sy : side_y) (dem : grid) : grid := fun i j =>
  match o2 (fun a b => sqrt (a ^ 2 + b ^ 2)) (d_dx g sx dem i j) (d_dy g sy dem i j) with
  | Some s => if Req_EM_T s 0 then None else Some s
  | None => None
  end.
(** 412-418 *)
Definition get_qp_slopes_power (gamma : R) (S : grid) : grid := fun i j => o1 (fun s => Rpower s (gamma - 1)) (S i j).
(** 422-434 *)
Definition div_arg1 (g : geom) (gamma : R) (sx : side_x) (sy : side_y) (dem : grid) : grid := fun i j =>
  o2 Rmult (get_qp_slopes_power gamma (get_qp_slopes g sx sy dem) i j) (d_dx g sx dem i j).
Definition div_arg2 (g : geom) (gamma : R) (sx : side_x) (sy : side_y) (dem : grid) : grid := fun i j =>
  o2 Rmult (get_qp_slopes_power gamma (get_qp_slopes g sx sy dem) i j) (d_dy g sy dem i j).
(** 438-467 *)
Definition get_qp_divergence (g : geom) (gamma : R) (sx : side_x) (sy : side_y) (dem : grid) : grid := fun i j =>
  o2 Rplus (d_dx g sx (div_arg1 g gamma sx sy dem) i j) (d_dy g sy (div_arg2 g gamma sx sy dem) i j).
(** 515-536 *)
Definition o5 (f : R -> R -> R -> R -> R -> R) (a b c d e : num) : num :=
  match a, b, c, d, e with Some a, Some b, Some c, Some d, Some e => Some (f a b c d e) | _, _, _, _, _ => None end.
Definition get_kappa_c_RT (g : geom) (dem : grid) : grid := fun i j =>
  let z_x := d_dx g Rt dem in let z_y := d_dy g Tp dem in
  o2 (fun k s => k * (-1 / s ^ 3))
     (o5 (fun zx zy zxx zxy zyy => zy ^ 2 * zxx - 2 * zx * zy * zxy + zx ^ 2 * zyy)
         (z_x i j) (z_y i j) (d_dx g Rt z_x i j) (d_dy g Tp z_x i j) (d_dy g Tp z_y i j))
     (get_qp_slopes g Rt Tp dem i j).
Definition get_kappa_p_RT (g : geom) (dem : grid) : grid := fun i j =>
  let z_x := d_dx g Rt dem in let z_y := d_dy g Tp dem in
  o2 (fun k s => k * (-1 / s ^ 2))
     (o5 (fun zx zy zxx zxy zyy => zx ^ 2 * zxx + 2 * zx * zy * zxy + zy ^ 2 * zyy)
         (z_x i j) (z_y i j) (d_dx g Rt z_x i j) (d_dy g Tp z_x i j) (d_dy g Tp z_y i j))
     (get_qp_slopes g Rt Tp dem i j).

(** 263-291: the test surface.  np.linspace( a, b, n )[k] *)
Definition linspace (a b : R) (n k : nat) : R := a + INR k * ((b - a) / INR (n - 1)).
(** 283, with a = 0, b = 1 and Rs > 0.  (log 0 would be -inf: None) *)
Definition radial_log (Rs : R) (n m : nat) : grid := fun i j =>
  let x := linspace (-5) 5 n j in let y := linspace (-5) 5 m i in
  if Rlt_dec 0 (x ^ 2 + y ^ 2) then Some (-1 / Rs * ln (0 + (x ^ 2 + y ^ 2) / 1)) else None.
(** 266-291 *)
Definition pde_geom : geom := {| nx := 200; ny := 200; dx := (5 - -5) / 200; dy := (5 - -5) / 200 |}.
Definition get_pde_solution : geom * grid := (pde_geom, radial_log (35 / 10000) 200 200).
