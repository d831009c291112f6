(* Model of pixel dimensions (/repo/topoflow/utils/pixels.py) and of the flow length, flow width, slope and
   aspect grids of /repo/topoflow/components/d8_global.py.
   Pixel dimensions are real numbers (they need cos, sin and square roots), the D8 grids are rational, as in
   D8_Model.  Rounding (float32 of dx, dy, dd, ds, dw) is not modelled. *)
From Coq Require Import ZArith QArith Reals List Bool.
From Verif Require Import Base D8_Model.
Import ListNotations.

(* ---------------------------------------------------------------- pixels.py *)
Section Pixels.
Local Open Scope R_scope.
(* 283-284, 335-336 *)
Definition flattening (a b : R) : R := (a - b) / a.
Definition eccentricity (a b : R) : R := sqrt (2 * flattening a b - flattening a b ^ 2).
(* 289, 341 *)
Definition dtor : R := PI / 180.
(* meters_per_degree_lon 283-295 *)
Definition meters_per_degree_lon (a b elev lat : R) : R :=
  let lr := lat * dtor in
  let p1 := elev * cos lr in
  let p2 := a * cos lr / sqrt (1 - (eccentricity a b * sin lr) ^ 2) in
  dtor * (p1 + p2).
(* meters_per_degree_lat 335-345; x ** 1.5 for positive x *)
Definition meters_per_degree_lat (a b elev lat : R) : R :=
  let lr := lat * dtor in
  let p := a * (1 - eccentricity a b ^ 2) / Rpower (1 - (eccentricity a b * sin lr) ^ 2) (3 / 2) in
  dtor * (elev + p).
(* the defaults of 236-238 and 300-302 *)
Definition a_radius : R := 6378137.
Definition b_radius : R := 6356752.3.

(* what these functions read of the RTI header; angles of fixed-angle grids are in arcseconds *)
Record rti := mkRti { pixel_geom : Z; ncols : nat; nrows : nat; xres : R; yres : R; y_north : R }.
(* 117: the latitude used for a row (counted from 0); ycoords has type int16, so that rows below 32768 are meant *)
Definition row_lat (r : rti) (k : nat) : R := y_north r - yres r / 3600 * (INR k + 1).
(* get_sizes_by_row 105-142: dx, dy, dd of row k *)
Definition sizes_by_row (METERS : bool) (r : rti) (k : nat) : R * R * R :=
  let u := if METERS then 1 else 1000 in
  let '(dx, dy) :=
    if Z.eqb (pixel_geom r) 0
    then (xres r / 3600 * meters_per_degree_lon a_radius b_radius 0 (row_lat r k) / u,
          yres r / 3600 * meters_per_degree_lat a_radius b_radius 0 (row_lat r k) / u)
    else (xres r / u, yres r / u) in
  (dx, dy, sqrt (dx ^ 2 + dy ^ 2)).
(* get_da 179-231: a number for fixed-length pixels, otherwise a grid in which each row's area is repeated *)
Inductive area := Uniform (a : R) | Areas (l : list R).
Definition get_da (r : rti) : area :=
  let da_by_row := map (fun k => fst (fst (sizes_by_row true r k)) * snd (fst (sizes_by_row true r k))) (seq 0 (nrows r)) in
  if Z.eqb (pixel_geom r) 1
  then Uniform (fst (fst (sizes_by_row true r 0)) * snd (fst (sizes_by_row true r 0)))       (* 186 *)
  else Areas (concat (map (fun d => repeat d (ncols r)) da_by_row)).                       (* 206-207 *)
End Pixels.

(* ---------------------------------------------------------------- d8_global.py *)
Section D8.
Variable G : geom.
Local Open Scope Q_scope.
(* self.dx, self.dy, self.dd by row *)
Variables dxr dyr ddr : Z -> Q.
Definition rowdx i := dxr (row G i).
(* update_flow_length_grid 978-1014: four disjoint sets of cells; other codes keep what the grid held *)
Definition flow_length (d : list Z) (old : list Q) : list Q :=
  tab (ncells G) (fun i =>
    let c := get 0%Z d i in
    if mem c [1; 4; 16; 64]%Z then ddr (row G i)
    else if mem c [2; 32]%Z then dxr (row G i)
    else if mem c [8; 128]%Z then dyr (row G i)
    else if Z.eqb c 0 then dxr (row G i)
    else get 0 old i).
(* update_flow_width_grid 901-945 *)
Definition flow_width (METHOD2 : bool) (d : list Z) (old : list Q) : list Q :=
  tab (ncells G) (fun i =>
    let c := get 0%Z d i in
    let half (q : Q) := if METHOD2 then q / 2 else q in
    if mem c [1; 4; 16; 64]%Z
    then (if METHOD2 then (dxr (row G i) + dyr (row G i)) / 4 else ddr (row G i))
    else if mem c [2; 32]%Z then half (dyr (row G i))
    else if mem c [8; 128]%Z then half (dxr (row G i))
    else if Z.eqb c 0 then dxr (row G i)
    else get 0 old i).
(* update_slope_grid 1334-1345, with update_noflow_IDs 853-863: None when a slope is NaN; the whole result is
   None when no cell lacks a direction, because self.edge_IDs is a tuple and is called (863) *)
Definition slope_at (dem : list (option Q)) (pid : list Z) (ds : list Q) (i : nat) : option Q :=
  match elev dem i, elev dem (Z.to_nat (get 0%Z pid i)) with
  | Some z, Some zp => Some ((z - zp) / get 0 ds i)
  | _, _ => None
  end.
Definition update_slope_grid (dem : list (option Q)) (d pid : list Z) (ds : list Q) : option (list (option Q)) :=
  if forallb (fun i => negb (Z.leb (get 0%Z d i) 0)) (seq 0 (ncells G)) then None
  else Some (tab (ncells G) (fun i => if Z.leb (get 0%Z d i) 0 then Some 0 else slope_at dem pid ds i)).
End D8.
(* update_aspect_grid 1357-1374: a = linspace(0, 2 pi, 9) *)
Definition aspect_of (c : Z) : R :=
  (let a k := 2 * PI / 8 * k in
   match c with
   | 1%Z => a 1 | 2%Z => a 0 | 4%Z => a 7 | 8%Z => a 6 | 16%Z => a 5 | 32%Z => a 4 | 64%Z => a 3 | 128%Z => a 2
   | _ => 0
   end)%R.
