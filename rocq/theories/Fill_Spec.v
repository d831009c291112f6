(* What pit filling should achieve, independent of the algorithm. *)
From Coq Require Import ZArith QArith Qminmax List.
From Verif Require Import Base Fill_Model.
Import ListNotations.
Local Open Scope Q_scope.

(* How a DEM with non-finite cells is to be read: those cells count as -9999. *)
Definition elevations (dem0 : list (option Q)) : list Q :=
  map (fun o => match o with Some z => z | None => -(9999#1) end) dem0.

(* Cells whose flat IDs differ by 1, nx, nx-1 or nx+1 (what the program treats as neighbours; it joins the
   last cell of a row to the first cells of nearby rows as well as true 8-neighbours). *)
Definition id_adjacent (nx ny i j : nat) : Prop :=
  (j < nx * ny)%nat /\
  exists dr dc, (-1 <= dr <= 1)%Z /\ (-1 <= dc <= 1)%Z /\ (dr, dc) <> (0%Z, 0%Z) /\
    Z.of_nat j = (Z.of_nat i + dr * Z.of_nat nx + dc)%Z.

(* True 8-neighbours in the grid. *)
Definition grid_adjacent (nx ny i j : nat) : Prop :=
  (j < nx * ny)%nat /\ i <> j /\
  (Z.abs (Z.of_nat (i / nx) - Z.of_nat (j / nx)) <= 1)%Z /\
  (Z.abs (Z.of_nat (i mod nx) - Z.of_nat (j mod nx)) <= 1)%Z.

(* [route adj start ok c l]: l lists the cells of a path from c (first) back to a start cell (last). *)
Inductive route (adj : nat -> nat -> Prop) (start ok : nat -> Prop) : nat -> list nat -> Prop :=
| route_start s : start s -> route adj start ok s [s]
| route_step u l v : route adj start ok u l -> adj u v -> ok v -> route adj start ok v (v :: l).

(* highest elevation along a path *)
Fixpoint highest (z : nat -> Q) (l : list nat) : Q :=
  match l with
  | [] => 0
  | [c] => z c
  | c :: t => Qmax (z c) (highest z t)
  end.

(* elevations do not rise along the list *)
Fixpoint non_ascending (z : nat -> Q) (l : list nat) : Prop :=
  match l with
  | a :: ((b :: _) as t) => z b <= z a /\ non_ascending z t
  | _ => True
  end.

(* lowest over all routes of the highest elevation on the route *)
Definition minimax (adj : nat -> nat -> Prop) (start ok : nat -> Prop) (z : nat -> Q) (c : nat) (v : Q) : Prop :=
  (exists l, route adj start ok c l /\ v == highest z l) /\
  (forall l, route adj start ok c l -> v <= highest z l).

(* What 424-428 closes: the cell whose flat ID equals the number of a row containing a nodata cell. *)
Definition wrongly_closed (nx ny : nat) (nodata : Q) (dem : list Q) (i : nat) : Prop :=
  (i < ny)%nat /\ exists c, (c < nx)%nat /\ get 0 dem (i * nx + c) <= nodata.

(* The start pixels of a nodata-free DEM: the first and last rows, and the first and last columns except
   their cells in the row above the last one (which get_start_pixels misses). *)
Definition start_cell (nx ny i : nat) : Prop :=
  (i < nx * ny)%nat /\ (i / nx = 0 \/ i / nx = ny - 1 \/ (i / nx + 3 <= ny /\ (i mod nx = 0 \/ i mod nx = nx - 1)))%nat.

(* The boundary cells that get_start_pixels misses. *)
Definition forgotten (nx ny i : nat) : Prop :=
  (i < nx * ny)%nat /\ (i / nx = ny - 2 /\ 3 <= ny /\ (i mod nx = 0 \/ i mod nx = nx - 1))%nat.

(* cells on the edge of the grid *)
Definition edge_cell (nx ny i : nat) : Prop :=
  (i < nx * ny)%nat /\ (i / nx = 0 \/ i / nx = ny - 1 \/ i mod nx = 0 \/ i mod nx = nx - 1)%nat.
