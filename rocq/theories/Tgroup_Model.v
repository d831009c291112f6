(** Model of the time step grids of the landscape model: topoflow/components/erode_base.py 1052-1194 (update_dt_grid_method1;
    erode_d8_global.py 844-986 update_dt_grid_method0 is the same code), 1219-1376 (update_min_dz_up_grid), 1463-1514
    (update_dt_grid_method2), 1531-1649 (update_dt_grid_local1) and 1674-1796 (update_n_grid).
    Grids are functions of the cell number; numbers are reals; NaN and infinite values do not occur except where
    the code overwrites them (1488, 1493-1497). *)

From Coq Require Import ZArith Reals List Bool Arith.
From Flocq Require Import Core.
Import ListNotations.
Local Open Scope R_scope.

Definition grid := nat -> R.
(** assignment of one element *)
Definition put (g : grid) (p : nat) (v : R) : grid := fun q => if Nat.eqb q p then v else g q.
(** grid.min(), grid.max() of a grid of N cells *)
Definition gmin (N : nat) (g : grid) : R := fold_right Rmin (g 0%nat) (map g (seq 0 N)).
Definition gmax (N : nat) (g : grid) : R := fold_right Rmax (g 0%nat) (map g (seq 0 N)).

(** ** Rise to the lowest cell upstream *)

(** d8_base.py 736-782: the cells with one flow code and their parents, ID_grid + inc_map[code] *)
Definition flows (N : nat) (code : nat -> Z) (c : Z) (inc : Z) : list (nat * nat) :=
  map (fun k => (k, Z.to_nat (Z.of_nat k + inc))) (filter (fun k => (code k =? c)%Z) (seq 0 N)).
(** 1267-1297, one direction: the right side is computed first, then stored element by element *)
Definition minimum_at (dem : grid) (g : grid) (kp : list (nat * nat)) : grid :=
  fold_left (fun h pv => put h (fst pv) (snd pv)) (map (fun x => (snd x, Rmin (g (snd x)) (dem (fst x) - dem (snd x)))) kp) g.
(** 1264-1297 *)
Definition min_dz_up (dem : grid) (directions : list (list (nat * nat))) : grid :=
  fold_left (minimum_at dem) directions (fun _ => 9999).

(** 1487-1514: the time step grid, its minimum and its maximum *)
Definition bad (m dz_dt : grid) (k : nat) : bool := if Req_EM_T (m k) 9999 then true else if Rle_dec (dz_dt k) 0 then true else false.
Definition update_dt_grid_method2 (N : nat) (m dz_dt : grid) : grid * R * R :=
  let d := fun k => if bad m dz_dt k then 0 else 1 * m k / dz_dt k in
  let x := gmax N d in
  let dt_max := if Req_EM_T x 0 then 1 else x in
  let d' := fun k => if Req_EM_T (d k) 0 then dt_max else d k in
  (d', gmin N d', dt_max).

(** ** Steps from the differences to the parent *)

(** 1117-1156 with fac = 0.3 and far = 1e9; None: sys.exit *)
Definition del (g : grid) (parent : nat -> nat) (k : nat) : R := Rmax (g k - g (parent k)) 0.
Definition step_of (fac far : R) (parent : nat -> nat) (dem Qs da : grid) (k : nat) : R :=
  if Rlt_dec 0 (del Qs parent k) then
    if Rlt_dec 0 (del dem parent k) then fac * (del dem parent k / del Qs parent k) * da k else far
  else far.
(** 1187-1194 *)
Definition checked (N : nat) (g : grid) : option (grid * R * R) :=
  if Rlt_dec (gmin N g) (1 / 100) then None else Some (g, gmin N g, gmax N g).
Definition update_dt_grid_method1 (N : nat) (parent : nat -> nat) (dem Qs da : grid) : option (grid * R * R) :=
  checked N (step_of (3 / 10) 1000000000 parent dem Qs da).
(** 1562-1649: the cells of a list only; the others get 10000 years *)
Definition update_dt_grid_local1 (N : nat) (IDs : list nat) (parent : nat -> nat) (dem Qs da : grid) : option (grid * R * R) :=
  checked N (fun k => if existsb (Nat.eqb k) IDs then step_of (4 / 10) 10000 parent dem Qs da k else 10000).

(** ** Groups of cells of like time step *)

(** 1687-1724 *)
Definition n_cell (dt_min dt : R) : Z := (1 + Zfloor (ln (dt / dt_min) / ln 4))%Z.
Definition n_grid (N : nat) (dt : grid) (k : nat) : Z := n_cell (gmin N dt) (dt k).
(** 1731: n_grid.max() *)
Definition n_top (N : nat) (n : nat -> Z) : Z := fold_right Z.max (n 0%nat) (map n (seq 0 N)).
(** 1742 *)
Definition group (N : nat) (n : nat -> Z) (i : nat) : list nat := filter (fun k => (n k =? Z.of_nat i)%Z) (seq 0 N).
(** the part of group_IDs that is filled, group_start and group_count (for n = 0, 1, ...), start *)
Record groups := Groups { IDs : list nat; starts : list nat; counts : list nat }.
(** 1737-1752, one turn *)
Definition add_group (N : nat) (n : nat -> Z) (s : groups) (i : nat) : groups :=
  let g := group N n i in
  Groups (IDs s ++ g) (starts s ++ [length (IDs s)]) (counts s ++ [length g]).
(** 1730-1752: group_start[0] and group_count[0] stay 0 *)
Definition update_n_grid (N : nat) (n : nat -> Z) : groups :=
  fold_left (add_group N n) (seq 1 (Z.to_nat (n_top N n))) (Groups [] [0%nat] [0%nat]).
(** 1754: the error message is printed *)
Definition n_error (N : nat) (s : groups) : bool := negb (Nat.eqb (length (IDs s)) N).
(** 1788-1793 *)
Definition T_global (N : nat) (n : nat -> Z) : R := INR N * IZR (4 ^ (n_top N n - 1)).
Definition T_local (N : nat) (n : nat -> Z) : Z :=
  fold_right Z.add 0%Z (map (fun i => Z.of_nat (nth i (counts (update_n_grid N n)) 0%nat) * 4 ^ (n_top N n - Z.of_nat i))%Z
                            (seq 1 (Z.to_nat (n_top N n)))).
