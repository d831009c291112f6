(** Model of the water of the channel network in double precision over a run:
    topoflow/components/channels_base.py 1657-1670, 1951-2145, 2954-2965, with the D8 grids of
    D8_Model and the numbers of Clock_Model.  Chan_Model has the same code in exact numbers.

    Grids are lists in C order.  The runoff is a grid (Vol64_Model has the total for a uniform
    one).  np.sum adds in an order of its own, [order].  Overflow and NaN are not modelled. *)

From Coq Require Import ZArith Reals List.
From Verif Require Import Base Clock_Model Interp64_Model Vol64_Model.
From Verif Require D8_Model Chan_Model.
Import ListNotations.
Local Open Scope R_scope.

(** np.sum; the sum of no numbers is 0.0 *)
Definition npsum (order : list R -> tree) (l : list R) : R := match l with [] => 0 | _ => fsum (order l) end.

(** a[ps] += xs: a[ps] is read before anything is written *)
Definition fancy_add (a : list R) (ps : list nat) (xs : list R) : list R :=
  fold_left (fun acc px => set acc (fst px) (fadd (get 0 a (fst px)) (snd px))) (combine ps xs) a.

Section Grid.
Variable G : D8_Model.geom.
Notation n := (D8_Model.ncells G).
Variables (d8 pid : list Z).      (* d8.d8_grid, d8.parent_ID_grid *)
Variable da : nat -> R.           (* d8.da *)
Variable dt : R.
Variable order : list R -> tree.

(** 1666, 2078, 2086: the volume of runoff of each cell *)
Definition runoff (r : list R) : list R := tab n (fun i => volume (get 0 r i) (da i) dt).

(** 2116-2131 *)
Definition route_inflow (q vol : list R) : list R :=
  fold_left (fun v k => fancy_add v (D8_Model.flow_to G d8 pid k) (map (fun i => fmul dt (get 0 q i)) (D8_Model.flow_from G d8 k)))
            D8_Model.dirs vol.

(** 2077-2086: what reaches the channel of each cell, and what stays on the hillslope; [att] is n_days *)
Definition hillslope (att : option R) (w stored : list R) : list R * list R :=
  match att with
  | Some n_days =>
      let s := tab n (fun i => fadd (get 0 stored i) (get 0 w i)) in
      let t_drain := fmul 86400 n_days in
      let sides := tab n (fun i => Rmin (fmul (fdiv (get 0 s i) t_drain) dt) (get 0 s i)) in
      (sides, tab n (fun i => Rmax (fsub (get 0 s i) (get 0 sides i)) 0))
  | None => (w, stored)
  end.

(** 1951-2145 *)
Definition update_flow_volume (att : option R) (r q vol stored : list R) : list R * list R :=
  let '(sides, stored) := hillslope att (runoff r) stored in
  let vol := tab n (fun i => fadd (get 0 vol i) (get 0 sides i)) in
  let vol := route_inflow q vol in
  (tab n (fun i => Rmax (fsub (get 0 vol i) (fmul (get 0 q i) dt)) 0), stored).

Record state := mkSt { vol : list R; vol_stored : list R; vol_R : R; vol_edge : R }.

(** update: update_R_integral 1666-1670, update_flow_volume, update_edge_values 2960-2965; the
    discharges Q (1697, 1743-1745, 1827) are given *)
Definition update (att : option R) (s : state) (x : list R * list R) : state :=
  let '(r, q) := x in
  let volR := fadd (vol_R s) (npsum order (runoff r)) in
  let '(v, st) := update_flow_volume att r q (vol s) (vol_stored s) in
  let e := fadd (vol_edge s) (npsum order (map (get 0 v) (Chan_Model.noflow_IDs G d8))) in
  {| vol := tab n (fun i => if (get 0%Z d8 i <=? 0)%Z then 0 else get 0 v i); vol_stored := st; vol_R := volR; vol_edge := e |}.

Definition run (att : option R) (s : state) (xs : list (list R * list R)) : state := fold_left (update att) xs s.
End Grid.
