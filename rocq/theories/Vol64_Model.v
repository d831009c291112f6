(** Model of the totals and cell volumes of water in double precision: met_base.py 1247-1269,
    channels_base.py 1657-1670, 2086-2145, 2934 (topoflow/components), with the numbers of
    Clock_Model.

    Rates, cell areas and steps are doubles.  np.sum adds in an order of its own: here any
    tree of additions whose leaves are the cells in any order.  Overflow is not modelled. *)

From Coq Require Import Reals List.
From Verif Require Import Clock_Model.
Import ListNotations.
Local Open Scope R_scope.

(** met_base.py 1265, channels_base.py 1666: volume of one cell in one step *)
Definition volume (rate da dt : R) : R := fmul (fmul rate da) dt.

(** an order of additions *)
Inductive tree := Leaf (x : R) | Node (a b : tree).
Fixpoint leaves (t : tree) : list R := match t with Leaf x => [x] | Node a b => leaves a ++ leaves b end.
Fixpoint depth (t : tree) : nat := match t with Leaf _ => 0 | Node a b => S (Nat.max (depth a) (depth b)) end.
(** the sum in this order *)
Fixpoint fsum (t : tree) : R := match t with Leaf x => x | Node a b => fadd (fsum a) (fsum b) end.

(** met_base.py 1269, channels_base.py 1670: vol += np.sum(volume), one update for each tree *)
Fixpoint integral (vol : R) (ts : list tree) : R :=
  match ts with [] => vol | t :: r => integral (fadd vol (fsum t)) r end.
(** met_base.py 1267, channels_base.py 1668: volume is a number *)
Definition integral_uniform (vol v : R) (n_pixels : nat) : R := fadd vol (fmul v (INR n_pixels)).

(** channels_base.py 2086-2145 for one cell: the runoff, the tributaries' discharges in order, its own discharge *)
Definition cell_update (v rate da dt : R) (tributaries : list R) (q : R) : R :=
  let v := fadd v (volume rate da dt) in
  let v := fold_left fadd (map (fun p => fmul dt p) tributaries) v in
  let v := rnd (v - fmul q dt) in
  Rmax v 0.
