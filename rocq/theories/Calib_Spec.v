(* Vocabulary for the statements about calibration. *)
From Coq Require Import Reals List.
Import ListNotations.
Local Open Scope R_scope.

(* the sum of f over the positions 0 .. n-1 *)
Fixpoint sum_to (n : nat) (f : nat -> R) : R := match n with O => 0 | S k => sum_to k f + f k end.
(* |x|^p, 0 for x = 0 *)
Definition abs_power (x p : R) : R := if Req_EM_T x 0 then 0 else Rpower (Rabs x) p.
(* the position of x in a list: at k the list holds x *)
Definition at_pos (l : list R) (k : nat) (x : R) : Prop := nth_error l k = Some x.
Definition increasing (l : list R) : Prop := forall i j x y, (i < j)%nat -> at_pos l i x -> at_pos l j y -> x < y.
(* the straight line through (x0,y0) and (x1,y1) *)
Definition on_line (x0 y0 x1 y1 x y : R) : Prop := (y - y0) * (x1 - x0) = (y1 - y0) * (x - x0).
