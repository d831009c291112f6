(** Model of linear time interpolation in double precision: topoflow/framework/time_interpolation.py
    63-133 and 670, with the numbers of Clock_Model (Interp_Model has the same code in exact
    numbers, with the arrays it shares).  One cell; [equal_somewhere]: some cell has v1 = v2
    (116-118), which makes the whole grid constant. *)

From Coq Require Import Reals List.
From Flocq Require Import Core.
From Verif Require Import Clock_Model.
Import ListNotations.
Local Open Scope R_scope.

Definition fsub (x y : R) : R := rnd (x - y).
(** 119 *)
Definition slope (v1 v2 t1 t2 : R) : R := fdiv (fsub v2 v1) (fsub t2 t1).
(** 120 *)
Definition intercept (v1 v2 t1 t2 : R) : R := fsub v2 (fmul (slope v1 v2 t1 t2) t2).
(** 670 *)
Definition linear (v1 v2 t1 t2 t : R) : R := fadd (fmul (slope v1 v2 t1 t2) t) (intercept v1 v2 t1 t2).
(** 132-133 *)
Definition constant (v2 t : R) : R := fadd (fmul 0 t) v2.

(** 116-118: dv_min != 0 *)
Definition all_differ (vs : list (R * R)) : bool := forallb (fun p => negb (Req_bool (Rabs (fsub (snd p) (fst p))) 0)) vs.
(** the grid at time t: vs has v1 and v2 of each cell *)
Definition get_values (vs : list (R * R)) (t1 t2 t : R) : list R :=
  map (fun p => if (all_differ vs && negb (Req_bool t2 t1))%bool then linear (fst p) (snd p) t1 t2 t else constant (snd p) t) vs.
