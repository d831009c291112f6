(* The transport law of /repo/topoflow/components/erode_d8_global.py: update_Q_grid 632-655 and
   update_Qs_grid 680-705, one cell.  Real numbers; p, m, n > 0; A and S >= 0 (a cell without flow code has
   A = 0 and S = 0).  powr is numpy's ** for such arguments. *)
From Coq Require Import Reals Lra.
From Verif Require Import ChanR_Model.
Local Open Scope R_scope.

Definition secs_per_year : R := 31536000.                                 (* erode_base.py 140 *)
Definition discharge (R0 p A : R) : R :=                                  (* 646-653 *)
  if Req_EM_T p 1 then R0 * A else R0 * powr A p.
Definition sediment (K m n Q S : R) : R :=                                (* 702-705 *)
  Rpower secs_per_year (1 - m) * (K * powr Q m) * powr S n.
