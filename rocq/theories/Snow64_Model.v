(** Model of the water in the snowpack in double precision: topoflow/components/snow_base.py
    251-259, 503-510, 587-602 (and the ice of glacier_base.py 626-633, 737-739: the same without
    snowfall), for one cell, with the numbers of Clock_Model.  Overflow and NaN are not modelled. *)

From Coq Require Import Reals List.
From Verif Require Import Clock_Model Interp64_Model.
Import ListNotations.
Local Open Scope R_scope.

(** 503-510: the melt rate allowed, [sm] the rate computed *)
Definition enforce_max_meltrate (sm h_swe dt : R) : R := Rmax (Rmin sm (fdiv h_swe dt)) 0.
(** 587-602 *)
Definition update_swe (h_swe p_snow sm dt : R) : R := Rmax (fsub (fadd h_swe (fmul p_snow dt)) (fmul sm dt)) 0.
(** 251-259: one update, for snowfall rate and melt rate computed *)
Definition step (dt h_swe : R) (w : R * R) : R := update_swe h_swe (fst w) (enforce_max_meltrate (snd w) h_swe dt) dt.
Definition run (dt h_swe : R) (ws : list (R * R)) : R := fold_left (step dt) ws h_swe.
