(** Model of one channel cell in double precision: topoflow/components/channels_base.py 1548-1649,
    1320-1336, 2149-2176, 2250-2431 and 2643-2671, with the numbers of Clock_Model (other files of the
    model have the same code in exact numbers).  All grids are taken to be np.float64.  The tangent of
    the bank angle (np.tan) is a parameter t.  x**(2.0) is the product x*x, as numpy computes it.
    Overflow is not modelled. *)

From Coq Require Import Reals.
From Flocq Require Import Core.
From Verif Require Import Clock_Model Interp64_Model.
Local Open Scope R_scope.

Definition fsqrt (x : R) : R := rnd (sqrt x).

(** 1625-1627: no evaporation where the cell holds less than would evaporate *)
Definition limit_ET (vol ET da dt : R) : R := if Rlt_dec vol (fmul (fmul ET da) dt) then 0 else ET.
(** 1649 *)
Definition update_R (P SM GW MR ET IN : R) : R := fsub (fadd (fadd (fadd P SM) GW) MR) (fadd ET IN).
(** 2086 and 2145: the volume of a cell without flow in or out *)
Definition add_R (vol r da dt : R) : R := fadd vol (fmul (fmul r da) dt).

(** 2154 *)
Definition channel_volume (vol bankfull : R) : R := Rmin vol bankfull.
(** 2174-2175 *)
Definition flood_volume (vol bankfull : R) : R := Rmax (fsub vol bankfull) 0.

(** 2301, 2324-2325 and 2379: vertical banks *)
Definition rect_depth (vol width ds : R) : R := Rmax (fdiv vol (fmul width ds)) 0.
(** 2303-2305, 2327-2329 *)
Definition trap_arg (vol width ds t : R) : R := fadd (fdiv (fmul (fmul 2 (fmul 2 t)) vol) ds) (fmul width width).
(** 2306, 2330 and 2379: sloping banks *)
Definition trap_depth (vol width ds t : R) : R := Rmax (fdiv (fsub (fsqrt (trap_arg vol width ds t)) width) (fmul 2 t)) 0.
(** 2423-2431 *)
Definition flood_depth (vol n width ds : R) : R := Rmax (fdiv vol (fmul (fmul n width) ds)) 0.

(** 2670-2671, 1331-1332 *)
Definition wet_area (d width t : R) : R := fmul d (fadd width (fmul d t)).
(** 1334 *)
Definition depth_volume (d width t ds : R) : R := fmul (wet_area d width t) ds.
