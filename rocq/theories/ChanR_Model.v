(* Model of the hydraulic formulas of /repo/topoflow/components/channels_base.py, one grid cell at a time (all
   of them act cell by cell).  Numbers are the reals of the standard library: rounding, overflow and NaN are
   not modelled; [wrong] marks the arguments for which numpy returns NaN or inf. *)
From Coq Require Import Reals Bool.
Local Open Scope R_scope.

(* x**p for p > 0 and x >= 0: numpy's 0**p is 0, whereas the standard library's Rpower 0 p is not *)
Definition powr (x p : R) : R := if Rle_dec x 0 then 0 else Rpower x p.

(* set_constants, 528-533 *)
Definition g : R := 981/100.
Definition aval : R := 476/1000.
Definition kappa : R := 408/1000.
Definition law_const : R := sqrt g / kappa.

(* update_channel_depth, 2288-2379.  The scalar-angle (2299-2306) and grid-angle (2317-2330) branches compute
   the same formula. *)
Definition channel_depth (vol width ds angle : R) : R :=
  let d := if Req_EM_T angle 0 then vol / (width * ds)
           else let denom := 2 * tan angle in
                let arg := 2 * denom * vol / ds + width * width in
                (sqrt arg - width) / denom in
  Rmax d 0.

(* update_flood_depth, 2423-2431 *)
Definition flood_depth (vol_flood width ds : R) : R := Rmax (vol_flood / (5 * width * ds)) 0.

(* update_trapezoid_Rh, 2668-2703; noflow: the cell is one of d8.noflow_IDs *)
Definition A_wet (d width angle : R) : R := d * (width + d * tan angle).
Definition P_wet (noflow : bool) (d width angle : R) : R := if noflow then 1 else width + 2 * d / cos angle.
Definition Rh (noflow : bool) (d width angle : R) : R :=
  if noflow then 0 else A_wet d width angle / P_wet noflow d width angle.

(* manning_formula, 3977-4001; S is S_bed (kinematic wave) or S_free *)
Definition manning (rh S nval : R) : R := powr rh (2/3) * sqrt (Rabs S) / nval.
(* law_of_the_wall, 4033-4061 *)
Definition smoothness (d z0 : R) : R := Rmax (aval / z0 * d) (11/10).
Definition law_of_wall (rh d S z0 : R) : R := law_const * sqrt (rh * Rabs S) * ln (smoothness d z0).

(* update_friction_factor, 2752-2788 *)
Definition friction_manning (d nval : R) : R := if Rlt_dec 0 d then g * (nval * nval / powr d (1/3)) else 0.
Definition friction_wall (d z0 : R) : R :=
  if Rlt_dec 0 d then (kappa / ln (smoothness d z0)) * (kappa / ln (smoothness d z0)) else 0.

(* update_flood_discharge, 1720-1745, with flood_manning_n = 0.10 and width_ratio = 5.0 (1367-1368) *)
Definition flood_discharge (d_flood S width : R) : R :=
  powr d_flood (2/3) * sqrt (Rabs S) / (1/10) * (5 * width * d_flood).

(* update_shear_stress 2626-2630 and update_shear_speed 2639 *)
Definition shear_stress (rho d S : R) : R := rho * g * d * S.
Definition shear_speed (rho tau : R) : R := sqrt (tau / rho).

(* update_froude_number, 2876-2880 *)
Definition froude (u d : R) : R := if Rlt_dec 0 d then u / sqrt (g * d) else 0.
