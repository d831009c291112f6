(** Model of the energy balance of /repo/topoflow/components/met_base.py (update, 791-809, without the solar part,
    which is in Solar_Model.v), one grid cell at a time except where the code looks at the whole grid.  Numbers
    are reals: rounding and overflow are not modelled, and NaN only for calm air ([heat_conductance]). *)
From Coq Require Import Reals ZArith List Bool Lia Lra.
From Verif Require Import ChanR_Model.
Import ListNotations.
Local Open Scope R_scope.

(* set_constants, 579-602 *)
Definition gravity : R := 981/100.
Definition von_karman : R := 408/1000.
Definition rho_H2O : R := 1000.
Definition rho_air : R := 12614/10000.
Definition Cp_air : R := 10057/10.
Definition Lv : R := 2500000.
Definition sigma : R := 567 / 10000000000.
Definition C_to_K : R := 27315/100.
Definition latent_heat_constant : R := 622/1000.

(* update_saturation_vapor_pressure with MBAR=True, 1699-1717 *)
Definition e_sat (satterlund : bool) (T : R) : R :=
  (if satterlund then Rpower 10 (114/10 - 2353 / (T + 27315/100)) / 1000
   else 611/1000 * exp (173/10 * T / (T + 2373/10))) * 10.
(* update_vapor_pressure, 1764; called for the air (792) and for the surface (800), both with the RH of the air *)
Definition vapor_pressure (RH e : R) : R := RH * e.
(* update_dew_point, 1822-1827 *)
Definition dew_point (e_air : R) : R :=
  let l := ln (e_air / (61121/10000)) in (25714/100) * l / (18678/1000 - l).
(* update_T_surf, 1843-1851: the value given by the user is kept for the other types *)
Inductive var_type := Scalar | Grid | Time_Series | Grid_Sequence.
Definition is_fixed (t : var_type) : bool := match t with Scalar | Grid => true | _ => false end.
Definition surface_temp (t : var_type) (T_surf T_dew h_snow h_ice : R) : R :=
  if is_fixed t then
    (if Rlt_dec 0 h_snow then Rmin T_dew 0 else if Rlt_dec 0 h_ice then Rmin T_dew 0 else T_dew)
  else T_surf.
(* update_bulk_richardson_number, 1465-1467 *)
Definition richardson (z uz T_air T_surf : R) : R :=
  (gravity * z * (T_air - T_surf)) / ((uz * uz) * (T_air + 27315/100)).
(* update_bulk_aero_conductance, 1506-1507 *)
Definition neutral_conductance (uz z h_snow z0 : R) : R :=
  let arg := von_karman / ln ((z - h_snow) / z0) in uz * (arg * arg).
(* 1567-1607, one cell.  With uz = 0 Richardson's number is inf, -inf or NaN: 0/(1+inf) is 0, 0*(1+inf) and NaN
   are NaN (None). *)
Definition heat_conductance (z uz h_snow z0 T_air T_surf : R) : option R :=
  let Dn := neutral_conductance uz z h_snow z0 in
  if Req_EM_T uz 0 then (if Rlt_dec T_surf T_air then Some 0 else None)
  else let Ri := richardson z uz T_air T_surf in
       if Rlt_dec 0 Ri then Some (Dn / (1 + 10 * Ri)) else Some (Dn * (1 - 10 * Ri)).
(* 1509-1528: if T_air = T_surf in all cells, Dh is Dn everywhere *)
Record cell := mkcell { c_z : R; c_uz : R; c_hsnow : R; c_z0 : R; c_Tair : R; c_Tsurf : R }.
Definition same_temps (l : list cell) : bool :=
  forallb (fun c => if Req_EM_T (c_Tair c) (c_Tsurf c) then true else false) l.
Definition conductances (l : list cell) : list (option R) :=
  if same_temps l then map (fun c => Some (neutral_conductance (c_uz c) (c_z c) (c_hsnow c) (c_z0 c))) l
  else map (fun c => heat_conductance (c_z c) (c_uz c) (c_hsnow c) (c_z0 c) (c_Tair c) (c_Tsurf c)) l.
(* update_sensible_heat_flux, 1646-1647 *)
Definition sensible_flux (Dh T_air T_surf : R) : R := rho_air * Cp_air * Dh * (T_air - T_surf).
(* update_precipitable_water_content, 1864-1865 *)
Definition precipitable_water (T_dew : R) : R := 112/100 * exp (614/10000 * T_dew).
(* update_latent_heat_flux, 1888-1891 *)
Definition latent_flux (De e_air e_surf p0 : R) : R :=
  rho_air * Lv * De * (e_air - e_surf) * (latent_heat_constant / p0).
(* update_em_air, 2115-2149; x ** y for x >= 0 is ChanR_Model.powr *)
Definition em_air (satterlund : bool) (T_air e_air canopy cloud : R) : R :=
  let T_K := T_air + C_to_K in
  if satterlund then 108/100 * (1 - exp (- (1) * powr e_air (T_K / 2016)))
  else (1 - canopy) * (172/100) * powr (e_air / 10 / T_K) (1/7) * (1 + 22/100 * cloud ^ 2) + canopy.
(* update_net_longwave_radiation, 2192-2207 *)
Definition net_longwave (em_a em_s T_air T_surf : R) : R :=
  let LW_in := em_a * sigma * (T_air + C_to_K) ^ 4 in
  let LW_out := em_s * sigma * (T_surf + C_to_K) ^ 4 + (1 - em_s) * LW_in in
  LW_in - LW_out.
(* update_net_energy_flux, 2305; Qa and Qc stay 0 (1198-1199, 1905-1934) *)
Definition energy_sum (Qn_SW Qn_LW Qh Qe : R) : R := Qn_SW + Qn_LW + Qh + Qe + 0 + 0.

(** Albedo, update_albedo with method 'aging', 1997-2032, and its set-up, 1123-1133. *)
(* 1126: int64(259200/dt) *)
Definition window_size (dt : R) : nat := Z.to_nat (Int_part (259200 / dt)).
(* np.roll(window, -1, axis=0), 2015, then the last entry replaced, 2017; None: no last entry (IndexError) *)
Definition roll (w : list R) : list R := match w with [] => [] | a :: l => l ++ [a] end.
Definition put_last (w : list R) (v : R) : option (list R) :=
  match w with [] => None | _ => Some (removelast w ++ [v]) end.
Definition rsum (l : list R) : R := fold_right Rplus 0 l.
Record snow_age := mkage { window : list R; age : R; albedo : R }.
Record weather := mkweather { w_Tair : R; w_Psnow : R; w_hsnow : R; w_hice : R }.
Definition update_albedo (t : var_type) (dt rho_snow : R) (s : snow_age) (w : weather) : option snow_age :=
  if is_fixed t then
    let r := if Rlt_dec 0 (w_Tair w) then 12/100 else 5/100 in
    match put_last (roll (window s)) (w_Psnow w * dt * (rho_H2O / rho_snow)) with
    | None => None
    | Some win =>
        let total := rsum win in
        let n1 := if Rge_dec total (3/100) then 0 else age s in
        let n2 := if Rlt_dec total (3/100) then n1 + dt / 86400 else n1 in
        let snow_albedo := 4/10 + 44/100 * exp (- n2 * r) in
        let a1 := if Rlt_dec 0 (w_hsnow w) then snow_albedo else albedo s in
        let a2 := if Req_EM_T (w_hsnow w) 0 then (if Rlt_dec 0 (w_hice w) then 3/10 else a1) else a1 in
        let a3 := if Req_EM_T (w_hsnow w) 0 then (if Req_EM_T (w_hice w) 0 then 15/100 else a2) else a2 in
        Some (mkage win n2 a3)
    end
  else Some s.
(* initialize_computed_vars 1123-1133: no snowfall, age 0, the albedo of the configuration file *)
Definition initial_age (dt albedo0 : R) : snow_age := mkage (repeat 0 (window_size dt)) 0 albedo0.
Fixpoint albedo_run (t : var_type) (dt rho_snow : R) (s : snow_age) (l : list weather) : option snow_age :=
  match l with
  | [] => Some s
  | w :: l' => match update_albedo t dt rho_snow s w with
               | None => None
               | Some s' => albedo_run t dt rho_snow s' l'
               end
  end.
