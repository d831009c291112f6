(** Model of /repo/topoflow/components/solar_funcs.py and of the code of components/met_base.py that feeds it,
    one grid cell at a time (all of it acts cell by cell).  Numbers are the reals of the standard library:
    rounding, overflow and NaN are not modelled.  Angles are in radians unless the name ends in _deg, times
    are in hours. *)
From Coq Require Import Reals ZArith QArith List Lia Lra.
From Verif Require Import Time_Model.
Import ListNotations.
Local Open Scope R_scope.

(* 143 *)
Definition solar_constant : R := 13615/10.
(* Day_Angle, 167 *)
Definition day_angle (jd : R) : R := 2 * PI * jd / 365.
(* Eccentricity_Correction, 182-186 *)
Definition eccentricity (g : R) : R :=
  1000110/1000000 + 34221/1000000 * cos g + 1280/1000000 * sin g + 719/1000000 * cos (2 * g) + 77/1000000 * sin (2 * g).
(* Declination in radians, 208-214 *)
Definition declination (g : R) : R :=
  6918/1000000 - 399912/1000000 * cos g + 70257/1000000 * sin g - 6758/1000000 * cos (2 * g)
  + 907/1000000 * sin (2 * g) - 2697/1000000 * cos (3 * g) + 1480/1000000 * sin (3 * g).
(* Earth_Angular_Velocity, 241-242 *)
Definition omega : R := 360 / 24 * (PI / 180).
Definition rad (deg : R) : R := deg * (PI / 180).
(* Zenith_Angle, 262-267 *)
Definition zenith (lat_deg decl th : R) : R :=
  acos (sin (rad lat_deg) * sin decl + cos (rad lat_deg) * cos decl * cos (omega * th)).
(* Sunrise_Offset, 300-308, and Sunset_Offset, 328-336 *)
Definition clip (x : R) : R := Rmin (Rmax (-1) x) 1.
Definition horizon_arg (lat_deg decl : R) : R := - (1) * tan (rad lat_deg) * tan decl.
Definition sunrise (lat_deg decl : R) : R := - (1) * acos (clip (horizon_arg lat_deg decl)) / omega.
Definition sunset (lat_deg decl : R) : R := acos (clip (horizon_arg lat_deg decl)) / omega.
(* Day_Length, 344-350 *)
Definition day_length (lat_deg jd : R) : R :=
  sunset lat_deg (declination (day_angle jd)) - sunrise lat_deg (declination (day_angle jd)).
(* ET_Radiation_Flux, 361-397 *)
Definition et_flux (lat_deg jd th : R) : R :=
  let g := day_angle jd in let delta := declination g in
  Rmax (solar_constant * eccentricity g
        * (cos delta * cos (rad lat_deg) * cos (omega * th) + sin delta * sin (rad lat_deg))) 0.
(* Optical_Air_Mass, 519-549.  The base of the power is at least 6.07995, so ** is Rpower. *)
Definition air_mass (lat_deg decl th : R) : R :=
  let gamma := Rmax (90 - zenith lat_deg decl th * (180 / PI)) 0 in
  1 / (sin (gamma * (PI / 180)) + 50572/100000 / Rpower (gamma + 607995/100000) (16364/10000)).
(* Dust_Attenuation, 563: the value used when gamma_dust is not given *)
Definition dust_default : R := 8/100.
(* Atmospheric_Transmissivity, 581-592 *)
Definition transmissivity (lat_deg jd wp th dust : R) : R :=
  let delta := declination (day_angle jd) in
  let a := - (1240/10000) - 207/10000 * wp in
  let b := - (682/10000) - 248/10000 * wp in
  Rmin (Rmax (exp (a + b * air_mass lat_deg delta th) - dust) 0) 1.
(* Direct_Radiation_Flux, 610-613 *)
Definition direct_flux (lat_deg jd wp th dust : R) : R :=
  transmissivity lat_deg jd wp th dust * et_flux lat_deg jd th.
(* Scattering_Attenuation, 625-632 *)
Definition scattering (lat_deg jd wp th dust : R) : R :=
  let delta := declination (day_angle jd) in
  let a := - (363/10000) - 84/10000 * wp in
  let b := - (572/10000) - 173/10000 * wp in
  (1 - exp (a + b * air_mass lat_deg delta th)) + dust.
(* Diffuse_Radiation_Flux, 644-647 *)
Definition diffuse_flux (lat_deg jd wp th dust : R) : R :=
  5/10 * scattering lat_deg jd wp th dust * et_flux lat_deg jd th.
(* Global_Radiation_Flux, 659-665 *)
Definition global_flux (lat_deg jd wp th dust : R) : R :=
  direct_flux lat_deg jd wp th dust + diffuse_flux lat_deg jd wp th dust.
(* BS_Radiation_Flux, 682-695 *)
Definition bs_flux (lat_deg jd wp albedo th dust : R) : R :=
  5/10 * scattering lat_deg jd wp th dust * albedo * global_flux lat_deg jd wp th dust.
(* Longitude_Offset, 713-717.  numpy's division by zero (inf or NaN) is not modelled: theorems that use it
   assume a nonzero denominator. *)
Definition lon_denominator (lat_deg alpha beta : R) : R :=
  cos beta * cos (rad lat_deg) - sin beta * sin (rad lat_deg) * cos alpha.
Definition longitude_offset (lat_deg alpha beta : R) : R :=
  atan (sin beta * sin alpha / lon_denominator lat_deg alpha beta).
(* Equivalent_Latitude, 735-749 *)
Definition equivalent_latitude (lat_deg alpha beta : R) : R :=
  asin (sin beta * cos alpha * cos (rad lat_deg) + cos beta * sin (rad lat_deg)).
Definition equivalent_latitude_deg (lat_deg alpha beta : R) : R :=
  equivalent_latitude lat_deg alpha beta * (180 / PI).
(* Noon_Offset_Slope, 755-757 *)
Definition noon_slope (lat_deg alpha beta : R) : R := - (1) * longitude_offset lat_deg alpha beta / omega.
(* Sunrise_Offset_Slope, 771-782, and Sunset_Offset_Slope, 796-807 *)
Definition sunrise_slope (lat_deg jd alpha beta : R) : R :=
  let delta := declination (day_angle jd) in
  Rmax (sunrise (equivalent_latitude_deg lat_deg alpha beta) delta + noon_slope lat_deg alpha beta)
       (sunrise lat_deg delta).
Definition sunset_slope (lat_deg jd alpha beta : R) : R :=
  let delta := declination (day_angle jd) in
  Rmin (sunset (equivalent_latitude_deg lat_deg alpha beta) delta + noon_slope lat_deg alpha beta)
       (sunset lat_deg delta).
(* ET_Radiation_Flux_Slope, 833-864 *)
Definition et_flux_slope (lat_deg jd th alpha beta : R) : R :=
  let g := day_angle jd in let delta := declination g in
  let lat_eq := equivalent_latitude lat_deg alpha beta in
  let dlon := longitude_offset lat_deg alpha beta in
  Rmax (solar_constant * eccentricity g
        * (cos delta * cos lat_eq * cos (omega * th + dlon) + sin lat_eq * sin delta)) 0.
(* Clear_Sky_Radiation, 884-928 *)
Definition clear_sky (lat_deg jd wp th alpha beta albedo dust : R) : R :=
  if Rle_dec th (sunrise_slope lat_deg jd alpha beta) then 0
  else if Rge_dec th (sunset_slope lat_deg jd alpha beta) then 0
  else transmissivity lat_deg jd wp th dust * et_flux_slope lat_deg jd th alpha beta
       + diffuse_flux lat_deg jd wp th dust + bs_flux lat_deg jd wp albedo th dust.
(* met_base.py update_net_shortwave_radiation, 2060-2080 *)
Definition net_shortwave (lat_deg jd wp th alpha beta albedo dust : R) : R :=
  clear_sky lat_deg jd wp th alpha beta albedo dust * (1 - albedo).

(* Julian_Day, 964-988, without the hour *)
Definition month_days (year : option Z) : list Z :=
  match year with
  | Some y => if Z.eqb (y mod 4) 0 then [0; 31; 29; 31; 30; 31; 30; 31; 31; 30; 31; 30; 31]%Z
              else [0; 31; 28; 31; 30; 31; 30; 31; 31; 30; 31; 30; 31]%Z
  | None => [0; 31; 28; 31; 30; 31; 30; 31; 31; 30; 31; 30; 31]%Z
  end.
Definition julian_day (month day : Z) (year : option Z) : Z :=
  (fold_right Z.add 0 (firstn (Z.to_nat month) (month_days year)) + Z.max (day - 1) 0)%Z.
Definition julian_day_hour (month day : Z) (hour : R) (year : option Z) : R :=
  IZR (julian_day month day year) + hour / 24.

(* Earth_Orbit_Eccentricity 1088, Earth_Tilt_Angle 1069-1074, Days_Per_Year 1036, Vernal_Equinox 1114-1118 *)
Definition orbit_eccentricity : R := 16713/1000000.
Definition tilt : R := rad (234397/10000).
Definition days_per_year : R := 3652425/10000.
Definition vernal_equinox (year : Z) : R := 793125/10000 + days_per_year * (IZR year - 2000).
(* Equation_Of_Time in hours, 1243-1343.  [perihelion] is the day that Earth_Perihelion (1122-1171) takes from
   its table for the year; the theorems hold for every such value.  [pymod] is numpy's %, for a positive
   divisor. *)
Definition pymod (x y : R) : R := x - y * IZR (Int_part (x / y)).
Definition rotation_rate : R := 2 * PI / 24.
Definition equation_of_time (perihelion : Z -> R) (jd : R) (year : Z) : R :=
  let twopi := 2 * PI in
  let Tp := perihelion year in
  let M := pymod (twopi / days_per_year * (jd - Tp) + twopi) twopi in
  let PT := (365 + Tp) - vernal_equinox year in
  let om := twopi * (PT / days_per_year) in
  let L := M + om in
  (- (2) * orbit_eccentricity * sin M + sin (2 * L) * (tilt / 2) ^ 2) / rotation_rate.
(* True_Solar_Noon, 1381-1395; met_base calls it with DST_offset=None *)
Definition true_solar_noon (perihelion : Z -> R) (jd lon_deg gmt : R) (year : Z) : R :=
  12 + (gmt * 15 - lon_deg) / 15 + equation_of_time perihelion jd year.
(* met_base.py update_julian_day, 1956-1980.  np.int16 of the (nonnegative) day is its integer part; the
   minutes and seconds of the current time are not passed to Julian_Day. *)
Definition tsn_offset (perihelion : Z -> R) (year month day hour minute : Z) (lon_deg gmt : R) : R :=
  let jd := julian_day_hour month day (IZR hour) (Some year) in
  let clock := (jd - IZR (Int_part jd)) * 24 in
  clock - true_solar_noon perihelion jd lon_deg gmt year.

(* met_base.py set_slope_angle, 996-1013 (a finite slope): None where the method returns without setting beta *)
Definition slope_angle (slope : R) : option R :=
  let beta := pymod (2 * PI + atan slope) (2 * PI) in
  if Rlt_dec (PI / 2) beta then None else Some beta.
(* met_base.py set_aspect_angle, 1028-1037 (a finite aspect) *)
Definition aspect_angle (aspect : R) : R := pymod (2 * PI + (PI / 2 - aspect)) (2 * PI).

(* Latitude_Grid, 1404-1413, and Longitude_Grid, 1449-1457 (geographic coordinates): rows of the grid *)
Definition latitude_grid (nrows ncols : nat) (yres y_south : R) : list (list R) :=
  let dy := yres / 3600 in
  let lats := rev (map (fun k => INR k * dy + y_south + dy / 2) (seq 0 nrows)) in
  map (fun lat => map (fun one => lat * one) (repeat 1 ncols)) lats.
Definition longitude_grid (nrows ncols : nat) (xres x_west : R) : list (list R) :=
  let dx := xres / 3600 in
  let lons := map (fun k => INR k * dx + x_west + dx / 2) (seq 0 ncols) in
  map (fun one => map (fun lon => one * lon) lons) (repeat 1 nrows).
