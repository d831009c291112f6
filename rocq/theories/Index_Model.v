(** Model of the climate indices of GAGES-II basins: topoflow/utils/ngen/gages2_utils.py
    get_gages2_monthly_temp_array, get_snow_precip_fraction, get_precip_timing_index, get_aridity_index, and
    gages2B_utils.py get_temperature_range.

    Numbers are reals (simplified: np.float32 of the values in the tables is not rounded, and a value is
    a number already).  [val_dict] gives the value of a column, [None] where the column is missing. *)

From Coq Require Import Reals String List Arith Bool.
From Verif Require Import Time_Model Io_Model.
Import ListNotations.
Local Open Scope string_scope.
Local Open Scope R_scope.

Definition dict := string -> option R.
Definition look (d : dict) (key : string) : res R := match d key with Some v => Ok v | None => Err KeyError end.

(** 821-826 *)
Definition get_month_list : list string :=
  ["JAN"; "FEB"; "MAR"; "APR"; "MAY"; "JUN"; "JUL"; "AUG"; "SEP"; "OCT"; "NOV"; "DEC"].
Fixpoint look_all (d : dict) (keys : list string) : res (list R) :=
  match keys with
  | [] => Ok []
  | k :: r => let! v := look d k in let! l := look_all d r in Ok (v :: l)
  end.
(** 830-860 *)
Definition get_gages2_monthly_precip_array (d : dict) : res (list R) :=
  look_all d (map (fun m => m ++ "_PPT7100_CM") get_month_list).
(** 864-873 *)
Definition get_gages2_monthly_temp_array (d : dict) : res (list R) :=
  look_all d (map (fun m => m ++ "_TMP7100_DEGC") get_month_list).

(** 1178-1204: f_s is assigned only where UNITS is not 'percent' *)
Definition get_snow_precip_fraction (d : dict) (UNITS : string) : res R :=
  let! val := look d "SNOW_PCT_PRECIP" in
  let val := if Req_EM_T val (-9999) then 0 else val in
  if String.eqb (lower UNITS) "percent" then Err UnboundLocalError else Ok (val / 100).

(** np.float32 division: a number, an infinity or NaN *)
Inductive xnum := Num (r : R) | PInf | MInf | NaN.
Definition xdiv (a b : R) : xnum :=
  if Req_EM_T b 0 then (if Rlt_dec 0 a then PInf else if Rlt_dec a 0 then MInf else NaN) else Num (a / b).

Definition rmax (l : list R) : R := fold_right Rmax (hd 0 l) l.
Definition rmin (l : list R) : R := fold_right Rmin (hd 0 l) l.
Definition rsum (l : list R) : R := fold_right Rplus 0 l.

(** 1232-1284: the mean temperature and the range *)
Definition temperatures (d : dict) (SB3 : bool) (range_method : nat) : res (R * R) :=
  let range_method := if SB3 then 0%nat else range_method in
  let! T_avg := look d "T_AVG_BASIN" in
  match range_method with
  | 0%nat => let! T_rng := look d "JUL_JAN_TMP_DIFF_DEGC" in Ok (T_avg, T_rng)
  | 1%nat => let! T_vals := get_gages2_monthly_temp_array d in
             Ok (rsum T_vals / 12, rmax T_vals - rmin T_vals)
  | 2%nat => let! T_max := look d "T_MAX_BASIN" in let! T_min := look d "T_MIN_BASIN" in Ok (T_avg, T_max - T_min)
  | _ => Err UnboundLocalError
  end.

(** 1285 *)
Definition T_bar_star (T_avg T_rng : R) : xnum := xdiv (T_avg - 1) (Rabs T_rng / 2).
(** 1300-1376; where T_bs is NaN no branch assigns delta_p *)
Definition delta_p (T_bs : xnum) (f_s : R) : res R :=
  match T_bs with
  | Num T =>
      if (if Rlt_dec (-1) T then if Rlt_dec T 1 then true else false else false) then
        let numer := PI - 2 * f_s * PI - 2 * asin T in
        let denom := 2 * sqrt (1 - T ^ 2) in
        Ok (Rmin (Rmax (numer / denom) (-999/1000)) (999/1000))
      else if Rle_dec T (-1) then Ok (-1) else Ok 1
  | PInf => Ok 1
  | MInf => Ok (-1)
  | NaN => Err UnboundLocalError
  end.
(** 1208-1388 *)
Definition get_precip_timing_index (d : dict) (f_s : R) (SB3 : bool) (range_method : nat) : res R :=
  let! t := temperatures d SB3 range_method in
  delta_p (T_bar_star (fst t) (snd t)) f_s.

(** 1392-1420 *)
Definition get_aridity_index (d : dict) : res xnum :=
  let! PET := look d "PET" in
  let! P := look d "PPTAVG_BASIN" in
  Ok (xdiv (PET / 10) P).

(** gages2B_utils.py 595-605 *)
Definition get_temperature_range (d : dict) (SITE : bool) : res R :=
  let! T_min := look d (if SITE then "T_MIN_SITE" else "T_MIN_BASIN") in
  let! T_max := look d (if SITE then "T_MAX_SITE" else "T_MAX_BASIN") in
  Ok (T_max - T_min).
