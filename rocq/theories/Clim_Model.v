(* Model of /repo/topoflow/utils/ngen/swb_utils.py (seasonal water balance classes), knoben_utils.py (Hamon's potential
   evaporation and Knoben's climate indicators; the same functions are in classify.py 1427-1797) and of the collecting of
   indicators in classify.py.  Numbers are rationals for the classes, reals for the rest; rounding is not modelled. *)
From Coq Require Import String.
From Coq Require Import QArith Reals List Bool Arith.
From Verif Require Import Base Solar_Model.
Import ListNotations.

(* ---------- swb_utils.py ---------- *)
Section Swb.
Local Open Scope Q_scope.
Inductive cls := A1 | A2 | A3 | B1 | B2 | B3 | C1 | C2 | D1 | D2 | D3.
(* (lo < x) and (x <= hi) *)
Definition btw (lo x hi : Q) : bool := Qltb lo x && Qle_bool x hi.
Variables ORIGINAL USE_B3 : bool.
(* the bounds that depend on the options, 88-265 *)
Definition A_dp_max : Q := if ORIGINAL then -(4 # 10) else -(1 # 10).
Definition C_dp_min : Q := if ORIGINAL then 0 else -(1 # 10).
Definition D2_dp_min : Q := if ORIGINAL then -(1 # 10) else -(1 # 10).
Definition D3_dp_min : Q := if ORIGINAL then -(1 # 10) else -(1 # 10).
Definition D1_dp_max : Q := if ORIGINAL then 3 # 10 else 1.
Definition D2_dp_max : Q := if ORIGINAL then 3 # 10 else 1.
Definition D3_dp_max : Q := if ORIGINAL then 4 # 10 else 1.
Definition D1_phi_min : Q := if ORIGINAL then 5 # 10 else 0.
Definition D2_phi_min : Q := if ORIGINAL then 5 # 10 else 0.
Definition D3_phi_min : Q := if ORIGINAL then 4 # 10 else 0.
Definition A3_fs_max : Q := if ORIGINAL || USE_B3 then 45 # 100 else 1.
Definition C_fs_max : Q := if ORIGINAL then 25 # 100 else 45 # 100.
Definition A3_phi_max : Q := if ORIGINAL then 5 else 58 # 10.
Definition C2_phi_max : Q := if ORIGINAL then 53 # 10 else 58 # 10.
Definition B3_phi_max : Q := if ORIGINAL then 53 # 10 else 58 # 10.
(* 271-284 *)
Definition match_A (d_p f_s phi : Q) (c : option cls) : option cls :=
  if btw (-(1)) d_p A_dp_max then
    if btw 0 phi (75 # 100) then if btw 0 f_s (45 # 100) then Some A1 else c
    else if btw (75 # 100) phi (175 # 100) then if btw 0 f_s (45 # 100) then Some A2 else c
    else if btw (175 # 100) phi A3_phi_max then if btw 0 f_s A3_fs_max then Some A3 else c
    else c
  else c.
(* 290-302 *)
Definition match_B (d_p f_s phi : Q) (c : option cls) : option cls :=
  if btw (-(1)) d_p 1 then
    if btw (45 # 100) f_s 1 then
      if btw 0 phi (75 # 100) then Some B1
      else if btw (75 # 100) phi (175 # 100) then Some B2
      else if btw (175 # 100) phi B3_phi_max then if USE_B3 then Some B3 else c
      else c
    else c
  else c.
(* 308-313; here the lower bound of f_s is included *)
Definition match_C (d_p f_s phi : Q) (c : option cls) : option cls :=
  if btw C_dp_min d_p 1 then
    if Qle_bool 0 f_s && Qle_bool f_s C_fs_max then
      if btw (9 # 10) phi (15 # 10) then Some C1
      else if btw (15 # 10) phi C2_phi_max then Some C2
      else c
    else c
  else c.
(* 320-333 *)
Definition match_D (d_p f_s phi : Q) (c : option cls) : option cls :=
  if Qeq_bool f_s 0 then
    if btw (-(4 # 10)) d_p D1_dp_max then if btw D1_phi_min phi (9 # 10) then Some D1 else c else c
  else if btw 0 f_s (2 # 10) then
    if btw D2_dp_min d_p D2_dp_max then if btw D2_phi_min phi (9 # 10) then Some D2 else c else c
  else if btw (2 # 10) f_s (45 # 100) then
    if btw D3_dp_min d_p D3_dp_max then if btw D3_phi_min phi (9 # 10) then Some D3 else c else c
  else c.
(* get_swb_class, 39-362 (None for 'None'; the printing is left out) *)
Definition get_swb_class (d_p f_s phi : Q) : option cls :=
  match_D d_p f_s phi (match_C d_p f_s phi (match_B d_p f_s phi (match_A d_p f_s phi None))).
(* get_swb_class_names, 27-35, without 'None' *)
Definition get_swb_class_names : list cls :=
  if USE_B3 then [A1; A2; A3; B1; B2; B3; C1; C2; D1; D2; D3] else [A1; A2; A3; B1; B2; C1; C2; D1; D2; D3].
End Swb.

(* ---------- knoben_utils.py; None is nan ---------- *)
Section Knoben.
Local Open Scope R_scope.
(* get_total_PET_for_day, 154-159: np.arccos is nan outside of [-1, 1] *)
Definition daylight_hours (jd lat_deg : R) : option R :=
  let x := - (1) * (tan (lat_deg * (PI / 180)) * tan (declination (day_angle jd))) in
  if Rle_dec (-1) x then if Rle_dec x 1 then Some (24 / PI * acos x) else None else None.
(* 179-186 *)
Definition e_sat (T : R) : R := 6108 / 10000 * exp (1727 / 100 * T / (T + 2373 / 10)).
Definition P_sat (T : R) : R := 2167 / 10 * e_sat T / (T + 27316 / 100).
(* 196-205 *)
Definition PET_day (jd T lat : R) : option R :=
  match daylight_hours jd lat with Some n => Some (1651 / 10000 * (n / 12) * P_sat T) | None => None end.
(* a sum in which a nan makes everything nan *)
Definition oadd (a b : option R) : option R := match a, b with Some x, Some y => Some (x + y) | _, _ => None end.
Definition osum (l : list (option R)) : option R := fold_left oadd l (Some 0).
(* 225-232 *)
Definition day_map : list nat := [31; 28; 31; 30; 31; 30; 31; 31; 30; 31; 30; 31]%nat.
Definition start_days : list nat := 0%nat :: map (fun k => fold_left Nat.add (firstn (S k) day_map) 0%nat) (seq 0 12).
(* the days of month 1 to 12, 231-233 *)
Definition days_of (month_num : nat) : list nat :=
  let day1 := nth (month_num - 1) start_days 0%nat in let dayz := nth month_num start_days 0%nat in
  seq day1 (dayz - day1).
Definition PET_month (month_num : nat) (T lat : R) : option R :=
  osum (map (fun d => PET_day (INR d) T lat) (days_of month_num)).
(* get_harmon_monthly_PET_array, 246-255 *)
Definition PET_array (T : list R) (lat : R) : list (option R) :=
  map (fun m => PET_month m (nth (m - 1) T 0) lat) (seq 1 12).
(* get_days_per_month, 209-214; None: IndexError *)
Definition get_days_per_month (month_num : nat) : option nat := nth_error day_map month_num.

(* get_knoben_monthly_moisture_index, 268-274 *)
Definition MI (P PET : R) : R :=
  if Rlt_dec PET P then 1 - PET / P else if Req_EM_T PET P then 0 else P / PET - 1.
Definition MI_o (P : R) (PET : option R) : option R := match PET with Some e => Some (MI P e) | None => None end.
(* get_knoben_monthly_MI_array, 278-291 *)
Definition MI_array (P : list R) (PET : list (option R)) : list (option R) :=
  map (fun k => MI_o (nth k P 0) (nth k PET None)) (seq 0 12).
Definition rtotal (l : list R) : R := fold_left Rplus l 0.
(* get_annual_aridity, 303-306; None also where the precipitation is 0 (nan or inf) *)
Definition annual_aridity (P : list R) (PET : list (option R)) : option R :=
  match osum PET with Some e => if Req_EM_T (rtotal P) 0 then None else Some (e / rtotal P) | None => None end.
(* get_knoben_annual_aridity, 318-321 *)
Definition K_aridity (mi : list (option R)) : option R := match osum mi with Some s => Some (s / 12) | None => None end.
(* get_knoben_annual_seasonality, 333: max() and min() of an array with a nan are nan *)
Definition omax (a b : option R) : option R := match a, b with Some x, Some y => Some (Rmax x y) | _, _ => None end.
Definition omin (a b : option R) : option R := match a, b with Some x, Some y => Some (Rmin x y) | _, _ => None end.
Definition K_seasonality (mi : list (option R)) : option R :=
  match mi with
  | [] => None
  | x :: r => match fold_left omax r x, fold_left omin r x with Some a, Some b => Some (a - b) | _, _ => None end
  end.
(* get_knoben_annual_snow_fraction, 340-343 *)
Definition K_snow_fraction (P T : list R) : option R :=
  let w := map fst (filter (fun pt => if Rlt_dec (snd pt) 0 then true else false) (combine P T)) in
  if Req_EM_T (rtotal P) 0 then None else Some (rtotal w / rtotal P).
(* calc_knoben_indicators, 347-368, given the monthly precipitation and temperature *)
Definition calc_knoben_indicators (lat : R) (P T : list R) : option R * option R * option R * option R :=
  let PET := PET_array T lat in
  let mi := MI_array P PET in
  (annual_aridity P PET, K_aridity mi, K_seasonality mi, K_snow_fraction P T).
(* convert_knoben_aridity, classify.py 1354-1358, one value; None is inf *)
Definition convert_knoben_aridity (K : R) : option R :=
  if Rle_dec 0 K then Some (1 - K) else if Req_EM_T (K + 1) 0 then None else Some (1 / (K + 1)).
End Knoben.

(* get_gages2_indicators and get_gages2_sb3_indicators, classify.py 722-770 and 820-858, one of the columns: values of
   the selected sites are put in an array of n_sites zeros, which is cut; None: IndexError *)
Definition collect (n_sites : nat) (vals : list Q) : option (list Q) :=
  let k := length vals in
  if (k <=? n_sites)%nat then Some (firstn (k + 1) (vals ++ repeat 0%Q (n_sites - k))) else None.
