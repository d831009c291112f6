(* Model of precipitation partitioning (/repo/topoflow/components/met_base.py), of the snow components
   (/repo/topoflow/components/snow_base.py, snow_degree_day.py, snow_energy_balance.py) and of the glacier component
   (/repo/topoflow/components/glacier_base.py, glacier_energy_balance.py).
   Numbers are exact rationals; rounding, NaN and infinities are not modelled. *)
From Coq Require Import ZArith QArith Qminmax List Bool.
From Verif Require Import Base Field.
Import ListNotations.
Local Open Scope Q_scope.

Definition bind {A B} (o : option A) (f : A -> option B) : option B := match o with Some a => f a | None => None end.
Notation "'do' x <- a ;; b" := (bind a (fun x => b)) (at level 200, x name, a at level 100, b at level 200).

Section Grid.
Variable n : nat.            (* rti.n_pixels = nx*ny *)
Variable da : field.         (* cell areas *)
Variable dt : Q.             (* time step, seconds *)

(* volume = f * da * dt and its sum over the domain, the pattern of all *_integral methods
   (met_base.py 1265-1269, 1407-1411, 1436-1440; snow_base.py 540-544; glacier_base.py 642-658) *)
Definition volume (f : field) : Q := domain_sum n (lift2 n (fun x a => x * a * dt) f da).

(* ---------------------------------------------------------------- met_base.py *)

Record met := mkMet { P_rain : field; P_snow : field; vol_P : Q; vol_PR : Q; vol_PS : Q; P_max : Q }.
(* inputs of one update: P and T_air as read; [T_type_scalar]: T_air_type is 'Scalar' (a scalar from a time
   series has type 'Time_Series') *)
Record met_in := mkMetIn { mP : field; mT : field; T_type_scalar : bool }.
Variable T_rain_snow : field.

(* 1324, 1377: P * (T_air > T_rain_snow) and P * (T_air <= T_rain_snow) *)
Definition rain_of (P T : field) : field :=
  lift2 n (fun p x => p * x) P (lift2 n (fun t t0 => if Qltb t0 t then 1 else 0) T T_rain_snow).
Definition snow_of (P T : field) : field :=
  lift2 n (fun p x => p * x) P (lift2 n (fun t t0 => if Qle_bool t t0 then 1 else 0) T T_rain_snow).
(* 1326-1329, 1379-1382: fill() only if the variable is 0D and T_air has type 'Scalar'; otherwise [:] is
   applied, which raises IndexError for a 0D array *)
Definition assign_P (x : field) (T_scalar : bool) (v : field) : option field :=
  if is_scalar x && T_scalar then store n x v
  else if is_scalar x then None else store n x v.

(* P.max() *)
Definition max_of (f : field) : Q :=
  match f with Scalar q => q | Grid [] => 0 | Grid (a :: l) => fold_left Qmax l a end.

(* update, 780-785: update_P_integral, update_P_max, update_P_rain, update_P_snow, update_P_rain_integral,
   update_P_snow_integral *)
Definition met_update (s : met) (x : met_in) : option met :=
  do r <- assign_P (P_rain s) (T_type_scalar x) (rain_of (mP x) (mT x)) ;;
  do w <- assign_P (P_snow s) (T_type_scalar x) (snow_of (mP x) (mT x)) ;;
  Some (mkMet r w (vol_P s + volume (mP x)) (vol_PR s + volume r) (vol_PS s + volume w)
              (Qmax (P_max s) (max_of (mP x)))).

(* the states after each of a sequence of updates; None as soon as one raises *)
Fixpoint met_trace (s : met) (xs : list met_in) : option (list met) :=
  match xs with
  | [] => Some []
  | x :: t => do s' <- met_update s x ;; do l <- met_trace s' t ;; Some (s' :: l)
  end.

(* ---------------------------------------------------------------- snow components *)

Inductive method := DegreeDay (c0 T0 : field) | EnergyBalance.
Record snow := mkSnow { SM : field; h_swe : field; h_snow : field; Ecc : field; vol_SM : Q }.
(* what the met component provides, and the density ratio rho_H2O/rho_snow (611-627) *)
Record snow_in := mkSnowIn { sP : field; sT : field; Q_sum : field; ratio : field }.

(* snow_degree_day.py 333 and snow_energy_balance.py 405-429 *)
Definition raw_melt (m : method) (s : snow) (x : snow_in) : field :=
  match m with
  | DegreeDay c0 T0 => lift2 n (fun c d => c / 86400000 * d) c0 (lift2 n Qminus (sT x) T0)
  | EnergyBalance =>
      lift2 n (fun q e => Qmax (q * dt - e) 0 / dt / 334000000) (Q_sum x) (Ecc s)
  end.
(* update_meltrate: 347-351 / 443-447 *)
Definition update_meltrate (m : method) (s : snow) (x : snow_in) : option field := store n (SM s) (raw_melt m s x).

(* snow_base.py 490-510 enforce_max_meltrate (in place) *)
Definition enforce_max_meltrate (sm swe : field) : option field :=
  do a <- store n sm (lift2 n (fun m h => Qmin m (h / dt)) sm swe) ;;
  store n a (lift1 n (fun m => Qmax m 0) a).

(* snow_energy_balance.py 471-477; snow_base.py 555: the degree-day component leaves Ecc alone *)
Definition update_cold_content (m : method) (s : snow) (x : snow_in) : option field :=
  match m with
  | DegreeDay _ _ => Some (Ecc s)
  | EnergyBalance => store n (Ecc s) (lift2 n (fun q e => Qmax (e - q * dt) 0) (Q_sum x) (Ecc s))
  end.

(* snow_base.py 587-602 update_swe *)
Definition update_swe (swe P sm : field) : option field :=
  do a <- store n swe (lift2 n (fun h p => h + p * dt) swe P) ;;
  do b <- store n a (lift2 n (fun h m => h - m * dt) a sm) ;;
  store n b (lift1 n (fun h => Qmax h 0) b).

(* snow_base.py 674-701 update_depth *)
Definition update_depth (hs swe ratio : field) : option field := store n hs (lift2 n Qmult swe ratio).

(* snow_base.py 251-261 update *)
Definition snow_update (m : method) (s : snow) (x : snow_in) : option snow :=
  do sm0 <- update_meltrate m s x ;;
  do sm <- enforce_max_meltrate sm0 (h_swe s) ;;
  let v := vol_SM s + volume sm in
  do e <- update_cold_content m s x ;;
  do swe <- update_swe (h_swe s) (sP x) sm ;;
  do hs <- update_depth (h_snow s) swe (ratio x) ;;
  Some (mkSnow sm swe hs e v).

Fixpoint snow_trace (m : method) (s : snow) (xs : list snow_in) : option (list snow) :=
  match xs with
  | [] => Some []
  | x :: t => do s' <- snow_update m s x ;; do l <- snow_trace m s' t ;; Some (s' :: l)
  end.

(* snow_base.py 721-728 update_total_snowpack_water_volume *)
Definition total_volume (h : field) : Q := domain_sum n (lift2 n (fun x a => x * a) h da).

(* ---------------------------------------------------------------- glacier component *)

(* The shipped glacier component is always 'TopoFlow_Glacier_Energy_Balance', for which
   initialize_computed_vars (glacier_base.py 399-427) makes every state variable a grid; all updates are
   elementwise, so that the state is a list of cells plus the two integrals. *)
Record gcell := mkG {
  gSM : Q; gIM : Q; gM_total : Q; gswe : Q; giwe : Q; ghsnow : Q; ghice : Q; gEccs : Q; gEcci : Q }.
(* inputs at one cell.  [gTwb] is the wet-bulb temperature of glacier_energy_balance.py 491-495 (a formula in
   arctan; arbitrary here); rho_H2O*Lf, rho_snow*Cp_snow and the density ratios are the parameters below *)
Record gin := mkGin { gP : Q; gQ : Q; gTwb : Q }.
Record gparams := mkGP { Lrho : Q;      (* rho_H2O * Lf *)
                         rC : Q;        (* rho_snow * Cp_snow *)
                         T0_cc : Q; ws : Q; wi : Q }.   (* density ratios *)

Section Cell.
Variable p : gparams.
(* glacier_base.py 246-279 update, with the methods of glacier_energy_balance.py *)
Definition glacier_cell (c : gcell) (x : gin) : gcell :=
  let previous_swe := gswe c in                                                   (* 693 *)
  let E_in := gQ x * dt in
  let SM0 := Qmax (E_in - gEccs c) 0 / dt / Lrho p in                             (* 427-459 *)
  let SM := Qmax (Qmin SM0 (gswe c / dt)) 0 in                                    (* 608-615 *)
  let swe := Qmax (gswe c + gP x * dt - SM * dt) 0 in                             (* 719-728 *)
  let Eccs := if Qltb 0 (gP x)                                                    (* 470-513 *)
              then Qmax (gEccs c + rC p * (gP x * dt * ws p) * (T0_cc p - gTwb x) - E_in) 0
              else gEccs c in
  let IM0 := Qmax (Qmax (E_in - gEcci c) 0 / dt / Lrho p) 0 in                    (* 623-651 *)
  let IM1 := if Qeq_bool swe 0 && Qeq_bool previous_swe 0 then IM0 else 0 in      (* 652 *)
  let Ecci := Qmax (gEcci c - E_in) 0 in                                          (* 658 *)
  let Ecci := if Qeq_bool (ghice c) 0 then 0 else Ecci in                         (* 664 *)
  let IM := Qmax (Qmin IM1 (giwe c / dt)) 0 in                                    (* glacier_base 626-633 *)
  let iwe := Qmax (giwe c - IM * dt) 0 in                                         (* 737-739 *)
  let hsnow := swe * ws p in                                                      (* 834 *)
  let hice := iwe * wi p in                                                       (* 853 *)
  let Eccs := if Qle_bool (gP x) 0 then Qmax (Eccs - E_in) 0 else Eccs in         (* 532-534 *)
  let Eccs := if Qeq_bool hsnow 0 then 0 else Eccs in                             (* 540 *)
  mkG SM IM (IM + SM) swe iwe hsnow hice Eccs Ecci.                               (* 590 *)
End Cell.

Record glacier := mkGl { cells : list gcell; gvol_SM : Q; gvol_IM : Q }.
Definition gc0 : gcell := mkG 0 0 0 0 0 0 0 0 0.
Definition gi0 : gin := mkGin 0 0 0.
Definition glacier_update (p : gparams) (s : glacier) (x : list gin) : glacier :=
  let cs := tab n (fun i => glacier_cell p (get gc0 (cells s) i) (get gi0 x i)) in
  mkGl cs (gvol_SM s + volume (Grid (map gSM cs)))          (* update_SM_integral 642-646 *)
          (gvol_IM s + volume (Grid (map gIM cs))).         (* update_IM_integral 654-658 *)
Fixpoint glacier_trace (p : gparams) (s : glacier) (xs : list (list gin)) : list glacier :=
  match xs with
  | [] => []
  | x :: t => let s' := glacier_update p s x in s' :: glacier_trace p s' t
  end.
End Grid.
