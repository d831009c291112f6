(** Model of the rain rate of a run: topoflow/components/met_base.py 641-734 (initialize), 764-832 (update), 922-934, 1177-1181,
    1247-1289, 2396-2417 (read_input_files) and 2564-2596 (set_rain_to_zero), with utils/model_input.py 132-179 (read_next) and
    utils/BMI_base.py 2325-2358 (update_var).  Numbers are reals; the other variables of the component are left out, cells have one area,
    times are in seconds (1051-1052).  A line or grid of the file is a value, read elsewhere (Io_Model). *)

From Coq Require Import Reals List.
From Verif Require Import Time_Model.
Import ListNotations.
Local Open Scope R_scope.

(** P_type *)
Inductive ptype := Scalar | Time_Series | Grid_Sequence.
(** what the file holds: for a series lines with one number or blank ones (None), for a sequence grids of n_pixels values; the last grid may be short *)
Definition record := option (list R).
(** P_unit: None if the file was not found (model_input.py 36-50) *)
Definition file := option (list record).
Record conf := { P_type : ptype; dt : R; P_factor : R; NGEN_CSV : bool; n_pixels : nat; da : R }.
Record met := { P : list R; RAIN_OVER : bool; P_unit : file; time_index : nat; time_sec : R; P_max : R; vol_P : R }.

Definition mmph_to_mps : R := / (3600 * 1000).
Definition mmps_to_mps : R := / 1000.
(** 2398-2400 *)
Definition P_units_factor (c : conf) : R := if NGEN_CSV c then mmps_to_mps else mmph_to_mps.

(** model_input.py 132-179: the value and the rest of the file *)
Definition read_next (c : conf) (u : file) : res (option (list R) * file) :=
  match P_type c with
  | Scalar => Ok (None, u)
  | Time_Series =>
    match u with
    | None => Err AttributeError
    | Some [] => Ok (None, Some [])
    | Some (None :: r) => Ok (None, Some r)
    | Some (Some v :: r) => Ok (Some (map (fun x => x * P_units_factor c) v), Some r)
    end
  | Grid_Sequence =>
    match u with
    | None => Err AttributeError
    | Some [] => Ok (None, Some [])
    | Some (None :: r) => Ok (None, Some r)
    | Some (Some v :: r) =>
      if Nat.eqb (length v) 0 then Ok (None, Some r)
      else if Nat.eqb (length v) (n_pixels c) then Ok (Some (map (fun x => x * P_units_factor c) v), Some r)
      else Err ValueError
    end
  end.

(** set_rain_to_zero, 2586-2596 *)
Definition set_rain_to_zero (c : conf) (m : met) : met :=
  if RAIN_OVER m then m
  else if (match P_type c with Scalar => if Rlt_dec (time_sec m) (dt c) then true else false | _ => false end) then m
  else {| P := map (fun _ => 0) (P m); RAIN_OVER := true; P_unit := P_unit m; time_index := time_index m; time_sec := time_sec m;
          P_max := P_max m; vol_P := vol_P m |}.
(** read_input_files, 2396-2417 *)
Definition read_input_files (c : conf) (m : met) : res met :=
  let! r := read_next c (P_unit m) in
  let m := {| P := P m; RAIN_OVER := RAIN_OVER m; P_unit := snd r; time_index := time_index m; time_sec := time_sec m; P_max := P_max m; vol_P := vol_P m |} in
  match fst r with
  | None => Ok (set_rain_to_zero c m)
  | Some v => Ok {| P := map (fun x => x * P_factor c) v; RAIN_OVER := RAIN_OVER m; P_unit := P_unit m; time_index := time_index m;
                    time_sec := time_sec m; P_max := P_max m; vol_P := vol_P m |}
  end.

(** P.max() *)
Definition maximum (l : list R) : R := match l with [] => 0 | a :: r => fold_left Rmax r a end.
Definition sum (l : list R) : R := fold_right Rplus 0 l.
(** 1265-1269 *)
Definition volume (c : conf) (p : list R) : R :=
  match p with [x] => x * da c * dt c * INR (n_pixels c) | _ => sum (map (fun x => x * da c * dt c) p) end.

(** initialize, 641-734: P0 is the scalar of the CFG file, in mm per hour *)
Definition initialize (c : conf) (P0 : R) (u : file) : res met :=
  let p := match P_type c with Scalar => [P0] | Time_Series => [0] | Grid_Sequence => repeat 0 (n_pixels c) end in
  let! m := read_input_files c {| P := p; RAIN_OVER := false; P_unit := u; time_index := 0; time_sec := 0; P_max := 0; vol_P := 0 |} in
  let p := match P_type c with Scalar => map (fun x => x * mmph_to_mps) (P m) | _ => P m end in
  Ok {| P := p; RAIN_OVER := RAIN_OVER m; P_unit := P_unit m; time_index := time_index m; time_sec := time_sec m; P_max := maximum p; vol_P := 0 |}.
(** update, 764-832.  step: None for dt = -1 *)
Definition update (c : conf) (m : met) (step : option R) : res met :=
  let! m := (match time_index m with O => Ok m | S _ => read_input_files c m end) in
  Ok {| P := P m; RAIN_OVER := RAIN_OVER m; P_unit := P_unit m; time_index := S (time_index m);
        time_sec := time_sec m + match step with None => dt c | Some d => d end;
        P_max := Rmax (P_max m) (maximum (P m)); vol_P := vol_P m + volume c (P m) |}.
(** the states after the updates, one by one *)
Fixpoint run (c : conf) (m : met) (steps : list (option R)) : res (list met) :=
  match steps with
  | [] => Ok []
  | s :: r => let! m1 := update c m s in let! l := run c m1 r in Ok (m1 :: l)
  end.
Definition simulate (c : conf) (P0 : R) (u : file) (steps : list (option R)) : res (list met) :=
  let! m := initialize c P0 u in run c m steps.
