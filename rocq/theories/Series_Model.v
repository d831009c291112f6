(** Model of topoflow/utils/calibrate.py: reading of time series (294-373, 1090-1141), the time formats of observations
    (500-536, with time_utils.py 507-527), and rain rates from accumulations (1145-1202).
    np.float32 of a word is a parameter; its rounding is not modelled.  The interpolation is that of Calib_Model. *)

From Coq Require Import Ascii String ZArith QArith Reals List Bool.
From Flocq Require Import Core.
From Verif Require Import Time_Model Fmt_Model Calib_Model.
Import ListNotations.

(** ** Reading *)

(** 335, 1114: line.split(delim); [None]: any whitespace *)
Definition cells (delim : option ascii) (line : string) : list string :=
  match delim with None => words line | Some c => split c line end.
(** 342-345: the time is a number or a string *)
Inductive stamp := Num (q : Q) | Str (s : string).
(** 331-348, 1110-1127: the loop over the lines; a line with too few columns ends it.  [num] is np.float32 of a word. *)
Fixpoint rows (num : string -> res Q) (float : bool) (delim : option ascii) (time_col value_col : nat) (lines : list string) : res (list (stamp * Q)) :=
  match lines with
  | [] => Ok []
  | line :: rest =>
    let w := cells delim line in
    if (Nat.leb (length w) time_col || Nat.leb (length w) value_col)%bool then Ok []
    else let! a := item w time_col in
         let! t := (if float then let! x := num a in Ok (Num x) else Ok (Str a)) in
         let! b := item w value_col in
         let! v := num b in
         let! r := rows num float delim time_col value_col rest in
         Ok ((t, v) :: r)
  end.
(** 320-321: header lines are skipped *)
Definition read_time_series num float delim (hdr_lines time_col value_col : nat) (lines : list string) : res (list (stamp * Q)) :=
  rows num float delim time_col value_col (skipn hdr_lines lines).

(** ** Time formats *)

(** time_utils.py 507-527 *)
Definition convert_times_from_datetime_to_minutes (times : list string) (origin : dt) : res (list Q) :=
  rmap (fun s => let! t := get_datetime_obj_from_one_str (standardize_datetime_str s) in
                 get_time_since_from_datetime origin t "minutes") times.

Inductive time_format := Hhmm | Date | Datetime (obs_start_datetime : string).
(** 507-513: minutes since the first; they are float64 *)
Definition from_hhmm (times : list string) : res (list Z) :=
  let! m := convert_times_from_hhmm_to_minutes (map HStr times) in
  match m with [] => Err IndexError | m0 :: _ => Ok (map (fun x => x - m0)%Z m) end.
(** 519-522: an array of strings of 19 characters (dtype '<U19') *)
Definition midnight (date : string) : string := take 19 (date ++ " 00:00:00").
(** 514-530 *)
Definition from_date (times : list string) : res (list Q) :=
  let l := map midnight times in
  match l with
  | [] => Err IndexError
  | s0 :: _ => let! o := get_datetime_obj_from_one_str s0 in convert_times_from_datetime_to_minutes l o
  end.
(** 531-536 *)
Definition from_datetime (start : string) (times : list string) : res (list Q) :=
  let! o := get_datetime_obj_from_one_str start in convert_times_from_datetime_to_minutes times o.
(** 500-536 *)
Definition convert_obs_time_format (f : time_format) (times : list string) : res (list Q) :=
  match f with
  | Hhmm => let! l := from_hhmm times in Ok (map inject_Z l)
  | Date => from_date times
  | Datetime start => from_datetime start times
  end.

(** ** Rain rates *)
Local Open Scope R_scope.

(** 1169-1170, 1171-1172: differences to the next value, the last one repeated *)
Definition steps (l : list R) : list R :=
  let n := length l in
  map (fun k => if Nat.eqb k (n - 1) then nth (n - 1) l 0 - nth (n - 2) l 0 else nth (S k) l 0 - nth k l 0) (seq 0 n).
(** 1169-1174: mm per hour, from hours and inches *)
Definition rates (times accum : list R) : list R :=
  map (fun p => fst p * (254 / 10) / snd p) (combine (steps accum) (steps times)).
(** 1178: np.int16 *)
Definition minutes (times : list R) : list Z := map (fun t => wrap16 (Ztrunc (60 * t))) times.
Definition zmin (l : list Z) : Z := match l with [] => 0%Z | x :: r => fold_left Z.min r x end.
Definition zmax (l : list Z) : Z := match l with [] => 0%Z | x :: r => fold_left Z.max r x end.
(** 1184-1187: trange is a np.int16 *)
Definition new_times (times_min : list Z) : list Z :=
  let tmin := zmin times_min in let tmax := zmax times_min in
  let trange := wrap16 (wrap16 (tmax - tmin) + 1) in
  map (fun k => (Z.of_nat k + tmin)%Z) (seq 0 (Z.to_nat trange)).
(** 1181-1202, for increasing minutes *)
Definition compute_rain_rates (times accum : list R) : list R :=
  let m := minutes times in
  map (fun t => interp (map IZR m) (rates times accum) (IZR t)) (new_times m).
