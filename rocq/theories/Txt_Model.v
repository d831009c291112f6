(** Model of the text tables: topoflow/utils/outlets.py (monitored cells),
    topoflow/utils/text_ts_files.py (time series at those cells) and the time
    series reader of topoflow/utils/calibrate.py. *)

From Coq Require Import String Ascii List ZArith NArith QArith Qround Qabs Bool.
From Verif Require Import Time_Model Io_Model Rti_Model Fmt_Model.
Import ListNotations.

(** ** outlets.py *)

(** outlets.py 25-54 write_outlet_file; '%10i' is a right-justified integer,
    '%16.2f' a right-justified fixed-point number. *)
Definition outlet_lines (col row : Z) (area relief lon lat : Q) : list string :=
  [ dashes 60; " Monitored Grid Cell (Outlet) Information"; dashes 86;
    rjust 10 "Column" ++ rjust 10 "Row" ++ rjust 16 "Area [km^2]" ++
      rjust 16 "Relief [m]" ++ rjust 16 "Lon [deg]" ++ rjust 16 "Lat [deg]";
    dashes 86;
    rjust 10 (py_str col) ++ rjust 10 (py_str row) ++ rjust 16 (fixed 2 area) ++
      rjust 16 (fixed 2 relief) ++ rjust 16 (fixed 8 lon) ++ rjust 16 (fixed 8 lat) ]%string.
Definition outlet_text (col row : Z) (area relief lon lat : Q) : string :=
  unlines (outlet_lines col row area relief lon lat).

(** One monitored cell: row, column, basin area, basin relief. *)
Record outlet := mkoutlet { o_row : Z; o_col : Z; o_area : Q; o_relief : Q }.

(** outlets.py 130-138: one line.  np.float64(word) is read as a decimal number
    (simplified: no exponents, nan or inf); np.int64 drops the fraction. *)
Definition outlet_line (line : string) : res (option outlet) :=
  let w := words line in
  if (List.length w <? 4)%nat then Ok None
  else let! c := eval_num (nth 0 w EmptyString) in
       let! r := eval_num (nth 1 w EmptyString) in
       let! a := eval_num (nth 2 w EmptyString) in
       let! h := eval_num (nth 3 w EmptyString) in
       Ok (Some (mkoutlet (trunc r) (trunc c) a h)).
Fixpoint outlet_list (lines : list string) : res (list outlet) :=
  match lines with
  | [] => Ok []
  | l :: r => let! o := outlet_line l in
              let! os := outlet_list r in
              Ok (match o with Some x => x :: os | None => os end)
  end.

(** outlets.py 193-211 check_outlet_IDs *)
Definition check_outlet_IDs (ids : list Z) (n_pixels : Z) : bool :=
  negb (existsb (fun id => (id <? 0) || (n_pixels - 1 <? id))%Z ids).

(** outlets.py 58-189 read_outlet_file, after the file was found.  No outlet
    gives an IndexError; outlets outside the grid give [Ok None]: a message,
    and nothing is stored. *)
Definition read_outlet_file (nx n_pixels : Z) (text : string) : res (option (list outlet)) :=
  let lines := skipn 5 (readlines text) in
  let! os := outlet_list lines in
  match os with
  | [] => Err IndexError
  | _ => let ids := map (fun o => (o_row o * nx + o_col o)%Z) os in
         if check_outlet_IDs ids n_pixels then Ok (Some os) else Ok None
  end.

(** ** text_ts_files.py *)

(** text_ts_files.py 122-126: short names of time units (KeyError otherwise) *)
Definition units_str (u : string) : res string :=
  let u := lower u in
  if String.eqb u "minutes" then Ok "min"%string else if String.eqb u "seconds" then Ok "sec"%string
  else if String.eqb u "hours" then Ok "hrs"%string else if String.eqb u "days" then Ok "days"%string
  else if String.eqb u "months" then Ok "mon"%string else if String.eqb u "years" then Ok "yrs"%string
  else Err KeyError.

(** text_ts_files.py 114-145 write_header *)
Definition ts_header (units : string) (names : list string) : res (list string) :=
  let! u := units_str units in
  Ok [ fold_left (fun s n => s ++ rjust 15 n) names (rjust 15 ("Time [" ++ u ++ "]"));
       dashes ((List.length names + 1) * 15) ]%string.

(** text_ts_files.py 149-159 add_values *)
Definition ts_line (time : Q) (values : list Q) : string :=
  fold_left (fun s v => s ++ rjust 20 (fixed 7 v))%string values (rjust 20 (fixed 7 time)).

(** What add_values_at_IDs is given: a grid (as a function of row and column)
    or a number. *)
Inductive tsvar := VGrid (g : Z -> Z -> Q) | VNumber (q : Q).
(** text_ts_files.py 170-196 values_at_IDs; float32 rounding not modelled. *)
Definition values_at_IDs (v : tsvar) (ids : list (Z * Z)) : list Q :=
  match v with
  | VGrid g => map (fun rc => g (fst rc) (snd rc)) ids
  | VNumber q => repeat q (List.length ids)
  end.

(** text_ts_files.py: open_new_file, add_values_at_IDs for every (time,
    variable), close_file: the text of the file. *)
Definition ts_file (units : string) (names : list string) (ids : list (Z * Z))
    (rows : list (Q * tsvar)) : res string :=
  let! h := ts_header units names in
  Ok (unlines (h ++ map (fun tv => ts_line (fst tv) (values_at_IDs (snd tv) ids)) rows)).

(** ** calibrate.py 1090-1143 read_any_time_series, times as numbers.  A line
    with too few columns ends the reading. *)
Fixpoint series_of (time_col value_col : nat) (lines : list string) : res (list (Q * Q)) :=
  match lines with
  | [] => Ok []
  | l :: r =>
    let w := words l in
    if ((List.length w - 1 <? time_col) || (List.length w - 1 <? value_col) || (List.length w =? 0))%nat
    then Ok []
    else let! t := eval_num (nth time_col w EmptyString) in
         let! v := eval_num (nth value_col w EmptyString) in
         let! s := series_of time_col value_col r in Ok ((t, v) :: s)
  end.
Definition read_any_time_series (hdr_lines time_col value_col : nat) (text : string) : res (list (Q * Q)) :=
  series_of time_col value_col (skipn hdr_lines (readlines text)).
