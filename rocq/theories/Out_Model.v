(* Saving of results during a run: write_output_files of the components (channels_base.py 3848-3892 and the same
   code in snow_base.py 859, infil_base.py 1332, evap_base.py 627, met_base.py 2796, satzone_base.py 1787),
   utils/model_output.py, utils/ncgs_files.py and utils/ncts_files.py.
   Simplifications: numbers are rationals (the files hold 32-bit floats); a netCDF variable is a list of optional
   values along the time dimension ([None]: never written, the library leaves arbitrary bytes because of
   set_fill_off); the netCDF4 library itself is taken as documented. *)
From Coq Require Import ZArith QArith Qround String Ascii List Bool Arith.
From Verif Require Import Time_Model Io_Model.
Import ListNotations.
Local Open Scope Q_scope.

(* ---------- when is a frame saved ---------- *)
(* int(x) of a float is Time_Model.trunc *)
(* channels_base.py 1033-1034: np.maximum(self.save_grid_dt, self.dt) *)
Definition effective_dt (save dt : Q) : Q := if Qlt_le_dec save dt then dt else save.
(* channels_base.py 3863-3874: model_time % int(save_dt) == 0; None: ZeroDivisionError *)
Definition save_now (time_sec save : Q) : option bool :=
  if (trunc save =? 0)%Z then None else Some ((trunc time_sec mod trunc save) =? 0)%Z.

(* One component in a run.  [X] is the state that update() computes; a saved frame carries its time label in minutes. *)
Section Run.
Context {X : Type}.
Variable step : X -> X.
Record comp := { clock : Q; st : X; saved : list (Q * X) }.
(* channels_base.py 803-960 update(): compute, then write_output_files, then update_time (BMI_base.py 1029-1079,
   time_units 'seconds', dt = -1) *)
Definition update (dt save : Q) (c : comp) : option comp :=
  let x := step (st c) in
  match save_now (clock c) save with
  | None => None
  | Some b => Some {| clock := clock c + dt; st := x; saved := if b then saved c ++ [(clock c / 60, x)] else saved c |}
  end.
Fixpoint updates (n : nat) (dt save : Q) (c : comp) : option comp :=
  match n with
  | O => Some c
  | S m => match update dt save c with None => None | Some c => updates m dt save c end
  end.
(* initialize: the clock is 0 (BMI_base.py 974, 1013-1014) and the files are empty *)
Definition start (x : X) : comp := {| clock := 0; st := x; saved := [] |}.
Definition run (n : nat) (dt save : Q) (x : X) : option comp := updates n dt (effective_dt save dt) (start x).
End Run.
Arguments comp : clear implicits.

(* ---------- netCDF grid stacks ---------- *)
(* what save_grids passes: a number (0-D array) or a grid, in C order *)
Inductive gvar := GNum (q : Q) | GGrid (l : list Q).
Record ncgs := {
  n_cells : nat;                       (* ny * nx *)
  start_datetime : string;
  nc_times : list (option Q);
  nc_datetimes : list (option dt);
  nc_frames : list (option (list Q));
  n_grids : nat;                       (* the attribute n_grids of the variable *)
  time_index : nat
}.
(* variable[k] = v along the unlimited dimension *)
Definition nc_put {A} (l : list (option A)) (k : nat) (v : A) : list (option A) :=
  firstn k l ++ repeat None (k - length l) ++ Some v :: skipn (S k) l.
(* ncgs_files.py 760-848 add_grid.  The first component is the file even when an exception is raised: the time
   (and the datetime and the counter) may have been written before.  [idx = None] is time_index=-1.
   A grid of another size raises (shapes that numpy can broadcast are not modelled). *)
Definition ncgs_add_grid (f : ncgs) (g : gvar) (time : option Q) (units : string) (idx : option nat) : ncgs * res unit :=
  let k := match idx with Some k => k | None => time_index f end in
  let t := match time with Some t => t | None => inject_Z (Z.of_nat k) end in
  let f1 := {| n_cells := n_cells f; start_datetime := start_datetime f; nc_times := nc_put (nc_times f) k t;
               nc_datetimes := nc_datetimes f; nc_frames := nc_frames f; n_grids := n_grids f; time_index := time_index f |} in
  match get_current_datetime (start_datetime f) t units with
  | Err e => (f1, Err e)
  | Ok d =>
      let f2 := {| n_cells := n_cells f; start_datetime := start_datetime f; nc_times := nc_times f1;
                   nc_datetimes := nc_put (nc_datetimes f) k d; nc_frames := nc_frames f; n_grids := S (n_grids f); time_index := time_index f |} in
      let cells := match g with GNum q => repeat q (n_cells f) | GGrid l => l end in
      if (length cells =? n_cells f)%nat then
        ({| n_cells := n_cells f; start_datetime := start_datetime f; nc_times := nc_times f2; nc_datetimes := nc_datetimes f2;
            nc_frames := nc_put (nc_frames f) k cells; n_grids := n_grids f2; time_index := S (time_index f) |}, Ok tt)
      else (f2, Err ValueError)
  end.
(* ncgs_files.py 450-756 open_new_file *)
Definition ncgs_new (cells : nat) (start : string) : ncgs :=
  {| n_cells := cells; start_datetime := start; nc_times := []; nc_datetimes := []; nc_frames := []; n_grids := 0; time_index := 0 |}.

(* model_output.py 281-309 add_grid: both files, every exception of either is dropped.  The RTS file is a list of
   grids (see Rts_Model for its bytes); a grid of the wrong size is refused by nobody there. *)
Record outfiles := { nc : ncgs; rts : list (list Q) }.
Definition add_grid (o : outfiles) (g : gvar) (time_min : Q) : outfiles :=
  {| nc := fst (ncgs_add_grid (nc o) g (Some time_min) "minutes" None);
     rts := rts o ++ [match g with GNum q => repeat q (n_cells (nc o)) | GGrid l => l end] |}.
Definition save_frames (o : outfiles) (l : list (Q * gvar)) : outfiles := fold_left (fun o p => add_grid o (snd p) (fst p)) l o.

(* ---------- coordinates ---------- *)
(* np.linspace(a, b, n) *)
Definition linspace (a b : Q) (n : nat) : list Q :=
  match n with
  | O => []
  | S O => [a]
  | _ => map (fun k => a + inject_Z (Z.of_nat k) * ((b - a) / inject_Z (Z.of_nat (n - 1)))) (seq 0 n)
  end.
(* ncgs_files.py 566-580: X_vector and Y_vector *)
Definition x_vector (west east : Q) (ncols : nat) : list Q := linspace west east ncols.
Definition y_vector (south north : Q) (nrows : nat) : list Q := linspace south north nrows.
(* ncts_files.py 640-643: longitude and latitude stored with a series *)
Definition series_lon (west xres_deg : Q) (col : Z) : Q :=
  let col2 := inject_Z col + (1#2) in west + col2 * xres_deg.
Definition series_lat (south yres_deg : Q) (nrows row : Z) : Q :=
  let row2 := inject_Z row - (1#2) in south + (inject_Z (nrows - 1) - row2) * yres_deg.

(* ---------- names of series ---------- *)
(* model_output.py 352-359 *)
Definition series_name (var : string) (row col : Z) : string := (var ++ "_" ++ py_str row ++ "_" ++ py_str col)%string.
(* ncts_files.py 386-390: the symbol *)
Definition short_name (s : string) : string :=
  let s := take (cut_pos "_" s) s in take (cut_pos "_" s) s.
(* ncts_files.py 621-623: row and column from the name *)
Definition cell_of_name (s : string) : res (Z * Z) :=
  let p := split "_" s in
  let! a := item p (length p - 2) in
  let! row := np_int16 a in
  let! b := item p (length p - 1) in
  let! col := np_int16 b in
  Ok (row, col).

(* ---------- netCDF time series ---------- *)
Record ncts := { ts_names : list string; ts_times : list Q; ts_values : list (list Q) }.
(* ncts_files.py 750-772 values_at_IDs; a cell outside the grid is an IndexError *)
Definition values_at (nx ny : nat) (g : gvar) (IDs : list (Z * Z)) : res (list Q) :=
  match g with
  | GNum q => Ok (repeat q (length IDs))
  | GGrid l => rmap (fun p => let (r, c) := p : Z * Z in
                     let r' := (if r <? 0 then r + Z.of_nat ny else r)%Z in
                     let c' := (if c <? 0 then c + Z.of_nat nx else c)%Z in
                     if ((0 <=? r') && (r' <? Z.of_nat ny) && (0 <=? c') && (c' <? Z.of_nat nx))%Z
                     then item l (Z.to_nat r' * nx + Z.to_nat c') else Err IndexError) IDs
  end.
(* ncts_files.py 776-852 add_values_at_IDs without the datetimes; series k is the k-th outlet *)
Definition ts_add (nx ny : nat) (IDs : list (Z * Z)) (f : ncts) (time : Q) (g : gvar) : res ncts :=
  let! v := values_at nx ny g IDs in
  Ok {| ts_names := ts_names f; ts_times := ts_times f ++ [time]; ts_values := ts_values f ++ [v] |}.
(* ncts_files.py 599-602: one variable per name; a name that exists already is an error of the library *)
Fixpoint dup (l : list string) : bool :=
  match l with [] => false | s :: r => existsb (String.eqb s) r || dup r end.
Definition ts_new (var : string) (IDs : list (Z * Z)) : res ncts :=
  let names := map (fun p => series_name var (fst p) (snd p)) IDs in
  if dup names then Err ValueError else
  let! _ := rmap cell_of_name names in
  Ok {| ts_names := names; ts_times := []; ts_values := [] |}.
