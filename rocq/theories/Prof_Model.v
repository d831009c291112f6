(* Saving of soil profiles and soil cubes: utils/model_output.py 493-787 (open_new_ps_file, add_profiles_at_IDs,
   open_new_cs_file, add_cube), utils/ncps_files.py, utils/nccs_files.py, and their calls in components/infil_base.py
   (open_output_files 1230-1300, save_profiles 1479, save_cubes 1511).
   Simplifications as in Out_Model: rationals, a netCDF variable is a list of optional values along time, the
   netCDF4 library is taken as documented.  A three-dimensional variable is a list of layers, each in C order. *)
From Coq Require Import ZArith QArith String List Bool Arith.
From Verif Require Import Time_Model Io_Model Out_Model.
Import ListNotations.
Local Open Scope Q_scope.

(* ---------- Python calls ---------- *)
(* Binding of arguments for a function without *args and **kw: [params] in order, [npos] positional arguments,
   keywords [kw], the first [required] parameters have no default *)
Definition mem (s : string) (l : list string) : bool := existsb (String.eqb s) l.
Definition bind_args (params : list string) (required npos : nat) (kw : list string) : res unit :=
  if (length params <? npos)%nat then Err TypeError
  else if dup kw then Err TypeError
  else if negb (forallb (fun k => mem k (skipn npos params)) kw) then Err TypeError
  else if negb (forallb (fun p => mem p kw) (skipn npos (firstn required params))) then Err TypeError
  else Ok tt.

(* the parameters (after self) of the open_new_file methods: ncgs_files.py 450-460, ncts_files.py 351-363,
   ncps_files.py 363-375, nccs_files.py 237-248; only file_name is required *)
Definition ncgs_open : list string := ["file_name"; "grid_info"; "time_info"; "var_name"; "long_name"; "units_name"; "dtype";
  "time_units"; "time_res"; "comment"; "OVERWRITE_OK"; "MAKE_RTI"; "MAKE_BOV"]%string.
Definition ncts_open : list string := ["file_name"; "grid_info"; "time_info"; "var_names"; "long_names"; "units_names"; "dtypes";
  "time_units"; "time_res"; "comment"; "OVERWRITE_OK"]%string.
Definition ncps_open : list string := ["file_name"; "grid_info"; "time_info"; "z_values"; "z_units"; "var_names"; "long_names";
  "units_names"; "dtypes"; "time_units"; "time_res"; "comment"]%string.
Definition nccs_open : list string := ["file_name"; "grid_info"; "time_info"; "z_values"; "z_units"; "var_name"; "long_name";
  "units_name"; "dtype"; "time_units"; "time_res"; "comment"; "MAKE_RTI"; "MAKE_BOV"]%string.
(* the calls in model_output.py: 184-189 (grids), 381-386 (series), 548-553 (profiles), 703-707 (cubes) *)
Definition call_ncgs : res unit := bind_args ncgs_open 1 6 ["dtype"; "time_units"; "time_res"; "OVERWRITE_OK"]%string.
Definition call_ncts : res unit := bind_args ncts_open 1 6 ["dtypes"; "time_units"; "time_res"; "OVERWRITE_OK"]%string.
Definition call_ncps : res unit := bind_args ncps_open 1 8 ["dtypes"; "time_units"; "time_res"; "OVERWRITE_OK"]%string.
Definition call_nccs : res unit := bind_args nccs_open 1 6 ["dtype"; "time_units"; "time_res"; "OVERWRITE_OK"]%string.

(* ---------- what a run with Richards infiltration does ---------- *)
(* which of q, p, K, v are to be saved (SAVE_Q_PROFILES, ...; SAVE_Q_CUBES, ...) *)
Definition flags := list bool.
(* open_new_ps_file, 493-553: nothing is caught *)
Definition open_new_ps_file : res unit := call_ncps.
(* infil_base.py 1233-1262: one call for each flag *)
Fixpoint open_profiles (f : flags) : res unit :=
  match f with
  | [] => Ok tt
  | true :: r => let! _ := open_new_ps_file in open_profiles r
  | false :: r => open_profiles r
  end.
(* a Python value passed around *)
Inductive pyval := PNum (q : Q) | PArr | PStr (s : string).
(* "self." + x + "_nccs_unit" *)
Definition concat_name (x : pyval) : res string :=
  match x with PStr s => Ok ("self." ++ s ++ "_nccs_unit")%string | _ => Err TypeError end.
(* the methods of class nccs_file, nccs_files.py 160-634 *)
Definition nccs_methods : list string := ["import_netCDF4"; "open_file"; "get_dtype_map"; "open_new_file"; "add_cube"; "get_cube";
  "get_var_names"; "close_file"; "close"]%string.
(* open_new_cs_file, 698-717: the object exists, the file does not; the exception is caught.  The files of a run are
   the cubes stored under each name. *)
Definition cubes := list (string * list pyval).
Definition open_new_cs_file (name : string) (c : cubes) : cubes := match call_nccs with Ok _ => (name, []) :: c | Err _ => c end.
(* add_cube(self, var, var_name, time), 749-774: both parts are in a try (763: the method called is add_grid; 771:
   the object rt3_unit is never made) *)
Definition add_cube (c : cubes) (var var_name time : pyval) : cubes :=
  match concat_name var_name with
  | Err _ => c
  | Ok _ => if mem "add_grid" nccs_methods
            then map (fun p => match var_name with PStr s => if String.eqb s (fst p) then (fst p, snd p ++ [var]) else p | _ => p end) c
            else c
  end.
(* save_cubes, 1511-1538: add_cube(self, time, self.q, 'q') *)
Fixpoint save_cubes (names : list string) (f : flags) (time : Q) (c : cubes) : cubes :=
  match names, f with
  | n :: names, b :: f => save_cubes names f time (if b then add_cube c (PNum time) PArr (PStr n) else c)
  | _, _ => c
  end.
Fixpoint open_cubes (names : list string) (f : flags) (c : cubes) : cubes :=
  match names, f with
  | n :: names, b :: f => open_cubes names f (if b then open_new_cs_file n c else c)
  | _, _ => c
  end.
Definition stack_vars : list string := ["q"; "p"; "K"; "v"]%string.

(* ---------- the class ncps_file used directly ---------- *)
Record ncps := {
  ps_names : list string;
  ps_times : list (option Q);
  ps_dates : list (option dt);
  ps_data : list (list (option (list Q)));     (* one series for each name *)
  ps_count : list nat;                         (* the attribute n_profiles of each *)
  ps_index : nat
}.
(* open_new_file, 363-680 (names and empty variables) *)
Definition ps_new (var : string) (IDs : list (Z * Z)) : res ncps :=
  let names := map (fun p => series_name var (fst p) (snd p)) IDs in
  if dup names then Err ValueError else
  let! _ := rmap cell_of_name names in
  Ok {| ps_names := names; ps_times := []; ps_dates := []; ps_data := map (fun _ => []) IDs; ps_count := map (fun _ => O) IDs; ps_index := 0 |}.
Inductive pvar := Column (l : list Q) | Layers (l : list (list Q)).
(* profiles_at_IDs, 778-806: a column is the profile of every outlet; otherwise the values of the layers, top first *)
Definition profiles_at (nx ny : nat) (v : pvar) (IDs : list (Z * Z)) : res (list (list Q)) :=
  match v with
  | Column l => Ok (map (fun _ => l) IDs)
  | Layers ls => let! rows := rmap (fun layer => values_at nx ny (GGrid layer) IDs) ls in
                 Ok (map (fun k => map (fun row => nth k row 0) rows) (seq 0 (length IDs)))
  end.
(* two lists together, as the loop over k does *)
Fixpoint zip_with {A B C} (f : A -> B -> C) (l : list A) (m : list B) : list C :=
  match l, m with a :: l, b :: m => f a b :: zip_with f l m | _, _ => [] end.
(* add_profiles_at_IDs, 810-860, for the outlets the file was made for; the datetimes are not written *)
Definition ps_add (nx ny : nat) (IDs : list (Z * Z)) (f : ncps) (v : pvar) (time : option Q) (idx : option nat) : res ncps :=
  let k := match idx with Some k => k | None => ps_index f end in
  let t := match time with Some t => t | None => inject_Z (Z.of_nat k) end in
  let! profiles := profiles_at nx ny v IDs in
  Ok {| ps_names := ps_names f; ps_times := nc_put (ps_times f) k t; ps_dates := ps_dates f;
        ps_data := zip_with (fun series p => nc_put series k p) (ps_data f) profiles;
        ps_count := map S (ps_count f); ps_index := S (ps_index f) |}.
Fixpoint ps_add_all (nx ny : nat) (IDs : list (Z * Z)) (f : ncps) (l : list (Q * pvar)) : res ncps :=
  match l with
  | [] => Ok f
  | (t, v) :: l => let! f := ps_add nx ny IDs f v (Some t) None in ps_add_all nx ny IDs f l
  end.
(* add_profile, 699-744: the named series; the index is not moved (update_time_index, 684-695, does) *)
Definition ps_add_profile (start : string) (f : ncps) (j : nat) (p : list Q) (time : Q) : ncps * res unit :=
  let k := ps_index f in
  let f1 := {| ps_names := ps_names f; ps_times := nc_put (ps_times f) k time; ps_dates := ps_dates f; ps_data := ps_data f;
               ps_count := ps_count f; ps_index := ps_index f |} in
  match get_current_datetime start time "minutes" with
  | Err e => (f1, Err e)
  | Ok d =>
      ({| ps_names := ps_names f; ps_times := ps_times f1; ps_dates := nc_put (ps_dates f) k d;
          ps_data := firstn j (ps_data f) ++ match nth_error (ps_data f) j with Some s => [nc_put s k p] | None => [] end ++ skipn (S j) (ps_data f);
          ps_count := ps_count f; ps_index := ps_index f |}, Ok tt)
  end.
(* the variables of the file: 557-558, 600, 619 *)
Definition ps_variables (f : ncps) : list string := (["time"; "datetime"; "Z"]%string ++ ps_names f)%list.
(* get_profile, 758-764, and get_profiles, 768-774: the depths are looked up as 'z' *)
Definition get_profile (f : ncps) (var : string) (k : nat) : res (list Q) :=
  if negb (mem var (ps_variables f)) then Err KeyError
  else if negb (mem "z" (ps_variables f)) then Err KeyError
  else match find (fun p => String.eqb (fst p) var) (combine (ps_names f) (ps_data f)) with
       | Some (_, s) => match nth_error s k with Some (Some p) => Ok p | _ => Err IndexError end
       | None => Err KeyError
       end.
