(** Model of the preparation of a new basin: topoflow/utils/prepare_inputs.py 143-528,
    769-957, 1012-1135, 1743-1793, 1829-1880.

    The object's attributes are a list of pairs, the first pair of a name being its value; a
    value is a text or None.  Directories and printing are left out, and so are the DEM, the D8
    grids and the grids computed from them (Prep_Model, D8_Model), but for the place of the
    outlet.  (The module itself cannot be imported as it stands: it imports
    utils/ngen/hydrofab_utils.py, which has an IndentationError at line 1553.  The model is
    that of its methods.) *)

From Coq Require Import String Ascii List Bool Arith ZArith QArith.
From Verif Require Import Base Time_Model Io_Model Txt_Model.
Import ListNotations.
Local Open Scope string_scope.

(** ** Options and attributes *)

(** 175-188 and the arguments NO_MET: None for an attribute that is not set *)
Record options := { nextgen : bool; east_africa : bool; chirps : bool; chirps2 : bool; gldas : bool; gpm : bool;
                    test_rain : bool; ngen_csv : option bool; no_met : bool }.
(** 143-219: the options of a new object; NGEN_CSV is not set; NO_MET=True in 238 *)
Definition new_options : options :=
  {| nextgen := true; east_africa := false; chirps := false; chirps2 := false; gldas := false; gpm := false;
     test_rain := false; ngen_csv := None; no_met := true |}.
Definition NGEN_CSV (o : options) : res bool := match ngen_csv o with Some b => Ok b | None => Err AttributeError end.

Definition attrs := list (string * option string).
Fixpoint find_attr (k : string) (d : attrs) : option (option string) :=
  match d with [] => None | (a, v) :: r => if String.eqb a k then Some v else find_attr k r end.
Definition get (k : string) (d : attrs) : res (option string) := match find_attr k d with Some v => Ok v | None => Err AttributeError end.
(** the attribute as part of a sum of texts *)
Definition text (k : string) (d : attrs) : res string :=
  let! v := get k d in match v with Some s => Ok s | None => Err TypeError end.

(** attributes set, in any order *)
Definition over (new d : attrs) : attrs := app new d.

(** 337-373 *)
Definition get_source_dirs (home : string) (d : attrs) : attrs :=
  let dd := home ++ "TF_Data/" in
  (("data_dir", Some dd) ::
   ("src_chirps_dir", Some (dd ++ "CHIRPS_Rain_Africa_6hr_2015-10_to_2018-10_onedir/")) ::
   ("src_chirps2_dir", Some (dd ++ "CHIRPS_Rain_Africa_6hr_2005-01_to_2015-01_onedir/")) ::
   ("src_gldas_dir", Some (dd ++ "GLDAS_Rain_Baro_2015-10_to_2018-10/")) ::
   ("src_gpm_dir", Some (dd ++ "GPM_Rain_Ethiopia_30min_2015-10_to_2018-10/")) :: d).

(** 482-528 *)
Definition time_info (start end_ range offset month day stop : string) : attrs :=
  [("start_date_str", Some start); ("end_date_str", Some end_); ("date_range_str", Some range); ("GMT_offset_str", Some offset);
   ("start_month_str", Some month); ("start_day_str", Some day); ("T_stop_str", Some stop)].
Definition set_time_info (o : options) (d : attrs) : res attrs :=
  let d :=
    if east_africa o
    then if chirps o || gldas o || gpm o
         then over (time_info "2015-10-01" "2018-10-01" "2015-10_to_2018-10" "3" "October" "1" "1578240") d
         else if chirps2 o
         then over (time_info "2005-01-01" "2015-01-01" "2005-01_to_2015-01" "3" "January" "1" "5258880") d
         else d
    else d in
  let! n := NGEN_CSV o in
  Ok (if n then over (time_info "2012-06-01" "2012-07-01" "2012-06_to_2012-07" "-5" "June" "1" "43200") d else d).

(** 769-826; in line 824 there is no variable site_prefix *)
Definition set_met_info (o : options) (site case : string) (d : attrs) : res attrs :=
  let! range := text "date_range_str" d in
  let rts_extension := "_" ++ range ++ ".rts" in
  let! n := NGEN_CSV o in
  let d := if n then over [("src_rain_dir", None); ("rain_rts_file", None); ("rain_csv_file", Some (site ++ "_" ++ range ++ ".csv"));
                       ("met_dt_str", Some "3600.0"); ("rain_type_str", Some "NGEN_CSV")] d else d in
  let d := if test_rain o then over [("src_rain_dir", None); ("rain_rts_file", None); ("rain_csv_file", Some (case ++ "_rain_rates.txt"));
                       ("met_dt_str", Some "3600.0"); ("rain_type_str", Some "TEST_RAIN")] d else d in
  let product (on : bool) (dir file dt name : string) (d : attrs) : res attrs :=
    if on then let! s := get dir d in
               Ok (over [("src_rain_dir", s); ("rain_rts_file", Some (file ++ site ++ rts_extension));
                    ("met_dt_str", Some dt); ("rain_type_str", Some name)] d)
    else Ok d in
  let! d := product (chirps o) "src_chirps_dir" "CHIRPS_Rain_" "21600.0" "CHIRPS" d in
  let! d := product (chirps2 o) "src_chirps2_dir" "CHIRPS_Rain_" "21600.0" "CHIRPS" d in
  let! d := product (gldas o) "src_gldas_dir" "GLDAS_Rain_" "10800.0" "GLDAS" d in
  if gpm o then Err NameError else Ok d.

(** 385-405: the names of the directories; [base] is test_dir *)
Definition output_dirs (o : options) (base site case : string) (d : attrs) : res attrs :=
  let basin := base ++ site ++ "/" in
  let d := over [("basin_dir", Some basin); ("topo_dir", Some (basin ++ "__topo/")); ("soil_dir", Some (basin ++ "__soil/"));
             ("met_dir", Some (basin ++ "__met/")); ("misc_dir", Some (basin ++ "__misc/"))] d in
  if no_met o then Ok (("cfg_dir", Some (basin ++ case ++ "_cfg/")) :: d)
  else let! range := text "date_range_str" d in
       let! rain := text "rain_type_str" d in
       Ok (("cfg_dir", Some (basin ++ (case ++ "_") ++ (range ++ "_" ++ rain) ++ "_cfg/")) :: d).

(** a call of make_new_cfg_file: the template (without directory and case prefix), the names and the values *)
Record job := Job { template : string; vars : list string; vals : list (option string) }.

(** 857-951 get_cfg_files: the calls; [out]: output_dir, [chan_dt]: 219 *)
Definition chan_dt_str := "5.0".
Definition get_cfg_files (o : options) (site case out : string) (d : attrs) : res (list job) :=
  let! in_dir := get "basin_dir" d in
  let! start_date := get "start_date_str" d in
  let! end_date := get "end_date_str" d in
  let! T_stop := get "T_stop_str" d in
  let! n := NGEN_CSV o in
  let! met_dt := get "met_dt_str" d in
  let rain := if n || test_rain o then "rain_csv_file" else "rain_rts_file" in
  let! P := get rain d in
  let! GMT := get "GMT_offset_str" d in
  let! month := get "start_month_str" d in
  let! day := get "start_day_str" d in
  let channels := ["dt"; "FLOOD_OPTION"; "ATTENUATE"; "save_grid_dt"; "save_pixels_dt"] in
  let channel_vals := [Some chan_dt_str; Some "0"; Some "0"; met_dt; met_dt] in
  Ok [Job "_path_info.cfg" ["in_directory"; "out_directory"; "site_prefix"; "case_prefix"] [in_dir; Some out; Some site; Some case];
      Job "_time_info.cfg" ["start_date"; "start_time"; "end_date"; "end_time"] [start_date; Some "  00:00:00"; end_date; Some "  00:00:00"];
      Job "_topoflow.cfg" ["dt"; "T_stop_model"; "COMPUTE_STAT_GRIDS"; "CREATE_INDICATORS"; "CREATE_MEDIA_FILES"]
        [Some chan_dt_str; T_stop; Some (if chirps2 o then "1" else "0"); Some "0"; Some "1"];
      Job "_meteorology.cfg" ["dt"; "P_type"; "P"; "GMT_offset"; "start_month"; "start_day"; "start_hour"; "save_grid_dt"; "save_pixels_dt"; "NGEN_CSV"]
        [met_dt; Some (if n || test_rain o then "Time_Series" else "Grid_Sequence"); P; GMT; month; day; Some "0.0"; met_dt; met_dt; Some (if n then "Yes" else "No")];
      Job "_channels_kinematic_wave.cfg" channels channel_vals;
      Job "_channels_diffusive_wave.cfg" channels channel_vals].

(** 235-265 prepare_all_inputs up to the configuration files: None after the message of 241-246 *)
Definition prepare (o : options) (home site case : string) : res (option (attrs * list job)) :=
  if negb (nextgen o) && negb (east_africa o) then Ok None
  else
    let d := get_source_dirs home [] in
    let! d := set_time_info o d in
    let! d := set_met_info o site case d in
    let! d := output_dirs o (home ++ "basins_TEST/") site case d in
    let! jobs := get_cfg_files o site case (home ++ "output/") d in
    Ok (Some (d, jobs)).

(** the fields {{...}} of the templates in topoflow/cfg_templates/Test1 *)
Definition fields (template : string) : list string :=
  if String.eqb template "_path_info.cfg" then ["in_directory"; "out_directory"; "site_prefix"; "case_prefix"]
  else if String.eqb template "_time_info.cfg" then ["start_date"; "start_time"; "end_date"; "end_time"]
  else if String.eqb template "_topoflow.cfg" then ["dt"; "T_stop_model"; "COMPUTE_STAT_GRIDS"; "CREATE_INDICATORS"; "CREATE_MEDIA_FILES"]
  else if String.eqb template "_meteorology.cfg" then
    ["dt"; "P_type"; "P"; "GMT_offset"; "start_month"; "start_day"; "start_hour"; "save_grid_dt"; "save_pixels_dt"; "NGEN_CSV"]
  else if String.eqb template "_channels_kinematic_wave.cfg" || String.eqb template "_channels_diffusive_wave.cfg"
  then ["dt"; "FLOOD_OPTION"; "ATTENUATE"; "save_grid_dt"; "save_pixels_dt"]
  else [].

(** the files in topoflow/cfg_templates/Test1 *)
Definition template_files : list string :=
  ["Test1_channels_diffusive_wave.cfg"; "Test1_channels_kinematic_wave.cfg"; "Test1_d8_global.cfg"; "Test1_dem_smoother.cfg";
   "Test1_diversions_fraction_method.cfg"; "Test1_evap_priestley_taylor.cfg"; "Test1_glacier_energy_balance.cfg";
   "Test1_ice_valley_glacier.cfg"; "Test1_infil_richards_1d.cfg"; "Test1_meteorology.cfg"; "Test1_multi-bmi.cfg"; "Test1_outlets.txt";
   "Test1_path_info.cfg"; "Test1_providers.txt"; "Test1_satzone_darcy_layers.cfg"; "Test1_snow_degree_day.cfg";
   "Test1_snow_energy_balance.cfg"; "Test1_time_info.cfg"; "Test1_topoflow.cfg"].
(** 852-853: the copy of the provider file; false: FileNotFoundError *)
Definition copy_provider_file (case : string) : bool := existsb (String.eqb (case ++ "_providers.txt")) template_files.

(** 1793: the path of the rainfall grids *)
Definition rain_rts_path (d : attrs) : res string :=
  let! a := text "met_dir" d in let! b := text "rain_rts_file" d in Ok (a ++ b).

(** ** 1012-1135: the outlet *)

(** the largest area and the first place that has it, row by row *)
Fixpoint qmax_list (m : Q) (l : list Q) : Q := match l with [] => m | x :: r => qmax_list (if Qle_bool x m then m else x) r end.
Fixpoint first_at (v : Q) (l : list Q) : nat := match l with [] => 0 | x :: r => if Qeq_bool x v then 0 else S (first_at v r) end.

Record geo := Geo { x_west : Q; y_north : Q; xres : Q; yres : Q; pixel_geom : Z }.

(** column, row, area, longitude, latitude; with STEP_BACKS the index w[0] of a number (1098) is an
    IndexError.  The grid is not empty. *)
Definition get_outlet (A : list Q) (ncols : nat) (g : geo) (step_backs : nat) : res (nat * nat * Q * Q * Q) :=
  let Amax := qmax_list (hd 0 A) (tl A) in
  let k := first_at Amax A in
  let row := (k / ncols)%nat in
  let col := (k mod ncols)%nat in
  match step_backs with
  | S _ => Err IndexError
  | O =>
      if (pixel_geom g =? 0)%Z
      then let dx := xres g / 3600 in
           let dy := yres g / 3600 in
           Ok (col, row, Amax, (x_west g + dx * inject_Z (Z.of_nat col)) + dx / 2, (y_north g - dy * inject_Z (Z.of_nat row)) - dy / 2)
      else Ok (col, row, Amax, - 999, - 999)
  end%Q.

(** 1135 *)
Definition get_outlets_file (A : list Q) (ncols : nat) (g : geo) (step_backs : nat) : res string :=
  let! (col, row, area, lon, lat) := get_outlet A ncols g step_backs in
  Ok (outlet_text (Z.of_nat col) (Z.of_nat row) area (-9999) lon lat).

(** ** 1829-1880: the part of a CSV file between two dates *)

(** 1846-1858: the lines from the first one of the date on, if any *)
Fixpoint from_date (date : string) (lines : list string) : option (list string) :=
  match lines with [] => None | l :: r => if String.prefix date l then Some lines else from_date date r end.
(** 1860-1874: the lines written, and whether the date was found *)
Fixpoint to_date (date : string) (lines : list string) : list string * bool :=
  match lines with
  | [] => ([], false)
  | l :: r => if String.prefix date l then ([], true) else let (w, b) := to_date date r in (l :: w, b)
  end.
Definition subset_csv (start_date end_date : string) (lines : list string) : list string * bool :=
  match lines with
  | [] => ([], false)
  | header :: r =>
      match from_date start_date r with
      | None => ([header], false)
      | Some [] => ([header], false)
      | Some (l :: r') => let (w, b) := to_date end_date r' in (header :: l :: w, b)
      end
  end.
