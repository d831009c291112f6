(** Model of the calls between the project's own functions.

    Binding of arguments to parameters, as Python does it for a function without *args and
    **kwargs, and the table of calls: every call in topoflow/components, topoflow/utils and
    topoflow/framework whose function is known from the text of the source, that is
    [module.function( ... )] of an imported module, [function( ... )] of the same module, and
    [self.method( ... )] for every class that has the calling method, the method being the first
    one found in the class and its base classes.  For each function: its parameters (without self)
    and how many have defaults; for each call: file, line, the number of positional arguments and
    the names of the keyword arguments.

    Left out: the packages ngen and tests and the old versions of files (names with OLD, LAST, IDEA,
    METHOD1, NEWER, SEE_COMPONENTS), idl_func.readf (which has *args), calls of methods of other
    objects, and everything that happens after the arguments are bound. *)

From Coq Require Import String List Bool Arith NArith.
From Verif Require Import Time_Model.
Import ListNotations.
Local Open Scope string_scope.

(** the value of a keyword or parameter *)
Fixpoint value {V} (k : string) (l : list (string * V)) : option V :=
  match l with [] => None | (a, v) :: r => if String.eqb a k then Some v else value k r end.

(** positional arguments go to the first parameters: what they get, and the parameters left *)
Fixpoint bind_pos {V} (params : list string) (args : list V) : res (list (string * V) * list string) :=
  match args with
  | [] => Ok ([], params)
  | a :: r =>
      match params with
      | [] => Err TypeError
      | p :: ps => let! (e, q) := bind_pos ps r in Ok ((p, a) :: e, q)
      end
  end.

(** the parameters left get keyword arguments or defaults *)
Fixpoint fill {V} (rest : list string) (kws defaults : list (string * V)) : res (list (string * V)) :=
  match rest with
  | [] => Ok []
  | p :: ps =>
      match (match value p kws with Some v => Some v | None => value p defaults end) with
      | Some v => let! e := fill ps kws defaults in Ok ((p, v) :: e)
      | None => Err TypeError
      end
  end.

Definition member (s : string) (l : list string) : bool := existsb (String.eqb s) l.

(** a call: the values of the parameters, or TypeError for too many positional arguments, a keyword
    that is not among the parameters left, or a missing value.  The defaults belong to the last
    parameters. *)
Definition bind {V} (params : list string) (defaults args : list V) (kws : list (string * V)) : res (list (string * V)) :=
  let! (e, rest) := bind_pos params args in
  if forallb (fun k => member (fst k) rest) kws
  then let! f := fill rest kws (combine (skipn (List.length params - List.length defaults) params) defaults) in Ok (e ++ f)%list
  else Err TypeError.

(** ** The calls *)

Record site := Site { file : string; line : N; npos : nat; keywords : list string }.
Record func := Func { callee : string; params : list string; ndefaults : nat; calls : list site }.

Definition f_HIS_base := "components/HIS_base.py".
Definition f_channels_base := "components/channels_base.py".
Definition f_channels_diffusive_wave := "components/channels_diffusive_wave.py".
Definition f_channels_kinematic_wave := "components/channels_kinematic_wave.py".
Definition f_d8_base := "components/d8_base.py".
Definition f_d8_global := "components/d8_global.py".
Definition f_d8_local := "components/d8_local.py".
Definition f_diversions_base := "components/diversions_base.py".
Definition f_diversions_fraction_method := "components/diversions_fraction_method.py".
Definition f_erode_base := "components/erode_base.py".
Definition f_erode_d8_global := "components/erode_d8_global.py".
Definition f_erode_d8_local := "components/erode_d8_local.py".
Definition f_evap_base := "components/evap_base.py".
Definition f_evap_energy_balance := "components/evap_energy_balance.py".
Definition f_evap_priestley_taylor := "components/evap_priestley_taylor.py".
Definition f_evap_read_file := "components/evap_read_file.py".
Definition f_gc2d := "components/gc2d.py".
Definition f_glacier_base := "components/glacier_base.py".
Definition f_glacier_energy_balance := "components/glacier_energy_balance.py".
Definition f_ice_base := "components/ice_base.py".
Definition f_infil_base := "components/infil_base.py".
Definition f_infil_beven := "components/infil_beven.py".
Definition f_infil_green_ampt := "components/infil_green_ampt.py".
Definition f_infil_richards_1D := "components/infil_richards_1D.py".
Definition f_infil_smith_parlange := "components/infil_smith_parlange.py".
Definition f_met_base := "components/met_base.py".
Definition f_satzone_base := "components/satzone_base.py".
Definition f_smooth_DEM := "components/smooth_DEM.py".
Definition f_snow_base := "components/snow_base.py".
Definition f_snow_degree_day := "components/snow_degree_day.py".
Definition f_snow_energy_balance := "components/snow_energy_balance.py".
Definition f_soil_base := "components/soil_base.py".
Definition f_soil_funcs := "components/soil_funcs.py".
Definition f_solar_funcs := "components/solar_funcs.py".
Definition f_topoflow_driver := "components/topoflow_driver.py".
Definition f_emeli := "framework/emeli.py".
Definition f_emeli_with_cfunits := "framework/emeli_with_cfunits.py".
Definition f_multi_bmi := "framework/multi_bmi.py".
Definition f_time_interpolation := "framework/time_interpolation.py".
Definition f_BMI_base := "utils/BMI_base.py".
Definition f_bov_files := "utils/bov_files.py".
Definition f_calibrate := "utils/calibrate.py".
Definition f_cfg2xml := "utils/cfg2xml.py".
Definition f_cfg_files := "utils/cfg_files.py".
Definition f_cfg_templates := "utils/cfg_templates.py".
Definition f_conflict := "utils/conflict.py".
Definition f_file_utils := "utils/file_utils.py".
Definition f_fill_pits := "utils/fill_pits.py".
Definition f_hamiltonian := "utils/hamiltonian.py".
Definition f_import_grid := "utils/import_grid.py".
Definition f_indicators := "utils/indicators.py".
Definition f_init_depth := "utils/init_depth.py".
Definition f_mct_files := "utils/mct_files.py".
Definition f_met_utils := "utils/met_utils.py".
Definition f_midpoints := "utils/midpoints.py".
Definition f_model_info := "utils/model_info.py".
Definition f_model_input := "utils/model_input.py".
Definition f_nccs_files := "utils/nccs_files.py".
Definition f_ncgs_files := "utils/ncgs_files.py".
Definition f_ncps_files := "utils/ncps_files.py".
Definition f_ncts_files := "utils/ncts_files.py".
Definition f_new_slopes := "utils/new_slopes.py".
Definition f_outlets := "utils/outlets.py".
Definition f_parameterize := "utils/parameterize.py".
Definition f_pedotransfer := "utils/pedotransfer.py".
Definition f_pixels := "utils/pixels.py".
Definition f_prepare_inputs := "utils/prepare_inputs.py".
Definition f_projections := "utils/projections.py".
Definition f_regrid := "utils/regrid.py".
Definition f_rtg2rts := "utils/rtg2rts.py".
Definition f_rtg_files := "utils/rtg_files.py".
Definition f_rti_files := "utils/rti_files.py".
Definition f_rts_files := "utils/rts_files.py".
Definition f_svo_names := "utils/svo_names.py".
Definition f_template_files := "utils/template_files.py".
Definition f_text_ts_files := "utils/text_ts_files.py".
Definition f_tf36_default_visualization := "utils/tf36_default_visualization.py".
Definition f_tf_d8_base := "utils/tf_d8_base.py".
Definition f_tf_utils := "utils/tf_utils.py".
Definition f_time_utils := "utils/time_utils.py".
Definition f_visualize := "utils/visualize.py".

Definition calls_1 : list func := [
  Func "BMI_base.BMI_component.check_finished" [] 0
    [Site f_BMI_base 941 0 []; Site f_BMI_base 1088 0 []];
  Func "BMI_base.BMI_component.finalize" [] 0
    [Site f_BMI_base 946 0 []];
  Func "BMI_base.BMI_component.get_attribute" ["att_name"] 0
    [Site f_channels_base 1000 1 []; Site f_d8_base 274 1 []; Site f_erode_base 170 1 []; Site f_infil_base 212 1 []; Site f_BMI_base 512 1 []; Site f_BMI_base 541 1 []; Site f_BMI_base 1496 1 []; Site f_BMI_base 1587 1 []];
  Func "BMI_base.BMI_component.get_component_name" [] 0
    [Site f_glacier_base 385 0 []; Site f_snow_base 358 0 []];
  Func "BMI_base.BMI_component.get_current_time" [] 0
    [Site f_BMI_base 286 0 []];
  Func "BMI_base.BMI_component.get_input_var_names" [] 0
    [Site f_BMI_base 313 0 []];
  Func "BMI_base.BMI_component.get_output_var_names" [] 0
    [Site f_BMI_base 320 0 []];
  Func "BMI_base.BMI_component.get_run_time_string" ["proc_name"; "sec_digits"; "seconds"; "SILENT"] 4
    [Site f_BMI_base 1288 0 []; Site f_BMI_base 1326 0 []];
  Func "BMI_base.BMI_component.get_time_step" [] 0
    [Site f_BMI_base 276 0 []; Site f_BMI_base 286 0 []];
  Func "BMI_base.BMI_component.get_value_ptr" ["long_var_name"] 0
    [Site f_BMI_base 610 1 []];
  Func "BMI_base.BMI_component.get_var_name" ["long_var_name"] 0
    [Site f_BMI_base 370 1 []; Site f_BMI_base 414 1 []; Site f_BMI_base 446 1 []; Site f_BMI_base 461 1 []; Site f_BMI_base 570 1 []; Site f_BMI_base 598 1 []; Site f_BMI_base 651 1 []; Site f_BMI_base 667 1 []];
  Func "BMI_base.BMI_component.get_var_type" ["long_var_name"] 0
    [Site f_BMI_base 589 1 []];
  Func "BMI_base.BMI_component.initialize" ["cfg_file"; "mode"] 2
    [Site f_BMI_base 897 0 ["cfg_prefix"; "mode"]];
  Func "BMI_base.BMI_component.initialize_basin_vars" [] 0
    [Site f_channels_base 667 0 []; Site f_d8_base 307 0 []; Site f_diversions_base 79 0 []; Site f_erode_base 222 0 []; Site f_evap_base 137 0 []; Site f_glacier_base 159 0 []; Site f_ice_base 429 0 []; Site f_infil_base 236 0 []; Site f_met_base 649 0 []; Site f_satzone_base 150 0 []; Site f_smooth_DEM 282 0 []; Site f_snow_base 170 0 []; Site f_topoflow_driver 450 0 []; Site f_BMI_base 240 0 []];
  Func "BMI_base.BMI_component.initialize_config_vars" ["READ_GRID_INFO"] 1
    [Site f_HIS_base 268 0 []; Site f_channels_base 649 0 []; Site f_d8_base 296 0 []; Site f_diversions_base 77 0 []; Site f_erode_base 195 0 []; Site f_evap_base 135 0 []; Site f_glacier_base 157 0 []; Site f_ice_base 427 0 []; Site f_infil_base 233 0 []; Site f_met_base 642 0 []; Site f_satzone_base 147 0 []; Site f_smooth_DEM 279 0 []; Site f_snow_base 167 0 []; Site f_topoflow_driver 447 0 []; Site f_multi_bmi 578 0 []; Site f_BMI_base 238 0 []];
  Func "BMI_base.BMI_component.initialize_grid" ["value"; "dtype"] 2
    [Site f_channels_base 1262 1 ["dtype"]; Site f_channels_base 1263 1 ["dtype"]; Site f_channels_base 1264 1 ["dtype"]; Site f_channels_base 1280 1 ["dtype"]; Site f_channels_base 1295 1 ["dtype"]; Site f_channels_base 1296 1 ["dtype"]; Site f_channels_base 1297 1 ["dtype"]; Site f_channels_base 1343 1 ["dtype"]; Site f_channels_base 1361 1 ["dtype"]; Site f_channels_base 1362 1 ["dtype"]; Site f_channels_base 1365 1 ["dtype"]; Site f_channels_base 1366 1 ["dtype"]; Site f_channels_base 1388 1 ["dtype"]; Site f_channels_base 1395 1 ["dtype"]; Site f_evap_base 306 1 ["dtype"]; Site f_evap_base 307 1 ["dtype"]; Site f_infil_beven 362 1 ["dtype"]; Site f_infil_beven 363 1 ["dtype"]; Site f_infil_beven 364 1 ["dtype"]; Site f_infil_beven 365 1 ["dtype"]; Site f_infil_beven 366 1 ["dtype"]; Site f_infil_beven 367 1 ["dtype"]; Site f_infil_green_ampt 362 1 ["dtype"]; Site f_infil_green_ampt 363 1 ["dtype"]; Site f_infil_green_ampt 364 1 ["dtype"]; Site f_infil_green_ampt 365 1 ["dtype"]; Site f_infil_green_ampt 366 1 ["dtype"]; Site f_infil_green_ampt 367 1 ["dtype"]; Site f_infil_smith_parlange 371 1 ["dtype"]; Site f_infil_smith_parlange 372 1 ["dtype"]; Site f_infil_smith_parlange 373 1 ["dtype"]; Site f_infil_smith_parlange 374 1 ["dtype"]; Site f_infil_smith_parlange 375 1 ["dtype"]; Site f_infil_smith_parlange 376 1 ["dtype"]; Site f_met_base 1131 1 []; Site f_met_base 1216 1 ["dtype"]; Site f_met_base 1217 1 ["dtype"]; Site f_met_base 1218 1 ["dtype"]; Site f_met_base 1219 1 ["dtype"]; Site f_satzone_base 378 1 ["dtype"]; Site f_satzone_base 379 1 ["dtype"]; Site f_satzone_base 419 1 ["dtype"]; Site f_BMI_base 2319 0 ["value"; "dtype"]];
  Func "BMI_base.BMI_component.initialize_scalar" ["value"; "dtype"] 2
    [Site f_channels_base 1156 1 ["dtype"]; Site f_channels_base 1157 1 ["dtype"]; Site f_channels_base 1158 1 ["dtype"]; Site f_channels_base 1168 1 ["dtype"]; Site f_channels_base 1169 1 ["dtype"]; Site f_channels_base 1170 1 ["dtype"]; Site f_channels_base 1178 1 ["dtype"]; Site f_channels_base 1179 1 ["dtype"]; Site f_channels_base 1180 1 ["dtype"]; Site f_channels_base 1182 1 ["dtype"]; Site f_channels_base 1183 1 ["dtype"]; Site f_channels_base 1184 1 ["dtype"]; Site f_channels_base 1304 1 ["dtype"]; Site f_channels_base 1305 1 ["dtype"]; Site f_channels_base 1307 1 ["dtype"]; Site f_channels_base 1308 1 ["dtype"]; Site f_channels_base 1309 1 ["dtype"]; Site f_channels_base 1310 1 ["dtype"]; Site f_channels_base 1462 1 ["dtype"]; Site f_channels_base 1463 1 ["dtype"]; Site f_channels_base 1464 1 ["dtype"]; Site f_channels_base 1465 1 ["dtype"]; Site f_channels_base 1475 1 ["dtype"]; Site f_channels_base 1476 1 ["dtype"]; Site f_channels_base 1477 1 ["dtype"]; Site f_channels_base 1478 1 ["dtype"]; Site f_channels_base 1479 1 ["dtype"]; Site f_channels_base 1480 1 ["dtype"]; Site f_channels_base 1492 1 ["dtype"]; Site f_channels_base 1493 1 ["dtype"]; Site f_channels_base 1494 1 ["dtype"]; Site f_channels_base 1495 1 ["dtype"]; Site f_channels_base 1496 1 ["dtype"]; Site f_channels_base 1497 1 ["dtype"]; Site f_diversions_base 96 1 ["dtype"]; Site f_diversions_base 98 1 ["dtype"]; Site f_diversions_base 100 1 ["dtype"]; Site f_diversions_base 108 1 ["dtype"]; Site f_diversions_base 109 1 ["dtype"]; Site f_diversions_base 110 1 ["dtype"]; Site f_diversions_base 111 1 ["dtype"]; Site f_diversions_base 112 1 ["dtype"]; Site f_diversions_base 113 1 ["dtype"]; Site f_diversions_base 114 1 ["dtype"]; Site f_diversions_base 115 1 ["dtype"]; Site f_diversions_base 116 1 ["dtype"]; Site f_diversions_base 117 1 ["dtype"]; Site f_diversions_base 118 1 ["dtype"]; Site f_diversions_base 119 1 ["dtype"]; Site f_diversions_base 120 1 ["dtype"]; Site f_diversions_base 121 1 ["dtype"]; Site f_diversions_base 122 1 ["dtype"]; Site f_erode_base 782 1 ["dtype"]; Site f_erode_base 788 1 ["dtype"]; Site f_erode_base 789 1 ["dtype"]; Site f_erode_base 792 1 ["dtype"]; Site f_erode_base 793 1 ["dtype"]; Site f_evap_base 151 1 ["dtype"]; Site f_evap_base 152 1 ["dtype"]; Site f_evap_base 309 1 ["dtype"]; Site f_glacier_base 169 1 ["dtype"]; Site f_glacier_base 170 1 ["dtype"]; Site f_glacier_base 171 1 ["dtype"]; Site f_glacier_base 172 1 ["dtype"]; Site f_glacier_base 173 1 ["dtype"]; Site f_glacier_base 174 1 ["dtype"]; Site f_glacier_base 175 1 ["dtype"]; Site f_glacier_base 176 1 ["dtype"]; Site f_glacier_base 177 1 ["dtype"]; Site f_glacier_base 178 1 ["dtype"]; Site f_glacier_base 179 1 ["dtype"]; Site f_glacier_base 180 1 ["dtype"]; Site f_glacier_base 181 1 ["dtype"]; Site f_glacier_base 182 1 ["dtype"]; Site f_glacier_base 433 1 ["dtype"]; Site f_glacier_base 434 1 ["dtype"]; Site f_glacier_base 435 1 ["dtype"]; Site f_glacier_base 436 1 ["dtype"]; Site f_glacier_base 437 1 ["dtype"]; Site f_glacier_base 438 1 ["dtype"]; Site f_glacier_base 439 1 ["dtype"]; Site f_glacier_base 443 1 ["dtype"]; Site f_glacier_base 444 1 ["dtype"]; Site f_glacier_base 449 1 ["dtype"]; Site f_glacier_base 450 1 ["dtype"]; Site f_glacier_base 455 1 ["dtype"]; Site f_ice_base 304 1 ["dtype"]; Site f_ice_base 444 1 ["dtype"]; Site f_ice_base 445 1 ["dtype"]; Site f_infil_base 251 1 ["dtype"]; Site f_infil_base 252 1 ["dtype"]; Site f_infil_base 253 1 ["dtype"]; Site f_infil_base 254 1 ["dtype"]; Site f_infil_base 255 1 ["dtype"]; Site f_infil_base 256 1 ["dtype"]; Site f_infil_base 257 1 ["dtype"]; Site f_infil_base 258 1 ["dtype"]; Site f_infil_beven 342 1 ["dtype"]; Site f_infil_beven 343 1 ["dtype"]; Site f_infil_beven 344 1 ["dtype"]; Site f_infil_beven 345 1 ["dtype"]; Site f_infil_beven 346 1 ["dtype"]; Site f_infil_beven 354 1 ["dtype"]; Site f_infil_beven 355 1 ["dtype"]; Site f_infil_beven 356 1 ["dtype"]; Site f_infil_beven 357 1 ["dtype"]; Site f_infil_beven 358 1 ["dtype"]; Site f_infil_beven 359 1 ["dtype"]; Site f_infil_green_ampt 342 1 ["dtype"]; Site f_infil_green_ampt 343 1 ["dtype"]; Site f_infil_green_ampt 344 1 ["dtype"]; Site f_infil_green_ampt 345 1 ["dtype"]; Site f_infil_green_ampt 346 1 ["dtype"]; Site f_infil_green_ampt 354 1 ["dtype"]; Site f_infil_green_ampt 355 1 ["dtype"]; Site f_infil_green_ampt 356 1 ["dtype"]; Site f_infil_green_ampt 357 1 ["dtype"]; Site f_infil_green_ampt 358 1 ["dtype"]; Site f_infil_green_ampt 359 1 ["dtype"]; Site f_infil_richards_1D 573 1 ["dtype"]; Site f_infil_richards_1D 574 1 ["dtype"]; Site f_infil_richards_1D 575 1 ["dtype"]; Site f_infil_richards_1D 576 1 ["dtype"]; Site f_infil_richards_1D 577 1 ["dtype"]; Site f_infil_richards_1D 657 1 ["dtype"]; Site f_infil_richards_1D 658 1 ["dtype"]; Site f_infil_richards_1D 659 1 ["dtype"]; Site f_infil_richards_1D 660 1 ["dtype"]; Site f_infil_richards_1D 661 1 ["dtype"]; Site f_infil_smith_parlange 351 1 ["dtype"]; Site f_infil_smith_parlange 352 1 ["dtype"]; Site f_infil_smith_parlange 353 1 ["dtype"]; Site f_infil_smith_parlange 354 1 ["dtype"]; Site f_infil_smith_parlange 355 1 ["dtype"]; Site f_infil_smith_parlange 363 1 ["dtype"]; Site f_infil_smith_parlange 364 1 ["dtype"]; Site f_infil_smith_parlange 365 1 ["dtype"]; Site f_infil_smith_parlange 366 1 ["dtype"]; Site f_infil_smith_parlange 367 1 ["dtype"]; Site f_infil_smith_parlange 368 1 ["dtype"]; Site f_met_base 680 1 ["dtype"]; Site f_met_base 681 1 ["dtype"]; Site f_met_base 690 1 ["dtype"]; Site f_met_base 691 1 ["dtype"]; Site f_met_base 692 1 ["dtype"]; Site f_met_base 693 1 ["dtype"]; Site f_met_base 694 1 ["dtype"]; Site f_met_base 695 1 ["dtype"]; Site f_met_base 696 1 ["dtype"]; Site f_met_base 697 1 ["dtype"]; Site f_met_base 1180 1 ["dtype"]; Site f_met_base 1181 1 ["dtype"]; Site f_met_base 1182 1 ["dtype"]; Site f_met_base 1183 1 ["dtype"]; Site f_met_base 1223 1 ["dtype"]; Site f_met_base 1224 1 ["dtype"]; Site f_met_base 1225 1 ["dtype"]; Site f_met_base 1226 1 ["dtype"]; Site f_met_base 1227 1 ["dtype"]; Site f_met_base 1228 1 ["dtype"]; Site f_satzone_base 179 1 ["dtype"]; Site f_satzone_base 180 1 ["dtype"]; Site f_satzone_base 181 1 ["dtype"]; Site f_satzone_base 377 1 ["dtype"]; Site f_snow_base 180 1 ["dtype"]; Site f_snow_base 181 1 ["dtype"]; Site f_snow_base 182 1 ["dtype"]; Site f_snow_base 184 1 ["dtype"]; Site f_snow_base 186 1 ["dtype"]; Site f_snow_base 187 1 ["dtype"]; Site f_snow_base 397 1 ["dtype"]; Site f_snow_base 398 1 ["dtype"]; Site f_snow_base 399 1 ["dtype"]; Site f_snow_base 407 1 ["dtype"]; Site f_snow_base 408 1 ["dtype"]; Site f_BMI_base 974 1 ["dtype"]; Site f_BMI_base 1013 1 ["dtype"]; Site f_BMI_base 1014 1 ["dtype"]; Site f_BMI_base 2317 0 ["value"; "dtype"]];
  Func "BMI_base.BMI_component.initialize_time_vars" ["units"] 1
    [Site f_HIS_base 271 0 []; Site f_channels_base 672 0 []; Site f_d8_base 313 0 []; Site f_diversions_base 89 0 []; Site f_diversions_base 130 0 []; Site f_erode_base 227 0 ["units"]; Site f_evap_base 141 0 []; Site f_glacier_base 163 0 []; Site f_ice_base 433 0 ["units"]; Site f_infil_base 237 0 []; Site f_met_base 651 0 []; Site f_satzone_base 154 0 []; Site f_smooth_DEM 286 0 []; Site f_snow_base 174 0 []; Site f_BMI_base 241 0 []];
  Func "BMI_base.BMI_component.initialize_var" ["var_type"; "value"; "dtype"] 2
    [Site f_channels_base 1050 1 ["dtype"]; Site f_channels_base 1052 1 ["dtype"]; Site f_channels_base 1054 1 ["dtype"]; Site f_channels_base 1056 1 ["dtype"]; Site f_channels_base 1058 1 ["dtype"]; Site f_channels_base 1061 1 ["dtype"]; Site f_channels_base 1067 1 ["dtype"]; Site f_channels_base 1070 1 ["dtype"]; Site f_evap_base 293 1 ["dtype"]; Site f_evap_base 295 1 ["dtype"]; Site f_evap_base 297 1 ["dtype"]; Site f_evap_base 299 1 ["dtype"]; Site f_glacier_energy_balance 332 1 ["dtype"]; Site f_glacier_energy_balance 334 1 ["dtype"]; Site f_glacier_energy_balance 336 1 ["dtype"]; Site f_glacier_energy_balance 338 1 ["dtype"]; Site f_glacier_energy_balance 340 1 ["dtype"]; Site f_glacier_energy_balance 342 1 ["dtype"]; Site f_glacier_energy_balance 344 1 ["dtype"]; Site f_glacier_energy_balance 346 1 ["dtype"]; Site f_glacier_energy_balance 348 1 ["dtype"]; Site f_glacier_energy_balance 350 1 ["dtype"]; Site f_met_base 1059 1 ["dtype"]; Site f_met_base 1060 1 ["dtype"]; Site f_met_base 1061 1 ["dtype"]; Site f_met_base 1064 1 ["dtype"]; Site f_met_base 1067 1 ["dtype"]; Site f_met_base 1070 1 ["dtype"]; Site f_met_base 1073 1 ["dtype"]; Site f_met_base 1076 1 ["dtype"]; Site f_met_base 1079 1 ["dtype"]; Site f_met_base 1082 1 ["dtype"]; Site f_met_base 1085 1 ["dtype"]; Site f_met_base 1088 1 ["dtype"]; Site f_met_base 1091 1 ["dtype"]; Site f_met_base 1094 1 ["dtype"]; Site f_met_base 1097 1 ["dtype"]; Site f_snow_degree_day 374 1 ["dtype"]; Site f_snow_degree_day 376 1 ["dtype"]; Site f_snow_degree_day 378 1 ["dtype"]; Site f_snow_degree_day 380 1 ["dtype"]; Site f_snow_degree_day 382 1 ["dtype"]; Site f_snow_energy_balance 317 1 ["dtype"]; Site f_snow_energy_balance 319 1 ["dtype"]; Site f_snow_energy_balance 321 1 ["dtype"]; Site f_snow_energy_balance 323 1 ["dtype"]; Site f_snow_energy_balance 325 1 ["dtype"]];
  Func "BMI_base.BMI_component.is_grid" ["var_name"] 0
    [Site f_glacier_base 378 1 []; Site f_glacier_base 379 1 []; Site f_glacier_base 380 1 []; Site f_snow_base 354 1 []; Site f_snow_base 355 1 []];
  Func "BMI_base.BMI_component.is_scalar" ["var_name"] 0
    [Site f_evap_base 274 1 []; Site f_evap_base 275 1 []; Site f_evap_energy_balance 272 1 []; Site f_evap_energy_balance 273 1 []; Site f_evap_energy_balance 274 1 []; Site f_evap_energy_balance 276 1 []; Site f_evap_energy_balance 278 1 []; Site f_evap_energy_balance 279 1 []; Site f_evap_energy_balance 280 1 []; Site f_evap_priestley_taylor 282 1 []; Site f_evap_priestley_taylor 283 1 []; Site f_evap_priestley_taylor 284 1 []; Site f_evap_priestley_taylor 285 1 []; Site f_evap_priestley_taylor 287 1 []; Site f_evap_priestley_taylor 288 1 []; Site f_evap_priestley_taylor 289 1 []; Site f_evap_priestley_taylor 290 1 []; Site f_evap_priestley_taylor 291 1 []; Site f_glacier_base 349 1 []; Site f_glacier_base 350 1 []; Site f_glacier_base 351 1 []; Site f_glacier_base 352 1 []; Site f_glacier_base 353 1 []; Site f_glacier_base 355 1 []; Site f_glacier_base 356 1 []; Site f_glacier_base 357 1 []; Site f_glacier_base 358 1 []; Site f_glacier_base 360 1 []; Site f_glacier_base 361 1 []; Site f_glacier_base 362 1 []; Site f_glacier_base 363 1 []; Site f_glacier_base 364 1 []; Site f_glacier_base 381 1 []; Site f_glacier_base 382 1 []; Site f_glacier_base 383 1 []; Site f_glacier_base 384 1 []; Site f_glacier_energy_balance 297 1 []; Site f_glacier_energy_balance 298 1 []; Site f_glacier_energy_balance 299 1 []; Site f_glacier_energy_balance 300 1 []; Site f_glacier_energy_balance 301 1 []; Site f_glacier_energy_balance 302 1 []; Site f_glacier_energy_balance 303 1 []; Site f_glacier_energy_balance 304 1 []; Site f_glacier_energy_balance 305 1 []; Site f_glacier_energy_balance 306 1 []; Site f_glacier_energy_balance 307 1 []; Site f_glacier_energy_balance 308 1 []; Site f_glacier_energy_balance 309 1 []; Site f_glacier_energy_balance 310 1 []; Site f_glacier_energy_balance 311 1 []; Site f_glacier_energy_balance 312 1 []; Site f_glacier_energy_balance 313 1 []; Site f_infil_base 533 1 []; Site f_infil_base 534 1 []; Site f_infil_base 535 1 []; Site f_infil_base 537 1 []; Site f_infil_base 538 1 []; Site f_infil_base 539 1 []; Site f_infil_base 540 1 []; Site f_infil_base 541 1 []; Site f_infil_beven 313 1 []; Site f_infil_beven 314 1 []; Site f_infil_beven 315 1 []; Site f_infil_beven 317 1 []; Site f_infil_beven 318 1 []; Site f_infil_beven 319 1 []; Site f_infil_beven 320 1 []; Site f_infil_beven 321 1 []; Site f_infil_green_ampt 313 1 []; Site f_infil_green_ampt 314 1 []; Site f_infil_green_ampt 315 1 []; Site f_infil_green_ampt 317 1 []; Site f_infil_green_ampt 318 1 []; Site f_infil_green_ampt 319 1 []; Site f_infil_green_ampt 320 1 []; Site f_infil_green_ampt 321 1 []; Site f_infil_richards_1D 538 1 []; Site f_infil_richards_1D 539 1 []; Site f_infil_richards_1D 540 1 []; Site f_infil_richards_1D 542 1 []; Site f_infil_richards_1D 543 1 []; Site f_infil_richards_1D 544 1 []; Site f_infil_richards_1D 545 1 []; Site f_infil_richards_1D 546 1 []; Site f_infil_richards_1D 547 1 []; Site f_infil_richards_1D 548 1 []; Site f_infil_richards_1D 549 1 []; Site f_infil_richards_1D 550 1 []; Site f_infil_smith_parlange 320 1 []; Site f_infil_smith_parlange 321 1 []; Site f_infil_smith_parlange 322 1 []; Site f_infil_smith_parlange 324 1 []; Site f_infil_smith_parlange 325 1 []; Site f_infil_smith_parlange 326 1 []; Site f_infil_smith_parlange 327 1 []; Site f_infil_smith_parlange 328 1 []; Site f_infil_smith_parlange 329 1 []; Site f_met_base 1509 1 []; Site f_met_base 1510 1 []; Site f_snow_base 334 1 []; Site f_snow_base 335 1 []; Site f_snow_base 336 1 []; Site f_snow_base 337 1 []; Site f_snow_base 339 1 []; Site f_snow_base 340 1 []; Site f_snow_base 341 1 []; Site f_snow_base 342 1 []; Site f_snow_base 356 1 []; Site f_snow_base 357 1 []; Site f_snow_degree_day 276 1 []; Site f_snow_degree_day 277 1 []; Site f_snow_degree_day 278 1 []; Site f_snow_degree_day 282 1 []; Site f_snow_degree_day 284 1 []; Site f_snow_degree_day 285 1 []; Site f_snow_degree_day 286 1 []; Site f_snow_degree_day 287 1 []; Site f_snow_energy_balance 279 1 []; Site f_snow_energy_balance 280 1 []; Site f_snow_energy_balance 281 1 []; Site f_snow_energy_balance 282 1 []; Site f_snow_energy_balance 283 1 []; Site f_snow_energy_balance 284 1 []; Site f_snow_energy_balance 285 1 []; Site f_snow_energy_balance 295 1 []; Site f_snow_energy_balance 296 1 []; Site f_snow_energy_balance 297 1 []; Site f_snow_energy_balance 298 1 []; Site f_BMI_base 2344 1 []];
  Func "BMI_base.BMI_component.print_final_report" ["comp_name"; "mode"] 2
    [Site f_channels_base 987 0 ["comp_name"]; Site f_diversions_base 187 0 ["comp_name"]; Site f_erode_base 444 0 ["comp_name"]; Site f_erode_d8_local 2255 0 ["comp_name"; "mode"]; Site f_evap_base 246 0 ["comp_name"]; Site f_glacier_base 310 0 ["comp_name"]; Site f_ice_base 772 0 ["comp_name"]; Site f_infil_base 374 0 ["comp_name"]; Site f_met_base 852 0 ["comp_name"]; Site f_satzone_base 297 0 ["comp_name"]; Site f_smooth_DEM 398 0 ["comp_name"]; Site f_snow_base 294 0 ["comp_name"]];
  Func "BMI_base.BMI_component.print_time_and_value" ["value"; "var_name"; "units_name"; "interval"; "PRINT_INDEX"] 4
    [Site f_channels_base 825 3 []; Site f_ice_base 531 3 []; Site f_topoflow_driver 530 3 ["interval"]];
  Func "BMI_base.BMI_component.read_config_file" [] 0
    [Site f_multi_bmi 423 0 []; Site f_multi_bmi 498 0 []; Site f_BMI_base 1963 0 []];
  Func "BMI_base.BMI_component.read_grid_info" [] 0
    [Site f_diversions_base 78 0 []; Site f_BMI_base 239 0 []; Site f_BMI_base 688 0 []; Site f_BMI_base 700 0 []; Site f_BMI_base 718 0 []; Site f_BMI_base 744 0 []; Site f_BMI_base 758 0 []; Site f_BMI_base 1960 0 []];
  Func "BMI_base.BMI_component.read_path_info" [] 0
    [Site f_BMI_base 1952 0 []];
  Func "BMI_base.BMI_component.read_time_info" [] 0
    [Site f_BMI_base 1953 0 []];
  Func "BMI_base.BMI_component.save_edge_ids" [] 0
    [Site f_BMI_base 1430 0 []];
  Func "BMI_base.BMI_component.set_directories" ["REPORT"] 1
    [Site f_BMI_base 1548 0 []; Site f_BMI_base 1976 0 []];
  Func "BMI_base.BMI_component.update" [] 0
    [Site f_BMI_base 278 0 []; Site f_BMI_base 288 0 []; Site f_BMI_base 926 0 []; Site f_BMI_base 930 0 []];
  Func "BMI_base.BMI_component.update_frac" ["time_frac"] 0
    [Site f_BMI_base 289 1 []];
  Func "BMI_base.BMI_component.update_time" ["dt"] 1
    [Site f_HIS_base 557 1 []; Site f_channels_base 954 1 []; Site f_d8_base 413 0 []; Site f_diversions_base 167 0 []; Site f_diversions_fraction_method 250 0 []; Site f_erode_d8_local 2064 0 []; Site f_evap_base 226 1 []; Site f_glacier_base 292 1 []; Site f_infil_base 354 1 []; Site f_infil_richards_1D 1042 0 []; Site f_met_base 831 1 []; Site f_satzone_base 281 1 []; Site f_smooth_DEM 371 0 []; Site f_snow_base 275 1 []; Site f_topoflow_driver 544 1 []; Site f_BMI_base 269 0 []];
  Func "BMI_base.BMI_component.update_var" ["var_name"; "value"; "factor"] 1
    [Site f_channels_base 3518 3 []; Site f_channels_base 3523 3 []; Site f_channels_base 3528 3 []; Site f_channels_base 3535 3 []; Site f_channels_base 3543 3 []; Site f_channels_base 3547 3 []; Site f_channels_base 3551 3 []; Site f_channels_base 3556 3 []; Site f_evap_energy_balance 400 2 []; Site f_evap_energy_balance 405 2 []; Site f_evap_energy_balance 410 2 []; Site f_evap_priestley_taylor 442 2 []; Site f_evap_priestley_taylor 447 2 []; Site f_evap_priestley_taylor 452 2 []; Site f_evap_priestley_taylor 457 2 []; Site f_glacier_energy_balance 728 2 []; Site f_glacier_energy_balance 732 2 []; Site f_glacier_energy_balance 736 2 []; Site f_glacier_energy_balance 740 2 []; Site f_glacier_energy_balance 744 2 []; Site f_glacier_energy_balance 748 2 []; Site f_glacier_energy_balance 752 2 []; Site f_glacier_energy_balance 756 2 []; Site f_glacier_energy_balance 760 2 []; Site f_glacier_energy_balance 764 2 []; Site f_met_base 2417 3 []; Site f_met_base 2449 2 []; Site f_met_base 2470 2 []; Site f_met_base 2474 2 []; Site f_met_base 2478 2 []; Site f_met_base 2482 2 []; Site f_met_base 2486 2 []; Site f_met_base 2490 2 []; Site f_met_base 2500 2 []; Site f_met_base 2505 2 []; Site f_met_base 2510 2 []; Site f_met_base 2515 2 []; Site f_met_base 2520 2 []; Site f_snow_degree_day 411 2 []; Site f_snow_degree_day 415 2 []; Site f_snow_degree_day 419 2 []; Site f_snow_degree_day 423 2 []; Site f_snow_degree_day 427 2 []; Site f_snow_energy_balance 506 2 []; Site f_snow_energy_balance 510 2 []; Site f_snow_energy_balance 514 2 []; Site f_snow_energy_balance 518 2 []; Site f_snow_energy_balance 522 2 []];
  Func "HIS_base.HIS_component.close_input_files" [] 0
    [Site f_BMI_base 296 0 []];
  Func "HIS_base.HIS_component.close_output_files" [] 0
    [Site f_HIS_base 571 0 []; Site f_BMI_base 297 0 []];
  Func "HIS_base.HIS_component.finalize" [] 0
    [Site f_BMI_base 946 0 []];
  Func "HIS_base.HIS_component.get_attribute" ["att_name"] 0
    [Site f_BMI_base 512 1 []; Site f_BMI_base 541 1 []; Site f_BMI_base 1496 1 []; Site f_BMI_base 1587 1 []];
  Func "HIS_base.HIS_component.get_input_var_names" [] 0
    [Site f_BMI_base 313 0 []];
  Func "HIS_base.HIS_component.get_output_var_names" [] 0
    [Site f_BMI_base 320 0 []];
  Func "HIS_base.HIS_component.get_var_name" ["long_var_name"] 0
    [Site f_BMI_base 370 1 []; Site f_BMI_base 414 1 []; Site f_BMI_base 446 1 []; Site f_BMI_base 461 1 []; Site f_BMI_base 570 1 []; Site f_BMI_base 598 1 []; Site f_BMI_base 651 1 []; Site f_BMI_base 667 1 []];
  Func "HIS_base.HIS_component.import_suds" [] 0
    [Site f_HIS_base 300 0 []];
  Func "HIS_base.HIS_component.initialize" ["cfg_file"; "mode"; "SILENT"] 3
    [Site f_BMI_base 897 0 ["cfg_prefix"; "mode"]];
  Func "HIS_base.HIS_component.open_input_files" [] 0
    [Site f_BMI_base 246 0 []];
  Func "HIS_base.HIS_component.open_output_files" [] 0
    [Site f_HIS_base 308 0 []];
  Func "HIS_base.HIS_component.read_input_files" [] 0
    [Site f_BMI_base 247 0 []];
  Func "HIS_base.HIS_component.save_grids" [] 0
    [Site f_HIS_base 770 0 []];
  Func "HIS_base.HIS_component.save_pixel_values" [] 0
    [Site f_HIS_base 773 0 []];
  Func "HIS_base.HIS_component.set_constants" [] 0
    [Site f_HIS_base 267 0 []];
  Func "HIS_base.HIS_component.update" ["dt"] 1
    [Site f_BMI_base 278 0 []; Site f_BMI_base 288 0 []; Site f_BMI_base 926 0 []; Site f_BMI_base 930 0 []];
  Func "HIS_base.HIS_component.update_outfile_names" [] 0
    [Site f_HIS_base 721 0 []];
  Func "bov_files.write_bov_file" ["bov_file"; "dat_file"; "var_name"; "time"; "nx"; "ny"; "nz"; "centering"; "data_type"; "byte_order"; "x_west_edge"; "y_south_edge"; "SILENT"] 7
    [Site f_bov_files 27 6 ["nz"; "data_type"; "byte_order"; "x_west_edge"; "y_south_edge"]];
  Func "calibrate.Lp_norm" ["Y_obs"; "Y_sim"; "p"] 1
    [Site f_calibrate 805 2 ["p"]; Site f_calibrate 1220 2 ["p"]];
  Func "calibrate.calibrator.backup_input_file" ["file_type"] 1
    [Site f_calibrate 865 0 ["file_type"]];
  Func "calibrate.calibrator.compute_cost" ["SILENT"] 1
    [Site f_calibrate 940 0 ["SILENT"]];
  Func "calibrate.calibrator.convert_obs_time_format" [] 0
    [Site f_calibrate 562 0 []];
  Func "calibrate.calibrator.get_observed_values" ["SILENT"] 1
    [Site f_calibrate 938 0 ["SILENT"]];
  Func "calibrate.calibrator.get_parameter_values" ["var_range"; "n"] 2
    [Site f_calibrate 901 0 ["var_range"; "n"]];
  Func "calibrate.calibrator.get_simulated_values" ["SILENT"] 1
    [Site f_calibrate 928 0 ["SILENT"]];
  Func "calibrate.calibrator.interpolate_obs_time_series" ["SILENT"] 1
    [Site f_calibrate 614 0 []];
  Func "calibrate.calibrator.modify_channel_grid_file" ["cal_var"; "param"; "SILENT"] 1
    [Site f_calibrate 912 2 []];
  Func "calibrate.calibrator.plot_time_series" ["title"; "sim_only"; "obs_only"; "normalize"; "marker"] 5
    [Site f_calibrate 960 0 ["title"; "marker"; "normalize"]];
  Func "calibrate.calibrator.read_cfg_file" ["delim"] 1
    [Site f_calibrate 175 0 []];
  Func "calibrate.calibrator.read_time_series" ["source"; "SILENT"; "time_type"] 3
    [Site f_calibrate 561 0 ["source"; "time_type"]; Site f_calibrate 667 0 ["source"]];
  Func "calibrate.calibrator.restore_input_file" ["file_type"] 1
    [Site f_calibrate 966 0 ["file_type"]];
  Func "calibrate.calibrator.set_info" [] 0
    [Site f_calibrate 84 0 []];
  Func "calibrate.calibrator.update_sim_data_file" ["SILENT"] 1
    [Site f_calibrate 927 0 []];
  Func "calibrate.read_any_time_series" ["txt_file"; "hdr_lines"; "time_col"; "value_col"; "SILENT"; "time_type"; "delim"] 6
    [Site f_calibrate 1165 1 ["hdr_lines"; "time_col"; "value_col"; "SILENT"; "time_type"]];
  Func "calibrate.spearman_metric" ["x"; "y"] 0
    [Site f_calibrate 807 2 []];
  Func "cfg2xml.cfg2xml" ["cfg_file"; "model_name"; "word_delim"] 1
    [Site f_cfg2xml 201 2 []];
  Func "cfg_files.get_yes_words" [] 0
    [Site f_cfg_files 91 0 []; Site f_cfg_files 218 0 []; Site f_cfg_files 268 0 []];
  Func "cfg_files.read_line_after_key" ["file_unit"; "key_delim"] 1
    [Site f_cfg_files 162 1 ["key_delim"]; Site f_cfg_files 254 1 ["key_delim"]];
  Func "cfg_files.read_list" ["file_unit"; "dtype_list"; "dtype"; "word_delim"] 3
    [Site f_smooth_DEM 843 1 ["dtype_list"]];
  Func "cfg_files.read_list_after_key" ["file_unit"; "dtype_list"; "dtype"; "key_delim"; "word_delim"] 4
    [Site f_diversions_fraction_method 306 1 ["dtype"]; Site f_diversions_fraction_method 381 1 ["dtype"]];
  Func "cfg_files.read_value" ["file_unit"; "dtype"; "key_delim"] 2
    [Site f_diversions_fraction_method 286 1 ["dtype"]; Site f_diversions_fraction_method 287 1 ["dtype"]; Site f_diversions_fraction_method 288 1 ["dtype"]; Site f_diversions_fraction_method 304 1 ["dtype"]; Site f_diversions_fraction_method 305 1 ["dtype"]; Site f_diversions_fraction_method 361 1 ["dtype"]; Site f_diversions_fraction_method 362 1 ["dtype"]; Site f_diversions_fraction_method 363 1 ["dtype"]; Site f_diversions_fraction_method 379 1 ["dtype"]; Site f_diversions_fraction_method 380 1 ["dtype"]; Site f_diversions_fraction_method 449 1 ["dtype"]; Site f_diversions_fraction_method 464 1 ["dtype"]; Site f_diversions_fraction_method 465 1 ["dtype"]; Site f_diversions_fraction_method 466 1 ["dtype"]; Site f_diversions_fraction_method 467 1 ["dtype"]];
  Func "cfg_files.read_words" ["file_unit"; "word_delim"] 1
    [Site f_cfg_files 69 1 ["word_delim"]];
  Func "cfg_files.read_words_after_key" ["file_unit"; "key_delim"; "word_delim"; "n_words"] 3
    [Site f_cfg_files 192 1 ["key_delim"; "word_delim"]; Site f_cfg_files 256 1 []; Site f_cfg_files 308 1 ["key_delim"; "word_delim"]; Site f_cfg_files 334 1 ["key_delim"; "word_delim"]];
  Func "cfg_files.skip_header" ["file_unit"; "n_lines"] 1
    [Site f_smooth_DEM 834 1 ["n_lines"]];
  Func "cfg_files.var_type_code" ["var_type"] 0
    [Site f_cfg_files 321 1 []];
  Func "cfg_templates.make_new_cfg_file" ["vars"; "vals"; "cfg_template"; "cfg_file"] 0
    [Site f_prepare_inputs 877 4 []; Site f_prepare_inputs 887 4 []; Site f_prepare_inputs 904 4 []; Site f_prepare_inputs 930 4 []; Site f_prepare_inputs 940 4 []; Site f_prepare_inputs 950 4 []];
  Func "cfg_templates.read_cfg_as_string" ["cfg_template"] 0
    [Site f_cfg_templates 36 1 []];
  Func "cfg_templates.write_string_as_cfg" ["string"; "cfg_file"] 0
    [Site f_cfg_templates 43 2 []];
  Func "channels_base.channels_component.check_flow_depth" [] 0
    [Site f_channels_base 933 0 []];
  Func "channels_base.channels_component.check_flow_velocity" ["CNEG"; "CNAN"; "CINF"] 3
    [Site f_channels_base 934 0 []];
  Func "channels_base.channels_component.close_input_files" [] 0
    [Site f_channels_base 988 0 []; Site f_BMI_base 296 0 []];
  Func "channels_base.channels_component.close_output_files" [] 0
    [Site f_channels_base 989 0 []; Site f_BMI_base 297 0 []];
  Func "channels_base.channels_component.disable_all_output" [] 0
    [Site f_channels_base 680 0 []];
  Func "channels_base.channels_component.finalize" [] 0
    [Site f_BMI_base 946 0 []];
  Func "channels_base.channels_component.get_input_var_names" [] 0
    [Site f_BMI_base 313 0 []];
  Func "channels_base.channels_component.get_output_var_names" [] 0
    [Site f_BMI_base 320 0 []];
  Func "channels_base.channels_component.get_var_name" ["long_var_name"] 0
    [Site f_BMI_base 370 1 []; Site f_BMI_base 414 1 []; Site f_BMI_base 446 1 []; Site f_BMI_base 461 1 []; Site f_BMI_base 570 1 []; Site f_BMI_base 598 1 []; Site f_BMI_base 651 1 []; Site f_BMI_base 667 1 []];
  Func "channels_base.channels_component.initialize" ["cfg_file"; "mode"; "SILENT"] 3
    [Site f_BMI_base 897 0 ["cfg_prefix"; "mode"]];
  Func "channels_base.channels_component.initialize_computed_vars" [] 0
    [Site f_channels_base 785 0 []];
  Func "channels_base.channels_component.initialize_d8_vars" [] 0
    [Site f_channels_base 706 0 []];
  Func "channels_base.channels_component.initialize_input_file_vars" [] 0
    [Site f_channels_base 699 0 []];
  Func "channels_base.channels_component.initialize_min_and_max_values" [] 0
    [Site f_channels_base 1403 0 []];
  Func "channels_base.channels_component.initialize_outlet_values" [] 0
    [Site f_channels_base 1401 0 []];
  Func "channels_base.channels_component.initialize_peak_values" [] 0
    [Site f_channels_base 1402 0 []];
  Func "channels_base.channels_component.law_of_the_wall" [] 0
    [Site f_channels_diffusive_wave 137 0 []; Site f_channels_kinematic_wave 116 0 []];
  Func "channels_base.channels_component.manning_formula" [] 0
    [Site f_channels_diffusive_wave 131 0 []; Site f_channels_kinematic_wave 110 0 []];
  Func "channels_base.channels_component.open_input_files" [] 0
    [Site f_channels_base 764 0 []; Site f_BMI_base 246 0 []]].
Definition calls_2 : list func := [
  Func "channels_base.channels_component.open_output_files" [] 0
    [Site f_channels_base 798 0 []];
  Func "channels_base.channels_component.read_input_files" [] 0
    [Site f_channels_base 767 0 []; Site f_BMI_base 247 0 []];
  Func "channels_base.channels_component.remove_bad_slopes" ["FLOAT"] 1
    [Site f_channels_base 1317 0 []];
  Func "channels_base.channels_component.save_grids" [] 0
    [Site f_channels_base 3873 0 []];
  Func "channels_base.channels_component.save_pixel_values" [] 0
    [Site f_channels_base 3882 0 []];
  Func "channels_base.channels_component.set_computed_input_vars" [] 0
    [Site f_channels_base 776 0 []];
  Func "channels_base.channels_component.set_constants" [] 0
    [Site f_channels_base 647 0 []];
  Func "channels_base.channels_component.set_missing_cfg_options" [] 0
    [Site f_channels_base 650 0 []];
  Func "channels_base.channels_component.update" ["dt"] 1
    [Site f_BMI_base 278 0 []; Site f_BMI_base 288 0 []; Site f_BMI_base 926 0 []; Site f_BMI_base 930 0 []];
  Func "channels_base.channels_component.update_Q_out_integral" [] 0
    [Site f_channels_base 919 0 []];
  Func "channels_base.channels_component.update_R" [] 0
    [Site f_channels_base 853 0 []];
  Func "channels_base.channels_component.update_R_integral" [] 0
    [Site f_channels_base 855 0 []];
  Func "channels_base.channels_component.update_channel_depth" [] 0
    [Site f_channels_base 875 0 []];
  Func "channels_base.channels_component.update_channel_discharge" [] 0
    [Site f_channels_base 857 0 []];
  Func "channels_base.channels_component.update_channel_volume" [] 0
    [Site f_channels_base 871 0 []];
  Func "channels_base.channels_component.update_discharge" [] 0
    [Site f_channels_base 863 0 []];
  Func "channels_base.channels_component.update_diversions" [] 0
    [Site f_channels_base 865 0 []];
  Func "channels_base.channels_component.update_edge_values" [] 0
    [Site f_channels_base 921 0 []];
  Func "channels_base.channels_component.update_flood_depth" [] 0
    [Site f_channels_base 879 0 []];
  Func "channels_base.channels_component.update_flood_discharge" [] 0
    [Site f_channels_base 861 0 []];
  Func "channels_base.channels_component.update_flood_volume" [] 0
    [Site f_channels_base 873 0 []];
  Func "channels_base.channels_component.update_flow_volume" [] 0
    [Site f_channels_base 867 0 []];
  Func "channels_base.channels_component.update_free_surface_slope" [] 0
    [Site f_channels_base 890 0 []];
  Func "channels_base.channels_component.update_friction_factor" [] 0
    [Site f_channels_base 899 0 []];
  Func "channels_base.channels_component.update_froude_number" [] 0
    [Site f_channels_base 905 0 []];
  Func "channels_base.channels_component.update_mins_and_maxes" ["REPORT"] 1
    [Site f_channels_base 985 0 ["REPORT"]; Site f_channels_base 4085 0 ["REPORT"]];
  Func "channels_base.channels_component.update_outfile_names" [] 0
    [Site f_channels_base 3751 0 []];
  Func "channels_base.channels_component.update_outlet_values" [] 0
    [Site f_channels_base 915 0 []];
  Func "channels_base.channels_component.update_peak_values" [] 0
    [Site f_channels_base 917 0 []];
  Func "channels_base.channels_component.update_shear_speed" [] 0
    [Site f_channels_base 894 0 []];
  Func "channels_base.channels_component.update_shear_stress" [] 0
    [Site f_channels_base 892 0 []];
  Func "channels_base.channels_component.update_total_channel_water_volume" ["REPORT"] 1
    [Site f_channels_base 983 0 []; Site f_channels_base 1335 0 []];
  Func "channels_base.channels_component.update_total_flood_water_volume" ["REPORT"] 1
    [Site f_channels_base 984 0 []];
  Func "channels_base.channels_component.update_trapezoid_Rh" [] 0
    [Site f_channels_base 883 0 []];
  Func "channels_base.channels_component.update_velocity" [] 0
    [Site f_channels_base 902 0 []];
  Func "channels_base.channels_component.update_velocity_on_edges" [] 0
    [Site f_channels_base 903 0 []];
  Func "channels_base.channels_component.write_output_files" ["time_seconds"] 1
    [Site f_channels_base 946 0 []];
  Func "channels_diffusive_wave.channels_component.get_attribute" ["att_name"] 0
    [Site f_channels_base 1000 1 []; Site f_BMI_base 512 1 []; Site f_BMI_base 541 1 []; Site f_BMI_base 1496 1 []; Site f_BMI_base 1587 1 []];
  Func "channels_diffusive_wave.channels_component.update_velocity" [] 0
    [Site f_channels_base 902 0 []];
  Func "channels_dynamic_wave.channels_component.get_attribute" ["att_name"] 0
    [Site f_channels_base 1000 1 []; Site f_BMI_base 512 1 []; Site f_BMI_base 541 1 []; Site f_BMI_base 1496 1 []; Site f_BMI_base 1587 1 []];
  Func "channels_dynamic_wave.channels_component.update_velocity" [] 0
    [Site f_channels_base 902 0 []];
  Func "channels_kinematic_wave.channels_component.get_attribute" ["att_name"] 0
    [Site f_channels_base 1000 1 []; Site f_BMI_base 512 1 []; Site f_BMI_base 541 1 []; Site f_BMI_base 1496 1 []; Site f_BMI_base 1587 1 []];
  Func "channels_kinematic_wave.channels_component.update_velocity" [] 0
    [Site f_channels_base 902 0 []];
  Func "conflict.bounds_disjoint" ["bounds1"; "bounds2"; "VERBOSE"] 1
    [Site f_conflict 1273 2 ["VERBOSE"]];
  Func "conflict.conflict.finalize" [] 0
    [Site f_conflict 982 0 []];
  Func "conflict.conflict.get_neighbor_cols_and_rows" ["w1"; "n1"] 0
    [Site f_conflict 849 2 []];
  Func "conflict.conflict.get_neighbor_values" ["var"; "n1"] 0
    [Site f_conflict 852 2 []];
  Func "conflict.conflict.initialize" ["cfg_file"] 1
    [Site f_conflict 979 1 []];
  Func "conflict.conflict.initialize_C1" [] 0
    [Site f_conflict 222 0 []];
  Func "conflict.conflict.initialize_C2" [] 0
    [Site f_conflict 223 0 []];
  Func "conflict.conflict.initialize_U" [] 0
    [Site f_conflict 221 0 []];
  Func "conflict.conflict.spread_conflicts1" ["USE_LOOP"] 1
    [Site f_conflict 412 0 []; Site f_conflict 508 0 []; Site f_conflict 619 0 []; Site f_conflict 732 0 []];
  Func "conflict.conflict.update" [] 0
    [Site f_conflict 981 0 []];
  Func "conflict.conflict.update_C1" [] 0
    [Site f_conflict 301 0 []];
  Func "conflict.conflict.update_C2" [] 0
    [Site f_conflict 302 0 []];
  Func "conflict.conflict.update_S" [] 0
    [Site f_conflict 305 0 []];
  Func "conflict.conflict.update_U" [] 0
    [Site f_conflict 300 0 []];
  Func "conflict.conflict.update_p" [] 0
    [Site f_conflict 304 0 []];
  Func "conflict.conflict.update_time" [] 0
    [Site f_conflict 308 0 []];
  Func "conflict.get_raster_bounds" ["ds"; "VERBOSE"] 1
    [Site f_conflict 1113 1 []; Site f_conflict 1240 1 []; Site f_conflict 1299 1 []];
  Func "conflict.get_raster_cellsize" ["gdal_unit"] 0
    [Site f_conflict 1106 1 []; Site f_conflict 1233 1 []];
  Func "conflict.read_geotiff" ["in_file"; "REPORT"; "MAKE_RTG"; "rtg_file"] 4
    [Site f_conflict 76 0 []; Site f_conflict 252 0 ["in_file"; "REPORT"]; Site f_conflict 275 0 ["in_file"; "REPORT"]; Site f_conflict 288 0 ["in_file"; "REPORT"]];
  Func "conflict.regrid_geotiff" ["in_file"; "out_file"; "out_bounds"; "out_xres_sec"; "out_yres_sec"; "RESAMPLE_ALGO"; "REPORT"] 7
    [Site f_conflict 119 0 ["in_file"; "out_file"; "out_bounds"; "out_xres_sec"; "out_yres_sec"; "RESAMPLE_ALGO"; "REPORT"]];
  Func "d8_base.d8_component.change_extension_to_rtg" ["filename"] 0
    [Site f_d8_base 953 1 []; Site f_d8_base 954 1 []; Site f_d8_base 955 1 []; Site f_d8_base 956 1 []];
  Func "d8_base.d8_component.close_input_files" [] 0
    [Site f_BMI_base 296 0 []];
  Func "d8_base.d8_component.close_output_files" [] 0
    [Site f_BMI_base 297 0 []];
  Func "d8_base.d8_component.get_ID_grid" [] 0
    [Site f_d8_base 336 0 []];
  Func "d8_base.d8_component.get_edge_IDs" [] 0
    [Site f_d8_base 338 0 []];
  Func "d8_base.d8_component.get_flow_code_list" ["ARC"] 1
    [Site f_d8_base 334 0 []];
  Func "d8_base.d8_component.get_flow_code_list_opps" ["ARC"] 1
    [Site f_d8_base 335 0 []];
  Func "d8_base.d8_component.get_input_var_names" [] 0
    [Site f_BMI_base 313 0 []];
  Func "d8_base.d8_component.get_not_edge_grid" [] 0
    [Site f_d8_base 339 0 []];
  Func "d8_base.d8_component.get_output_var_names" [] 0
    [Site f_BMI_base 320 0 []];
  Func "d8_base.d8_component.get_parent_inc_map" [] 0
    [Site f_d8_base 337 0 []];
  Func "d8_base.d8_component.get_pixel_dimensions" ["DOUBLE"; "REPORT"] 2
    [Site f_d8_base 333 0 ["REPORT"]];
  Func "d8_base.d8_component.get_resolve_array" ["REPORT"] 1
    [Site f_d8_base 341 0 []];
  Func "d8_base.d8_component.get_valid_code_map" [] 0
    [Site f_d8_base 342 0 []];
  Func "d8_base.d8_component.get_var_name" ["long_var_name"] 0
    [Site f_BMI_base 370 1 []; Site f_BMI_base 414 1 []; Site f_BMI_base 446 1 []; Site f_BMI_base 461 1 []; Site f_BMI_base 570 1 []; Site f_BMI_base 598 1 []; Site f_BMI_base 651 1 []; Site f_BMI_base 667 1 []];
  Func "d8_base.d8_component.initialize" ["cfg_file"; "mode"; "SILENT"; "REPORT"] 4
    [Site f_BMI_base 897 0 ["cfg_prefix"; "mode"]];
  Func "d8_base.d8_component.initialize_computed_vars" ["DOUBLE"; "REPORT"] 2
    [Site f_d8_base 348 0 ["REPORT"]];
  Func "d8_base.d8_component.open_input_files" [] 0
    [Site f_BMI_base 246 0 []];
  Func "d8_base.d8_component.open_output_files" [] 0
    [Site f_d8_base 350 0 []];
  Func "d8_base.d8_component.read_input_files" [] 0
    [Site f_BMI_base 247 0 []];
  Func "d8_base.d8_component.resolve_array_cycle" ["w"; "t"] 0
    [Site f_d8_base 757 2 []; Site f_d8_base 758 2 []; Site f_d8_base 759 2 []];
  Func "d8_base.d8_component.save_grids" ["REPORT"] 1
    [Site f_d8_base 1086 0 []];
  Func "d8_base.d8_component.save_pixel_values" [] 0
    [Site f_d8_base 1088 0 []];
  Func "d8_base.d8_component.set_constants" [] 0
    [Site f_d8_base 288 0 []];
  Func "d8_base.d8_component.set_default_config_vars" [] 0
    [Site f_d8_base 293 0 []];
  Func "d8_base.d8_component.update" ["time"; "DEM"; "REPORT"] 3
    [Site f_BMI_base 278 0 []; Site f_BMI_base 288 0 []; Site f_BMI_base 926 0 []; Site f_BMI_base 930 0 []];
  Func "d8_base.d8_component.update_area_grid" ["REPORT"] 1
    [Site f_d8_base 386 0 ["REPORT"]];
  Func "d8_base.d8_component.update_flow_from_IDs" [] 0
    [Site f_d8_base 376 0 []];
  Func "d8_base.d8_component.update_flow_grid" ["DEM"; "REPORT"] 2
    [Site f_d8_base 373 0 ["DEM"; "REPORT"]];
  Func "d8_base.d8_component.update_flow_length_grid" ["DOUBLE"; "REPORT"] 2
    [Site f_d8_base 385 0 ["REPORT"]];
  Func "d8_base.d8_component.update_flow_to_IDs" [] 0
    [Site f_d8_base 377 0 []];
  Func "d8_base.d8_component.update_flow_width_grid" ["DOUBLE"; "METHOD2"; "REPORT"] 3
    [Site f_d8_base 384 0 ["REPORT"]];
  Func "d8_base.d8_component.update_outfile_names" [] 0
    [Site f_d8_base 988 0 []];
  Func "d8_base.d8_component.update_parent_ID_grid" [] 0
    [Site f_d8_base 374 0 []];
  Func "d8_base.d8_component.update_parent_IDs" [] 0
    [Site f_d8_base 375 0 []];
  Func "d8_base.d8_component.write_output_files" ["time_seconds"] 1
    [Site f_d8_base 399 1 []];
  Func "d8_global.d8_component.break_flow_grid_ties" [] 0
    [Site f_d8_global 133 0 []]].
Definition calls_3 : list func := [
  Func "d8_global.d8_component.get_attribute" ["att_name"] 0
    [Site f_d8_base 274 1 []; Site f_BMI_base 512 1 []; Site f_BMI_base 541 1 []; Site f_BMI_base 1496 1 []; Site f_BMI_base 1587 1 []];
  Func "d8_global.d8_component.link_flats" [] 0
    [Site f_d8_global 138 0 []];
  Func "d8_global.d8_component.start_new_d8_codes" ["DEM"; "REPORT"] 2
    [Site f_d8_global 127 1 ["REPORT"]];
  Func "d8_global.d8_component.update_area_grid" ["REPORT"] 1
    [Site f_d8_base 386 0 ["REPORT"]];
  Func "d8_global.d8_component.update_flow_from_IDs" [] 0
    [Site f_d8_base 376 0 []];
  Func "d8_global.d8_component.update_flow_grid" ["DEM"; "REPORT"] 2
    [Site f_d8_base 373 0 ["DEM"; "REPORT"]];
  Func "d8_global.d8_component.update_flow_length_grid" ["DOUBLE"; "REPORT"] 2
    [Site f_d8_base 385 0 ["REPORT"]];
  Func "d8_global.d8_component.update_flow_to_IDs" [] 0
    [Site f_d8_base 377 0 []];
  Func "d8_global.d8_component.update_flow_width_grid" ["DOUBLE"; "METHOD2"; "REPORT"] 3
    [Site f_d8_base 384 0 ["REPORT"]];
  Func "d8_global.d8_component.update_noflow_IDs" ["REPORT"] 1
    [Site f_d8_global 1344 0 []];
  Func "d8_global.d8_component.update_parent_ID_grid" [] 0
    [Site f_d8_base 374 0 []];
  Func "d8_global.d8_component.update_parent_IDs" [] 0
    [Site f_d8_base 375 0 []];
  Func "d8_local.d8_component.break_flow_grid_ties" ["SILENT"] 1
    [Site f_d8_local 708 0 ["SILENT"]];
  Func "d8_local.d8_component.get_attribute" ["att_name"] 0
    [Site f_d8_base 274 1 []; Site f_BMI_base 512 1 []; Site f_BMI_base 541 1 []; Site f_BMI_base 1496 1 []; Site f_BMI_base 1587 1 []];
  Func "d8_local.d8_component.get_neighbors" ["IDs"; "INCLUDE_IDS"; "SILENT"; "REPORT"] 3
    [Site f_d8_local 375 1 []; Site f_d8_local 392 1 []; Site f_d8_local 684 1 ["INCLUDE_IDS"]];
  Func "d8_local.d8_component.initialize_computed_vars" ["DOUBLE"; "SILENT"; "REPORT"] 3
    [Site f_d8_base 348 0 ["REPORT"]];
  Func "d8_local.d8_component.link_flats" ["SILENT"] 1
    [Site f_d8_local 714 0 ["SILENT"]];
  Func "d8_local.d8_component.start_new_d8_codes" ["DEM"; "SILENT"; "REPORT"] 3
    [Site f_d8_local 700 1 ["SILENT"; "REPORT"]];
  Func "d8_local.d8_component.update_area_grid" ["SILENT"; "REPORT"] 2
    [Site f_d8_base 386 0 ["REPORT"]];
  Func "d8_local.d8_component.update_flow_from_IDs" [] 0
    [Site f_d8_base 376 0 []];
  Func "d8_local.d8_component.update_flow_grid" ["DEM"; "SILENT"; "REPORT"] 3
    [Site f_d8_base 373 0 ["DEM"; "REPORT"]];
  Func "d8_local.d8_component.update_flow_length_grid" ["DOUBLE"; "SILENT"; "REPORT"] 3
    [Site f_d8_base 385 0 ["REPORT"]];
  Func "d8_local.d8_component.update_flow_to_IDs" [] 0
    [Site f_d8_base 377 0 []];
  Func "d8_local.d8_component.update_flow_width_grid" ["DOUBLE"; "METHOD2"; "SILENT"; "REPORT"] 4
    [Site f_d8_base 384 0 ["REPORT"]];
  Func "d8_local.d8_component.update_parent_ID_grid" ["SILENT"] 1
    [Site f_d8_base 374 0 []];
  Func "d8_local.d8_component.update_parent_IDs" [] 0
    [Site f_d8_base 375 0 []];
  Func "diversions_base.diversions_component.finalize" [] 0
    [Site f_BMI_base 946 0 []];
  Func "diversions_base.diversions_component.initialize" ["cfg_file"; "mode"; "SILENT"] 3
    [Site f_BMI_base 897 0 ["cfg_prefix"; "mode"]];
  Func "diversions_base.diversions_component.read_canal_data" [] 0
    [Site f_diversions_base 213 0 []];
  Func "diversions_base.diversions_component.read_input_files" [] 0
    [Site f_diversions_base 138 0 []; Site f_BMI_base 247 0 []];
  Func "diversions_base.diversions_component.read_sink_data" [] 0
    [Site f_diversions_base 212 0 []];
  Func "diversions_base.diversions_component.read_source_data" [] 0
    [Site f_diversions_base 211 0 []];
  Func "diversions_base.diversions_component.update" ["dt"] 1
    [Site f_BMI_base 278 0 []; Site f_BMI_base 288 0 []; Site f_BMI_base 926 0 []; Site f_BMI_base 930 0 []];
  Func "diversions_base.diversions_component.update_canals" [] 0
    [Site f_diversions_base 162 0 []];
  Func "diversions_base.diversions_component.update_sinks" [] 0
    [Site f_diversions_base 160 0 []];
  Func "diversions_base.diversions_component.update_sources" [] 0
    [Site f_diversions_base 158 0 []];
  Func "diversions_fraction_method.diversions_component.get_attribute" ["att_name"] 0
    [Site f_BMI_base 512 1 []; Site f_BMI_base 541 1 []; Site f_BMI_base 1496 1 []; Site f_BMI_base 1587 1 []];
  Func "diversions_fraction_method.diversions_component.get_input_var_names" [] 0
    [Site f_BMI_base 313 0 []];
  Func "diversions_fraction_method.diversions_component.get_output_var_names" [] 0
    [Site f_BMI_base 320 0 []];
  Func "diversions_fraction_method.diversions_component.get_var_name" ["long_var_name"] 0
    [Site f_BMI_base 370 1 []; Site f_BMI_base 414 1 []; Site f_BMI_base 446 1 []; Site f_BMI_base 461 1 []; Site f_BMI_base 570 1 []; Site f_BMI_base 598 1 []; Site f_BMI_base 651 1 []; Site f_BMI_base 667 1 []];
  Func "diversions_fraction_method.diversions_component.read_canal_data" [] 0
    [Site f_diversions_base 213 0 []];
  Func "diversions_fraction_method.diversions_component.read_sink_data" [] 0
    [Site f_diversions_base 212 0 []];
  Func "diversions_fraction_method.diversions_component.read_source_data" [] 0
    [Site f_diversions_base 211 0 []];
  Func "diversions_fraction_method.diversions_component.update" ["time_seconds"] 1
    [Site f_BMI_base 278 0 []; Site f_BMI_base 288 0 []; Site f_BMI_base 926 0 []; Site f_BMI_base 930 0 []];
  Func "diversions_fraction_method.diversions_component.update_canals" [] 0
    [Site f_diversions_base 162 0 []; Site f_diversions_fraction_method 244 0 []];
  Func "diversions_fraction_method.diversions_component.update_sinks" [] 0
    [Site f_diversions_base 160 0 []; Site f_diversions_fraction_method 242 0 []];
  Func "diversions_fraction_method.diversions_component.update_sources" [] 0
    [Site f_diversions_base 158 0 []; Site f_diversions_fraction_method 240 0 []];
  Func "emeli.framework.check_var_users_and_providers" [] 0
    [Site f_emeli 1418 0 []];
  Func "emeli.framework.comp_name_valid" ["comp_name"] 0
    [Site f_emeli 500 1 []];
  Func "emeli.framework.connect_comps" ["provider_name"; "user_name"; "long_var_name"; "REPORT"] 1
    [Site f_emeli 1496 3 ["REPORT"]];
  Func "emeli.framework.convert_time_units" ["in_time"; "in_units"] 0
    [Site f_emeli 872 2 []; Site f_emeli 1043 2 []; Site f_emeli 1231 2 []];
  Func "emeli.framework.finalize_all" [] 0
    [Site f_emeli 1091 0 []];
  Func "emeli.framework.find_var_users_and_providers" ["REPORT"] 1
    [Site f_emeli 1417 0 []];
  Func "emeli.framework.get_cfg_filename" ["bmi"] 0
    [Site f_emeli 622 1 []; Site f_emeli 818 1 []; Site f_emeli 1466 1 []];
  Func "emeli.framework.get_required_vars" ["user_name"; "bmi_time"] 0
    [Site f_emeli 879 2 []; Site f_emeli 1054 2 []];
  Func "emeli.framework.initialize_comp" ["comp_name"; "cfg_file"] 1
    [Site f_emeli 1467 2 []];
  Func "emeli.framework.initialize_comp_set" ["REPORT"] 1
    [Site f_emeli 991 0 ["REPORT"]];
  Func "emeli.framework.initialize_framework_dt" [] 0
    [Site f_emeli 999 0 []];
  Func "emeli.framework.initialize_time_vars" ["units"] 1
    [Site f_emeli 998 0 []];
  Func "emeli.framework.instantiate_comp" ["comp_name"] 0
    [Site f_emeli 798 1 []; Site f_emeli 952 1 []];
  Func "emeli.framework.read_provider_file" [] 0
    [Site f_emeli 927 0 []];
  Func "emeli.framework.read_repository" [] 0
    [Site f_emeli 936 0 []];
  Func "emeli.framework.update_time" ["dt"] 1
    [Site f_emeli 1079 0 []];
  Func "emeli_with_cfunits.framework.check_var_users_and_providers" [] 0
    [Site f_emeli_with_cfunits 1712 0 []];
  Func "emeli_with_cfunits.framework.comp_name_valid" ["comp_name"] 0
    [Site f_emeli_with_cfunits 577 1 []];
  Func "emeli_with_cfunits.framework.connect" ["provider_name"; "user_name"; "long_var_name"; "REPORT"] 1
    [Site f_emeli_with_cfunits 1790 3 ["REPORT"]];
  Func "emeli_with_cfunits.framework.convert_time_units" ["in_time"; "in_units"] 0
    [Site f_emeli_with_cfunits 1164 2 []; Site f_emeli_with_cfunits 1329 2 []; Site f_emeli_with_cfunits 1519 2 []];
  Func "emeli_with_cfunits.framework.finalize_all" [] 0
    [Site f_emeli_with_cfunits 1376 0 []];
  Func "emeli_with_cfunits.framework.find_var_users_and_providers" ["REPORT"] 1
    [Site f_emeli_with_cfunits 1711 0 []];
  Func "emeli_with_cfunits.framework.get_cfg_filename" ["bmi"] 0
    [Site f_emeli_with_cfunits 987 1 []; Site f_emeli_with_cfunits 1092 1 []; Site f_emeli_with_cfunits 1759 1 []];
  Func "emeli_with_cfunits.framework.get_required_vars" ["user_name"; "bmi_time"] 0
    [Site f_emeli_with_cfunits 1171 2 []; Site f_emeli_with_cfunits 1340 2 []];
  Func "emeli_with_cfunits.framework.get_values" ["long_var_name"; "comp_name"] 0
    [Site f_emeli_with_cfunits 707 2 []];
  Func "emeli_with_cfunits.framework.initialize" ["comp_name"; "cfg_file"; "mode"; "SILENT"] 3
    [Site f_emeli_with_cfunits 1760 2 []];
  Func "emeli_with_cfunits.framework.initialize_comp_set" ["REPORT"] 1
    [Site f_emeli_with_cfunits 1268 0 ["REPORT"]];
  Func "emeli_with_cfunits.framework.initialize_framework_dt" [] 0
    [Site f_emeli_with_cfunits 1285 0 []];
  Func "emeli_with_cfunits.framework.initialize_time_vars" ["units"] 1
    [Site f_emeli_with_cfunits 1284 0 []];
  Func "emeli_with_cfunits.framework.instantiate" ["comp_name"; "SILENT"] 1
    [Site f_emeli_with_cfunits 1244 1 ["SILENT"]];
  Func "emeli_with_cfunits.framework.read_provider_file" ["SILENT"] 1
    [Site f_emeli_with_cfunits 1216 0 []];
  Func "emeli_with_cfunits.framework.read_repository" ["SILENT"] 1
    [Site f_emeli_with_cfunits 1225 0 ["SILENT"]];
  Func "emeli_with_cfunits.framework.set_values" ["long_var_name"; "values"; "comp_name"] 0
    [Site f_emeli_with_cfunits 740 3 []; Site f_emeli_with_cfunits 1888 3 []];
  Func "emeli_with_cfunits.framework.update_time" ["dt"] 1
    [Site f_emeli_with_cfunits 1364 0 []];
  Func "erode_base.erosion_component.check_finished" [] 0
    [Site f_erode_d8_local 2070 0 []; Site f_BMI_base 941 0 []; Site f_BMI_base 1088 0 []];
  Func "erode_base.erosion_component.check_stability" [] 0
    [Site f_erode_d8_local 2028 0 []];
  Func "erode_base.erosion_component.close_input_files" [] 0
    [Site f_erode_base 416 0 []; Site f_erode_d8_local 2168 0 []; Site f_BMI_base 296 0 []];
  Func "erode_base.erosion_component.close_output_files" [] 0
    [Site f_erode_base 417 0 []; Site f_erode_d8_local 2169 0 []; Site f_BMI_base 297 0 []];
  Func "erode_base.erosion_component.create_initial_DEM" ["SILENT"] 1
    [Site f_erode_base 527 0 ["SILENT"]];
  Func "erode_base.erosion_component.fill_pits_in_DEM" ["SILENT"] 1
    [Site f_erode_base 554 0 ["SILENT"]];
  Func "erode_base.erosion_component.finalize" [] 0
    [Site f_BMI_base 946 0 []];
  Func "erode_base.erosion_component.initialize" ["cfg_file"; "mode"; "SILENT"] 3
    [Site f_BMI_base 897 0 ["cfg_prefix"; "mode"]];
  Func "erode_base.erosion_component.initialize_DEM" ["SILENT"] 1
    [Site f_erode_base 280 0 []];
  Func "erode_base.erosion_component.initialize_boundary_conditions" [] 0
    [Site f_erode_base 282 0 []];
  Func "erode_base.erosion_component.initialize_computed_vars" [] 0
    [Site f_erode_base 283 0 []];
  Func "erode_base.erosion_component.open_input_files" [] 0
    [Site f_erode_base 260 0 []; Site f_BMI_base 246 0 []];
  Func "erode_base.erosion_component.open_output_files" [] 0
    [Site f_erode_base 303 0 []];
  Func "erode_base.erosion_component.print_time_and_value" ["var"; "var_name"; "units_name"; "interval"] 3
    [Site f_erode_d8_local 1837 3 ["interval"]; Site f_erode_d8_local 2173 3 ["interval"]];
  Func "erode_base.erosion_component.read_input_files" [] 0
    [Site f_erode_base 261 0 []; Site f_BMI_base 247 0 []];
  Func "erode_base.erosion_component.save_grids" [] 0
    [Site f_erode_base 2334 0 []; Site f_erode_base 2352 0 []; Site f_erode_d8_local 2131 0 []; Site f_erode_d8_local 2149 0 []];
  Func "erode_base.erosion_component.save_pixel_values" [] 0
    [Site f_erode_base 2339 0 []; Site f_erode_base 2354 0 []; Site f_erode_d8_local 2136 0 []; Site f_erode_d8_local 2151 0 []];
  Func "erode_base.erosion_component.set_constants" [] 0
    [Site f_erode_base 194 0 []];
  Func "erode_base.erosion_component.update" ["time"; "SILENT"; "REPORT"] 3
    [Site f_BMI_base 278 0 []; Site f_BMI_base 288 0 []; Site f_BMI_base 926 0 []; Site f_BMI_base 930 0 []]].
Definition calls_4 : list func := [
  Func "erode_base.erosion_component.update_R" [] 0
    [Site f_erode_d8_local 453 0 []];
  Func "erode_base.erosion_component.update_R_integral" [] 0
    [Site f_erode_d8_local 454 0 []];
  Func "erode_base.erosion_component.update_U" [] 0
    [Site f_erode_d8_local 455 0 []];
  Func "erode_base.erosion_component.update_U_integral" [] 0
    [Site f_erode_d8_local 456 0 []];
  Func "erode_base.erosion_component.update_dt_grid_method1" ["SILENT"; "REPORT"; "SAVE_RTG"] 3
    [Site f_erode_base 1044 0 ["SILENT"; "REPORT"; "SAVE_RTG"]];
  Func "erode_base.erosion_component.update_min_dz_up_grid" ["SILENT"; "REPORT"; "SAVE_RTG"] 3
    [Site f_erode_base 1482 0 ["SILENT"; "REPORT"; "SAVE_RTG"]];
  Func "erode_base.erosion_component.update_outfile_names" [] 0
    [Site f_erode_base 2131 0 []];
  Func "erode_d8_global.erosion_component.save_final_grids" [] 0
    [Site f_erode_d8_global 456 0 []];
  Func "erode_d8_global.erosion_component.update_DEM" ["SILENT"; "REPORT"] 2
    [Site f_erode_d8_global 356 0 ["SILENT"; "REPORT"]];
  Func "erode_d8_global.erosion_component.update_Q_grid" ["SILENT"; "REPORT"] 2
    [Site f_erode_d8_global 320 0 ["SILENT"; "REPORT"]];
  Func "erode_d8_global.erosion_component.update_Qs_grid" ["SILENT"; "REPORT"] 2
    [Site f_erode_d8_global 321 0 ["SILENT"; "REPORT"]];
  Func "erode_d8_global.erosion_component.update_dt_grid" ["SILENT"; "REPORT"; "SAVE_RTG"] 3
    [Site f_erode_d8_global 328 0 ["SILENT"; "REPORT"]];
  Func "erode_d8_global.erosion_component.update_dt_grid_method1" ["SILENT"; "REPORT"; "SAVE_RTG"] 3
    [Site f_erode_d8_global 832 0 ["SILENT"; "REPORT"; "SAVE_RTG"]];
  Func "erode_d8_global.erosion_component.update_dz_dt_grid" ["SILENT"; "REPORT"] 2
    [Site f_erode_d8_global 322 0 ["SILENT"; "REPORT"]];
  Func "erode_d8_global.erosion_component.update_slope_grid" ["SILENT"; "REPORT"] 2
    [Site f_erode_d8_global 319 0 ["SILENT"; "REPORT"]];
  Func "erode_d8_local.erosion_component.append_all_now_IDs" ["now_IDs"] 0
    [Site f_erode_d8_local 3223 1 []];
  Func "erode_d8_local.erosion_component.append_zone_IDs" ["nbr_IDs"] 0
    [Site f_erode_d8_local 2913 1 []];
  Func "erode_d8_local.erosion_component.finalize" [] 0
    [Site f_BMI_base 946 0 []];
  Func "erode_d8_local.erosion_component.get_attribute" ["att_name"] 0
    [Site f_erode_base 170 1 []; Site f_BMI_base 512 1 []; Site f_BMI_base 541 1 []; Site f_BMI_base 1496 1 []; Site f_BMI_base 1587 1 []];
  Func "erode_d8_local.erosion_component.get_interior_pit_IDs" ["FLATS"; "SILENT"; "REPORT"] 3
    [Site f_erode_d8_local 1353 0 ["FLATS"]];
  Func "erode_d8_local.erosion_component.initialize_D_grid" ["SILENT"; "REPORT"] 2
    [Site f_erode_d8_local 465 0 []];
  Func "erode_d8_local.erosion_component.initialize_Q_grid" ["SILENT"; "REPORT"] 2
    [Site f_erode_d8_local 463 0 []];
  Func "erode_d8_local.erosion_component.initialize_Qs_grid" ["SILENT"; "REPORT"] 2
    [Site f_erode_d8_local 464 0 []];
  Func "erode_d8_local.erosion_component.initialize_T_last_grid" ["SILENT"; "REPORT"] 2
    [Site f_erode_d8_local 470 0 []];
  Func "erode_d8_local.erosion_component.initialize_T_next_grid" ["SILENT"; "REPORT"] 2
    [Site f_erode_d8_local 471 0 []];
  Func "erode_d8_local.erosion_component.initialize_computed_vars" ["DOUBLE"] 1
    [Site f_erode_base 283 0 []];
  Func "erode_d8_local.erosion_component.initialize_d8_vars" [] 0
    [Site f_erode_base 281 0 []];
  Func "erode_d8_local.erosion_component.initialize_dt_grid5" ["SILENT"; "REPORT"] 2
    [Site f_erode_d8_local 468 0 []];
  Func "erode_d8_local.erosion_component.initialize_dz_dt_grid" ["SILENT"; "REPORT"] 2
    [Site f_erode_d8_local 466 0 []];
  Func "erode_d8_local.erosion_component.initialize_dz_target_grid2" ["SILENT"; "REPORT"] 2
    [Site f_erode_d8_local 469 0 []];
  Func "erode_d8_local.erosion_component.initialize_not_edge_grid" ["SILENT"; "REPORT"] 2
    [Site f_erode_d8_local 461 0 []];
  Func "erode_d8_local.erosion_component.initialize_slope_grid" ["SILENT"; "REPORT"] 2
    [Site f_erode_d8_local 462 0 []];
  Func "erode_d8_local.erosion_component.initialize_zone_IDs" ["SILENT"; "REPORT"] 2
    [Site f_erode_d8_local 472 0 []];
  Func "erode_d8_local.erosion_component.reset_zone_IDs" ["ID"] 0
    [Site f_erode_d8_local 1888 1 []];
  Func "erode_d8_local.erosion_component.save_final_grids" [] 0
    [Site f_erode_d8_local 2190 0 []];
  Func "erode_d8_local.erosion_component.save_initial_grids" ["SILENT"; "REPORT"; "ABORT"] 3
    [Site f_erode_d8_local 481 0 []];
  Func "erode_d8_local.erosion_component.save_update_count_grid" [] 0
    [Site f_erode_d8_local 2185 0 []];
  Func "erode_d8_local.erosion_component.update" ["time"; "SILENT"; "REPORT"] 3
    [Site f_BMI_base 278 0 []; Site f_BMI_base 288 0 []; Site f_BMI_base 926 0 []; Site f_BMI_base 930 0 []];
  Func "erode_d8_local.erosion_component.update_DEM" ["IDs"; "SILENT"; "REPORT"] 2
    [Site f_erode_d8_local 1881 1 ["SILENT"; "REPORT"]; Site f_erode_d8_local 2927 1 ["SILENT"; "REPORT"]];
  Func "erode_d8_local.erosion_component.update_D_grid" ["IDs"; "SILENT"; "REPORT"] 2
    [Site f_erode_d8_local 3330 1 ["SILENT"; "REPORT"]; Site f_erode_d8_local 3424 1 ["SILENT"; "REPORT"]; Site f_erode_d8_local 3509 1 ["SILENT"; "REPORT"]; Site f_erode_d8_local 3547 1 ["SILENT"; "REPORT"]];
  Func "erode_d8_local.erosion_component.update_Q_grid" ["IDs"; "SILENT"; "REPORT"] 2
    [Site f_erode_d8_local 3322 1 ["SILENT"; "REPORT"]; Site f_erode_d8_local 3416 1 ["SILENT"; "REPORT"]; Site f_erode_d8_local 3501 1 ["SILENT"; "REPORT"]; Site f_erode_d8_local 3541 1 ["SILENT"; "REPORT"]];
  Func "erode_d8_local.erosion_component.update_Qs_grid" ["IDs"; "SILENT"; "REPORT"] 2
    [Site f_erode_d8_local 3323 1 ["SILENT"; "REPORT"]; Site f_erode_d8_local 3417 1 ["SILENT"; "REPORT"]; Site f_erode_d8_local 3502 1 ["SILENT"; "REPORT"]; Site f_erode_d8_local 3542 1 ["SILENT"; "REPORT"]];
  Func "erode_d8_local.erosion_component.update_T_clock" ["SILENT"; "REPORT"] 2
    [Site f_erode_d8_local 1859 0 []];
  Func "erode_d8_local.erosion_component.update_T_last_grid" ["IDs"; "SILENT"; "REPORT"] 2
    [Site f_erode_d8_local 1883 1 ["SILENT"; "REPORT"]; Site f_erode_d8_local 2942 1 ["SILENT"; "REPORT"]];
  Func "erode_d8_local.erosion_component.update_T_next_grid" ["IDs"; "SILENT"; "REPORT"] 2
    [Site f_erode_d8_local 2013 1 ["SILENT"; "REPORT"]];
  Func "erode_d8_local.erosion_component.update_active_ID" ["SILENT"; "REPORT"] 2
    [Site f_erode_d8_local 1858 0 ["SILENT"; "REPORT"]];
  Func "erode_d8_local.erosion_component.update_d8_vars" ["IDs"; "SILENT"; "REPORT"] 3
    [Site f_erode_d8_local 329 0 ["IDs"; "SILENT"; "REPORT"]; Site f_erode_d8_local 3290 1 ["SILENT"; "REPORT"]; Site f_erode_d8_local 3385 1 ["SILENT"; "REPORT"]; Site f_erode_d8_local 3478 1 ["SILENT"; "REPORT"]; Site f_erode_d8_local 3535 1 ["SILENT"; "REPORT"]];
  Func "erode_d8_local.erosion_component.update_dt_grid6" ["IDs"; "SILENT"; "REPORT"] 2
    [Site f_erode_d8_local 1990 1 ["SILENT"; "REPORT"]];
  Func "erode_d8_local.erosion_component.update_dz_dt_grid" ["IDs"; "SILENT"; "REPORT"] 2
    [Site f_erode_d8_local 1963 1 ["SILENT"; "REPORT"]];
  Func "erode_d8_local.erosion_component.update_dz_target_grid2" ["IDs"; "SILENT"; "REPORT"] 2
    [Site f_erode_d8_local 1999 1 ["SILENT"; "REPORT"]];
  Func "erode_d8_local.erosion_component.update_entire_DEM" ["SILENT"; "REPORT"] 2
    [Site f_erode_d8_local 2175 0 []];
  Func "erode_d8_local.erosion_component.update_flux_cap_grid" ["IDs"; "SILENT"; "REPORT"] 2
    [Site f_erode_d8_local 2941 1 ["SILENT"; "REPORT"]];
  Func "erode_d8_local.erosion_component.update_fluxes4" ["IDs"; "SILENT"; "REPORT"] 2
    [Site f_erode_d8_local 1957 1 ["SILENT"; "REPORT"]];
  Func "erode_d8_local.erosion_component.update_grid_mins_and_maxes" ["REPORT"] 1
    [Site f_erode_d8_local 2209 0 []];
  Func "erode_d8_local.erosion_component.update_neighbors" ["IDs"; "SILENT"; "REPORT"] 2
    [Site f_erode_d8_local 1919 1 []; Site f_erode_d8_local 3236 1 []];
  Func "erode_d8_local.erosion_component.update_slope_grid" ["IDs"; "SILENT"; "REPORT"] 2
    [Site f_erode_d8_local 3291 1 ["SILENT"; "REPORT"]; Site f_erode_d8_local 3386 1 ["SILENT"; "REPORT"]; Site f_erode_d8_local 3479 1 ["SILENT"; "REPORT"]; Site f_erode_d8_local 3536 1 ["SILENT"; "REPORT"]];
  Func "erode_d8_local.erosion_component.write_output_files" ["time"] 1
    [Site f_erode_d8_local 1852 0 []; Site f_erode_d8_local 2180 1 []];
  Func "evap_base.evap_component.check_input_types" [] 0
    [Site f_evap_base 172 0 []];
  Func "evap_base.evap_component.close_input_files" [] 0
    [Site f_evap_base 241 0 []; Site f_BMI_base 296 0 []];
  Func "evap_base.evap_component.close_output_files" [] 0
    [Site f_evap_base 242 0 []; Site f_BMI_base 297 0 []];
  Func "evap_base.evap_component.disable_all_output" [] 0
    [Site f_evap_base 150 0 []];
  Func "evap_base.evap_component.finalize" [] 0
    [Site f_BMI_base 946 0 []];
  Func "evap_base.evap_component.initialize" ["cfg_file"; "mode"; "SILENT"] 3
    [Site f_BMI_base 897 0 ["cfg_prefix"; "mode"]];
  Func "evap_base.evap_component.initialize_computed_vars" [] 0
    [Site f_evap_base 171 0 []];
  Func "evap_base.evap_component.initialize_input_file_vars" [] 0
    [Site f_evap_base 160 0 []];
  Func "evap_base.evap_component.open_input_files" [] 0
    [Site f_evap_base 165 0 []; Site f_BMI_base 246 0 []];
  Func "evap_base.evap_component.open_output_files" [] 0
    [Site f_evap_base 174 0 []];
  Func "evap_base.evap_component.read_input_files" [] 0
    [Site f_evap_base 166 0 []; Site f_evap_base 198 0 []; Site f_BMI_base 247 0 []];
  Func "evap_base.evap_component.save_grids" [] 0
    [Site f_evap_base 653 0 []];
  Func "evap_base.evap_component.save_pixel_values" [] 0
    [Site f_evap_base 655 0 []];
  Func "evap_base.evap_component.set_constants" [] 0
    [Site f_evap_base 134 0 []];
  Func "evap_base.evap_component.update" ["dt"] 1
    [Site f_BMI_base 278 0 []; Site f_BMI_base 288 0 []; Site f_BMI_base 926 0 []; Site f_BMI_base 930 0 []];
  Func "evap_base.evap_component.update_ET_integral" [] 0
    [Site f_evap_base 212 0 []];
  Func "evap_base.evap_component.update_ET_rate" [] 0
    [Site f_evap_base 211 0 []];
  Func "evap_base.evap_component.update_Qc" [] 0
    [Site f_evap_base 206 0 []];
  Func "evap_base.evap_component.update_outfile_names" [] 0
    [Site f_evap_base 603 0 []];
  Func "evap_base.evap_component.write_output_files" ["time_seconds"] 1
    [Site f_evap_base 219 0 []];
  Func "evap_energy_balance.evap_component.check_input_types" [] 0
    [Site f_evap_base 172 0 []];
  Func "evap_energy_balance.evap_component.close_input_files" [] 0
    [Site f_evap_base 241 0 []; Site f_BMI_base 296 0 []];
  Func "evap_energy_balance.evap_component.get_attribute" ["att_name"] 0
    [Site f_BMI_base 512 1 []; Site f_BMI_base 541 1 []; Site f_BMI_base 1496 1 []; Site f_BMI_base 1587 1 []];
  Func "evap_energy_balance.evap_component.get_input_var_names" [] 0
    [Site f_BMI_base 313 0 []];
  Func "evap_energy_balance.evap_component.get_output_var_names" [] 0
    [Site f_BMI_base 320 0 []];
  Func "evap_energy_balance.evap_component.get_var_name" ["long_var_name"] 0
    [Site f_BMI_base 370 1 []; Site f_BMI_base 414 1 []; Site f_BMI_base 446 1 []; Site f_BMI_base 461 1 []; Site f_BMI_base 570 1 []; Site f_BMI_base 598 1 []; Site f_BMI_base 651 1 []; Site f_BMI_base 667 1 []];
  Func "evap_energy_balance.evap_component.open_input_files" [] 0
    [Site f_evap_base 165 0 []; Site f_BMI_base 246 0 []];
  Func "evap_energy_balance.evap_component.read_input_files" [] 0
    [Site f_evap_base 166 0 []; Site f_evap_base 198 0 []; Site f_BMI_base 247 0 []];
  Func "evap_energy_balance.evap_component.update_ET_rate" [] 0
    [Site f_evap_base 211 0 []];
  Func "evap_priestley_taylor.evap_component.check_input_types" [] 0
    [Site f_evap_base 172 0 []];
  Func "evap_priestley_taylor.evap_component.close_input_files" [] 0
    [Site f_evap_base 241 0 []; Site f_BMI_base 296 0 []];
  Func "evap_priestley_taylor.evap_component.get_attribute" ["att_name"] 0
    [Site f_BMI_base 512 1 []; Site f_BMI_base 541 1 []; Site f_BMI_base 1496 1 []; Site f_BMI_base 1587 1 []];
  Func "evap_priestley_taylor.evap_component.get_input_var_names" [] 0
    [Site f_BMI_base 313 0 []];
  Func "evap_priestley_taylor.evap_component.get_output_var_names" [] 0
    [Site f_BMI_base 320 0 []];
  Func "evap_priestley_taylor.evap_component.get_var_name" ["long_var_name"] 0
    [Site f_BMI_base 370 1 []; Site f_BMI_base 414 1 []; Site f_BMI_base 446 1 []; Site f_BMI_base 461 1 []; Site f_BMI_base 570 1 []; Site f_BMI_base 598 1 []; Site f_BMI_base 651 1 []; Site f_BMI_base 667 1 []];
  Func "evap_priestley_taylor.evap_component.open_input_files" [] 0
    [Site f_evap_base 165 0 []; Site f_BMI_base 246 0 []];
  Func "evap_priestley_taylor.evap_component.read_input_files" [] 0
    [Site f_evap_base 166 0 []; Site f_evap_base 198 0 []; Site f_BMI_base 247 0 []];
  Func "evap_priestley_taylor.evap_component.update_ET_rate" [] 0
    [Site f_evap_base 211 0 []];
  Func "evap_read_file.evap_component.close_input_files" [] 0
    [Site f_evap_base 241 0 []; Site f_BMI_base 296 0 []];
  Func "evap_read_file.evap_component.get_attribute" ["att_name"] 0
    [Site f_BMI_base 512 1 []; Site f_BMI_base 541 1 []; Site f_BMI_base 1496 1 []; Site f_BMI_base 1587 1 []];
  Func "evap_read_file.evap_component.get_input_var_names" [] 0
    [Site f_BMI_base 313 0 []];
  Func "evap_read_file.evap_component.get_output_var_names" [] 0
    [Site f_BMI_base 320 0 []];
  Func "evap_read_file.evap_component.get_var_name" ["long_var_name"] 0
    [Site f_BMI_base 370 1 []; Site f_BMI_base 414 1 []; Site f_BMI_base 446 1 []; Site f_BMI_base 461 1 []; Site f_BMI_base 570 1 []; Site f_BMI_base 598 1 []; Site f_BMI_base 651 1 []; Site f_BMI_base 667 1 []]].
Definition calls_5 : list func := [
  Func "evap_read_file.evap_component.open_input_files" [] 0
    [Site f_evap_base 165 0 []; Site f_BMI_base 246 0 []];
  Func "evap_read_file.evap_component.read_input_files" [] 0
    [Site f_evap_base 166 0 []; Site f_evap_base 198 0 []; Site f_BMI_base 247 0 []];
  Func "evap_read_file.evap_component.update_ET_rate" [] 0
    [Site f_evap_base 211 0 []];
  Func "file_utils.count_lines" ["filename"; "SILENT"] 1
    [Site f_smooth_DEM 821 1 ["SILENT"]];
  Func "file_utils.get_prefix_and_extension" ["file_name"] 0
    [Site f_file_utils 44 1 []; Site f_file_utils 76 1 []];
  Func "fill_pits.fill_pits" ["DEM"; "DEM_type"; "nx"; "ny"; "nodata"; "USE_64_BITS"; "SILENT"] 3
    [Site f_d8_base 486 4 ["SILENT"]; Site f_d8_local 221 4 ["SILENT"]; Site f_erode_base 1015 4 ["SILENT"]; Site f_fill_pits 95 4 ["SILENT"]; Site f_prepare_inputs 1360 4 ["SILENT"]];
  Func "fill_pits.get_start_pixels" ["DEM"; "nx"; "ny"; "EDGES_ONLY"; "USE_64_BITS"; "nodata"; "closed_basin_code"; "SILENT"] 5
    [Site f_fill_pits 411 3 []];
  Func "gc2d.add_halo" ["x"] 0
    [Site f_gc2d 384 1 []; Site f_gc2d 385 1 []; Site f_gc2d 386 1 []; Site f_gc2d 389 1 []; Site f_gc2d 390 1 []; Site f_gc2d 391 1 []];
  Func "gc2d.basal_shear_stress" ["H_ext"; "Zi_ext"; "dx"; "dy"; "g"; "rhoI"] 4
    [Site f_gc2d 1205 2 ["dx"; "dy"]];
  Func "gc2d.compress_grid" ["H"; "Zb"; "COMPRESS_TOGGLE"; "RESTART_TOGGLE"; "THERMAL_TOGGLE"] 3
    [Site f_gc2d 1194 2 ["COMPRESS_TOGGLE"]];
  Func "gc2d.difference_grid" ["A"; "dx"; "dy"] 0
    [Site f_gc2d 1200 3 []];
  Func "gc2d.filter2d" ["b"; "x"; "shape"] 1
    [Site f_gc2d 690 2 []; Site f_gc2d 985 3 []; Site f_gc2d 986 2 []; Site f_gc2d 1505 2 []];
  Func "gc2d.get_timestep" ["H"; "Zi_ext"; "Zi"; "dHdt"; "Bxy"; "dtMax"; "dtDefault"] 2
    [Site f_gc2d 1245 5 []];
  Func "gc2d.ice_sliding" ["taubX"; "taubY"; "xcmpnt"; "ycmpnt"; "THERMAL_TOGGLE"; "FREEZEON_TOGGLE"; "UsChar"; "taubChar"] 4
    [Site f_gc2d 1220 4 []];
  Func "gc2d.iceflow" ["taubX"; "taubY"; "HX"; "HY"; "xcmpnt"; "ycmpnt"; "THERMAL_TOGGLE"; "glensA"; "MinGlacThick"; "lapseRate"] 4
    [Site f_gc2d 1211 6 []];
  Func "gc2d.init_ice_sheet" ["DEM_file"; "dx_sim"] 2
    [Site f_gc2d 1585 1 []];
  Func "gc2d.init_ice_surface" ["Zb"; "ZiBound"; "Hbound"; "dx"] 0
    [Site f_gc2d 1636 4 []];
  Func "gc2d.init_valley_glacier" ["DEM_file"; "dx_sim"] 2
    [Site f_gc2d 1583 1 []];
  Func "gc2d.load_dem" ["DEM_file"] 0
    [Site f_gc2d 1278 1 []; Site f_gc2d 1329 1 []];
  Func "gc2d.load_dem_var" ["var_file"; "val_s"] 0
    [Site f_gc2d 852 2 []];
  Func "gc2d.load_state" ["DEM_file"; "RESTART_TOGGLE"; "INIT_COND_TOGGLE"; "GENERIC_ICE_TOGGLE"] 4
    [Site f_gc2d 97 0 ["DEM_file"; "RESTART_TOGGLE"; "INIT_COND_TOGGLE"]; Site f_ice_base 243 1 ["RESTART_TOGGLE"; "INIT_COND_TOGGLE"; "GENERIC_ICE_TOGGLE"]];
  Func "gc2d.mass_balance" ["Zi"; "t"; "MASS_BALANCE_TOGGLE"; "initELA"; "ELAStepSize"; "ELAStepInterval"; "tmin"; "gradBz"; "maxBz"] 7
    [Site f_gc2d 1239 2 []];
  Func "gc2d.mass_conservation" ["H_ext"; "UxX"; "UyY"; "HX"; "HY"; "dZidxX"; "dZidyY"; "dx"; "dy"; "MinGlacThick"; "BoundaryFlux"; "WEST_BC_TOGGLE"; "EAST_BC_TOGGLE"; "SOUTH_BC_TOGGLE"; "NORTH_BC_TOGGLE"] 8
    [Site f_gc2d 1233 7 ["dx"; "dy"]];
  Func "gc2d.resample_dem" ["topo"; "dx"; "dy"; "cellsize"] 0
    [Site f_gc2d 1287 4 []; Site f_gc2d 1338 4 []];
  Func "gc2d.set_bc" ["H"; "Zb"; "Zi"; "THERMAL_TOGGLE"; "WEST_BC_TOGGLE"; "EAST_BC_TOGGLE"; "SOUTH_BC_TOGGLE"; "NORTH_BC_TOGGLE"] 5
    [Site f_gc2d 1199 3 []];
  Func "gc2d.sum_ice_motion" ["UdxX"; "UdyY"; "UsxX"; "UsyY"] 0
    [Site f_gc2d 1228 4 []];
  Func "gc2d.update" ["t"; "H"; "Zb"; "dx"; "dy"; "meltrate"; "conserveIce"; "COMPRESS_TOGGLE"; "ICEFLOW_TOGGLE"; "ICESLIDE_TOGGLE"; "VARIABLE_DT_TOGGLE"; "dtDefault"; "dtMax"; "SILENT"] 7
    [Site f_gc2d 115 7 ["SILENT"]; Site f_ice_base 495 7 ["ICEFLOW_TOGGLE"; "ICESLIDE_TOGGLE"; "VARIABLE_DT_TOGGLE"; "dtDefault"; "dtMax"]];
  Func "gc2d.update_vars" ["H"; "Zb"; "Zi"; "Bxy"; "qxX"; "qyY"; "dHdt"; "t"; "dt"; "conserveIce"; "dx"; "dy"] 2
    [Site f_gc2d 1252 10 ["dx"; "dy"]];
  Func "glacier_base.glacier_component.check_input_types" [] 0
    [Site f_glacier_base 201 0 []];
  Func "glacier_base.glacier_component.close_input_files" [] 0
    [Site f_glacier_base 307 0 []; Site f_BMI_base 296 0 []];
  Func "glacier_base.glacier_component.close_output_files" [] 0
    [Site f_glacier_base 308 0 []; Site f_BMI_base 297 0 []];
  Func "glacier_base.glacier_component.disable_all_output" [] 0
    [Site f_glacier_base 168 0 []];
  Func "glacier_base.glacier_component.enforce_max_ice_meltrate" [] 0
    [Site f_glacier_base 261 0 []];
  Func "glacier_base.glacier_component.enforce_max_snow_meltrate" [] 0
    [Site f_glacier_base 250 0 []];
  Func "glacier_base.glacier_component.extract_previous_snow_depth" [] 0
    [Site f_glacier_base 247 0 []];
  Func "glacier_base.glacier_component.extract_previous_swe" [] 0
    [Site f_glacier_base 246 0 []];
  Func "glacier_base.glacier_component.finalize" [] 0
    [Site f_BMI_base 946 0 []];
  Func "glacier_base.glacier_component.initialize" ["cfg_file"; "mode"; "SILENT"] 3
    [Site f_BMI_base 897 0 ["cfg_prefix"; "mode"]];
  Func "glacier_base.glacier_component.initialize_computed_vars" [] 0
    [Site f_glacier_base 202 0 []];
  Func "glacier_base.glacier_component.initialize_ice_cold_content" [] 0
    [Site f_glacier_base 474 0 []];
  Func "glacier_base.glacier_component.initialize_snow_cold_content" [] 0
    [Site f_glacier_base 473 0 []];
  Func "glacier_base.glacier_component.open_input_files" [] 0
    [Site f_glacier_base 195 0 []; Site f_BMI_base 246 0 []];
  Func "glacier_base.glacier_component.open_output_files" [] 0
    [Site f_glacier_base 204 0 []];
  Func "glacier_base.glacier_component.read_input_files" [] 0
    [Site f_glacier_base 196 0 []; Site f_glacier_base 241 0 []; Site f_BMI_base 247 0 []];
  Func "glacier_base.glacier_component.save_grids" [] 0
    [Site f_glacier_base 1135 0 []];
  Func "glacier_base.glacier_component.save_pixel_values" [] 0
    [Site f_glacier_base 1137 0 []];
  Func "glacier_base.glacier_component.set_constants" [] 0
    [Site f_glacier_base 156 0 []];
  Func "glacier_base.glacier_component.set_missing_cfg_options" [] 0
    [Site f_glacier_base 158 0 []];
  Func "glacier_base.glacier_component.update" ["dt"] 1
    [Site f_BMI_base 278 0 []; Site f_BMI_base 288 0 []; Site f_BMI_base 926 0 []; Site f_BMI_base 930 0 []];
  Func "glacier_base.glacier_component.update_IM_integral" [] 0
    [Site f_glacier_base 262 0 []];
  Func "glacier_base.glacier_component.update_SM_integral" [] 0
    [Site f_glacier_base 251 0 []];
  Func "glacier_base.glacier_component.update_combined_meltrate" [] 0
    [Site f_glacier_base 264 0 []];
  Func "glacier_base.glacier_component.update_density_ratio" [] 0
    [Site f_glacier_base 269 0 []];
  Func "glacier_base.glacier_component.update_ice_depth" [] 0
    [Site f_glacier_base 273 0 []];
  Func "glacier_base.glacier_component.update_ice_meltrate" [] 0
    [Site f_glacier_base 260 0 []];
  Func "glacier_base.glacier_component.update_iwe" [] 0
    [Site f_glacier_base 266 0 []];
  Func "glacier_base.glacier_component.update_outfile_names" [] 0
    [Site f_glacier_base 997 0 []];
  Func "glacier_base.glacier_component.update_snow_depth" [] 0
    [Site f_glacier_base 272 0 []];
  Func "glacier_base.glacier_component.update_snow_meltrate" [] 0
    [Site f_glacier_base 249 0 []];
  Func "glacier_base.glacier_component.update_snowfall_cold_content" [] 0
    [Site f_glacier_base 257 0 []];
  Func "glacier_base.glacier_component.update_snowpack_cold_content" [] 0
    [Site f_glacier_base 279 0 []];
  Func "glacier_base.glacier_component.update_swe" [] 0
    [Site f_glacier_base 256 0 []];
  Func "glacier_base.glacier_component.update_total_ice_water_volume" [] 0
    [Site f_glacier_base 452 0 []];
  Func "glacier_base.glacier_component.update_total_snowpack_water_volume" [] 0
    [Site f_glacier_base 446 0 []];
  Func "glacier_base.glacier_component.write_output_files" ["time_seconds"] 1
    [Site f_glacier_base 285 0 []];
  Func "glacier_energy_balance.glacier_component.check_input_types" [] 0
    [Site f_glacier_base 201 0 []];
  Func "glacier_energy_balance.glacier_component.close_input_files" [] 0
    [Site f_glacier_base 307 0 []; Site f_BMI_base 296 0 []];
  Func "glacier_energy_balance.glacier_component.get_attribute" ["att_name"] 0
    [Site f_BMI_base 512 1 []; Site f_BMI_base 541 1 []; Site f_BMI_base 1496 1 []; Site f_BMI_base 1587 1 []];
  Func "glacier_energy_balance.glacier_component.get_component_name" [] 0
    [Site f_glacier_base 385 0 []];
  Func "glacier_energy_balance.glacier_component.get_input_var_names" [] 0
    [Site f_BMI_base 313 0 []];
  Func "glacier_energy_balance.glacier_component.get_output_var_names" [] 0
    [Site f_BMI_base 320 0 []];
  Func "glacier_energy_balance.glacier_component.get_var_name" ["long_var_name"] 0
    [Site f_BMI_base 370 1 []; Site f_BMI_base 414 1 []; Site f_BMI_base 446 1 []; Site f_BMI_base 461 1 []; Site f_BMI_base 570 1 []; Site f_BMI_base 598 1 []; Site f_BMI_base 651 1 []; Site f_BMI_base 667 1 []];
  Func "glacier_energy_balance.glacier_component.initialize_input_file_vars" [] 0
    [Site f_glacier_base 190 0 []];
  Func "glacier_energy_balance.glacier_component.open_input_files" [] 0
    [Site f_glacier_base 195 0 []; Site f_BMI_base 246 0 []];
  Func "glacier_energy_balance.glacier_component.read_input_files" [] 0
    [Site f_glacier_base 196 0 []; Site f_glacier_base 241 0 []; Site f_BMI_base 247 0 []];
  Func "glacier_energy_balance.glacier_component.update_ice_meltrate" [] 0
    [Site f_glacier_base 260 0 []];
  Func "glacier_energy_balance.glacier_component.update_snow_meltrate" [] 0
    [Site f_glacier_base 249 0 []];
  Func "glacier_energy_balance.glacier_component.update_snowfall_cold_content" [] 0
    [Site f_glacier_base 257 0 []];
  Func "glacier_energy_balance.glacier_component.update_snowpack_cold_content" [] 0
    [Site f_glacier_base 279 0 []];
  Func "hamiltonian.hamiltonian.get_curvatures_RT" [] 0
    [Site f_hamiltonian 488 0 []];
  Func "hamiltonian.hamiltonian.get_d_dx_L" ["f"] 0
    [Site f_hamiltonian 365 1 []; Site f_hamiltonian 458 1 []; Site f_hamiltonian 465 1 []];
  Func "hamiltonian.hamiltonian.get_d_dx_R" ["f"] 0
    [Site f_hamiltonian 364 1 []; Site f_hamiltonian 444 1 []; Site f_hamiltonian 451 1 []; Site f_hamiltonian 520 1 []];
  Func "hamiltonian.hamiltonian.get_d_dy_B" ["f"] 0
    [Site f_hamiltonian 367 1 []; Site f_hamiltonian 452 1 []; Site f_hamiltonian 466 1 []];
  Func "hamiltonian.hamiltonian.get_d_dy_T" ["f"] 0
    [Site f_hamiltonian 366 1 []; Site f_hamiltonian 445 1 []; Site f_hamiltonian 459 1 []; Site f_hamiltonian 521 1 []; Site f_hamiltonian 522 1 []];
  Func "hamiltonian.hamiltonian.get_dem_path" [] 0
    [Site f_hamiltonian 212 0 []];
  Func "hamiltonian.hamiltonian.get_div_LB" [] 0
    [Site f_hamiltonian 770 0 []];
  Func "hamiltonian.hamiltonian.get_div_LT" [] 0
    [Site f_hamiltonian 768 0 []];
  Func "hamiltonian.hamiltonian.get_div_RB" [] 0
    [Site f_hamiltonian 766 0 []];
  Func "hamiltonian.hamiltonian.get_div_RT" [] 0
    [Site f_hamiltonian 764 0 []];
  Func "hamiltonian.hamiltonian.get_histogram_mode" ["bins"; "qp"; "PLOT"; "REMOVE_OUTLIERS"; "vmin"; "vmax"] 6
    [Site f_hamiltonian 866 0 ["bins"; "PLOT"; "vmin"; "vmax"]];
  Func "hamiltonian.hamiltonian.get_pde_solution" ["name"] 1
    [Site f_hamiltonian 862 0 []];
  Func "hamiltonian.hamiltonian.get_qp_divergence" [] 0
    [Site f_hamiltonian 487 0 []];
  Func "hamiltonian.hamiltonian.get_qp_divergence_args" [] 0
    [Site f_hamiltonian 486 0 []];
  Func "hamiltonian.hamiltonian.get_qp_gradients" [] 0
    [Site f_hamiltonian 483 0 []];
  Func "hamiltonian.hamiltonian.get_qp_slopes" [] 0
    [Site f_hamiltonian 484 0 []];
  Func "hamiltonian.hamiltonian.get_qp_slopes_power" [] 0
    [Site f_hamiltonian 485 0 []];
  Func "hamiltonian.hamiltonian.get_value" ["var_name"; "replace_nan"] 1
    [Site f_hamiltonian 691 1 []];
  Func "hamiltonian.hamiltonian.read_dem" ["REPORT"] 1
    [Site f_hamiltonian 481 0 []];
  Func "hamiltonian.hamiltonian.save_var_to_rtg" ["var_name"] 0
    [Site f_hamiltonian 257 1 []];
  Func "hamiltonian.kc_from_curvature_eqn" ["S_kp_tuple"; "gamma"; "Rs"] 0
    [Site f_hamiltonian 1213 3 []]].
Definition calls_6 : list func := [
  Func "hamiltonian.profile.get_kappa_p_profile" [] 0
    [Site f_hamiltonian 1196 0 []];
  Func "hamiltonian.profile.get_peckham_profile" ["x"; "gamma"; "Rs"] 0
    [Site f_hamiltonian 1166 3 []];
  Func "hamiltonian.profile.get_profile_file" [] 0
    [Site f_hamiltonian 953 0 []; Site f_hamiltonian 1138 0 []];
  Func "hamiltonian.profile.get_slope_profile" [] 0
    [Site f_hamiltonian 1192 0 []];
  Func "hamiltonian.profile.get_whipple_profile" ["x"; "c"; "p"] 0
    [Site f_hamiltonian 1176 3 []];
  Func "hamiltonian.profile.read_profile" ["head_clip"; "tail_clip"; "clip_hilltop"; "REPORT"] 4
    [Site f_hamiltonian 1144 0 ["head_clip"; "tail_clip"; "clip_hilltop"]];
  Func "ice_base.ice_component.close_output_files" [] 0
    [Site f_ice_base 769 0 []; Site f_BMI_base 297 0 []];
  Func "ice_base.ice_component.disable_all_output" [] 0
    [Site f_ice_base 443 0 []];
  Func "ice_base.ice_component.finalize" [] 0
    [Site f_BMI_base 946 0 []];
  Func "ice_base.ice_component.get_attribute" ["att_name"] 0
    [Site f_ice_base 413 1 []; Site f_BMI_base 512 1 []; Site f_BMI_base 541 1 []; Site f_BMI_base 1496 1 []; Site f_BMI_base 1587 1 []];
  Func "ice_base.ice_component.get_input_var_names" [] 0
    [Site f_BMI_base 313 0 []];
  Func "ice_base.ice_component.get_output_var_names" [] 0
    [Site f_BMI_base 320 0 []];
  Func "ice_base.ice_component.get_var_name" ["long_var_name"] 0
    [Site f_BMI_base 370 1 []; Site f_BMI_base 414 1 []; Site f_BMI_base 446 1 []; Site f_BMI_base 461 1 []; Site f_BMI_base 570 1 []; Site f_BMI_base 598 1 []; Site f_BMI_base 651 1 []; Site f_BMI_base 667 1 []];
  Func "ice_base.ice_component.initialize" ["cfg_file"; "mode"; "SILENT"] 3
    [Site f_BMI_base 897 0 ["cfg_prefix"; "mode"]];
  Func "ice_base.ice_component.initialize_computed_vars" [] 0
    [Site f_ice_base 462 0 []];
  Func "ice_base.ice_component.initialize_vars_rtg" [] 0
    [Site f_ice_base 296 0 []];
  Func "ice_base.ice_component.open_output_files" [] 0
    [Site f_ice_base 464 0 []];
  Func "ice_base.ice_component.save_grids" [] 0
    [Site f_ice_base 997 0 []];
  Func "ice_base.ice_component.save_pixel_values" [] 0
    [Site f_ice_base 999 0 []];
  Func "ice_base.ice_component.set_constants" [] 0
    [Site f_ice_base 426 0 []];
  Func "ice_base.ice_component.set_gc2d_parameters" [] 0
    [Site f_ice_base 438 0 []];
  Func "ice_base.ice_component.update" ["dt"] 1
    [Site f_BMI_base 278 0 []; Site f_BMI_base 288 0 []; Site f_BMI_base 926 0 []; Site f_BMI_base 930 0 []];
  Func "ice_base.ice_component.update_outfile_names" [] 0
    [Site f_ice_base 922 0 []];
  Func "ice_base.ice_component.update_time" [] 0
    [Site f_ice_base 573 1 []; Site f_BMI_base 269 0 []];
  Func "ice_base.ice_component.write_output_files" ["time_seconds"] 1
    [Site f_ice_base 566 0 []];
  Func "idl_func.eof" ["file_obj"] 0
    [Site f_diversions_base 270 1 []; Site f_diversions_base 299 1 []; Site f_diversions_base 377 1 []; Site f_diversions_base 406 1 []; Site f_diversions_base 492 1 []; Site f_diversions_base 526 1 []];
  Func "import_grid.get_raster_bounds" ["raster"; "VERBOSE"] 1
    [Site f_import_grid 81 1 []];
  Func "import_grid.get_raster_cellsize" ["raster"] 0
    [Site f_import_grid 82 1 []];
  Func "import_grid.get_raster_dimensions" ["raster"] 0
    [Site f_import_grid 80 1 []];
  Func "import_grid.get_rtg_type_from_gdal_type" ["raster"] 0
    [Site f_import_grid 87 1 []; Site f_import_grid 416 1 []];
  Func "import_grid.make_rti_for_gdal_grid" ["grid_file"; "grid"; "ds"; "rti_file"; "z_units"] 1
    [Site f_import_grid 285 4 []; Site f_import_grid 320 4 []];
  Func "import_grid.print_gdal_grid_info" ["filename"; "grid"; "ds"] 0
    [Site f_import_grid 282 3 []; Site f_import_grid 317 3 []];
  Func "import_grid.read_from_geotiff" ["tif_file"; "REPORT"; "rti_file"] 2
    [Site f_import_grid 47 1 ["REPORT"; "rti_file"]; Site f_import_grid 498 1 ["REPORT"; "rti_file"]; Site f_prepare_inputs 1244 1 ["REPORT"; "rti_file"]];
  Func "import_grid.read_from_netcdf" ["nc_file"; "layer_name"; "REPORT"; "rti_file"] 3
    [Site f_import_grid 54 1 ["REPORT"]; Site f_prepare_inputs 1265 1 ["REPORT"]];
  Func "import_grid.read_from_rtg" ["rtg_file"; "REPORT"] 1
    [Site f_hamiltonian 214 1 ["REPORT"]; Site f_import_grid 61 1 ["REPORT"]; Site f_prepare_inputs 1255 1 ["REPORT"]];
  Func "indicators.create_affected_population_grid_stack" ["output_dir"; "pop_dir"; "pop_file"; "case_prefix"; "global_pop_dir"; "global_pop_file"; "condition"; "day_count_file"; "out_file"; "out_var_name"; "OVERWRITE_OK"] 11
    [Site f_indicators 125 0 ["output_dir"; "case_prefix"; "condition"; "pop_dir"; "pop_file"; "OVERWRITE_OK"]];
  Func "indicators.create_day_count_grid_stack" ["output_dir"; "stats_dir"; "case_prefix"; "hydro_var_name"; "condition"; "var_file"; "mean_file"; "sdev_file"; "days_file"; "OVERWRITE_OK"] 10
    [Site f_indicators 114 0 ["output_dir"; "stats_dir"; "case_prefix"; "hydro_var_name"; "condition"; "OVERWRITE_OK"]];
  Func "indicators.create_indicator_grid_stacks" ["case_prefix"; "output_dir"; "compute_stat_grids"; "stats_dir"; "pop_dir"; "pop_file"; "FLOODING"; "OVERWRITE_OK"] 8
    [Site f_topoflow_driver 605 0 ["case_prefix"; "output_dir"; "pop_dir"; "compute_stat_grids"; "OVERWRITE_OK"]; Site f_indicators 37 0 ["case_prefix"; "output_dir"; "pop_dir"; "compute_stat_grids"; "OVERWRITE_OK"]];
  Func "indicators.create_population_grid_file" ["pop_dir"; "pop_file"; "out_xres_sec"; "out_yres_sec"; "out_bounds"; "case_prefix"; "grid_info"; "time_info"; "global_pop_dir"; "global_pop_file"] 10
    [Site f_indicators 1295 0 ["pop_dir"; "pop_file"; "case_prefix"; "global_pop_dir"; "global_pop_file"; "out_xres_sec"; "out_bounds"; "out_yres_sec"; "grid_info"; "time_info"]];
  Func "indicators.create_stat_grid_stacks" ["output_dir"; "stats_dir"; "case_prefix"; "hydro_var_name"; "var_file"; "min_file"; "max_file"; "mean_file"; "sdev_file"; "OVERWRITE_OK"] 10
    [Site f_indicators 102 0 ["output_dir"; "stats_dir"; "case_prefix"; "hydro_var_name"; "OVERWRITE_OK"]];
  Func "indicators.get_condition_map" [] 0
    [Site f_indicators 796 0 []; Site f_indicators 1180 0 []];
  Func "infil_base.infil_component.adjust_infil_rate" [] 0
    [Site f_infil_base 330 0 []];
  Func "infil_base.infil_component.build_layer_z_vector" [] 0
    [Site f_infil_beven 375 0 []; Site f_infil_green_ampt 375 0 []; Site f_infil_richards_1D 590 0 []; Site f_infil_smith_parlange 384 0 []; Site f_satzone_base 387 0 []];
  Func "infil_base.infil_component.build_layered_var" ["var_list_for_layers"] 0
    [Site f_infil_beven 384 1 []; Site f_infil_beven 385 1 []; Site f_infil_beven 386 1 []; Site f_infil_beven 387 1 []; Site f_infil_beven 388 1 []; Site f_infil_green_ampt 384 1 []; Site f_infil_green_ampt 385 1 []; Site f_infil_green_ampt 386 1 []; Site f_infil_green_ampt 387 1 []; Site f_infil_green_ampt 388 1 []; Site f_infil_richards_1D 597 1 []; Site f_infil_richards_1D 598 1 []; Site f_infil_richards_1D 599 1 []; Site f_infil_richards_1D 600 1 []; Site f_infil_richards_1D 601 1 []; Site f_infil_richards_1D 602 1 []; Site f_infil_richards_1D 603 1 []; Site f_infil_richards_1D 604 1 []; Site f_infil_richards_1D 605 1 []; Site f_infil_richards_1D 610 1 []; Site f_infil_richards_1D 611 1 []; Site f_infil_smith_parlange 393 1 []; Site f_infil_smith_parlange 394 1 []; Site f_infil_smith_parlange 395 1 []; Site f_infil_smith_parlange 396 1 []; Site f_infil_smith_parlange 397 1 []; Site f_infil_smith_parlange 398 1 []; Site f_satzone_base 396 1 []; Site f_satzone_base 397 1 []; Site f_satzone_base 398 1 []];
  Func "infil_base.infil_component.check_infiltration" [] 0
    [Site f_infil_base 340 0 []; Site f_infil_richards_1D 1031 0 []];
  Func "infil_base.infil_component.check_input_types" [] 0
    [Site f_infil_base 275 0 []];
  Func "infil_base.infil_component.check_low_rainrate" [] 0
    [Site f_infil_base 665 0 []];
  Func "infil_base.infil_component.close_input_files" [] 0
    [Site f_infil_base 370 0 []; Site f_BMI_base 296 0 []];
  Func "infil_base.infil_component.close_output_files" [] 0
    [Site f_infil_base 371 0 []; Site f_BMI_base 297 0 []];
  Func "infil_base.infil_component.disable_all_output" [] 0
    [Site f_infil_base 245 0 []];
  Func "infil_base.infil_component.finalize" [] 0
    [Site f_BMI_base 946 0 []];
  Func "infil_base.infil_component.initialize" ["cfg_file"; "mode"; "SILENT"] 3
    [Site f_BMI_base 897 0 ["cfg_prefix"; "mode"]];
  Func "infil_base.infil_component.open_input_files" [] 0
    [Site f_infil_base 266 0 []; Site f_BMI_base 246 0 []];
  Func "infil_base.infil_component.open_output_files" [] 0
    [Site f_infil_base 296 0 []];
  Func "infil_base.infil_component.read_input_files" [] 0
    [Site f_infil_base 269 0 []; Site f_infil_base 323 0 []; Site f_BMI_base 247 0 []];
  Func "infil_base.infil_component.save_cubes" [] 0
    [Site f_infil_base 1378 0 []];
  Func "infil_base.infil_component.save_grids" [] 0
    [Site f_infil_base 1366 0 []];
  Func "infil_base.infil_component.save_pixel_values" [] 0
    [Site f_infil_base 1369 0 []];
  Func "infil_base.infil_component.save_profiles" [] 0
    [Site f_infil_base 1375 0 []];
  Func "infil_base.infil_component.set_computed_input_vars" [] 0
    [Site f_infil_base 284 0 []];
  Func "infil_base.infil_component.set_constants" [] 0
    [Site f_infil_base 230 0 []];
  Func "infil_base.infil_component.set_new_defaults" [] 0
    [Site f_infil_base 231 0 []];
  Func "infil_base.infil_component.update" ["dt"] 1
    [Site f_BMI_base 278 0 []; Site f_BMI_base 288 0 []; Site f_BMI_base 926 0 []; Site f_BMI_base 930 0 []];
  Func "infil_base.infil_component.update_I" [] 0
    [Site f_infil_base 334 0 []];
  Func "infil_base.infil_component.update_Rg" [] 0
    [Site f_infil_base 332 0 []];
  Func "infil_base.infil_component.update_Rg_integral" [] 0
    [Site f_infil_base 333 0 []; Site f_infil_richards_1D 1013 0 []];
  Func "infil_base.infil_component.update_infil_rate" [] 0
    [Site f_infil_base 329 0 []];
  Func "infil_base.infil_component.update_outfile_names" [] 0
    [Site f_infil_base 1157 0 []];
  Func "infil_base.infil_component.update_q0" [] 0
    [Site f_infil_base 335 0 []];
  Func "infil_base.infil_component.update_surface_influx" [] 0
    [Site f_infil_base 328 0 []];
  Func "infil_base.infil_component.update_total_storage" ["REPORT"] 1
    [Site f_infil_base 293 0 ["REPORT"]; Site f_infil_base 369 0 []];
  Func "infil_base.infil_component.update_v0_integral" [] 0
    [Site f_infil_base 331 0 []; Site f_infil_richards_1D 1010 0 []];
  Func "infil_base.infil_component.write_output_files" ["time_seconds"] 1
    [Site f_infil_base 347 0 []; Site f_infil_richards_1D 1036 0 []];
  Func "infil_beven.Beven_Exp_K_Infil_Rate_v1" ["self"] 0
    [Site f_infil_beven 394 1 []];
  Func "infil_beven.infil_component.check_input_types" [] 0
    [Site f_infil_base 275 0 []];
  Func "infil_beven.infil_component.close_input_files" [] 0
    [Site f_infil_base 370 0 []; Site f_BMI_base 296 0 []];
  Func "infil_beven.infil_component.get_attribute" ["att_name"] 0
    [Site f_infil_base 212 1 []; Site f_BMI_base 512 1 []; Site f_BMI_base 541 1 []; Site f_BMI_base 1496 1 []; Site f_BMI_base 1587 1 []];
  Func "infil_beven.infil_component.get_input_var_names" [] 0
    [Site f_BMI_base 313 0 []];
  Func "infil_beven.infil_component.get_output_var_names" [] 0
    [Site f_BMI_base 320 0 []];
  Func "infil_beven.infil_component.get_var_name" ["long_var_name"] 0
    [Site f_BMI_base 370 1 []; Site f_BMI_base 414 1 []; Site f_BMI_base 446 1 []; Site f_BMI_base 461 1 []; Site f_BMI_base 570 1 []; Site f_BMI_base 598 1 []; Site f_BMI_base 651 1 []; Site f_BMI_base 667 1 []];
  Func "infil_beven.infil_component.initialize_computed_vars" [] 0
    [Site f_infil_base 288 0 []];
  Func "infil_beven.infil_component.initialize_layer_vars" [] 0
    [Site f_BMI_base 1756 0 []];
  Func "infil_beven.infil_component.open_input_files" [] 0
    [Site f_infil_base 266 0 []; Site f_BMI_base 246 0 []];
  Func "infil_beven.infil_component.read_input_files" [] 0
    [Site f_infil_base 269 0 []; Site f_infil_base 323 0 []; Site f_BMI_base 247 0 []];
  Func "infil_beven.infil_component.set_computed_input_vars" [] 0
    [Site f_infil_base 284 0 []];
  Func "infil_beven.infil_component.update_infil_rate" [] 0
    [Site f_infil_base 329 0 []];
  Func "infil_beven.infil_component.update_outfile_names" [] 0
    [Site f_infil_base 1157 0 []];
  Func "infil_green_ampt.Green_Ampt_Infil_Rate_1D" ["self"; "r"; "r_last"; "n"] 0
    [Site f_infil_green_ampt 966 4 []];
  Func "infil_green_ampt.Green_Ampt_Infil_Rate_3D" ["self"; "r"; "r_last"; "n"] 0
    [Site f_infil_green_ampt 968 4 []];
  Func "infil_green_ampt.Green_Ampt_Infil_Rate_v1" ["self"] 0
    [Site f_infil_green_ampt 398 1 []];
  Func "infil_green_ampt.infil_component.check_input_types" [] 0
    [Site f_infil_base 275 0 []];
  Func "infil_green_ampt.infil_component.close_input_files" [] 0
    [Site f_infil_base 370 0 []; Site f_BMI_base 296 0 []];
  Func "infil_green_ampt.infil_component.get_attribute" ["att_name"] 0
    [Site f_infil_base 212 1 []; Site f_BMI_base 512 1 []; Site f_BMI_base 541 1 []; Site f_BMI_base 1496 1 []; Site f_BMI_base 1587 1 []];
  Func "infil_green_ampt.infil_component.get_input_var_names" [] 0
    [Site f_BMI_base 313 0 []];
  Func "infil_green_ampt.infil_component.get_output_var_names" [] 0
    [Site f_BMI_base 320 0 []];
  Func "infil_green_ampt.infil_component.get_var_name" ["long_var_name"] 0
    [Site f_BMI_base 370 1 []; Site f_BMI_base 414 1 []; Site f_BMI_base 446 1 []; Site f_BMI_base 461 1 []; Site f_BMI_base 570 1 []; Site f_BMI_base 598 1 []; Site f_BMI_base 651 1 []; Site f_BMI_base 667 1 []];
  Func "infil_green_ampt.infil_component.initialize_computed_vars" [] 0
    [Site f_infil_base 288 0 []];
  Func "infil_green_ampt.infil_component.initialize_layer_vars" [] 0
    [Site f_BMI_base 1756 0 []];
  Func "infil_green_ampt.infil_component.open_input_files" [] 0
    [Site f_infil_base 266 0 []; Site f_BMI_base 246 0 []];
  Func "infil_green_ampt.infil_component.read_input_files" [] 0
    [Site f_infil_base 269 0 []; Site f_infil_base 323 0 []; Site f_BMI_base 247 0 []]].
Definition calls_7 : list func := [
  Func "infil_green_ampt.infil_component.set_computed_input_vars" [] 0
    [Site f_infil_base 284 0 []];
  Func "infil_green_ampt.infil_component.update_infil_rate" [] 0
    [Site f_infil_base 329 0 []];
  Func "infil_green_ampt.infil_component.update_outfile_names" [] 0
    [Site f_infil_base 1157 0 []];
  Func "infil_richards_1D.Z_Backward_Average" ["v"] 0
    [Site f_infil_richards_1D 1125 1 []; Site f_infil_richards_1D 1157 1 []; Site f_infil_richards_1D 1929 1 []];
  Func "infil_richards_1D.Z_Derivative_1D" ["v"; "dz"; "BACKWARD"] 1
    [Site f_infil_richards_1D 1122 2 []; Site f_infil_richards_1D 1123 2 ["BACKWARD"]; Site f_infil_richards_1D 2138 2 []];
  Func "infil_richards_1D.Z_Derivative_3D" ["v"; "dz"; "BACKWARD"] 1
    [Site f_infil_richards_1D 1154 2 []; Site f_infil_richards_1D 1155 2 ["BACKWARD"]; Site f_infil_richards_1D 2145 2 []];
  Func "infil_richards_1D.Z_Forward_Average" ["v"] 0
    [Site f_infil_richards_1D 1124 1 []; Site f_infil_richards_1D 1156 1 []; Site f_infil_richards_1D 1927 1 []];
  Func "infil_richards_1D.infil_component.check_input_types" [] 0
    [Site f_infil_base 275 0 []];
  Func "infil_richards_1D.infil_component.close_input_files" [] 0
    [Site f_infil_base 370 0 []; Site f_BMI_base 296 0 []];
  Func "infil_richards_1D.infil_component.enforce_theta_range" [] 0
    [Site f_infil_richards_1D 973 0 []];
  Func "infil_richards_1D.infil_component.get_attribute" ["att_name"] 0
    [Site f_infil_base 212 1 []; Site f_BMI_base 512 1 []; Site f_BMI_base 541 1 []; Site f_BMI_base 1496 1 []; Site f_BMI_base 1587 1 []];
  Func "infil_richards_1D.infil_component.get_input_var_names" [] 0
    [Site f_BMI_base 313 0 []];
  Func "infil_richards_1D.infil_component.get_output_var_names" [] 0
    [Site f_BMI_base 320 0 []];
  Func "infil_richards_1D.infil_component.get_var_name" ["long_var_name"] 0
    [Site f_BMI_base 370 1 []; Site f_BMI_base 414 1 []; Site f_BMI_base 446 1 []; Site f_BMI_base 461 1 []; Site f_BMI_base 570 1 []; Site f_BMI_base 598 1 []; Site f_BMI_base 651 1 []; Site f_BMI_base 667 1 []];
  Func "infil_richards_1D.infil_component.initialize_computed_vars" [] 0
    [Site f_infil_base 288 0 []];
  Func "infil_richards_1D.infil_component.initialize_layer_vars" [] 0
    [Site f_BMI_base 1756 0 []];
  Func "infil_richards_1D.infil_component.open_input_files" [] 0
    [Site f_infil_base 266 0 []; Site f_BMI_base 246 0 []];
  Func "infil_richards_1D.infil_component.read_input_files" [] 0
    [Site f_infil_base 269 0 []; Site f_infil_base 323 0 []; Site f_infil_richards_1D 954 0 []; Site f_BMI_base 247 0 []];
  Func "infil_richards_1D.infil_component.set_computed_input_vars" [] 0
    [Site f_infil_base 284 0 []];
  Func "infil_richards_1D.infil_component.update" ["time_seconds"] 1
    [Site f_BMI_base 278 0 []; Site f_BMI_base 288 0 []; Site f_BMI_base 926 0 []; Site f_BMI_base 930 0 []];
  Func "infil_richards_1D.infil_component.update_K" ["REPORT"] 1
    [Site f_infil_richards_1D 997 0 []];
  Func "infil_richards_1D.infil_component.update_Kbar" ["BACKWARD"; "REPORT"] 2
    [Site f_infil_richards_1D 998 0 []];
  Func "infil_richards_1D.infil_component.update_Rg" [] 0
    [Site f_infil_base 332 0 []; Site f_infil_richards_1D 1012 0 []];
  Func "infil_richards_1D.infil_component.update_bottom_BC_for_theta" ["REPORT"] 1
    [Site f_infil_richards_1D 972 0 []];
  Func "infil_richards_1D.infil_component.update_bottom_BC_for_v" [] 0
    [Site f_infil_richards_1D 1001 0 []];
  Func "infil_richards_1D.infil_component.update_infil_rate" [] 0
    [Site f_infil_base 329 0 []; Site f_infil_richards_1D 1002 0 []];
  Func "infil_richards_1D.infil_component.update_psi" ["REPORT"] 1
    [Site f_infil_richards_1D 991 0 []];
  Func "infil_richards_1D.infil_component.update_q0" [] 0
    [Site f_infil_base 335 0 []; Site f_infil_richards_1D 1019 0 []];
  Func "infil_richards_1D.infil_component.update_saturation" ["REPORT"] 1
    [Site f_infil_richards_1D 699 0 []; Site f_infil_richards_1D 974 0 []];
  Func "infil_richards_1D.infil_component.update_surface_BC_for_theta" ["REPORT"] 1
    [Site f_infil_richards_1D 971 0 []];
  Func "infil_richards_1D.infil_component.update_surface_influx" [] 0
    [Site f_infil_base 328 0 []; Site f_infil_richards_1D 582 0 []; Site f_infil_richards_1D 959 0 []];
  Func "infil_richards_1D.infil_component.update_theta" ["REPORT"] 1
    [Site f_infil_richards_1D 970 0 []];
  Func "infil_richards_1D.infil_component.update_v" ["REPORT"] 1
    [Site f_infil_richards_1D 1000 0 []];
  Func "infil_richards_1D.plot_theta_profile" ["self"] 0
    [Site f_infil_richards_1D 2284 1 []];
  Func "infil_smith_parlange.Smith_Parlange_Infil_Rate_1D" ["self"; "r"; "r_last"; "n"] 0
    [Site f_infil_smith_parlange 1000 4 []];
  Func "infil_smith_parlange.Smith_Parlange_Infil_Rate_3D" ["self"; "r"; "r_last"; "n"] 0
    [Site f_infil_smith_parlange 1002 4 []];
  Func "infil_smith_parlange.Smith_Parlange_Infil_Rate_v1" ["self"] 0
    [Site f_infil_smith_parlange 408 1 []];
  Func "infil_smith_parlange.infil_component.check_input_types" [] 0
    [Site f_infil_base 275 0 []];
  Func "infil_smith_parlange.infil_component.close_input_files" [] 0
    [Site f_infil_base 370 0 []; Site f_BMI_base 296 0 []];
  Func "infil_smith_parlange.infil_component.get_attribute" ["att_name"] 0
    [Site f_infil_base 212 1 []; Site f_BMI_base 512 1 []; Site f_BMI_base 541 1 []; Site f_BMI_base 1496 1 []; Site f_BMI_base 1587 1 []];
  Func "infil_smith_parlange.infil_component.get_input_var_names" [] 0
    [Site f_BMI_base 313 0 []];
  Func "infil_smith_parlange.infil_component.get_output_var_names" [] 0
    [Site f_BMI_base 320 0 []];
  Func "infil_smith_parlange.infil_component.get_var_name" ["long_var_name"] 0
    [Site f_BMI_base 370 1 []; Site f_BMI_base 414 1 []; Site f_BMI_base 446 1 []; Site f_BMI_base 461 1 []; Site f_BMI_base 570 1 []; Site f_BMI_base 598 1 []; Site f_BMI_base 651 1 []; Site f_BMI_base 667 1 []];
  Func "infil_smith_parlange.infil_component.initialize_computed_vars" [] 0
    [Site f_infil_base 288 0 []];
  Func "infil_smith_parlange.infil_component.initialize_layer_vars" [] 0
    [Site f_BMI_base 1756 0 []];
  Func "infil_smith_parlange.infil_component.open_input_files" [] 0
    [Site f_infil_base 266 0 []; Site f_BMI_base 246 0 []];
  Func "infil_smith_parlange.infil_component.read_input_files" [] 0
    [Site f_infil_base 269 0 []; Site f_infil_base 323 0 []; Site f_BMI_base 247 0 []];
  Func "infil_smith_parlange.infil_component.set_computed_input_vars" [] 0
    [Site f_infil_base 284 0 []];
  Func "infil_smith_parlange.infil_component.update_infil_rate" [] 0
    [Site f_infil_base 329 0 []];
  Func "infil_smith_parlange.infil_component.update_outfile_names" [] 0
    [Site f_infil_base 1157 0 []];
  Func "init_depth.compute_initial_depth" ["site_prefix"; "topo_dir"; "baseflow_rate"; "bank_angle"; "tol"; "SILENT"; "area_file"; "slope_file"; "width_file"; "manning_file"; "sinu_file"; "angle_file"; "d0_file"; "v0_file"] 14
    [Site f_init_depth 33 0 []; Site f_init_depth 76 0 ["site_prefix"; "topo_dir"; "baseflow_rate"; "tol"; "SILENT"; "area_file"; "slope_file"; "width_file"; "manning_file"; "sinu_file"; "angle_file"; "d0_file"]; Site f_prepare_inputs 1630 0 ["site_prefix"; "topo_dir"; "SILENT"; "baseflow_rate"; "bank_angle"; "area_file"; "slope_file"; "width_file"; "manning_file"; "sinu_file"; "d0_file"]];
  Func "init_depth.get_baseflow_volume_flux" ["A_out_km2"; "Qb_out"; "REPORT"; "MMPH"] 2
    [Site f_prepare_inputs 1628 2 ["REPORT"]];
  Func "init_depth.remove_bad_slopes" ["slope"; "FLOAT"; "SILENT"] 2
    [Site f_init_depth 328 1 []];
  Func "mct_files.mct_file.close_file" [] 0
    [Site f_mct_files 132 0 []];
  Func "mct_files.mct_file.count_lines" ["mct_file"; "SILENT"] 1
    [Site f_mct_files 140 1 []];
  Func "mct_files.mct_file.open_file" ["mct_file"] 0
    [Site f_mct_files 101 1 []];
  Func "mct_files.mct_file.read_column" ["mct_file"; "col"; "skip_lines"; "delim"; "dtype"; "DATETIME"; "REPORT"] 6
    [Site f_mct_files 141 1 ["col"; "skip_lines"; "delim"; "DATETIME"; "REPORT"]; Site f_mct_files 143 1 ["col"; "skip_lines"; "delim"; "REPORT"]];
  Func "met_base.met_component.close_input_files" [] 0
    [Site f_met_base 846 0 []; Site f_BMI_base 296 0 []];
  Func "met_base.met_component.close_output_files" [] 0
    [Site f_met_base 848 0 []; Site f_BMI_base 297 0 []];
  Func "met_base.met_component.finalize" [] 0
    [Site f_BMI_base 946 0 []];
  Func "met_base.met_component.get_attribute" ["att_name"] 0
    [Site f_BMI_base 512 1 []; Site f_BMI_base 541 1 []; Site f_BMI_base 1496 1 []; Site f_BMI_base 1587 1 []];
  Func "met_base.met_component.get_input_var_names" [] 0
    [Site f_BMI_base 313 0 []];
  Func "met_base.met_component.get_output_var_names" [] 0
    [Site f_BMI_base 320 0 []];
  Func "met_base.met_component.get_var_name" ["long_var_name"] 0
    [Site f_BMI_base 370 1 []; Site f_BMI_base 414 1 []; Site f_BMI_base 446 1 []; Site f_BMI_base 461 1 []; Site f_BMI_base 570 1 []; Site f_BMI_base 598 1 []; Site f_BMI_base 651 1 []; Site f_BMI_base 667 1 []];
  Func "met_base.met_component.initialize" ["cfg_file"; "mode"; "SILENT"] 3
    [Site f_BMI_base 897 0 ["cfg_prefix"; "mode"]];
  Func "met_base.met_component.initialize_computed_vars" [] 0
    [Site f_met_base 728 0 []];
  Func "met_base.met_component.initialize_input_file_vars" [] 0
    [Site f_met_base 706 0 []];
  Func "met_base.met_component.open_input_files" [] 0
    [Site f_met_base 711 0 []; Site f_BMI_base 246 0 []];
  Func "met_base.met_component.open_output_files" [] 0
    [Site f_met_base 731 0 []];
  Func "met_base.met_component.read_input_files" [] 0
    [Site f_met_base 712 0 []; Site f_met_base 766 0 []; Site f_BMI_base 247 0 []];
  Func "met_base.met_component.save_grids" [] 0
    [Site f_met_base 2812 0 []];
  Func "met_base.met_component.save_pixel_values" [] 0
    [Site f_met_base 2814 0 []];
  Func "met_base.met_component.set_aspect_angle" [] 0
    [Site f_met_base 1119 0 []];
  Func "met_base.met_component.set_computed_input_vars" [] 0
    [Site f_met_base 722 0 []];
  Func "met_base.met_component.set_constants" [] 0
    [Site f_met_base 641 0 []];
  Func "met_base.met_component.set_missing_cfg_options" [] 0
    [Site f_met_base 643 0 []];
  Func "met_base.met_component.set_rain_to_zero" [] 0
    [Site f_met_base 2410 0 []];
  Func "met_base.met_component.set_slope_angle" [] 0
    [Site f_met_base 1118 0 []];
  Func "met_base.met_component.update" ["dt"] 1
    [Site f_BMI_base 278 0 []; Site f_BMI_base 288 0 []; Site f_BMI_base 926 0 []; Site f_BMI_base 930 0 []];
  Func "met_base.met_component.update_P_integral" [] 0
    [Site f_met_base 780 0 []];
  Func "met_base.met_component.update_P_max" [] 0
    [Site f_met_base 781 0 []];
  Func "met_base.met_component.update_P_rain" [] 0
    [Site f_met_base 782 0 []];
  Func "met_base.met_component.update_P_rain_integral" [] 0
    [Site f_met_base 784 0 []];
  Func "met_base.met_component.update_P_snow" [] 0
    [Site f_met_base 783 0 []];
  Func "met_base.met_component.update_P_snow_integral" [] 0
    [Site f_met_base 785 0 []];
  Func "met_base.met_component.update_T_surf" [] 0
    [Site f_met_base 794 0 []];
  Func "met_base.met_component.update_advection_heat_flux" [] 0
    [Site f_met_base 803 0 []];
  Func "met_base.met_component.update_albedo" ["method"] 1
    [Site f_met_base 805 0 ["method"]];
  Func "met_base.met_component.update_bulk_aero_conductance" [] 0
    [Site f_met_base 797 0 []];
  Func "met_base.met_component.update_bulk_richardson_number" [] 0
    [Site f_met_base 796 0 []];
  Func "met_base.met_component.update_conduction_heat_flux" [] 0
    [Site f_met_base 802 0 []];
  Func "met_base.met_component.update_dew_point" [] 0
    [Site f_met_base 793 0 []];
  Func "met_base.met_component.update_em_air" [] 0
    [Site f_met_base 807 0 []];
  Func "met_base.met_component.update_julian_day" [] 0
    [Site f_met_base 804 0 []];
  Func "met_base.met_component.update_latent_heat_flux" [] 0
    [Site f_met_base 801 0 []];
  Func "met_base.met_component.update_net_energy_flux" [] 0
    [Site f_met_base 809 0 []];
  Func "met_base.met_component.update_net_longwave_radiation" [] 0
    [Site f_met_base 808 0 []];
  Func "met_base.met_component.update_net_shortwave_radiation" [] 0
    [Site f_met_base 806 0 []];
  Func "met_base.met_component.update_outfile_names" [] 0
    [Site f_met_base 2699 0 []];
  Func "met_base.met_component.update_precipitable_water_content" [] 0
    [Site f_met_base 799 0 []]].
Definition calls_8 : list func := [
  Func "met_base.met_component.update_saturation_vapor_pressure" ["MBAR"; "SURFACE"] 2
    [Site f_met_base 791 0 ["MBAR"]; Site f_met_base 795 0 ["MBAR"; "SURFACE"]];
  Func "met_base.met_component.update_sensible_heat_flux" [] 0
    [Site f_met_base 798 0 []];
  Func "met_base.met_component.update_vapor_pressure" ["SURFACE"] 1
    [Site f_met_base 792 0 []; Site f_met_base 800 0 ["SURFACE"]];
  Func "met_base.met_component.write_output_files" ["time_seconds"] 1
    [Site f_met_base 824 0 []];
  Func "met_utils.saturation_vapor_pressure" ["T"; "method"; "MBAR"] 2
    [Site f_met_utils 86 1 ["method"]];
  Func "midpoints.make_fractal_surface" ["n_levels"; "H"; "RTG_file"; "sigma"; "scale"; "seed"; "X_WRAP"; "Y_WRAP"; "SILENT"] 8
    [Site f_erode_base 627 1 ["H"; "scale"; "seed"; "SILENT"]; Site f_midpoints 26 0 ["n_levels"; "H"]];
  Func "model_info.build_date" [] 0
    [Site f_model_info 39 0 []];
  Func "model_info.name" [] 0
    [Site f_model_info 41 0 []];
  Func "model_info.version_number" [] 0
    [Site f_model_info 38 0 []];
  Func "model_input.close_file" ["file_unit"] 0
    [Site f_satzone_base 173 1 []];
  Func "model_input.open_file" ["var_type"; "input_file"; "NGEN_CSV"] 1
    [Site f_channels_base 3485 2 []; Site f_channels_base 3487 2 []; Site f_channels_base 3489 2 []; Site f_channels_base 3490 2 []; Site f_channels_base 3491 2 []; Site f_channels_base 3492 2 []; Site f_channels_base 3493 2 []; Site f_channels_base 3494 2 []; Site f_erode_base 2049 2 []; Site f_evap_energy_balance 382 2 []; Site f_evap_energy_balance 383 2 []; Site f_evap_energy_balance 384 2 []; Site f_evap_priestley_taylor 426 2 []; Site f_evap_priestley_taylor 427 2 []; Site f_evap_priestley_taylor 428 2 []; Site f_evap_priestley_taylor 429 2 []; Site f_evap_read_file 232 2 []; Site f_glacier_energy_balance 706 2 []; Site f_glacier_energy_balance 707 2 []; Site f_glacier_energy_balance 708 2 []; Site f_glacier_energy_balance 709 2 []; Site f_glacier_energy_balance 710 2 []; Site f_glacier_energy_balance 711 2 []; Site f_glacier_energy_balance 712 2 []; Site f_glacier_energy_balance 713 2 []; Site f_glacier_energy_balance 714 2 []; Site f_glacier_energy_balance 715 2 []; Site f_infil_base 1021 2 []; Site f_infil_base 1022 2 []; Site f_infil_base 1023 2 []; Site f_infil_base 1024 2 []; Site f_infil_base 1025 2 []; Site f_infil_base 1026 2 []; Site f_infil_beven 417 2 []; Site f_infil_beven 418 2 []; Site f_infil_beven 419 2 []; Site f_infil_beven 420 2 []; Site f_infil_beven 421 2 []; Site f_infil_green_ampt 429 2 []; Site f_infil_green_ampt 430 2 []; Site f_infil_green_ampt 431 2 []; Site f_infil_green_ampt 432 2 []; Site f_infil_green_ampt 433 2 []; Site f_infil_richards_1D 2474 2 []; Site f_infil_richards_1D 2475 2 []; Site f_infil_richards_1D 2476 2 []; Site f_infil_richards_1D 2477 2 []; Site f_infil_richards_1D 2478 2 []; Site f_infil_richards_1D 2479 2 []; Site f_infil_richards_1D 2480 2 []; Site f_infil_richards_1D 2481 2 []; Site f_infil_richards_1D 2482 2 []; Site f_infil_smith_parlange 444 2 []; Site f_infil_smith_parlange 445 2 []; Site f_infil_smith_parlange 446 2 []; Site f_infil_smith_parlange 447 2 []; Site f_infil_smith_parlange 448 2 []; Site f_infil_smith_parlange 449 2 []; Site f_met_base 2350 2 ["NGEN_CSV"]; Site f_met_base 2352 2 []; Site f_met_base 2353 2 []; Site f_met_base 2354 2 []; Site f_met_base 2355 2 []; Site f_met_base 2356 2 []; Site f_met_base 2357 2 []; Site f_met_base 2358 2 []; Site f_met_base 2363 2 []; Site f_met_base 2365 2 []; Site f_met_base 2367 2 []; Site f_met_base 2369 2 []; Site f_met_base 2371 2 []; Site f_satzone_base 168 2 []; Site f_satzone_base 1591 2 []; Site f_satzone_base 1592 2 []; Site f_satzone_base 1594 2 []; Site f_satzone_base 1595 2 []; Site f_satzone_base 1606 2 []; Site f_satzone_base 1607 2 []; Site f_satzone_base 1608 2 []; Site f_snow_degree_day 394 2 []; Site f_snow_degree_day 395 2 []; Site f_snow_degree_day 396 2 []; Site f_snow_degree_day 397 2 []; Site f_snow_degree_day 398 2 []; Site f_snow_energy_balance 489 2 []; Site f_snow_energy_balance 490 2 []; Site f_snow_energy_balance 491 2 []; Site f_snow_energy_balance 492 2 []; Site f_snow_energy_balance 493 2 []];
  Func "model_input.read_grid" ["file_unit"; "rti"; "dtype"] 1
    [Site f_model_input 102 3 []; Site f_model_input 160 3 []];
  Func "model_input.read_next" ["file_unit"; "var_type"; "rti"; "dtype"; "units_factor"; "NGEN_CSV"] 3
    [Site f_channels_base 3516 3 []; Site f_channels_base 3521 3 []; Site f_channels_base 3526 3 []; Site f_channels_base 3530 3 []; Site f_channels_base 3537 3 []; Site f_channels_base 3545 3 []; Site f_channels_base 3549 3 []; Site f_channels_base 3554 3 []; Site f_erode_base 2059 3 []; Site f_evap_energy_balance 398 3 []; Site f_evap_energy_balance 403 3 []; Site f_evap_energy_balance 408 3 []; Site f_evap_priestley_taylor 440 3 []; Site f_evap_priestley_taylor 445 3 []; Site f_evap_priestley_taylor 450 3 []; Site f_evap_priestley_taylor 455 3 []; Site f_evap_read_file 257 3 ["factor"]; Site f_glacier_energy_balance 726 3 []; Site f_glacier_energy_balance 730 3 []; Site f_glacier_energy_balance 734 3 []; Site f_glacier_energy_balance 738 3 []; Site f_glacier_energy_balance 742 3 []; Site f_glacier_energy_balance 746 3 []; Site f_glacier_energy_balance 750 3 []; Site f_glacier_energy_balance 754 3 []; Site f_glacier_energy_balance 758 3 []; Site f_glacier_energy_balance 762 3 []; Site f_infil_base 1047 3 []; Site f_infil_base 1050 3 []; Site f_infil_base 1053 3 []; Site f_infil_base 1056 3 []; Site f_infil_base 1059 3 []; Site f_infil_base 1062 3 []; Site f_infil_beven 436 3 []; Site f_infil_beven 439 3 []; Site f_infil_beven 442 3 []; Site f_infil_beven 445 3 []; Site f_infil_beven 448 3 []; Site f_infil_green_ampt 448 3 []; Site f_infil_green_ampt 451 3 []; Site f_infil_green_ampt 454 3 []; Site f_infil_green_ampt 457 3 []; Site f_infil_green_ampt 460 3 []; Site f_infil_richards_1D 2497 3 []; Site f_infil_richards_1D 2517 3 []; Site f_infil_richards_1D 2520 3 []; Site f_infil_richards_1D 2528 3 []; Site f_infil_richards_1D 2531 3 []; Site f_infil_richards_1D 2534 3 []; Site f_infil_richards_1D 2552 3 []; Site f_infil_richards_1D 2555 3 []; Site f_infil_richards_1D 2575 3 []; Site f_infil_smith_parlange 467 3 []; Site f_infil_smith_parlange 470 3 []; Site f_infil_smith_parlange 473 3 []; Site f_infil_smith_parlange 476 3 []; Site f_infil_smith_parlange 479 3 []; Site f_infil_smith_parlange 482 3 []; Site f_met_base 2401 3 ["units_factor"; "NGEN_CSV"]; Site f_met_base 2434 3 []; Site f_met_base 2468 3 []; Site f_met_base 2472 3 []; Site f_met_base 2476 3 []; Site f_met_base 2480 3 []; Site f_met_base 2484 3 []; Site f_met_base 2488 3 []; Site f_met_base 2498 3 []; Site f_met_base 2503 3 []; Site f_met_base 2508 3 []; Site f_met_base 2513 3 []; Site f_met_base 2518 3 []; Site f_satzone_base 171 3 ["dtype"]; Site f_satzone_base 1619 3 []; Site f_satzone_base 1622 3 []; Site f_satzone_base 1643 3 []; Site f_satzone_base 1646 3 []; Site f_satzone_base 1649 3 []; Site f_snow_degree_day 409 3 []; Site f_snow_degree_day 413 3 []; Site f_snow_degree_day 417 3 []; Site f_snow_degree_day 421 3 []; Site f_snow_degree_day 425 3 []; Site f_snow_energy_balance 504 3 []; Site f_snow_energy_balance 508 3 []; Site f_snow_energy_balance 512 3 []; Site f_snow_energy_balance 516 3 []; Site f_snow_energy_balance 520 3 []];
  Func "model_input.read_scalar" ["file_unit"; "dtype"; "col"; "delim"] 3
    [Site f_model_input 93 2 []; Site f_model_input 150 2 ["col"; "delim"]];
  Func "model_output.add_cube" ["self"; "var"; "var_name"; "time"; "SILENT"] 2
    [Site f_infil_base 1529 4 []; Site f_infil_base 1532 4 []; Site f_infil_base 1535 4 []; Site f_infil_base 1538 4 []];
  Func "model_output.add_grid" ["self"; "var"; "var_name"; "time"; "SILENT"] 2
    [Site f_channels_base 3919 4 []; Site f_channels_base 3922 4 []; Site f_channels_base 3925 4 []; Site f_channels_base 3928 4 []; Site f_channels_base 3931 4 []; Site f_d8_base 1122 4 []; Site f_d8_base 1133 4 []; Site f_d8_base 1143 4 []; Site f_d8_base 1153 4 []; Site f_erode_base 2435 3 []; Site f_erode_base 2438 3 []; Site f_erode_base 2441 3 []; Site f_erode_base 2444 3 []; Site f_erode_base 2447 3 []; Site f_erode_base 2450 3 []; Site f_erode_base 2453 3 []; Site f_erode_base 2456 3 []; Site f_evap_base 685 4 []; Site f_glacier_base 1173 4 []; Site f_glacier_base 1176 4 []; Site f_glacier_base 1179 4 []; Site f_glacier_base 1182 4 []; Site f_glacier_base 1185 4 []; Site f_glacier_base 1188 4 []; Site f_glacier_base 1191 4 []; Site f_glacier_base 1194 4 []; Site f_glacier_base 1197 4 []; Site f_ice_base 1030 4 []; Site f_ice_base 1033 4 []; Site f_ice_base 1037 4 []; Site f_infil_base 1421 4 []; Site f_infil_base 1425 4 []; Site f_infil_base 1428 4 []; Site f_infil_base 1431 4 []; Site f_met_base 2842 4 []; Site f_met_base 2845 4 []; Site f_met_base 2848 4 []; Site f_met_base 2851 4 []; Site f_met_base 2854 4 []; Site f_met_base 2857 4 []; Site f_met_base 2860 4 []; Site f_satzone_base 1846 4 []; Site f_satzone_base 1849 4 []; Site f_satzone_base 1852 4 []; Site f_satzone_base 1855 4 []; Site f_smooth_DEM 1662 4 []; Site f_smooth_DEM 1663 4 []; Site f_smooth_DEM 1666 4 []; Site f_smooth_DEM 1669 4 []; Site f_smooth_DEM 1672 4 []; Site f_snow_base 902 4 []; Site f_snow_base 905 4 []; Site f_snow_base 908 4 []; Site f_snow_base 911 4 []];
  Func "model_output.add_profiles_at_IDs" ["self"; "var"; "var_name"; "IDs"; "time_min"] 0
    [Site f_infil_base 1498 5 []; Site f_infil_base 1501 5 []; Site f_infil_base 1504 5 []; Site f_infil_base 1507 5 []];
  Func "model_output.add_values_at_IDs" ["self"; "time_min"; "var"; "var_name"; "IDs"] 0
    [Site f_channels_base 3944 5 []; Site f_channels_base 3947 5 []; Site f_channels_base 3950 5 []; Site f_channels_base 3953 5 []; Site f_channels_base 3956 5 []; Site f_d8_base 1173 5 []; Site f_d8_base 1176 5 []; Site f_d8_base 1179 5 []; Site f_d8_base 1182 5 []; Site f_erode_base 2475 5 []; Site f_erode_base 2478 5 []; Site f_erode_base 2481 5 []; Site f_erode_base 2484 5 []; Site f_erode_base 2487 5 []; Site f_erode_base 2490 5 []; Site f_erode_base 2493 5 []; Site f_erode_base 2496 5 []; Site f_evap_base 696 5 []; Site f_glacier_base 1207 5 []; Site f_glacier_base 1210 5 []; Site f_glacier_base 1213 5 []; Site f_glacier_base 1216 5 []; Site f_glacier_base 1219 5 []; Site f_glacier_base 1222 5 []; Site f_glacier_base 1225 5 []; Site f_glacier_base 1228 5 []; Site f_glacier_base 1231 5 []; Site f_ice_base 1047 5 []; Site f_ice_base 1051 5 []; Site f_ice_base 1056 5 []; Site f_infil_base 1447 5 []; Site f_infil_base 1450 5 []; Site f_infil_base 1459 5 []; Site f_infil_base 1461 5 []; Site f_met_base 2870 5 []; Site f_met_base 2873 5 []; Site f_met_base 2876 5 []; Site f_met_base 2879 5 []; Site f_met_base 2882 5 []; Site f_met_base 2885 5 []; Site f_met_base 2888 5 []; Site f_satzone_base 1865 5 []; Site f_satzone_base 1869 5 []; Site f_satzone_base 1873 5 []; Site f_satzone_base 1877 5 []; Site f_smooth_DEM 1685 5 []; Site f_smooth_DEM 1688 5 []; Site f_smooth_DEM 1691 5 []; Site f_smooth_DEM 1694 5 []; Site f_snow_base 921 5 []; Site f_snow_base 924 5 []; Site f_snow_base 927 5 []; Site f_snow_base 930 5 []];
  Func "model_output.check_netcdf" ["SILENT"] 1
    [Site f_HIS_base 720 0 ["SILENT"]; Site f_channels_base 3750 0 ["SILENT"]; Site f_d8_base 987 0 ["SILENT"]; Site f_erode_base 2130 0 ["SILENT"]; Site f_evap_base 602 0 ["SILENT"]; Site f_glacier_base 996 0 ["SILENT"]; Site f_ice_base 921 0 ["SILENT"]; Site f_infil_base 1156 0 ["SILENT"]; Site f_met_base 2698 0 ["SILENT"]; Site f_satzone_base 1725 0 ["SILENT"]; Site f_smooth_DEM 1480 0 ["SILENT"]; Site f_snow_base 790 0 ["SILENT"]];
  Func "model_output.close_cs_file" ["self"; "var_name"] 0
    [Site f_infil_base 1402 2 []; Site f_infil_base 1403 2 []; Site f_infil_base 1404 2 []; Site f_infil_base 1405 2 []];
  Func "model_output.close_gs_file" ["self"; "var_name"] 0
    [Site f_channels_base 3896 2 []; Site f_channels_base 3897 2 []; Site f_channels_base 3898 2 []; Site f_channels_base 3899 2 []; Site f_channels_base 3900 2 []; Site f_d8_base 1094 2 []; Site f_d8_base 1095 2 []; Site f_d8_base 1096 2 []; Site f_d8_base 1097 2 []; Site f_erode_base 2400 2 []; Site f_erode_base 2401 2 []; Site f_erode_base 2402 2 []; Site f_erode_base 2403 2 []; Site f_erode_base 2404 2 []; Site f_erode_base 2405 2 []; Site f_erode_base 2406 2 []; Site f_erode_base 2407 2 []; Site f_evap_base 669 2 []; Site f_evap_base 671 2 []; Site f_glacier_base 1151 2 []; Site f_glacier_base 1152 2 []; Site f_glacier_base 1153 2 []; Site f_glacier_base 1154 2 []; Site f_glacier_base 1155 2 []; Site f_glacier_base 1156 2 []; Site f_glacier_base 1157 2 []; Site f_glacier_base 1158 2 []; Site f_ice_base 1013 2 []; Site f_ice_base 1014 2 []; Site f_ice_base 1015 2 []; Site f_infil_base 1384 2 []; Site f_infil_base 1385 2 []; Site f_infil_base 1386 2 []; Site f_infil_base 1387 2 []; Site f_met_base 2820 2 []; Site f_met_base 2821 2 []; Site f_met_base 2822 2 []; Site f_met_base 2823 2 []; Site f_met_base 2824 2 []; Site f_met_base 2825 2 []; Site f_met_base 2826 2 []; Site f_satzone_base 1827 2 []; Site f_satzone_base 1828 2 []; Site f_satzone_base 1829 2 []; Site f_satzone_base 1830 2 []; Site f_smooth_DEM 1637 2 []; Site f_smooth_DEM 1638 2 []; Site f_smooth_DEM 1639 2 []; Site f_smooth_DEM 1640 2 []; Site f_snow_base 888 2 []; Site f_snow_base 889 2 []; Site f_snow_base 890 2 []; Site f_snow_base 891 2 []];
  Func "model_output.close_ps_file" ["self"; "var_name"] 0
    [Site f_infil_base 1397 2 []; Site f_infil_base 1398 2 []; Site f_infil_base 1399 2 []; Site f_infil_base 1400 2 []];
  Func "model_output.close_ts_file" ["self"; "var_name"] 0
    [Site f_channels_base 3902 2 []; Site f_channels_base 3903 2 []; Site f_channels_base 3904 2 []; Site f_channels_base 3905 2 []; Site f_channels_base 3906 2 []; Site f_d8_base 1099 2 []; Site f_d8_base 1100 2 []; Site f_d8_base 1101 2 []; Site f_d8_base 1102 2 []; Site f_erode_base 2413 2 []; Site f_erode_base 2414 2 []; Site f_erode_base 2415 2 []; Site f_erode_base 2416 2 []; Site f_erode_base 2417 2 []; Site f_erode_base 2418 2 []; Site f_erode_base 2419 2 []; Site f_erode_base 2420 2 []; Site f_glacier_base 1160 2 []; Site f_glacier_base 1161 2 []; Site f_glacier_base 1162 2 []; Site f_glacier_base 1163 2 []; Site f_glacier_base 1164 2 []; Site f_glacier_base 1165 2 []; Site f_glacier_base 1166 2 []; Site f_glacier_base 1167 2 []; Site f_ice_base 1017 2 []; Site f_ice_base 1018 2 []; Site f_ice_base 1019 2 []; Site f_infil_base 1389 2 []; Site f_infil_base 1390 2 []; Site f_infil_base 1391 2 []; Site f_infil_base 1392 2 []; Site f_met_base 2828 2 []; Site f_met_base 2829 2 []; Site f_met_base 2830 2 []; Site f_met_base 2831 2 []; Site f_met_base 2832 2 []; Site f_met_base 2833 2 []; Site f_met_base 2834 2 []; Site f_satzone_base 1832 2 []; Site f_satzone_base 1833 2 []; Site f_satzone_base 1834 2 []; Site f_satzone_base 1835 2 []; Site f_smooth_DEM 1642 2 []; Site f_smooth_DEM 1643 2 []; Site f_smooth_DEM 1644 2 []; Site f_smooth_DEM 1645 2 []; Site f_snow_base 893 2 []; Site f_snow_base 894 2 []; Site f_snow_base 895 2 []; Site f_snow_base 896 2 []];
  Func "model_output.open_new_cs_file" ["self"; "file_name"; "info"; "z_values"; "z_units"; "var_name"; "long_name"; "units_name"; "dtype"; "time_units"; "nx"; "ny"; "dx"; "dy"] 12
    [Site f_infil_base 1268 3 ["z_values"; "z_units"; "var_name"; "long_name"; "units_name"]; Site f_infil_base 1275 3 ["z_values"; "z_units"; "var_name"; "long_name"; "units_name"]; Site f_infil_base 1285 3 ["z_values"; "z_units"; "var_name"; "long_name"; "units_name"]; Site f_infil_base 1292 3 ["z_values"; "z_units"; "var_name"; "long_name"; "units_name"]];
  Func "model_output.open_new_gs_file" ["self"; "file_name"; "info"; "var_name"; "long_name"; "units_name"; "dtype"; "time_units"; "nx"; "ny"; "dx"; "dy"] 10
    [Site f_channels_base 3782 3 ["var_name"; "long_name"; "units_name"]; Site f_channels_base 3788 3 ["var_name"; "long_name"; "units_name"]; Site f_channels_base 3794 3 ["var_name"; "long_name"; "units_name"]; Site f_channels_base 3800 3 ["var_name"; "long_name"; "units_name"]; Site f_channels_base 3806 3 ["var_name"; "long_name"; "units_name"]; Site f_d8_base 994 3 ["dtype"; "var_name"; "long_name"; "units_name"]; Site f_d8_base 1001 3 ["var_name"; "long_name"; "units_name"]; Site f_d8_base 1007 3 ["var_name"; "long_name"; "units_name"]; Site f_d8_base 1013 3 ["var_name"; "long_name"; "units_name"]; Site f_erode_base 2137 3 ["var_name"; "long_name"; "units_name"; "time_units"]; Site f_erode_base 2144 3 ["var_name"; "long_name"; "units_name"; "time_units"]; Site f_erode_base 2151 3 ["var_name"; "long_name"; "units_name"; "time_units"]; Site f_erode_base 2158 3 ["var_name"; "long_name"; "units_name"; "time_units"]; Site f_erode_base 2165 3 ["var_name"; "long_name"; "units_name"; "time_units"]; Site f_erode_base 2172 3 ["var_name"; "long_name"; "units_name"; "time_units"]; Site f_erode_base 2179 3 ["var_name"; "long_name"; "units_name"; "time_units"]; Site f_erode_base 2186 3 ["var_name"; "long_name"; "units_name"; "time_units"]; Site f_evap_base 609 3 ["var_name"; "long_name"; "units_name"]; Site f_glacier_base 1003 3 ["var_name"; "long_name"; "units_name"]; Site f_glacier_base 1010 3 ["var_name"; "long_name"; "units_name"]; Site f_glacier_base 1017 3 ["var_name"; "long_name"; "units_name"]; Site f_glacier_base 1024 3 ["var_name"; "long_name"; "units_name"]; Site f_glacier_base 1031 3 ["var_name"; "long_name"; "units_name"]; Site f_glacier_base 1036 3 ["var_name"; "long_name"; "units_name"]; Site f_glacier_base 1042 3 ["var_name"; "long_name"; "units_name"]; Site f_glacier_base 1047 3 ["var_name"; "long_name"; "units_name"]; Site f_glacier_base 1053 3 ["var_name"; "long_name"; "units_name"]; Site f_ice_base 928 3 ["var_name"; "long_name"; "units_name"]; Site f_ice_base 934 3 ["var_name"; "long_name"; "units_name"]; Site f_ice_base 940 3 ["var_name"; "long_name"; "units_name"]; Site f_infil_base 1167 3 ["var_name"; "long_name"; "units_name"]; Site f_infil_base 1174 3 ["var_name"; "long_name"; "units_name"]; Site f_infil_base 1180 3 ["var_name"; "long_name"; "units_name"]; Site f_infil_base 1186 3 ["var_name"; "long_name"; "units_name"]; Site f_met_base 2705 3 ["var_name"; "long_name"; "units_name"]; Site f_met_base 2712 3 ["var_name"; "long_name"; "units_name"]; Site f_met_base 2718 3 ["var_name"; "long_name"; "units_name"]; Site f_met_base 2725 3 ["var_name"; "long_name"; "units_name"]; Site f_met_base 2731 3 ["var_name"; "long_name"; "units_name"]; Site f_met_base 2737 3 ["var_name"; "long_name"; "units_name"]; Site f_met_base 2743 3 ["var_name"; "long_name"; "units_name"]; Site f_satzone_base 1734 3 ["var_name"; "long_name"; "units_name"]; Site f_satzone_base 1740 3 ["var_name"; "long_name"; "units_name"]; Site f_satzone_base 1746 3 ["var_name"; "long_name"; "units_name"]; Site f_satzone_base 1752 3 ["var_name"; "long_name"; "units_name"]; Site f_smooth_DEM 1490 3 ["var_name"; "long_name"; "units_name"]; Site f_smooth_DEM 1496 3 ["dtype"; "var_name"; "long_name"; "units_name"]; Site f_smooth_DEM 1503 3 ["var_name"; "long_name"; "units_name"]; Site f_smooth_DEM 1509 3 ["var_name"; "long_name"; "units_name"]; Site f_snow_base 797 3 ["var_name"; "long_name"; "units_name"]; Site f_snow_base 805 3 ["var_name"; "long_name"; "units_name"]; Site f_snow_base 812 3 ["var_name"; "long_name"; "units_name"]; Site f_snow_base 819 3 ["var_name"; "long_name"; "units_name"]];
  Func "model_output.open_new_ps_file" ["self"; "file_name"; "IDs"; "z_values"; "z_units"; "var_name"; "long_name"; "units_name"; "dtype"; "time_units"] 7
    [Site f_infil_base 1234 3 ["z_values"; "z_units"; "var_name"; "long_name"; "units_name"]; Site f_infil_base 1241 3 ["z_values"; "z_units"; "var_name"; "long_name"; "units_name"]; Site f_infil_base 1251 3 ["z_values"; "z_units"; "var_name"; "long_name"; "units_name"]; Site f_infil_base 1258 3 ["z_values"; "z_units"; "var_name"; "long_name"; "units_name"]];
  Func "model_output.open_new_ts_file" ["self"; "file_name"; "IDs"; "var_name"; "long_name"; "units_name"; "dtype"; "time_units"] 5
    [Site f_channels_base 3817 3 ["var_name"; "long_name"; "units_name"]; Site f_channels_base 3823 3 ["var_name"; "long_name"; "units_name"]; Site f_channels_base 3829 3 ["var_name"; "long_name"; "units_name"]; Site f_channels_base 3835 3 ["var_name"; "long_name"; "units_name"]; Site f_channels_base 3841 3 ["var_name"; "long_name"; "units_name"]; Site f_d8_base 1026 3 ["dtype"; "var_name"; "long_name"; "units_name"]; Site f_d8_base 1033 3 ["var_name"; "long_name"; "units_name"]; Site f_d8_base 1039 3 ["var_name"; "long_name"; "units_name"]; Site f_d8_base 1045 3 ["var_name"; "long_name"; "units_name"]; Site f_erode_base 2219 3 ["var_name"; "long_name"; "units_name"; "time_units"]; Site f_erode_base 2226 3 ["var_name"; "long_name"; "units_name"; "time_units"]; Site f_erode_base 2233 3 ["var_name"; "long_name"; "units_name"; "time_units"]; Site f_erode_base 2240 3 ["var_name"; "long_name"; "units_name"; "time_units"]; Site f_erode_base 2246 3 ["var_name"; "long_name"; "units_name"; "time_units"]; Site f_erode_base 2253 3 ["var_name"; "long_name"; "units_name"; "time_units"]; Site f_erode_base 2260 3 ["var_name"; "long_name"; "units_name"; "time_units"]; Site f_erode_base 2267 3 ["var_name"; "long_name"; "units_name"; "time_units"]; Site f_evap_base 620 3 ["var_name"; "long_name"; "units_name"]; Site f_glacier_base 1063 3 ["var_name"; "long_name"; "units_name"]; Site f_glacier_base 1070 3 ["var_name"; "long_name"; "units_name"]; Site f_glacier_base 1077 3 ["var_name"; "long_name"; "units_name"]; Site f_glacier_base 1084 3 ["var_name"; "long_name"; "units_name"]; Site f_glacier_base 1091 3 ["var_name"; "long_name"; "units_name"]; Site f_glacier_base 1097 3 ["var_name"; "long_name"; "units_name"]; Site f_glacier_base 1103 3 ["var_name"; "long_name"; "units_name"]; Site f_glacier_base 1108 3 ["var_name"; "long_name"; "units_name"]; Site f_glacier_base 1114 3 ["var_name"; "long_name"; "units_name"]; Site f_ice_base 951 3 ["var_name"; "long_name"; "units_name"; "time_units"]; Site f_ice_base 958 3 ["var_name"; "long_name"; "units_name"; "time_units"]; Site f_ice_base 965 3 ["var_name"; "long_name"; "units_name"; "time_units"]; Site f_infil_base 1199 3 ["var_name"; "long_name"; "units_name"]; Site f_infil_base 1206 3 ["var_name"; "long_name"; "units_name"]; Site f_infil_base 1213 3 ["var_name"; "long_name"; "units_name"]; Site f_infil_base 1219 3 ["var_name"; "long_name"; "units_name"]; Site f_met_base 2752 3 ["var_name"; "long_name"; "units_name"]; Site f_met_base 2759 3 ["var_name"; "long_name"; "units_name"]; Site f_met_base 2766 3 ["var_name"; "long_name"; "units_name"]; Site f_met_base 2772 3 ["var_name"; "long_name"; "units_name"]; Site f_met_base 2778 3 ["var_name"; "long_name"; "units_name"]; Site f_met_base 2784 3 ["var_name"; "long_name"; "units_name"]; Site f_met_base 2789 3 ["var_name"; "long_name"; "units_name"]; Site f_satzone_base 1762 3 ["var_name"; "long_name"; "units_name"]; Site f_satzone_base 1768 3 ["var_name"; "long_name"; "units_name"]; Site f_satzone_base 1774 3 ["var_name"; "long_name"; "units_name"]; Site f_satzone_base 1780 3 ["var_name"; "long_name"; "units_name"]; Site f_smooth_DEM 1520 3 ["var_name"; "long_name"; "units_name"]; Site f_smooth_DEM 1526 3 ["dtype"; "var_name"; "long_name"; "units_name"]; Site f_smooth_DEM 1533 3 ["var_name"; "long_name"; "units_name"]; Site f_smooth_DEM 1539 3 ["var_name"; "long_name"; "units_name"]; Site f_snow_base 830 3 ["var_name"; "long_name"; "units_name"]; Site f_snow_base 837 3 ["var_name"; "long_name"; "units_name"]; Site f_snow_base 844 3 ["var_name"; "long_name"; "units_name"]; Site f_snow_base 851 3 ["var_name"; "long_name"; "units_name"]];
  Func "multi_bmi.multi_bmi.check_var_users_and_providers" [] 0
    [Site f_multi_bmi 1973 0 []];
  Func "multi_bmi.multi_bmi.comp_name_valid" ["comp_name"] 0
    [Site f_multi_bmi 1483 1 []];
  Func "multi_bmi.multi_bmi.connect_comps" ["provider_name"; "user_name"; "long_var_name"; "REPORT"] 1
    [Site f_multi_bmi 2053 3 ["REPORT"]];
  Func "multi_bmi.multi_bmi.convert_time_units" ["in_time"; "in_units"] 0
    [Site f_multi_bmi 678 2 []; Site f_multi_bmi 767 2 []; Site f_multi_bmi 1877 2 []];
  Func "multi_bmi.multi_bmi.finalize" [] 0
    [Site f_multi_bmi 1716 0 []; Site f_BMI_base 946 0 []];
  Func "multi_bmi.multi_bmi.find_var_users_and_providers" ["REPORT"] 1
    [Site f_multi_bmi 1972 0 []];
  Func "multi_bmi.multi_bmi.get_cfg_filename" ["bmi"] 0
    [Site f_multi_bmi 1584 1 []; Site f_multi_bmi 2021 1 []];
  Func "multi_bmi.multi_bmi.get_current_time" [] 0
    [Site f_multi_bmi 733 0 []; Site f_BMI_base 286 0 []];
  Func "multi_bmi.multi_bmi.get_input_var_names" [] 0
    [Site f_multi_bmi 794 0 []; Site f_BMI_base 313 0 []];
  Func "multi_bmi.multi_bmi.get_output_var_names" [] 0
    [Site f_multi_bmi 802 0 []; Site f_BMI_base 320 0 []];
  Func "multi_bmi.multi_bmi.get_provider_bmi" ["long_var_name"] 0
    [Site f_multi_bmi 876 1 []; Site f_multi_bmi 883 1 []; Site f_multi_bmi 893 1 []; Site f_multi_bmi 900 1 []; Site f_multi_bmi 907 1 []; Site f_multi_bmi 914 1 []; Site f_multi_bmi 957 1 []; Site f_multi_bmi 971 1 []; Site f_multi_bmi 991 1 []];
  Func "multi_bmi.multi_bmi.get_required_vars" ["user_name"; "bmi_time"] 0
    [Site f_multi_bmi 689 2 []; Site f_multi_bmi 774 2 []];
  Func "multi_bmi.multi_bmi.get_time_step" [] 0
    [Site f_multi_bmi 723 0 []; Site f_multi_bmi 733 0 []; Site f_BMI_base 276 0 []; Site f_BMI_base 286 0 []];
  Func "multi_bmi.multi_bmi.get_value_ptr" ["long_var_name"] 0
    [Site f_BMI_base 610 1 []];
  Func "multi_bmi.multi_bmi.get_var_type" ["long_var_name"] 0
    [Site f_BMI_base 589 1 []];
  Func "multi_bmi.multi_bmi.initialize" ["cfg_file"] 1
    [Site f_multi_bmi 1713 0 ["cfg_file"]; Site f_BMI_base 897 0 ["cfg_prefix"; "mode"]];
  Func "multi_bmi.multi_bmi.initialize_comp" ["comp_name"; "cfg_file"] 1
    [Site f_multi_bmi 2024 2 []];
  Func "multi_bmi.multi_bmi.initialize_comp_set" ["REPORT"] 1
    [Site f_multi_bmi 625 0 ["REPORT"]];
  Func "multi_bmi.multi_bmi.initialize_framework_dt" [] 0
    [Site f_multi_bmi 633 0 []];
  Func "multi_bmi.multi_bmi.initialize_time_vars" ["units"] 1
    [Site f_multi_bmi 632 0 []; Site f_BMI_base 241 0 []];
  Func "multi_bmi.multi_bmi.instantiate_comp" ["comp_name"] 0
    [Site f_multi_bmi 599 1 []];
  Func "multi_bmi.multi_bmi.prepare_inputs_for_ngen_basin" [] 0
    [Site f_multi_bmi 564 0 []];
  Func "multi_bmi.multi_bmi.read_provider_file" [] 0
    [Site f_multi_bmi 588 0 []];
  Func "multi_bmi.multi_bmi.read_repository" [] 0
    [Site f_multi_bmi 593 0 []];
  Func "multi_bmi.multi_bmi.update" [] 0
    [Site f_multi_bmi 725 0 []; Site f_multi_bmi 735 0 []; Site f_multi_bmi 1715 0 []; Site f_BMI_base 278 0 []; Site f_BMI_base 288 0 []; Site f_BMI_base 926 0 []; Site f_BMI_base 930 0 []];
  Func "multi_bmi.multi_bmi.update_frac" ["time_frac"] 0
    [Site f_multi_bmi 736 1 []; Site f_BMI_base 289 1 []];
  Func "multi_bmi.multi_bmi.update_time" ["dt"] 1
    [Site f_multi_bmi 715 0 []; Site f_BMI_base 269 0 []];
  Func "nccs_files.nccs_file.get_dtype_map" [] 0
    [Site f_nccs_files 297 0 []];
  Func "ncgs_files.ncgs_file.check_and_store_info" ["file_name"; "info"; "grid_name"; "dtype"; "MAKE_RTI"; "MAKE_BOV"] 5
    [Site f_ncgs_files 472 6 []];
  Func "ncgs_files.ncgs_file.get_dtype_map" [] 0
    [Site f_ncgs_files 520 0 []];
  Func "ncps_files.get_dtype_codes" ["dtypes"; "var_names"] 0
    [Site f_ncps_files 469 2 []];
  Func "ncps_files.get_dtype_map" [] 0
    [Site f_ncps_files 308 0 []];
  Func "ncps_files.ncps_file.get_var_names" ["no_dim_vars"] 1
    [Site f_ncps_files 901 0 []; Site f_ncps_files 913 0 []];
  Func "ncps_files.ncps_file.profiles_at_IDs" ["var"; "IDs"] 0
    [Site f_ncps_files 833 2 []];
  Func "ncts_files.get_dtype_codes" ["dtypes"; "var_names"] 0
    [Site f_ncts_files 448 2 []];
  Func "ncts_files.get_dtype_map" [] 0
    [Site f_ncts_files 291 0 []];
  Func "ncts_files.ncts_file.get_var_names" ["no_dim_vars"] 1
    [Site f_ncts_files 930 0 []; Site f_ncts_files 942 0 []];
  Func "ncts_files.ncts_file.values_at_IDs" ["var"; "IDs"] 0
    [Site f_ncts_files 827 2 []];
  Func "new_slopes.get_d8_object" ["site_prefix"; "case_prefix"; "cfg_dir"; "SILENT"; "REPORT"] 5
    [Site f_new_slopes 119 0 ["site_prefix"; "case_prefix"; "cfg_dir"]; Site f_new_slopes 190 0 ["site_prefix"; "case_prefix"; "cfg_dir"]; Site f_new_slopes 336 0 ["site_prefix"; "case_prefix"; "cfg_dir"]; Site f_new_slopes 1145 0 ["site_prefix"; "case_prefix"; "cfg_dir"]];
  Func "new_slopes.get_d8_slope_grid" ["site_prefix"; "case_prefix"; "cfg_dir"; "slope_file"] 4
    [Site f_new_slopes 45 0 ["site_prefix"; "case_prefix"; "cfg_dir"; "slope_file"]];
  Func "new_slopes.get_new_slope_grid" ["site_prefix"; "case_prefix"; "cfg_dir"; "slope_file"] 4
    [Site f_new_slopes 51 0 ["site_prefix"; "case_prefix"; "cfg_dir"; "slope_file"]; Site f_prepare_inputs 1430 0 ["site_prefix"; "case_prefix"; "cfg_dir"; "slope_file"]];
  Func "new_slopes.smooth_dem" ["site_prefix"; "case_prefix"; "cfg_dir"; "dem_file"; "nsteps"; "ncells"] 6
    [Site f_new_slopes 64 0 ["site_prefix"; "case_prefix"; "cfg_dir"; "dem_file"; "nsteps"]];
  Func "outlets.check_outlet_IDs" ["outlet_IDs"; "n_pixels"] 0
    [Site f_outlets 172 2 []];
  Func "outlets.write_outlet_file" ["outlet_file"; "col"; "row"; "area"; "relief"; "lon"; "lat"] 0
    [Site f_prepare_inputs 1135 7 []];
  Func "parameterize.get_grid_from_TCA" ["site_prefix"; "topo_dir"; "area_file"; "out_file"; "A1"; "g1"; "A2"; "g2"; "p"; "REPORT"] 10
    [Site f_channels_base 724 0 ["site_prefix"; "topo_dir"; "area_file"; "out_file"; "g1"; "p"]; Site f_channels_base 736 0 ["site_prefix"; "topo_dir"; "area_file"; "out_file"; "g1"; "g2"]; Site f_channels_base 749 0 ["site_prefix"; "topo_dir"; "area_file"; "out_file"; "g1"; "p"]; Site f_calibrate 754 0 ["site_prefix"; "topo_dir"; "area_file"; "out_file"; "REPORT"; "g1"; "p"]; Site f_calibrate 760 0 ["site_prefix"; "topo_dir"; "area_file"; "out_file"; "REPORT"; "g1"; "p"]; Site f_calibrate 766 0 ["site_prefix"; "topo_dir"; "area_file"; "out_file"; "REPORT"; "g1"; "g2"]; Site f_calibrate 772 0 ["site_prefix"; "topo_dir"; "area_file"; "out_file"; "REPORT"; "g1"; "g2"]; Site f_parameterize 22 0 []; Site f_parameterize 45 0 ["site_prefix"; "cfg_dir"; "area_file"; "out_file"; "p"; "g1"]; Site f_parameterize 59 0 ["site_prefix"; "cfg_dir"; "area_file"; "out_file"; "g1"; "g2"]; Site f_parameterize 72 0 ["site_prefix"; "cfg_dir"; "area_file"; "out_file"; "g1"; "g2"]; Site f_parameterize 84 0 ["site_prefix"; "cfg_dir"; "area_file"; "out_file"; "g1"; "p"]; Site f_prepare_inputs 1465 0 ["site_prefix"; "topo_dir"; "area_file"; "out_file"; "g1"; "p"]; Site f_prepare_inputs 1501 0 ["site_prefix"; "topo_dir"; "area_file"; "out_file"; "g1"; "g2"]; Site f_prepare_inputs 1535 0 ["site_prefix"; "topo_dir"; "area_file"; "out_file"; "g1"; "g2"]; Site f_prepare_inputs 1573 0 ["site_prefix"; "topo_dir"; "area_file"; "out_file"; "g1"; "p"]];
  Func "pedotransfer.capillary_length_G" ["c"; "eta"; "n"; "inv_alpha"; "TBC"; "FORCE_RANGE"] 2
    [Site f_pedotransfer 1349 4 ["TBC"]];
  Func "pedotransfer.check_soil_grid_values" ["C"; "S"; "OC"; "D"; "REPORT"] 1
    [Site f_pedotransfer 223 4 ["REPORT"]];
  Func "pedotransfer.convert_soil_grid_values" ["C"; "S"; "OC"; "D"; "VERBOSE"] 1
    [Site f_pedotransfer 230 4 []];
  Func "pedotransfer.get_nodata_values" [] 0
    [Site f_pedotransfer 796 0 []];
  Func "pedotransfer.get_rtg_file_prefix" ["tiff_file"; "site_prefix"] 0
    [Site f_pedotransfer 588 2 []; Site f_pedotransfer 753 2 []];
  Func "pedotransfer.get_tBC_from_vG_vars" ["alpha"; "n"; "L"] 0
    [Site f_pedotransfer 1413 3 []];
  Func "pedotransfer.get_wosten_vars" ["C"; "S"; "OM"; "D"; "topsoil"] 0
    [Site f_pedotransfer 1407 5 []];
  Func "pedotransfer.read_soil_grid_files" ["site_prefix"; "directory"; "res_str"; "layer"; "REPORT"] 5
    [Site f_pedotransfer 1393 0 ["layer"; "res_str"; "directory"; "REPORT"; "site_prefix"]];
  Func "pedotransfer.save_soil_hydraulic_vars" ["site_prefix"; "in_dir"; "out_dir"; "out_bounds"; "REPORT"; "out_xres_sec"; "out_yres_sec"; "RESAMPLE_ALGO"] 8
    [Site f_pedotransfer 82 0 ["site_prefix"; "in_dir"; "out_dir"; "out_bounds"; "VERBOSE"; "out_xres_sec"; "out_yres_sec"; "RESAMPLE_ALGO"]; Site f_prepare_inputs 1713 0 ["site_prefix"; "in_dir"; "out_dir"; "out_bounds"; "REPORT"; "out_xres_sec"; "out_yres_sec"; "RESAMPLE_ALGO"]];
  Func "pedotransfer.transform_isric_soil_grid_files" ["site_prefix"; "in_dir"; "out_dir"; "out_bounds"; "out_xres_sec"; "out_yres_sec"; "RESAMPLE_ALGO"; "IN_MEMORY"; "REPORT"] 8
    [Site f_pedotransfer 53 0 ["directory"; "IN_MEMORY"; "VERBOSE"; "LOL_1MIN_TEST"]; Site f_pedotransfer 1376 1 ["in_dir"; "out_dir"; "out_bounds"; "out_xres_sec"; "out_yres_sec"; "RESAMPLE_ALGO"; "REPORT"]];
  Func "pedotransfer.wosten_K_s" ["C"; "S"; "OM"; "D"; "topsoil"] 0
    [Site f_pedotransfer 1156 5 []];
  Func "pedotransfer.wosten_L" ["C"; "S"; "OM"; "D"; "topsoil"; "FORCE_RANGE"] 1
    [Site f_pedotransfer 1159 5 []];
  Func "pedotransfer.wosten_alpha" ["C"; "S"; "OM"; "D"; "topsoil"; "FORCE_RANGE"] 1
    [Site f_pedotransfer 95 5 []; Site f_pedotransfer 101 5 []; Site f_pedotransfer 1157 5 []];
  Func "pedotransfer.wosten_n" ["C"; "S"; "OM"; "D"; "topsoil"; "FORCE_RANGE"] 1
    [Site f_pedotransfer 1158 5 []];
  Func "pedotransfer.wosten_theta_s" ["C"; "S"; "OM"; "D"; "topsoil"; "FORCE_RANGE"] 1
    [Site f_pedotransfer 1155 5 []];
  Func "pixels.get_da" ["rti"; "METERS"; "REPORT"; "VERBOSE"] 3
    [Site f_erode_base 212 1 []; Site f_pixels 52 1 ["REPORT"; "VERBOSE"]; Site f_pixels 63 1 ["REPORT"; "VERBOSE"]];
  Func "pixels.get_sizes_by_row" ["rti"; "REPORT"; "METERS"] 2
    [Site f_d8_base 510 1 ["METERS"]; Site f_pixels 179 1 ["METERS"]];
  Func "pixels.meters_per_degree_lat" ["lat_deg"; "a_radius"; "b_radius"; "mean_elev"] 3
    [Site f_pixels 42 1 []; Site f_pixels 126 1 []];
  Func "pixels.meters_per_degree_lon" ["lat_deg"; "a_radius"; "b_radius"; "mean_elev"] 3
    [Site f_pixels 36 1 []; Site f_pixels 125 1 []];
  Func "prepare_inputs.get_inputs.clip_dem_from_source" [] 0
    [Site f_prepare_inputs 272 0 []];
  Func "prepare_inputs.get_inputs.copy_cfg_file_templates" [] 0
    [Site f_prepare_inputs 264 0 []];
  Func "prepare_inputs.get_inputs.create_output_dirs" [] 0
    [Site f_prepare_inputs 262 0 []];
  Func "prepare_inputs.get_inputs.fill_pits_in_dem" [] 0
    [Site f_prepare_inputs 278 0 []];
  Func "prepare_inputs.get_inputs.get_bankfull_depth_grid" [] 0
    [Site f_prepare_inputs 289 0 []];
  Func "prepare_inputs.get_inputs.get_cfg_files" ["REPORT"] 1
    [Site f_prepare_inputs 265 0 []];
  Func "prepare_inputs.get_inputs.get_channel_sinuosity_grid" [] 0
    [Site f_prepare_inputs 288 0 []];
  Func "prepare_inputs.get_inputs.get_channel_width_grid" [] 0
    [Site f_prepare_inputs 286 0 []];
  Func "prepare_inputs.get_inputs.get_d8_area_grid" [] 0
    [Site f_prepare_inputs 281 0 []]].
Definition calls_9 : list func := [
  Func "prepare_inputs.get_inputs.get_d8_aspect_grid" [] 0
    [Site f_prepare_inputs 283 0 []];
  Func "prepare_inputs.get_inputs.get_d8_flow_grid" [] 0
    [Site f_prepare_inputs 280 0 []; Site f_prepare_inputs 1053 0 []];
  Func "prepare_inputs.get_inputs.get_d8_slope_grid" [] 0
    [Site f_prepare_inputs 282 0 []];
  Func "prepare_inputs.get_inputs.get_init_channel_depth_grid" [] 0
    [Site f_prepare_inputs 290 0 []];
  Func "prepare_inputs.get_inputs.get_manning_n_grid" [] 0
    [Site f_prepare_inputs 287 0 []];
  Func "prepare_inputs.get_inputs.get_ngen_dem" ["DEM_out_file"; "cat_id_str"; "GEO"; "ALBERS"] 4
    [Site f_prepare_inputs 269 0 ["cat_id_str"]];
  Func "prepare_inputs.get_inputs.get_outlets_file" ["STEP_BACKS"] 1
    [Site f_prepare_inputs 284 0 []];
  Func "prepare_inputs.get_inputs.get_rainfall_grid_stack" [] 0
    [Site f_prepare_inputs 298 0 []];
  Func "prepare_inputs.get_inputs.get_soil_hydraulic_grids" [] 0
    [Site f_prepare_inputs 296 0 []];
  Func "prepare_inputs.get_inputs.get_source_dirs" [] 0
    [Site f_prepare_inputs 255 0 []];
  Func "prepare_inputs.get_inputs.get_topoflow_dirs" [] 0
    [Site f_prepare_inputs 349 0 []];
  Func "prepare_inputs.get_inputs.read_dem_as_geotiff" ["tif_file"] 1
    [Site f_prepare_inputs 273 0 []];
  Func "prepare_inputs.get_inputs.replace_negative_vals_in_dem" [] 0
    [Site f_prepare_inputs 277 0 []];
  Func "prepare_inputs.get_inputs.set_basin_info" [] 0
    [Site f_prepare_inputs 257 0 []];
  Func "prepare_inputs.get_inputs.set_met_info" [] 0
    [Site f_prepare_inputs 260 0 []];
  Func "prepare_inputs.get_inputs.set_output_filenames" [] 0
    [Site f_prepare_inputs 263 0 []];
  Func "prepare_inputs.get_inputs.set_time_info" [] 0
    [Site f_prepare_inputs 258 0 []];
  Func "prepare_inputs.get_inputs.subset_ngen_csv_file" [] 0
    [Site f_prepare_inputs 294 0 []];
  Func "prepare_inputs.get_inputs.write_dem_as_rtg" ["rtg_file"] 1
    [Site f_prepare_inputs 276 0 []];
  Func "prepare_inputs.get_inputs.write_simple_rain_file" [] 0
    [Site f_prepare_inputs 292 0 []];
  Func "projections.Albers_q_for_Ellipsoid" ["lat"; "e"] 0
    [Site f_projections 143 2 []; Site f_projections 144 2 []; Site f_projections 145 2 []; Site f_projections 146 2 []];
  Func "regrid.bounds_disjoint" ["bounds1"; "bounds2"; "VERBOSE"] 1
    [Site f_regrid 432 2 ["VERBOSE"]; Site f_regrid 592 2 ["VERBOSE"]; Site f_regrid 1301 2 []; Site f_regrid 1681 2 []];
  Func "regrid.create_rts_from_chirps_files" ["rts_file"; "time_interval_hours"; "resample_algo"; "BARO_60"; "DEM_bounds"; "DEM_xres_sec"; "DEM_yres_sec"; "DEM_ncols"; "DEM_nrows"; "VERBOSE"; "SILENT"; "NON_NEGATIVE"] 12
    [Site f_prepare_inputs 1802 0 ["rts_file"; "time_interval_hours"; "resample_algo"; "NON_NEGATIVE"; "VERBOSE"; "DEM_bounds"; "DEM_xres_sec"; "DEM_yres_sec"; "DEM_ncols"; "DEM_nrows"]];
  Func "regrid.create_rts_from_nc_files" ["rts_file"; "NC4"; "var_name"; "GPM"; "resample_algo"; "BARO_60"; "IN_MEMORY"; "VERBOSE"; "DEM_bounds"; "DEM_xres_sec"; "DEM_yres_sec"; "DEM_ncols"; "DEM_nrows"; "SILENT"] 14
    [Site f_prepare_inputs 1820 0 ["rts_file"; "NC4"; "GPM"; "VERBOSE"; "DEM_bounds"; "DEM_xres_sec"; "DEM_yres_sec"; "DEM_ncols"; "DEM_nrows"; "resample_algo"]];
  Func "regrid.fix_gpm_file_as_geotiff" ["nc_file"; "var_name"; "out_file"; "out_nodata"; "VERBOSE"] 2
    [Site f_regrid 1255 3 ["out_nodata"]];
  Func "regrid.gdal_open_nc_file" ["nc_file"; "var_name"; "VERBOSE"] 1
    [Site f_regrid 1263 2 ["VERBOSE"]];
  Func "regrid.gdal_regrid_to_dem_grid" ["ds_in"; "tmp_file"; "DEM_bounds"; "DEM_xres_deg"; "DEM_yres_deg"; "nodata"; "RESAMPLE_ALGO"; "VERBOSE"; "IN_MEMORY"] 4
    [Site f_regrid 827 5 ["nodata"; "VERBOSE"; "RESAMPLE_ALGO"]; Site f_regrid 1320 5 ["nodata"; "IN_MEMORY"; "RESAMPLE_ALGO"]; Site f_regrid 1701 5 ["nodata"; "IN_MEMORY"; "RESAMPLE_ALGO"]];
  Func "regrid.get_raster_bounds" ["ds"; "VERBOSE"] 1
    [Site f_regrid 202 1 []; Site f_regrid 365 1 []; Site f_regrid 475 1 []; Site f_regrid 584 1 []; Site f_regrid 628 1 []; Site f_regrid 987 1 []; Site f_regrid 1300 1 ["VERBOSE"]; Site f_regrid 1680 1 ["VERBOSE"]];
  Func "regrid.get_raster_cellsize" ["gdal_unit"] 0
    [Site f_regrid 199 1 []; Site f_regrid 354 1 []; Site f_regrid 577 1 []; Site f_regrid 625 1 []];
  Func "regrid.read_geotiff" ["in_file"; "REPORT"; "MAKE_RTG"; "rtg_file"; "GEO"; "zres"; "z_units"; "box_units"; "data_source"] 9
    [Site f_indicators 1138 1 []; Site f_indicators 1307 1 []];
  Func "regrid.regrid_geotiff" ["in_file"; "out_file"; "out_bounds"; "GEO"; "out_xres_sec"; "out_yres_sec"; "out_xres_m"; "out_yres_m"; "RESAMPLE_ALGO"; "REPORT"] 10
    [Site f_indicators 1110 0 ["in_file"; "out_file"; "out_bounds"; "out_xres_sec"; "out_yres_sec"; "RESAMPLE_ALGO"; "REPORT"]; Site f_prepare_inputs 1213 0 ["in_file"; "out_file"; "out_bounds"; "out_xres_sec"; "out_yres_sec"; "RESAMPLE_ALGO"; "REPORT"]; Site f_regrid 58 0 []];
  Func "regrid.save_grid_to_geotiff" ["new_tif_file"; "grid"; "ulx"; "uly"; "xres"; "yres"; "dtype"; "nodata"] 2
    [Site f_regrid 802 6 []; Site f_regrid 1634 6 ["nodata"]];
  Func "rtg2rts.rtg2rts" ["RTG_prefix"; "new_RTS_file"; "nx"; "ny"; "dtype"] 3
    [Site f_rtg2rts 101 2 []; Site f_rtg2rts 103 2 ["nx"; "ny"]; Site f_rtg2rts 105 2 ["nx"; "ny"; "dtype"]];
  Func "rtg_files.read_grid" ["RTG_file"; "rti"; "RTG_type"; "REPORT"; "SILENT"] 3
    [Site f_d8_base 470 2 ["SILENT"]; Site f_d8_base 835 2 ["RTG_type"]; Site f_d8_global 167 2 ["RTG_type"]; Site f_d8_global 1318 2 ["RTG_type"]; Site f_d8_local 210 2 ["SILENT"]; Site f_d8_local 756 2 ["RTG_type"]; Site f_d8_local 2458 2 ["RTG_type"]; Site f_erode_base 517 2 ["RTG_type"]; Site f_ice_base 267 2 ["RTG_type"]; Site f_ice_base 280 2 ["RTG_type"]; Site f_met_base 994 2 ["RTG_type"]; Site f_met_base 1027 2 ["RTG_type"]; Site f_smooth_DEM 865 2 ["RTG_type"]; Site f_smooth_DEM 866 2 ["RTG_type"]; Site f_smooth_DEM 1430 2 ["RTG_type"]];
  Func "rtg_files.rtg_file.add_index_to_file_name" ["file_name"] 0
    [Site f_rtg_files 320 1 []];
  Func "rtg_files.rtg_file.check_and_store_info" ["file_name"; "info"; "var_name"; "dtype"; "MAKE_RTI"; "MAKE_BOV"] 5
    [Site f_rtg_files 327 6 []];
  Func "rtg_files.rtg_file.read_grid" ["dtype"; "rtg_type"; "REPORT"; "VERBOSE"] 4
    [Site f_rtg_files 452 1 []];
  Func "rtg_files.rtg_file.write_grid" ["grid"; "VERBOSE"] 1
    [Site f_rtg_files 379 1 []];
  Func "rtg_files.write_grid" ["grid"; "RTG_file"; "rti"; "RTG_type"; "REPORT"; "SILENT"] 3
    [Site f_d8_base 496 3 ["RTG_type"]; Site f_d8_local 226 3 []; Site f_d8_local 1992 3 []; Site f_d8_local 2095 3 []; Site f_d8_local 2432 3 []; Site f_erode_base 559 3 []; Site f_erode_base 698 3 ["RTG_type"]; Site f_erode_base 978 3 ["RTG_type"]; Site f_erode_base 981 3 []; Site f_erode_base 1215 3 []; Site f_erode_base 1383 3 []; Site f_erode_base 1527 3 []; Site f_erode_base 1670 3 []; Site f_erode_base 1804 3 []; Site f_erode_d8_global 1007 3 []; Site f_erode_d8_global 1143 3 []; Site f_erode_d8_global 1317 3 ["RTG_type"]; Site f_erode_d8_global 1324 3 []; Site f_erode_d8_global 1330 3 ["RTG_type"]; Site f_erode_d8_global 1337 3 ["RTG_type"]; Site f_erode_d8_global 1344 3 ["RTG_type"]; Site f_erode_d8_global 1351 3 ["RTG_type"]; Site f_erode_d8_global 1365 3 ["RTG_type"]; Site f_erode_d8_local 1510 3 ["RTG_type"]; Site f_erode_d8_local 1519 3 ["RTG_type"]; Site f_erode_d8_local 1525 3 ["RTG_type"]; Site f_erode_d8_local 1531 3 ["RTG_type"]; Site f_erode_d8_local 1537 3 ["RTG_type"]; Site f_erode_d8_local 5423 3 ["RTG_type"; "var_name"]; Site f_erode_d8_local 5443 3 ["RTG_type"; "var_name"]; Site f_erode_d8_local 5450 3 ["RTG_type"; "var_name"]; Site f_erode_d8_local 5466 3 ["RTG_type"; "var_name"]; Site f_erode_d8_local 5473 3 ["RTG_type"; "var_name"]; Site f_erode_d8_local 5480 3 ["RTG_type"; "var_name"]; Site f_erode_d8_local 5487 3 ["RTG_type"; "var_name"]; Site f_erode_d8_local 5494 3 ["RTG_type"; "var_name"]; Site f_erode_d8_local 5501 3 ["RTG_type"; "var_name"]; Site f_erode_d8_local 5508 3 ["RTG_type"; "var_name"]; Site f_erode_d8_local 5515 3 ["RTG_type"; "var_name"]; Site f_erode_d8_local 5522 3 ["RTG_type"; "var_name"]; Site f_erode_d8_local 5529 3 ["RTG_type"; "var_name"]; Site f_erode_d8_local 5536 3 ["RTG_type"; "var_name"]; Site f_smooth_DEM 533 3 ["RTG_type"]; Site f_smooth_DEM 536 3 []; Site f_prepare_inputs 1278 3 ["RTG_type"; "SILENT"]; Site f_prepare_inputs 1363 3 ["SILENT"]; Site f_prepare_inputs 1402 3 ["RTG_type"]; Site f_prepare_inputs 1411 3 ["RTG_type"; "SILENT"]; Site f_prepare_inputs 1441 3 ["RTG_type"; "SILENT"]];
  Func "rti_files.byte_swap_needed" ["file_name"; "info"] 1
    [Site f_rti_files 365 2 []];
  Func "rti_files.exists" ["RTI_file"; "SILENT"] 1
    [Site f_rti_files 99 1 ["SILENT"]; Site f_rti_files 108 1 ["SILENT"]];
  Func "rti_files.get_bpe" ["data_type"] 0
    [Site f_rti_files 60 1 []; Site f_rti_files 175 1 []; Site f_rti_files 363 1 []; Site f_rti_files 482 1 []];
  Func "rti_files.get_file_prefix" ["file_name"] 0
    [Site f_rti_files 82 1 []; Site f_rti_files 102 1 []];
  Func "rti_files.get_grid_size" ["file_name"] 0
    [Site f_rti_files 61 1 []];
  Func "rti_files.get_numpy_data_type" ["data_type"] 0
    [Site f_satzone_base 170 1 []];
  Func "rti_files.get_rti_byte_order" ["python_byte_order"] 1
    [Site f_rti_files 59 0 []; Site f_rti_files 198 0 []; Site f_rti_files 411 0 []; Site f_rti_files 479 0 []];
  Func "rti_files.get_rti_data_type" ["dtype"] 0
    [Site f_rti_files 455 1 []];
  Func "rti_files.get_rti_file_name" ["file_name"] 0
    [Site f_rti_files 97 1 []; Site f_rti_files 170 1 []; Site f_rti_files 195 1 []; Site f_rti_files 526 1 []];
  Func "rti_files.make_info" ["grid_file"; "ncols"; "nrows"; "xres"; "yres"; "data_source"; "data_type"; "byte_order"; "pixel_geom"; "zres"; "z_units"; "y_south_edge"; "y_north_edge"; "x_west_edge"; "x_east_edge"; "box_units"; "gmin"; "gmax"; "UTM_zone"; "dtype"; "SILENT"] 21
    [Site f_erode_base 208 0 ["grid_file"; "ncols"; "nrows"; "xres"; "yres"]; Site f_erode_base 238 5 []; Site f_hamiltonian 705 0 ["grid_file"; "ncols"; "nrows"; "xres"; "yres"; "data_source"; "dtype"; "pixel_geom"; "zres"; "z_units"; "box_units"]; Site f_rti_files 45 0 ["grid_file"; "ncols"; "nrows"; "xres"; "yres"; "SILENT"]];
  Func "rti_files.read_info" ["file_name"; "SILENT"; "REPORT"] 2
    [Site f_hamiltonian 218 1 ["SILENT"; "REPORT"]; Site f_prepare_inputs 1246 1 []; Site f_prepare_inputs 1256 1 []; Site f_prepare_inputs 1400 1 ["REPORT"]; Site f_prepare_inputs 1792 1 []; Site f_rti_files 53 1 ["REPORT"]; Site f_rti_files 172 1 []; Site f_rti_files 196 1 []; Site f_rti_files 437 1 []];
  Func "rti_files.read_value" ["RTI_unit"; "data_type"; "UPCASE"] 1
    [Site f_rti_files 331 2 []; Site f_rti_files 332 2 []; Site f_rti_files 333 2 []; Site f_rti_files 334 2 []; Site f_rti_files 335 2 ["UPCASE"]; Site f_rti_files 336 2 ["UPCASE"]; Site f_rti_files 337 2 []; Site f_rti_files 338 2 []; Site f_rti_files 339 2 []; Site f_rti_files 340 2 []; Site f_rti_files 341 2 ["UPCASE"]; Site f_rti_files 342 2 []; Site f_rti_files 343 2 []; Site f_rti_files 344 2 []; Site f_rti_files 345 2 []; Site f_rti_files 346 2 ["UPCASE"]; Site f_rti_files 347 2 []; Site f_rti_files 348 2 []; Site f_rti_files 349 2 ["UPCASE"]];
  Func "rti_files.try_to_find_rti_file" ["file_name"; "SILENT"] 1
    [Site f_rti_files 303 1 ["SILENT"]; Site f_rti_files 433 1 []];
  Func "rti_files.write_info" ["file_name"; "info"; "SILENT"] 1
    [Site f_erode_base 214 2 []; Site f_erode_base 240 2 []; Site f_hamiltonian 722 2 ["SILENT"]; Site f_rti_files 48 2 ["SILENT"]];
  Func "rts_files.rts_file.add_grid" ["grid"; "time_index"] 1
    [Site f_rts_files 438 1 ["time_index"]];
  Func "rts_files.rts_file.byte_swap_needed" [] 0
    [Site f_rts_files 162 0 []];
  Func "rts_files.rts_file.check_and_store_info" ["file_name"; "info"; "var_name"; "dtype"; "MAKE_RTI"; "MAKE_BOV"] 5
    [Site f_rts_files 334 6 []];
  Func "rts_files.rts_file.get_grid" ["time_index"; "dtype"] 1
    [Site f_rts_files 469 1 ["dtype"]];
  Func "rts_files.rts_file.number_of_grids" [] 0
    [Site f_rts_files 513 0 []];
  Func "rts_files.rts_file.read_grid" ["time_index"; "dtype"] 1
    [Site f_rts_files 534 0 ["time_index"]];
  Func "satzone_attenuate.satzone_component.get_attribute" ["att_name"] 0
    [Site f_infil_base 212 1 []; Site f_BMI_base 512 1 []; Site f_BMI_base 541 1 []; Site f_BMI_base 1496 1 []; Site f_BMI_base 1587 1 []];
  Func "satzone_attenuate.satzone_component.get_input_var_names" [] 0
    [Site f_BMI_base 313 0 []];
  Func "satzone_attenuate.satzone_component.get_output_var_names" [] 0
    [Site f_BMI_base 320 0 []];
  Func "satzone_attenuate.satzone_component.get_var_name" ["long_var_name"] 0
    [Site f_BMI_base 370 1 []; Site f_BMI_base 414 1 []; Site f_BMI_base 446 1 []; Site f_BMI_base 461 1 []; Site f_BMI_base 570 1 []; Site f_BMI_base 598 1 []; Site f_BMI_base 651 1 []; Site f_BMI_base 667 1 []];
  Func "satzone_attenuate.satzone_component.update_water_volume_change" [] 0
    [Site f_satzone_base 260 0 []];
  Func "satzone_base.satzone_component.close_input_files" [] 0
    [Site f_infil_base 370 0 []; Site f_satzone_base 299 0 []; Site f_BMI_base 296 0 []];
  Func "satzone_base.satzone_component.close_output_files" [] 0
    [Site f_infil_base 371 0 []; Site f_satzone_base 300 0 []; Site f_BMI_base 297 0 []];
  Func "satzone_base.satzone_component.disable_all_output" [] 0
    [Site f_infil_base 245 0 []; Site f_satzone_base 159 0 []];
  Func "satzone_base.satzone_component.finalize" [] 0
    [Site f_BMI_base 946 0 []];
  Func "satzone_base.satzone_component.initialize" ["cfg_file"; "mode"; "SILENT"] 3
    [Site f_BMI_base 897 0 ["cfg_prefix"; "mode"]];
  Func "satzone_base.satzone_component.initialize_computed_vars" [] 0
    [Site f_infil_base 288 0 []; Site f_satzone_base 217 0 []];
  Func "satzone_base.satzone_component.initialize_d8_vars" [] 0
    [Site f_satzone_base 194 0 []];
  Func "satzone_base.satzone_component.initialize_layer_vars" [] 0
    [Site f_BMI_base 1756 0 []];
  Func "satzone_base.satzone_component.initialize_water_table" [] 0
    [Site f_satzone_base 369 0 []];
  Func "satzone_base.satzone_component.initialize_wetted_thicknesses" [] 0
    [Site f_satzone_base 370 0 []];
  Func "satzone_base.satzone_component.open_input_files" [] 0
    [Site f_infil_base 266 0 []; Site f_satzone_base 199 0 []; Site f_BMI_base 246 0 []];
  Func "satzone_base.satzone_component.open_output_files" [] 0
    [Site f_infil_base 296 0 []; Site f_satzone_base 219 0 []];
  Func "satzone_base.satzone_component.read_input_files" [] 0
    [Site f_infil_base 269 0 []; Site f_infil_base 323 0 []; Site f_satzone_base 200 0 []; Site f_satzone_base 250 0 []; Site f_BMI_base 247 0 []];
  Func "satzone_base.satzone_component.save_grids" [] 0
    [Site f_infil_base 1366 0 []; Site f_satzone_base 1811 0 []];
  Func "satzone_base.satzone_component.save_pixel_values" [] 0
    [Site f_infil_base 1369 0 []; Site f_satzone_base 1813 0 []];
  Func "satzone_base.satzone_component.set_computed_input_vars" [] 0
    [Site f_infil_base 284 0 []];
  Func "satzone_base.satzone_component.set_constants" [] 0
    [Site f_infil_base 230 0 []; Site f_satzone_base 145 0 []];
  Func "satzone_base.satzone_component.update" ["dt"] 1
    [Site f_BMI_base 278 0 []; Site f_BMI_base 288 0 []; Site f_BMI_base 926 0 []; Site f_BMI_base 930 0 []];
  Func "satzone_base.satzone_component.update_GW_integral" [] 0
    [Site f_satzone_base 266 0 []];
  Func "satzone_base.satzone_component.update_Q_gw" [] 0
    [Site f_satzone_base 256 0 []];
  Func "satzone_base.satzone_component.update_Sh" [] 0
    [Site f_satzone_base 255 0 []];
  Func "satzone_base.satzone_component.update_outfile_names" [] 0
    [Site f_infil_base 1157 0 []; Site f_satzone_base 1726 0 []];
  Func "satzone_base.satzone_component.update_seep_rate" [] 0
    [Site f_satzone_base 264 0 []];
  Func "satzone_base.satzone_component.update_top_layer_for_ET" [] 0
    [Site f_satzone_base 258 0 []];
  Func "satzone_base.satzone_component.update_water_table" [] 0
    [Site f_satzone_base 262 0 []];
  Func "satzone_base.satzone_component.update_water_volume_change" [] 0
    [Site f_satzone_base 260 0 []];
  Func "satzone_base.satzone_component.write_output_files" ["time_seconds"] 1
    [Site f_infil_base 347 0 []; Site f_satzone_base 274 0 []];
  Func "satzone_darcy_layers.satzone_component.get_attribute" ["att_name"] 0
    [Site f_infil_base 212 1 []; Site f_BMI_base 512 1 []; Site f_BMI_base 541 1 []; Site f_BMI_base 1496 1 []; Site f_BMI_base 1587 1 []];
  Func "satzone_darcy_layers.satzone_component.get_input_var_names" [] 0
    [Site f_BMI_base 313 0 []];
  Func "satzone_darcy_layers.satzone_component.get_output_var_names" [] 0
    [Site f_BMI_base 320 0 []];
  Func "satzone_darcy_layers.satzone_component.get_var_name" ["long_var_name"] 0
    [Site f_BMI_base 370 1 []; Site f_BMI_base 414 1 []; Site f_BMI_base 446 1 []; Site f_BMI_base 461 1 []; Site f_BMI_base 570 1 []; Site f_BMI_base 598 1 []; Site f_BMI_base 651 1 []; Site f_BMI_base 667 1 []];
  Func "smooth_DEM.DEM_smoother.close_input_files" [] 0
    [Site f_smooth_DEM 391 0 []; Site f_BMI_base 296 0 []];
  Func "smooth_DEM.DEM_smoother.close_output_files" [] 0
    [Site f_smooth_DEM 392 0 []; Site f_BMI_base 297 0 []];
  Func "smooth_DEM.DEM_smoother.finalize" [] 0
    [Site f_BMI_base 946 0 []];
  Func "smooth_DEM.DEM_smoother.find_best_fit_c_and_p" ["weights"; "REPORT"] 2
    [Site f_smooth_DEM 303 0 []];
  Func "smooth_DEM.DEM_smoother.get_attribute" ["att_name"] 0
    [Site f_BMI_base 512 1 []; Site f_BMI_base 541 1 []; Site f_BMI_base 1496 1 []; Site f_BMI_base 1587 1 []]].
Definition calls_10 : list func := [
  Func "smooth_DEM.DEM_smoother.initialize" ["cfg_file"; "mode"; "SILENT"] 3
    [Site f_BMI_base 897 0 ["cfg_prefix"; "mode"]];
  Func "smooth_DEM.DEM_smoother.initialize_d8_vars" [] 0
    [Site f_smooth_DEM 329 0 []];
  Func "smooth_DEM.DEM_smoother.open_input_files" [] 0
    [Site f_smooth_DEM 323 0 []; Site f_BMI_base 246 0 []];
  Func "smooth_DEM.DEM_smoother.open_output_files" [] 0
    [Site f_smooth_DEM 332 0 []];
  Func "smooth_DEM.DEM_smoother.read_input_files" [] 0
    [Site f_smooth_DEM 324 0 []; Site f_BMI_base 247 0 []];
  Func "smooth_DEM.DEM_smoother.read_profile_data" ["n_header"] 1
    [Site f_smooth_DEM 302 0 []];
  Func "smooth_DEM.DEM_smoother.save_grids" [] 0
    [Site f_smooth_DEM 1585 0 []];
  Func "smooth_DEM.DEM_smoother.save_pixel_values" [] 0
    [Site f_smooth_DEM 1587 0 []];
  Func "smooth_DEM.DEM_smoother.set_constants" [] 0
    [Site f_smooth_DEM 278 0 []];
  Func "smooth_DEM.DEM_smoother.update" ["time_seconds"] 1
    [Site f_BMI_base 278 0 []; Site f_BMI_base 288 0 []; Site f_BMI_base 926 0 []; Site f_BMI_base 930 0 []];
  Func "smooth_DEM.DEM_smoother.update_DEM" [] 0
    [Site f_smooth_DEM 354 0 []];
  Func "smooth_DEM.DEM_smoother.update_d8_vars" ["SILENT"; "REPORT"; "SAVE_RTG"] 3
    [Site f_smooth_DEM 352 0 []];
  Func "smooth_DEM.DEM_smoother.update_outfile_names" [] 0
    [Site f_smooth_DEM 1481 0 []];
  Func "smooth_DEM.DEM_smoother.update_slopes" [] 0
    [Site f_smooth_DEM 353 0 []];
  Func "smooth_DEM.DEM_smoother.write_output_files" ["time_seconds"] 1
    [Site f_smooth_DEM 376 1 []];
  Func "snow_base.snow_component.check_input_types" [] 0
    [Site f_snow_base 206 0 []];
  Func "snow_base.snow_component.close_input_files" [] 0
    [Site f_snow_base 291 0 []; Site f_BMI_base 296 0 []];
  Func "snow_base.snow_component.close_output_files" [] 0
    [Site f_snow_base 292 0 []; Site f_BMI_base 297 0 []];
  Func "snow_base.snow_component.disable_all_output" [] 0
    [Site f_snow_base 179 0 []];
  Func "snow_base.snow_component.enforce_max_meltrate" [] 0
    [Site f_snow_base 252 0 []];
  Func "snow_base.snow_component.finalize" [] 0
    [Site f_BMI_base 946 0 []];
  Func "snow_base.snow_component.initialize" ["cfg_file"; "mode"; "SILENT"] 3
    [Site f_BMI_base 897 0 ["cfg_prefix"; "mode"]];
  Func "snow_base.snow_component.initialize_cold_content" [] 0
    [Site f_snow_base 427 0 []];
  Func "snow_base.snow_component.initialize_computed_vars" [] 0
    [Site f_snow_base 207 0 []];
  Func "snow_base.snow_component.open_input_files" [] 0
    [Site f_snow_base 200 0 []; Site f_BMI_base 246 0 []];
  Func "snow_base.snow_component.open_output_files" [] 0
    [Site f_snow_base 209 0 []];
  Func "snow_base.snow_component.read_input_files" [] 0
    [Site f_snow_base 201 0 []; Site f_snow_base 246 0 []; Site f_BMI_base 247 0 []];
  Func "snow_base.snow_component.save_grids" [] 0
    [Site f_snow_base 872 0 []];
  Func "snow_base.snow_component.save_pixel_values" [] 0
    [Site f_snow_base 874 0 []];
  Func "snow_base.snow_component.set_constants" [] 0
    [Site f_snow_base 166 0 []];
  Func "snow_base.snow_component.set_missing_cfg_options" [] 0
    [Site f_snow_base 168 0 []];
  Func "snow_base.snow_component.update" ["dt"] 1
    [Site f_BMI_base 278 0 []; Site f_BMI_base 288 0 []; Site f_BMI_base 926 0 []; Site f_BMI_base 930 0 []];
  Func "snow_base.snow_component.update_SM_integral" [] 0
    [Site f_snow_base 253 0 []];
  Func "snow_base.snow_component.update_cold_content" [] 0
    [Site f_snow_base 254 0 []];
  Func "snow_base.snow_component.update_density_ratio" [] 0
    [Site f_snow_base 260 0 []];
  Func "snow_base.snow_component.update_depth" [] 0
    [Site f_snow_base 261 0 []];
  Func "snow_base.snow_component.update_meltrate" [] 0
    [Site f_snow_base 251 0 []];
  Func "snow_base.snow_component.update_outfile_names" [] 0
    [Site f_snow_base 791 0 []];
  Func "snow_base.snow_component.update_swe" [] 0
    [Site f_snow_base 259 0 []];
  Func "snow_base.snow_component.update_total_snowpack_water_volume" [] 0
    [Site f_snow_base 290 0 []; Site f_snow_base 410 0 []];
  Func "snow_base.snow_component.write_output_files" ["time_seconds"] 1
    [Site f_snow_base 268 0 []];
  Func "snow_degree_day.snow_component.check_input_types" [] 0
    [Site f_snow_base 206 0 []];
  Func "snow_degree_day.snow_component.close_input_files" [] 0
    [Site f_snow_base 291 0 []; Site f_BMI_base 296 0 []];
  Func "snow_degree_day.snow_component.get_attribute" ["att_name"] 0
    [Site f_BMI_base 512 1 []; Site f_BMI_base 541 1 []; Site f_BMI_base 1496 1 []; Site f_BMI_base 1587 1 []];
  Func "snow_degree_day.snow_component.get_component_name" [] 0
    [Site f_snow_base 358 0 []];
  Func "snow_degree_day.snow_component.get_input_var_names" [] 0
    [Site f_BMI_base 313 0 []];
  Func "snow_degree_day.snow_component.get_output_var_names" [] 0
    [Site f_BMI_base 320 0 []];
  Func "snow_degree_day.snow_component.get_var_name" ["long_var_name"] 0
    [Site f_BMI_base 370 1 []; Site f_BMI_base 414 1 []; Site f_BMI_base 446 1 []; Site f_BMI_base 461 1 []; Site f_BMI_base 570 1 []; Site f_BMI_base 598 1 []; Site f_BMI_base 651 1 []; Site f_BMI_base 667 1 []];
  Func "snow_degree_day.snow_component.initialize_input_file_vars" [] 0
    [Site f_snow_base 195 0 []];
  Func "snow_degree_day.snow_component.open_input_files" [] 0
    [Site f_snow_base 200 0 []; Site f_BMI_base 246 0 []];
  Func "snow_degree_day.snow_component.read_input_files" [] 0
    [Site f_snow_base 201 0 []; Site f_snow_base 246 0 []; Site f_BMI_base 247 0 []];
  Func "snow_degree_day.snow_component.set_missing_cfg_options" [] 0
    [Site f_snow_base 168 0 []];
  Func "snow_degree_day.snow_component.update_meltrate" [] 0
    [Site f_snow_base 251 0 []];
  Func "snow_energy_balance.snow_component.check_input_types" [] 0
    [Site f_snow_base 206 0 []];
  Func "snow_energy_balance.snow_component.close_input_files" [] 0
    [Site f_snow_base 291 0 []; Site f_BMI_base 296 0 []];
  Func "snow_energy_balance.snow_component.get_attribute" ["att_name"] 0
    [Site f_BMI_base 512 1 []; Site f_BMI_base 541 1 []; Site f_BMI_base 1496 1 []; Site f_BMI_base 1587 1 []];
  Func "snow_energy_balance.snow_component.get_component_name" [] 0
    [Site f_snow_base 358 0 []];
  Func "snow_energy_balance.snow_component.get_input_var_names" [] 0
    [Site f_BMI_base 313 0 []];
  Func "snow_energy_balance.snow_component.get_output_var_names" [] 0
    [Site f_BMI_base 320 0 []];
  Func "snow_energy_balance.snow_component.get_var_name" ["long_var_name"] 0
    [Site f_BMI_base 370 1 []; Site f_BMI_base 414 1 []; Site f_BMI_base 446 1 []; Site f_BMI_base 461 1 []; Site f_BMI_base 570 1 []; Site f_BMI_base 598 1 []; Site f_BMI_base 651 1 []; Site f_BMI_base 667 1 []];
  Func "snow_energy_balance.snow_component.initialize_input_file_vars" [] 0
    [Site f_snow_base 195 0 []];
  Func "snow_energy_balance.snow_component.open_input_files" [] 0
    [Site f_snow_base 200 0 []; Site f_BMI_base 246 0 []];
  Func "snow_energy_balance.snow_component.read_input_files" [] 0
    [Site f_snow_base 201 0 []; Site f_snow_base 246 0 []; Site f_BMI_base 247 0 []];
  Func "snow_energy_balance.snow_component.update_cold_content" [] 0
    [Site f_snow_base 254 0 []];
  Func "snow_energy_balance.snow_component.update_meltrate" [] 0
    [Site f_snow_base 251 0 []];
  Func "soil_base.soil_base.K_of_theta" ["theta"; "REPORT"] 1
    [Site f_soil_base 410 1 []];
  Func "soil_base.soil_base.initialize" ["cfg_file"; "REPORT"] 2
    [Site f_BMI_base 897 0 ["cfg_prefix"; "mode"]];
  Func "soil_base.soil_base.soil_type_list" ["FORM2"] 1
    [Site f_soil_base 329 0 ["FORM2"]];
  Func "soil_base.soil_base.theta_field" ["REPORT"] 1
    [Site f_soil_base 390 0 []; Site f_soil_base 397 0 []];
  Func "soil_base.soil_base.theta_max" ["r0"; "REPORT"] 1
    [Site f_soil_base 398 1 []];
  Func "soil_base.soil_base.theta_min" ["REPORT"] 1
    [Site f_soil_base 395 0 []];
  Func "soil_base.soil_base.theta_residual" ["REPORT"] 1
    [Site f_soil_base 384 0 []];
  Func "soil_base.soil_base.theta_wilting" ["REPORT"] 1
    [Site f_soil_base 396 0 []];
  Func "soil_funcs.K_of_Theta" ["theta"; "K_s"; "theta_s"; "theta_r"; "_lambda"; "REPORT"] 1
    [Site f_soil_funcs 372 5 []];
  Func "soil_funcs.Soil_Types" ["FORM2"] 1
    [Site f_soil_funcs 298 0 ["FORM2"]];
  Func "soil_funcs.Theta_Field" ["theta_s"; "theta_r"; "psi_B"; "psi_A"; "c"; "_lambda"; "REPORT"] 1
    [Site f_soil_funcs 359 6 []];
  Func "soil_funcs.Theta_Residual" ["theta_s"; "psi_B"; "_lambda"; "REPORT"] 1
    [Site f_soil_funcs 353 3 []];
  Func "soil_trans_BC.K_of_psi" ["p"; "pB"; "pA"; "Ks"; "eta"; "c"; "REPORT"] 1
    [Site f_infil_richards_1D 1979 6 []; Site f_infil_richards_1D 1980 6 []; Site f_infil_richards_1D 1981 6 []; Site f_infil_richards_1D 1982 6 []; Site f_infil_richards_1D 2048 6 []; Site f_infil_richards_1D 2049 6 []; Site f_infil_richards_1D 2050 6 []; Site f_infil_richards_1D 2051 6 []];
  Func "soil_trans_BC.K_of_sat" ["Se"; "Ks"; "lam"; "eta"; "REPORT"] 1
    [Site f_infil_richards_1D 1879 4 []; Site f_infil_richards_1D 1898 4 []];
  Func "soil_trans_BC.K_of_theta" ["q"; "Ks"; "qs"; "qr"; "lam"; "REPORT"] 1
    [Site f_infil_richards_1D 841 5 []; Site f_infil_richards_1D 910 5 []];
  Func "soil_trans_BC.psi_of_sat" ["Se"; "lam"; "c"; "pB"; "pA"; "MIN_VALUE"; "REPORT"] 2
    [Site f_infil_richards_1D 1505 5 []; Site f_infil_richards_1D 1531 5 []];
  Func "soil_trans_BC.theta_of_psi" ["p"; "qs"; "qr"; "pB"; "pA"; "c"; "lam"; "REPORT"; "CM_TO_M"] 2
    [Site f_infil_richards_1D 491 7 []; Site f_infil_richards_1D 894 7 []; Site f_infil_richards_1D 902 7 []; Site f_infil_richards_1D 2581 7 []];
  Func "solar_funcs.Atmospheric_Transmissivity" ["lat_deg"; "Julian_day"; "W_p"; "th"; "gamma_dust"] 1
    [Site f_solar_funcs 610 5 []; Site f_solar_funcs 884 5 []];
  Func "solar_funcs.BS_Radiation_Flux" ["lat_deg"; "Julian_day"; "W_p"; "albedo"; "th"; "gamma_dust"] 1
    [Site f_solar_funcs 891 6 []];
  Func "solar_funcs.Clear_Sky_Radiation" ["lat_deg"; "Julian_day"; "W_p"; "TSN_offset"; "alpha"; "beta"; "albedo"; "gamma_dust"; "REPORT"] 1
    [Site f_met_base 2060 8 []];
  Func "solar_funcs.Current_Year" [] 0
    [Site f_met_base 897 0 []; Site f_solar_funcs 1136 0 []; Site f_solar_funcs 1142 0 []; Site f_solar_funcs 1244 0 []; Site f_solar_funcs 1379 0 []];
  Func "solar_funcs.Day_Angle" ["Julian_day"; "DEGREES"] 1
    [Site f_solar_funcs 344 1 []; Site f_solar_funcs 364 1 []; Site f_solar_funcs 581 1 []; Site f_solar_funcs 625 1 []; Site f_solar_funcs 771 1 []; Site f_solar_funcs 796 1 []; Site f_solar_funcs 836 1 []];
  Func "solar_funcs.Days_Per_Year" ["SIDEREAL"] 1
    [Site f_solar_funcs 1056 0 ["SIDEREAL"]; Site f_solar_funcs 1114 0 []; Site f_solar_funcs 1268 0 []];
  Func "solar_funcs.Declination" ["day_angle"; "DEGREES"; "DMS"] 2
    [Site f_solar_funcs 345 1 ["DEGREES"]; Site f_solar_funcs 365 1 []; Site f_solar_funcs 582 1 []; Site f_solar_funcs 626 1 []; Site f_solar_funcs 772 1 []; Site f_solar_funcs 797 1 []; Site f_solar_funcs 837 1 []];
  Func "solar_funcs.Dew_Point" ["T"; "rel_humidity"] 0
    [Site f_solar_funcs 470 2 []];
  Func "solar_funcs.Diffuse_Radiation_Flux" ["lat_deg"; "Julian_day"; "W_p"; "th"; "gamma_dust"] 1
    [Site f_solar_funcs 662 5 []; Site f_solar_funcs 889 5 []];
  Func "solar_funcs.Direct_Radiation_Flux" ["lat_deg"; "Julian_day"; "W_p"; "th"; "gamma_dust"] 1
    [Site f_solar_funcs 659 5 []];
  Func "solar_funcs.Dust_Attenuation" [] 0
    [Site f_solar_funcs 579 0 []; Site f_solar_funcs 608 0 []; Site f_solar_funcs 623 0 []; Site f_solar_funcs 642 0 []; Site f_solar_funcs 657 0 []; Site f_solar_funcs 680 0 []];
  Func "solar_funcs.ET_Radiation_Flux" ["lat_deg"; "Julian_day"; "th"] 0
    [Site f_solar_funcs 612 3 []; Site f_solar_funcs 646 3 []];
  Func "solar_funcs.ET_Radiation_Flux_Slope" ["lat_deg"; "Julian_day"; "th"; "alpha"; "beta"] 0
    [Site f_solar_funcs 887 5 []];
  Func "solar_funcs.Earth_Angular_Velocity" [] 0
    [Site f_solar_funcs 262 0 []; Site f_solar_funcs 300 0 []; Site f_solar_funcs 328 0 []; Site f_solar_funcs 362 0 []; Site f_solar_funcs 756 0 []; Site f_solar_funcs 834 0 []];
  Func "solar_funcs.Earth_Orbit_Eccentricity" [] 0
    [Site f_solar_funcs 1254 0 []];
  Func "solar_funcs.Earth_Perihelion" ["year"] 1
    [Site f_solar_funcs 1274 1 []];
  Func "solar_funcs.Earth_Rotation_Rate" ["PER_HOUR"] 1
    [Site f_solar_funcs 1337 0 ["PER_HOUR"]];
  Func "solar_funcs.Earth_Tilt_Angle" ["DEGREES"] 1
    [Site f_solar_funcs 1261 0 []]].
Definition calls_11 : list func := [
  Func "solar_funcs.Eccentricity_Correction" ["day_angle"] 0
    [Site f_solar_funcs 366 1 []; Site f_solar_funcs 838 1 []];
  Func "solar_funcs.Equation_Of_Time" ["Julian_day"; "year"; "DEGREES"; "DMS"] 3
    [Site f_solar_funcs 1385 1 ["year"]];
  Func "solar_funcs.Equivalent_Latitude" ["lat_deg"; "alpha"; "beta"; "DEGREES"] 1
    [Site f_solar_funcs 773 3 ["DEGREES"]; Site f_solar_funcs 798 3 ["DEGREES"]; Site f_solar_funcs 840 3 []];
  Func "solar_funcs.Global_Radiation_Flux" ["lat_deg"; "Julian_day"; "W_p"; "th"; "gamma_dust"] 1
    [Site f_solar_funcs 685 5 []];
  Func "solar_funcs.Julian_Day" ["month_num"; "day_num"; "hour_num"; "year"] 2
    [Site f_met_base 1236 3 ["year"]; Site f_met_base 1956 2 ["hour_num"; "year"]; Site f_solar_funcs 1170 3 []];
  Func "solar_funcs.Latitude_Grid" ["info"] 0
    [Site f_met_base 1142 1 []];
  Func "solar_funcs.Longitude_Grid" ["info"] 0
    [Site f_met_base 1141 1 []];
  Func "solar_funcs.Longitude_Offset" ["lat_deg"; "alpha"; "beta"] 0
    [Site f_solar_funcs 755 3 []; Site f_solar_funcs 841 3 []];
  Func "solar_funcs.Noon_Offset_Slope" ["lat_deg"; "alpha"; "beta"] 0
    [Site f_solar_funcs 775 3 []; Site f_solar_funcs 800 3 []];
  Func "solar_funcs.Optical_Air_Mass" ["lat_deg"; "declination"; "th"] 0
    [Site f_solar_funcs 588 3 []; Site f_solar_funcs 630 3 []];
  Func "solar_funcs.Saturation_Vapor_Pressure" ["T"; "method"; "MBAR"] 2
    [Site f_solar_funcs 444 1 ["MBAR"]];
  Func "solar_funcs.Scattering_Attenuation" ["lat_deg"; "Julian_day"; "W_p"; "th"; "gamma_dust"] 1
    [Site f_solar_funcs 644 5 []; Site f_solar_funcs 682 5 []];
  Func "solar_funcs.Solar_Constant" [] 0
    [Site f_solar_funcs 361 0 []; Site f_solar_funcs 833 0 []];
  Func "solar_funcs.Sunrise_Offset" ["lat_deg"; "declination"] 0
    [Site f_solar_funcs 347 2 []; Site f_solar_funcs 776 2 []; Site f_solar_funcs 782 2 []];
  Func "solar_funcs.Sunrise_Offset_Slope" ["lat_deg"; "Julian_day"; "alpha"; "beta"] 0
    [Site f_solar_funcs 815 4 []; Site f_solar_funcs 917 4 []];
  Func "solar_funcs.Sunset_Offset" ["lat_deg"; "declination"] 0
    [Site f_solar_funcs 348 2 []; Site f_solar_funcs 801 2 []; Site f_solar_funcs 807 2 []];
  Func "solar_funcs.Sunset_Offset_Slope" ["lat_deg"; "Julian_day"; "alpha"; "beta"] 0
    [Site f_solar_funcs 816 4 []; Site f_solar_funcs 918 4 []];
  Func "solar_funcs.True_Solar_Noon" ["Julian_day"; "longitude"; "GMT_offset"; "DST_offset"; "year"] 3
    [Site f_met_base 1974 3 ["DST_offset"; "year"]];
  Func "solar_funcs.Vapor_Pressure" ["T"; "rel_humidity"; "MBAR"] 1
    [Site f_solar_funcs 456 2 ["MBAR"]];
  Func "solar_funcs.Vernal_Equinox" ["year"] 0
    [Site f_solar_funcs 1301 1 []];
  Func "solar_funcs.Zenith_Angle" ["lat_deg"; "declination"; "th"] 0
    [Site f_solar_funcs 278 3 []; Site f_solar_funcs 528 3 []];
  Func "svo_names.get_short_name_map" [] 0
    [Site f_svo_names 39 0 []; Site f_svo_names 51 0 []];
  Func "svo_names.get_svo_name" ["short_name"] 0
    [Site f_svo_names 23 1 []];
  Func "svo_names.get_svo_name_map" [] 0
    [Site f_svo_names 31 0 []];
  Func "template_files.get_replacements" ["var_names"; "values"; "method"] 3
    [Site f_template_files 58 0 []];
  Func "text_ts_files.ts_file.add_values" ["time"; "values"] 0
    [Site f_text_ts_files 166 2 []];
  Func "text_ts_files.ts_file.values_at_IDs" ["var"; "IDs"] 0
    [Site f_text_ts_files 165 2 []];
  Func "text_ts_files.ts_file.write_header" ["var_names"; "SILENT"] 1
    [Site f_text_ts_files 108 1 []];
  Func "tf_d8_base.d8_component.get_attribute" ["att_name"] 0
    [Site f_tf_d8_base 155 1 []];
  Func "tf_d8_base.d8_component.get_edge_IDs" [] 0
    [Site f_tf_d8_base 183 0 []; Site f_tf_d8_base 582 0 []];
  Func "tf_d8_base.d8_component.get_flow_code_list" ["ARC"] 1
    [Site f_tf_d8_base 173 0 []];
  Func "tf_d8_base.d8_component.get_flow_code_list_opps" ["ARC"] 1
    [Site f_tf_d8_base 174 0 []];
  Func "tf_d8_base.d8_component.get_flow_from_IDs" [] 0
    [Site f_tf_d8_base 181 0 []];
  Func "tf_d8_base.d8_component.get_flow_length_grid" ["DOUBLE"] 1
    [Site f_tf_d8_base 187 0 []];
  Func "tf_d8_base.d8_component.get_flow_to_IDs" [] 0
    [Site f_tf_d8_base 182 0 []];
  Func "tf_d8_base.d8_component.get_flow_width_grid" ["DOUBLE"; "METHOD2"] 2
    [Site f_tf_d8_base 186 0 []];
  Func "tf_d8_base.d8_component.get_noflow_IDs" [] 0
    [Site f_tf_d8_base 184 0 []];
  Func "tf_d8_base.d8_component.get_parent_ID_grid" [] 0
    [Site f_tf_d8_base 177 0 []];
  Func "tf_d8_base.d8_component.get_parent_IDs" [] 0
    [Site f_tf_d8_base 179 0 []];
  Func "tf_d8_base.d8_component.get_parent_inc_map" [] 0
    [Site f_tf_d8_base 176 0 []];
  Func "tf_d8_base.d8_component.read_flow_grid" [] 0
    [Site f_tf_d8_base 171 0 []];
  Func "tf_utils.Not_Same_Byte_Order" ["byte_order"] 0
    [Site f_tf_utils 626 1 []];
  Func "tf_utils.TF_Build_Date" [] 0
    [Site f_tf_utils 73 0 []];
  Func "tf_utils.TF_Print" ["string"] 0
    [Site f_infil_green_ampt 700 1 []; Site f_infil_green_ampt 701 1 []; Site f_infil_green_ampt 759 1 []; Site f_infil_green_ampt 760 1 []; Site f_infil_green_ampt 761 1 []; Site f_infil_green_ampt 762 1 []; Site f_infil_green_ampt 763 1 []; Site f_infil_green_ampt 764 1 []; Site f_infil_green_ampt 913 1 []; Site f_infil_green_ampt 914 1 []; Site f_infil_green_ampt 915 1 []; Site f_infil_green_ampt 916 1 []; Site f_infil_green_ampt 917 1 []; Site f_infil_green_ampt 918 1 []; Site f_infil_smith_parlange 712 1 []; Site f_infil_smith_parlange 713 1 []; Site f_infil_smith_parlange 775 1 []; Site f_infil_smith_parlange 776 1 []; Site f_infil_smith_parlange 777 1 []; Site f_infil_smith_parlange 778 1 []; Site f_infil_smith_parlange 779 1 []; Site f_infil_smith_parlange 780 1 []; Site f_infil_smith_parlange 947 1 []; Site f_infil_smith_parlange 948 1 []; Site f_infil_smith_parlange 949 1 []; Site f_infil_smith_parlange 950 1 []; Site f_infil_smith_parlange 951 1 []; Site f_infil_smith_parlange 952 1 []];
  Func "tf_utils.TF_Set_Test_Info" ["self"] 0
    [Site f_infil_richards_1D 156 1 []];
  Func "tf_utils.TF_String" ["number"; "FORMAT"] 1
    [Site f_infil_smith_parlange 712 1 []; Site f_topoflow_driver 1403 1 ["FORMAT"]; Site f_topoflow_driver 1404 1 ["FORMAT"]; Site f_topoflow_driver 1406 1 ["FORMAT"]; Site f_topoflow_driver 1407 1 ["FORMAT"]; Site f_topoflow_driver 1409 1 ["FORMAT"]; Site f_topoflow_driver 1410 1 ["FORMAT"]; Site f_tf_utils 222 1 []; Site f_tf_utils 223 1 []; Site f_tf_utils 359 1 []; Site f_tf_utils 467 1 []; Site f_tf_utils 639 1 []; Site f_tf_utils 640 1 []; Site f_tf_utils 641 1 []; Site f_tf_utils 642 1 []];
  Func "tf_utils.TF_Version" [] 0
    [Site f_topoflow_driver 1074 0 []];
  Func "tf_utils.TF_Version_Number" [] 0
    [Site f_tf_utils 72 0 []];
  Func "tf_utils.file_exists" ["filename"] 0
    [Site f_diversions_fraction_method 272 1 []; Site f_diversions_fraction_method 347 1 []; Site f_diversions_fraction_method 436 1 []];
  Func "time_interpolation.time_interpolator.convert_time_units" ["in_time"; "in_units"] 0
    [Site f_time_interpolation 247 2 []; Site f_time_interpolation 271 2 []; Site f_time_interpolation 349 2 []; Site f_time_interpolation 436 2 []; Site f_time_interpolation 541 2 []];
  Func "time_interpolation.time_interpolator.update" ["comp_name"; "time"] 0
    [Site f_time_interpolation 587 2 []];
  Func "time_utils.convert_times_from_datetime_to_minutes" ["times_datetime"; "origin_datetime_obj"] 1
    [Site f_calibrate 529 2 []; Site f_calibrate 535 2 []];
  Func "time_utils.convert_times_from_hhmm_to_minutes" ["times_hhmm"] 0
    [Site f_calibrate 509 1 []];
  Func "time_utils.get_current_datetime" ["start_datetime"; "time"; "time_units"] 0
    [Site f_met_base 1946 2 ["time_units"]; Site f_visualize 801 3 []];
  Func "time_utils.get_datetime_from_time_since" ["origin_datetime_obj"; "time_since"; "units"] 1
    [Site f_time_utils 196 2 ["units"]; Site f_time_utils 210 2 ["units"]; Site f_time_utils 542 2 ["units"]];
  Func "time_utils.get_datetime_obj_from_one_str" ["datetime_str"] 0
    [Site f_calibrate 528 1 []; Site f_calibrate 534 1 []; Site f_time_utils 189 1 []; Site f_time_utils 209 1 []; Site f_time_utils 523 1 []];
  Func "time_utils.get_datetime_str" ["y"; "m1"; "d"; "h"; "m2"; "s"] 0
    [Site f_met_base 1240 6 []];
  Func "time_utils.get_month_difference" ["start_datetime_obj"; "end_datetime_obj"] 0
    [Site f_time_utils 150 2 []];
  Func "time_utils.get_time_since_from_datetime" ["origin_datetime_obj"; "datetime_obj"; "units"] 1
    [Site f_time_utils 524 2 ["units"]];
  Func "time_utils.pad_with_zeros" ["num"; "target_len"] 0
    [Site f_time_utils 218 2 []; Site f_time_utils 219 2 []; Site f_time_utils 222 2 []; Site f_time_utils 223 2 []; Site f_time_utils 224 2 []];
  Func "time_utils.split_date_str" ["date_str"; "date_sep"] 1
    [Site f_time_utils 253 1 []; Site f_time_utils 271 1 []; Site f_time_utils 304 1 []];
  Func "time_utils.split_datetime_str" ["datetime_obj"; "datetime_sep"; "ALL"] 2
    [Site f_met_base 1949 1 ["ALL"]; Site f_indicators 336 1 ["ALL"]; Site f_indicators 640 1 ["ALL"]; Site f_indicators 911 1 ["ALL"]; Site f_time_utils 270 1 []];
  Func "time_utils.split_time_str" ["time_str"; "time_sep"] 1
    [Site f_time_utils 254 1 []; Site f_time_utils 272 1 []; Site f_time_utils 305 1 []];
  Func "time_utils.standardize_datetime_str" ["datetime_str"] 0
    [Site f_calibrate 165 1 []; Site f_time_utils 522 1 []];
  Func "topoflow_driver.topoflow_driver.add_basic_info_to_report" [] 0
    [Site f_topoflow_driver 1364 0 []];
  Func "topoflow_driver.topoflow_driver.add_flux_volumes_to_report" [] 0
    [Site f_topoflow_driver 1367 0 []];
  Func "topoflow_driver.topoflow_driver.add_mass_balance_to_report" [] 0
    [Site f_topoflow_driver 1369 0 []];
  Func "topoflow_driver.topoflow_driver.add_mins_and_maxes_to_report" [] 0
    [Site f_topoflow_driver 1366 0 []];
  Func "topoflow_driver.topoflow_driver.add_peak_info_to_report" [] 0
    [Site f_topoflow_driver 1365 0 []];
  Func "topoflow_driver.topoflow_driver.add_storage_volumes_to_report" [] 0
    [Site f_topoflow_driver 1368 0 []];
  Func "topoflow_driver.topoflow_driver.check_finished" [] 0
    [Site f_BMI_base 941 0 []; Site f_BMI_base 1088 0 []];
  Func "topoflow_driver.topoflow_driver.check_steady_state" [] 0
    [Site f_topoflow_driver 724 0 []];
  Func "topoflow_driver.topoflow_driver.finalize" [] 0
    [Site f_topoflow_driver 847 0 []; Site f_BMI_base 946 0 []];
  Func "topoflow_driver.topoflow_driver.get_attribute" ["att_name"] 0
    [Site f_BMI_base 512 1 []; Site f_BMI_base 541 1 []; Site f_BMI_base 1496 1 []; Site f_BMI_base 1587 1 []];
  Func "topoflow_driver.topoflow_driver.get_input_var_names" [] 0
    [Site f_BMI_base 313 0 []];
  Func "topoflow_driver.topoflow_driver.get_output_var_names" [] 0
    [Site f_BMI_base 320 0 []];
  Func "topoflow_driver.topoflow_driver.get_var_name" ["long_var_name"] 0
    [Site f_BMI_base 370 1 []; Site f_BMI_base 414 1 []; Site f_BMI_base 446 1 []; Site f_BMI_base 461 1 []; Site f_BMI_base 570 1 []; Site f_BMI_base 598 1 []; Site f_BMI_base 651 1 []; Site f_BMI_base 667 1 []];
  Func "topoflow_driver.topoflow_driver.initialize" ["cfg_file"; "mode"; "SILENT"] 3
    [Site f_BMI_base 897 0 ["cfg_prefix"; "mode"]];
  Func "topoflow_driver.topoflow_driver.initialize_stop_vars" [] 0
    [Site f_topoflow_driver 470 0 []];
  Func "topoflow_driver.topoflow_driver.initialize_time_vars" [] 0
    [Site f_topoflow_driver 469 0 []; Site f_BMI_base 241 0 []];
  Func "topoflow_driver.topoflow_driver.print_final_report" [] 0
    [Site f_topoflow_driver 579 0 []];
  Func "topoflow_driver.topoflow_driver.set_constants" [] 0
    [Site f_topoflow_driver 446 0 []];
  Func "topoflow_driver.topoflow_driver.set_missing_cfg_options" [] 0
    [Site f_topoflow_driver 448 0 []];
  Func "topoflow_driver.topoflow_driver.update" ["dt"] 1
    [Site f_BMI_base 278 0 []; Site f_BMI_base 288 0 []; Site f_BMI_base 926 0 []; Site f_BMI_base 930 0 []];
  Func "topoflow_driver.topoflow_driver.vol_str" ["value"] 0
    [Site f_topoflow_driver 1165 1 []; Site f_topoflow_driver 1166 1 []; Site f_topoflow_driver 1167 1 []; Site f_topoflow_driver 1168 1 []; Site f_topoflow_driver 1169 1 []; Site f_topoflow_driver 1170 1 []; Site f_topoflow_driver 1171 1 []; Site f_topoflow_driver 1172 1 []; Site f_topoflow_driver 1173 1 []; Site f_topoflow_driver 1174 1 []; Site f_topoflow_driver 1175 1 []; Site f_topoflow_driver 1180 1 []; Site f_topoflow_driver 1181 1 []; Site f_topoflow_driver 1182 1 []; Site f_topoflow_driver 1274 1 []; Site f_topoflow_driver 1275 1 []; Site f_topoflow_driver 1276 1 []; Site f_topoflow_driver 1277 1 []; Site f_topoflow_driver 1278 1 []; Site f_topoflow_driver 1282 1 []; Site f_topoflow_driver 1283 1 []; Site f_topoflow_driver 1284 1 []; Site f_topoflow_driver 1285 1 []; Site f_topoflow_driver 1286 1 []; Site f_topoflow_driver 1289 1 []; Site f_topoflow_driver 1343 1 []; Site f_topoflow_driver 1344 1 []; Site f_topoflow_driver 1345 1 []; Site f_topoflow_driver 1350 1 []];
  Func "visualize.create_media_files" ["output_dir"; "media_dir"; "topo_dir"; "met_dir"; "misc_dir"; "site_prefix"; "case_prefix"; "movie_fps"; "dpi"; "DEM_ncols"; "DEM_nrows"; "xsize2D"; "ysize2D"; "start_date"; "end_date"; "time_interval_hours"; "STAT_MOVIES"] 17
    [Site f_topoflow_driver 616 0 ["output_dir"; "media_dir"; "topo_dir"; "met_dir"; "misc_dir"; "site_prefix"; "case_prefix"; "DEM_ncols"; "DEM_nrows"; "movie_fps"; "start_date"; "end_date"; "time_interval_hours"; "STAT_MOVIES"]];
  Func "visualize.create_met_movies" ["met_dir"; "media_dir"; "movie_fps"; "dpi"; "DEM_ncols"; "DEM_nrows"; "xsize2D"; "ysize2D"; "start_datetime"; "time_interval_hours"; "rts_files"] 11
    [Site f_visualize 1710 0 ["met_dir"; "media_dir"; "movie_fps"; "xsize"; "ysize"; "dpi"]];
  Func "visualize.create_movie_from_images" ["mp4_file"; "png_dir"; "fps"; "REPORT"] 2
    [Site f_tf36_default_visualization 74 2 ["fps"; "REPORT"]; Site f_tf36_default_visualization 96 2 ["fps"; "REPORT"]; Site f_tf36_default_visualization 119 2 ["fps"; "REPORT"]; Site f_tf36_default_visualization 142 2 ["fps"; "REPORT"]; Site f_tf36_default_visualization 165 2 ["fps"; "REPORT"]; Site f_tf36_default_visualization 339 2 ["fps"; "REPORT"]; Site f_tf36_default_visualization 364 2 ["fps"; "REPORT"]; Site f_tf36_default_visualization 388 2 ["fps"; "REPORT"]; Site f_tf36_default_visualization 412 2 ["fps"; "REPORT"]; Site f_visualize 1778 2 ["fps"; "REPORT"]; Site f_visualize 1890 2 ["fps"; "REPORT"]];
  Func "visualize.create_output_movies" ["output_dir"; "movie_dir"; "temp_png_dir"; "movie_fps"; "xsize2D"; "ysize2D"; "dpi"] 7
    [Site f_visualize 1635 0 ["output_dir"; "movie_dir"; "temp_png_dir"; "movie_fps"; "dpi"; "xsize2D"; "ysize2D"]; Site f_visualize 1800 0 ["output_dir"; "movie_dir"; "temp_png_dir"; "movie_fps"; "dpi"; "xsize2D"; "ysize2D"]];
  Func "visualize.create_stat_movies" ["stat_dir"; "movie_dir"; "temp_png_dir"; "movie_fps"; "dpi"; "xsize2D"; "ysize2D"] 7
    [Site f_visualize 1645 0 ["stat_dir"; "movie_dir"; "temp_png_dir"; "movie_fps"; "dpi"; "xsize2D"; "ysize2D"]];
  Func "visualize.delete_png_files" ["temp_png_dir"] 0
    [Site f_visualize 1535 1 []; Site f_visualize 1784 1 []; Site f_visualize 1896 1 []];
  Func "visualize.get_image_dimensions" ["ncols"; "nrows"; "dpi"] 1
    [Site f_visualize 1549 2 []; Site f_visualize 1840 2 []];
  Func "visualize.histogram_equalize" ["grid"; "PLOT_NCS"] 1
    [Site f_visualize 185 1 ["PLOT_NCS"]];
  Func "visualize.linear_stretch" ["grid"] 0
    [Site f_visualize 187 1 []];
  Func "visualize.log_stretch" ["grid"; "a"] 1
    [Site f_visualize 189 1 ["a"]];
  Func "visualize.normalize_grid" ["grid"] 0
    [Site f_visualize 129 1 []; Site f_visualize 143 1 []; Site f_visualize 151 1 []; Site f_visualize 163 1 []; Site f_visualize 175 1 []];
  Func "visualize.plot_data" ["x"; "y"; "y2"; "y3"; "y4"; "y5"; "y6"; "y7"; "y8"; "xmin"; "xmax"; "ymin"; "ymax"; "x_name"; "x_units"; "marker"; "title"; "y_name"; "y_units"; "linewidth"; "x_size"; "y_size"; "xticks"; "yticks"; "font_size"] 23
    [Site f_calibrate 1002 2 ["marker"; "title"; "x_name"; "x_units"; "y_name"; "y_units"; "x_size"; "y_size"]; Site f_calibrate 1008 2 ["marker"; "title"; "x_name"; "x_units"; "y_name"; "y_units"; "x_size"; "y_size"]; Site f_calibrate 1014 3 ["marker"; "title"; "x_name"; "x_units"; "y_name"; "y_units"; "x_size"; "y_size"]; Site f_visualize 1358 2 ["ymin"; "ymax"; "x_name"; "x_units"; "y_name"; "y_units"]; Site f_visualize 1362 2 ["xmin"; "xmax"; "x_name"; "x_units"; "y_name"; "y_units"]];
  Func "visualize.plot_time_series" ["nc_file"; "output_dir"; "var_index"; "marker"; "REPORT"; "xsize"; "ysize"; "im_file"; "start_date"; "end_date"; "time_interval_hours"; "start_index"; "end_index"] 12
    [Site f_tf36_default_visualization 180 1 ["output_dir"; "var_index"; "marker"; "REPORT"; "xsize"; "ysize"; "im_file"]; Site f_tf36_default_visualization 197 1 ["output_dir"; "var_index"; "marker"; "REPORT"; "xsize"; "ysize"; "im_file"]; Site f_tf36_default_visualization 214 1 ["output_dir"; "var_index"; "marker"; "REPORT"; "xsize"; "ysize"; "im_file"]; Site f_tf36_default_visualization 231 1 ["output_dir"; "var_index"; "marker"; "REPORT"; "xsize"; "ysize"; "im_file"]; Site f_visualize 1562 1 ["output_dir"; "var_index"; "marker"; "REPORT"; "xsize"; "ysize"; "im_file"; "start_date"; "end_date"; "time_interval_hours"]];
  Func "visualize.power_stretch0" ["grid"; "p"] 0
    [Site f_visualize 191 1 ["p"]];
  Func "visualize.power_stretch1" ["grid"; "p"] 0
    [Site f_visualize 194 2 []]].
Definition calls_12 : list func := [
  Func "visualize.power_stretch2" ["grid"; "a"; "b"] 2
    [Site f_visualize 197 1 ["a"; "b"]];
  Func "visualize.power_stretch3" ["grid"; "a"; "b"] 2
    [Site f_visualize 200 1 ["a"; "b"]];
  Func "visualize.read_and_show_rtg" ["rtg_filename"; "long_name"; "VERBOSE"; "rtg_type"; "GEO"; "cmap"; "BLACK_ZERO"; "LAND_SEA_BACKDROP"; "stretch"; "a"; "b"; "p"; "im_file"; "xsize"; "ysize"; "dpi"] 14
    [Site f_tf36_default_visualization 245 2 ["cmap"; "im_file"; "stretch"; "VERBOSE"; "xsize"; "ysize"; "dpi"]; Site f_tf36_default_visualization 261 2 ["cmap"; "im_file"; "stretch"; "VERBOSE"; "xsize"; "ysize"; "dpi"]; Site f_tf36_default_visualization 279 2 ["cmap"; "im_file"; "stretch"; "VERBOSE"; "xsize"; "ysize"; "dpi"]; Site f_tf36_default_visualization 295 2 ["cmap"; "im_file"; "stretch"; "VERBOSE"; "xsize"; "ysize"; "dpi"]; Site f_tf36_default_visualization 311 2 ["cmap"; "im_file"; "stretch"; "VERBOSE"; "xsize"; "ysize"; "dpi"]; Site f_visualize 1590 2 ["cmap"; "stretch"; "VERBOSE"; "xsize"; "ysize"; "dpi"; "im_file"]];
  Func "visualize.read_grid_from_nc_file" ["nc_file"; "time_index"; "REPORT"] 2
    [Site f_visualize 1605 1 []];
  Func "visualize.save_grid_stack_as_images" ["nc_file"; "png_dir"; "extent"; "stretch"; "a"; "b"; "p"; "cmap"; "REPORT"; "BLACK_ZERO"; "LAND_SEA_BACKDROP"; "xsize"; "ysize"; "dpi"] 12
    [Site f_visualize 1766 2 ["stretch"; "a"; "b"; "p"; "cmap"; "REPORT"; "xsize"; "ysize"; "dpi"]];
  Func "visualize.save_profile_series_as_images" ["nc_file"; "png_dir"; "ymin"; "ymax"; "marker"; "REPORT"; "xsize"; "ysize"; "dpi"] 8
    [Site f_tf36_default_visualization 331 1 ["png_dir"; "ymin"; "ymax"; "marker"; "REPORT"; "xsize"; "ysize"; "dpi"]; Site f_tf36_default_visualization 356 1 ["png_dir"; "ymin"; "ymax"; "marker"; "REPORT"; "xsize"; "ysize"; "dpi"]; Site f_tf36_default_visualization 380 1 ["png_dir"; "ymin"; "ymax"; "marker"; "REPORT"; "xsize"; "ysize"; "dpi"]; Site f_tf36_default_visualization 404 1 ["png_dir"; "ymin"; "ymax"; "marker"; "REPORT"; "xsize"; "ysize"; "dpi"]];
  Func "visualize.save_rts_as_images" ["rts_file"; "png_dir"; "extent"; "long_name"; "stretch"; "a"; "b"; "p"; "cmap"; "BLACK_ZERO"; "REPORT"; "start_datetime"; "time_interval_hours"; "xsize"; "ysize"; "dpi"] 14
    [Site f_tf36_default_visualization 66 2 ["extent"; "long_name"; "stretch"; "a"; "b"; "p"; "BLACK_ZERO"; "cmap"; "REPORT"; "xsize"; "ysize"; "dpi"]; Site f_tf36_default_visualization 88 2 ["extent"; "long_name"; "stretch"; "a"; "b"; "p"; "BLACK_ZERO"; "cmap"; "REPORT"; "xsize"; "ysize"; "dpi"]; Site f_tf36_default_visualization 111 2 ["extent"; "long_name"; "stretch"; "a"; "b"; "p"; "BLACK_ZERO"; "cmap"; "REPORT"; "xsize"; "ysize"; "dpi"]; Site f_tf36_default_visualization 134 2 ["extent"; "long_name"; "stretch"; "a"; "b"; "p"; "BLACK_ZERO"; "cmap"; "REPORT"; "xsize"; "ysize"; "dpi"]; Site f_tf36_default_visualization 157 2 ["extent"; "long_name"; "stretch"; "a"; "b"; "p"; "BLACK_ZERO"; "cmap"; "REPORT"; "xsize"; "ysize"; "dpi"]; Site f_visualize 1875 2 ["extent"; "long_name"; "start_datetime"; "time_interval_hours"; "stretch"; "a"; "b"; "p"; "cmap"; "BLACK_ZERO"; "REPORT"; "xsize"; "ysize"; "dpi"]];
  Func "visualize.show_grid_as_image" ["grid"; "long_name"; "extent"; "cmap"; "BLACK_ZERO"; "LAND_SEA_BACKDROP"; "GEO"; "stretch"; "a"; "b"; "p"; "subtitle"; "nodata"; "NO_SHOW"; "im_file"; "xsize"; "ysize"; "dpi"] 16
    [Site f_visualize 317 2 ["extent"; "cmap"; "BLACK_ZERO"; "stretch"; "LAND_SEA_BACKDROP"; "GEO"; "a"; "b"; "p"; "im_file"; "xsize"; "ysize"; "dpi"]; Site f_visualize 712 2 ["cmap"; "stretch"; "a"; "b"; "p"; "extent"; "BLACK_ZERO"; "LAND_SEA_BACKDROP"; "NO_SHOW"; "im_file"; "subtitle"; "xsize"; "ysize"; "dpi"]; Site f_visualize 805 2 ["cmap"; "stretch"; "a"; "b"; "p"; "BLACK_ZERO"; "extent"; "NO_SHOW"; "im_file"; "subtitle"; "xsize"; "ysize"; "dpi"]; Site f_visualize 1613 2 ["extent"; "cmap"; "stretch"; "a"; "im_file"; "xsize"; "ysize"; "dpi"]];
  Func "visualize.stretch_grid" ["grid"; "stretch"; "a"; "b"; "p"] 3
    [Site f_visualize 389 2 ["a"; "b"; "p"]];
  Func "visualize.tanh_stretch" ["grid"; "a"] 1
    [Site f_visualize 202 1 ["a"]]].

Definition all_calls : list func := (calls_1 ++ calls_2 ++ calls_3 ++ calls_4 ++ calls_5 ++ calls_6 ++ calls_7 ++ calls_8 ++ calls_9 ++ calls_10 ++ calls_11 ++ calls_12)%list.
