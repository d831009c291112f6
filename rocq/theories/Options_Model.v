(** Model of the options that a configuration file leaves out: set_missing_cfg_options of the channels component
    (topoflow/components/channels_base.py 540-629) with what initialize makes of them (647-657, 714-755) and with
    the step that uses the attenuation option (2077-2079), of the meteorology component
    (topoflow/components/met_base.py 856-918), of the driver (topoflow/components/topoflow_driver.py 393-420) and
    of the degree-day snow component (topoflow/components/snow_degree_day.py 256-265).

    The attributes of a component are those of the configuration reader (Cfg_Model).  Simplified: numbers are
    rationals; values that a file cannot give (None, grids) do not occur. *)

From Coq Require Import String Ascii List ZArith QArith Bool.
From Verif Require Import Time_Model Cfg_Model.
Import ListNotations.
Local Open Scope string_scope.

(** hasattr(self, name) *)
Definition hasattr (A : attrs) (n : string) : bool := match A n with Some _ => true | None => false end.
(** if not(hasattr(self, name)): self.name = v *)
Definition default (A : attrs) (n : string) (v : cval) : attrs := if hasattr A n then A else upd A n v.
Definition defaults (A : attrs) (l : list (string * cval)) : attrs :=
  fold_left (fun B x => default B (fst x) (snd x)) l A.
(** self.name *)
Definition getattr (A : attrs) (n : string) : res cval :=
  match A n with Some v => Ok v | None => Err AttributeError end.
(** v == True *)
Definition is_True (v : cval) : bool :=
  match v with VBool b => b | VInt z => (z =? 1)%Z | VFloat q => Qeq_bool q 1 | VStr _ => false end.
(** if (v): *)
Definition truthy (v : cval) : bool :=
  match v with VBool b => b | VInt z => negb (z =? 0)%Z | VFloat q => negb (Qeq_bool q 0)
             | VStr s => negb (String.eqb s "") end.
(** v * a float *)
Definition times (v : cval) (f : Q) : res cval :=
  match v with
  | VBool b => Ok (VFloat ((if b then 1 else 0) * f))
  | VInt z => Ok (VFloat (inject_Z z * f))
  | VFloat q => Ok (VFloat (q * f))
  | VStr _ => Err TypeError
  end.
(** channels_base.py 536: self.mmph_to_mps *)
Definition mmph_to_mps : Q := 1 / (3600 * 1000).

(** channels_base.py 540-629, method set_missing_cfg_options *)
Definition channels_missing (A : attrs) : res attrs :=
  let A := default A "CHECK_STABILITY" (VBool true) in
  let A := if hasattr A "FLOOD_OPTION" then A else
    upd (upd (upd A "FLOOD_OPTION" (VBool false)) "SAVE_DF_GRIDS" (VBool false)) "SAVE_DF_PIXELS" (VBool false) in
  let A := default A "ATTENUATE" (VBool false) in
  let! att := getattr A "ATTENUATE" in
  let A := if is_True att then default A "n_days" (VInt 5) else A in
  let A := default A "min_baseflow_flux" (VFloat 0) in
  let! flux := getattr A "min_baseflow_flux" in
  let! mps := times flux mmph_to_mps in
  let A := upd (upd A "min_baseflow_flux_mps" mps) "vol_GW" (VFloat 0) in
  let A := if hasattr A "d_bankfull_type" then A else
    upd (upd (upd A "d_bankfull_type" (VStr "Scalar")) "d_bankfull" (VFloat 10)) "d_bankfull_file" (VStr "") in
  let A := default A "CREATE_CHANNEL_FILES" (VBool false) in
  let! create := getattr A "CREATE_CHANNEL_FILES" in
  let A := if is_True create then
    defaults A [("max_river_width", VFloat 140); ("channel_width_power", VFloat (1 # 2));
                ("min_manning_n", VFloat (3 # 100)); ("max_manning_n", VFloat (2 # 10));
                ("max_bankfull_depth", VFloat 8); ("bankfull_depth_power", VFloat (4 # 10))] else A in
  Ok (defaults A [("slope_factor", VFloat 1); ("nval_factor", VFloat 1); ("z0val_factor", VFloat 1);
                  ("width_factor", VFloat 1); ("angle_factor", VFloat 1); ("sinu_factor", VFloat 1);
                  ("d0_factor", VFloat 1); ("d_bankfull_factor", VFloat 1)]).

(** channels_base.py 650-657 of initialize: the missing options, and no flood depths without the flood option *)
Definition channels_options (A : attrs) : res attrs :=
  let! B := channels_missing A in
  let! flood := getattr B "FLOOD_OPTION" in
  Ok (if truthy flood then B else
      upd (upd (upd (upd B "SAVE_DF_GRIDS" (VBool false)) "SAVE_DF_PIXELS" (VBool false))
               "d_flood_gs_file" (VStr "")) "d_flood_ts_file" (VStr "")).

(** channels_base.py 714-755 of initialize: the grids that are made from contributing areas: the name of the file
    and the numbers of each.  The grids that were made before an error are returned beside it.  The attributes
    site_prefix and topo_directory are set by the configuration reader and not modelled. *)
Definition create_channel_files (A : attrs) : list (cval * list cval) * option exn :=
  match getattr A "CREATE_CHANNEL_FILES" with
  | Err e => ([], Some e)
  | Ok create =>
  if negb (truthy create) then ([], None) else
  match (let! f := getattr A "width_file" in let! g := getattr A "max_river_width" in
         let! p := getattr A "channel_width_power" in Ok (f, [g; p])) with
  | Err e => ([], Some e)
  | Ok width =>
  match (let! f := getattr A "manning_file" in let! g := getattr A "min_manning_n" in
         let! h := getattr A "max_manning_n" in Ok (f, [g; h])) with
  | Err e => ([width], Some e)
  | Ok manning =>
  match (let! f := getattr A "d_bankfull_file" in let! g := getattr A "max_bankfull_depth" in
         let! p := getattr A "bankfull_depth_power" in Ok (f, [g; p])) with
  | Err e => ([width; manning], Some e)
  | Ok bank => ([width; manning; bank], None)
  end end end end.

(** channels_base.py 2077-2079 of update_flow_volume: the drain time in seconds, where attenuation is on *)
Definition drain_time (A : attrs) : res (option cval) :=
  let! att := getattr A "ATTENUATE" in
  if truthy att then let! n := getattr A "n_days" in let! t := times n (3600 * 24) in Ok (Some t) else Ok None.

(** met_base.py 856-918; the current year is an argument *)
Definition met_missing (year : Z) (A : attrs) : attrs :=
  defaults A [("PRECIP_ONLY", VBool false); ("P_factor", VFloat 1); ("T_rain_snow_type", VStr "Scalar");
              ("T_rain_snow", VFloat 1); ("SATTERLUND", VBool false); ("NGEN_CSV", VBool false);
              ("start_year", VInt year); ("SAVE_QSW_GRIDS", VBool false); ("SAVE_QLW_GRIDS", VBool false);
              ("SAVE_TSURF_GRIDS", VBool false); ("SAVE_ALB_GRIDS", VBool false); ("SAVE_QSW_PIXELS", VBool false);
              ("SAVE_QLW_PIXELS", VBool false); ("SAVE_TSURF_PIXELS", VBool false); ("SAVE_ALB_PIXELS", VBool false)].
(** topoflow_driver.py 393-420; the home directory, with its final slash, is an argument *)
Definition driver_missing (home : string) (A : attrs) : attrs :=
  defaults A [("COMPUTE_STAT_GRIDS", VBool false); ("CREATE_INDICATORS", VBool false);
              ("CREATE_MEDIA_FILES", VBool false); ("media_directory", VStr (home ++ "media/"))].
(** snow_degree_day.py 256-265 *)
Definition snow_missing (A : attrs) : attrs := default A "T0_cc" (VFloat 0).
