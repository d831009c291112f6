(** Model of the table of all basins: topoflow/utils/ngen/collate_basins.py 105-131, 190-212,
    261-356, 360-474 (the defaults), 478-704, 708-718, 737-1190 and data_utils.py 823-863.

    A data set is its rows after the header lines, None for an empty line; a row is the text in
    its column of site IDs and the text under each heading (the columns 22, 24 and 25 of
    USGS_GAGES2_all, read by number, are under "aridity", "snow_fraction" and "swb_class").  A
    data set has at least one row and every row has all columns.  Left out: the last character
    of a file that does not end with a newline, names, links and codes added in 1034-1161, and the
    basins of ARS, CZO, LTER and NEON. *)

From Coq Require Import String Ascii List Bool Arith.
From Verif Require Import Base Time_Model Io_Model Bundle_Model.
Import ListNotations.
Local Open Scope string_scope.

Record row := Row { raw_id : string; cell : string -> string }.
Definition dataset := list (option row).

(** 114-131, data_utils.py 853-858: the ID of a row *)
Definition pad (id : string) : string := if Nat.eqb (String.length id) 7 then "0" ++ id else id.
Definition id_of (r : row) : string := pad (strip (raw_id r)).
(** data_utils.py 823-863.  (An empty line has the ID ""; where IDs are in column 1 it is an error.) *)
Definition basin_ids (d : dataset) : list string := map (fun o => match o with Some r => id_of r | None => "" end) d.

(** 271-279 and 708-718 *)
Definition inclusion_keys : list string :=
  ["USGS_NWIS_Web"; "USGS_GAGES2_all"; "USGS_GAGES2_ref"; "USGS_GAGES2_SB3"; "USGS_FPS"; "USGS_HCDN"; "NOAA_HADS"; "CAMELS"; "MOPEX"].
Definition primary_keys : list string := inclusion_keys ++ ["NOAA_via_API"].

(** 311: s.isalpha() for one ASCII character *)
Definition is_alpha (c : ascii) : bool :=
  let n := nat_of_ascii c in (Nat.leb 65 n && Nat.leb n 90) || (Nat.leb 97 n && Nat.leb n 122).
Definition excluded (sid : string) : bool :=
  Nat.ltb (String.length sid) 7 || match sid with String c _ => is_alpha c | EmptyString => false end.

(** 300-318: the keys with 'Y' for each ID *)
Definition inclusion := list (string * list string).
Fixpoint mark (key sid : string) (d : inclusion) : inclusion :=
  match d with
  | [] => [(sid, [key])]
  | (s, ks) :: r => if String.eqb s sid then (s, key :: ks) :: r else (s, ks) :: mark key sid r
  end.
Definition add_key (db : string -> dataset) (d : inclusion) (key : string) : inclusion :=
  fold_left (fun d sid => if excluded sid then d else mark key sid d) (basin_ids (db key)) d.
Definition get_inclusion_dict (db : string -> dataset) : inclusion := fold_left (add_key db) inclusion_keys [].
(** 338-342: None for a KeyError *)
Fixpoint sub_dict (d : inclusion) (sid : string) : option (list string) :=
  match d with [] => None | (s, ks) :: r => if String.eqb s sid then Some ks else sub_dict r sid end.
Definition get_inclusion_list (d : inclusion) (sid : string) : option (list string) :=
  match sub_dict d sid with
  | Some ks => Some (map (fun k => if existsb (String.eqb k) ks then "Y" else "N") inclusion_keys)
  | None => None
  end.
(** 351-356 *)
Definition get_all_site_ids (db : string -> dataset) : list string := sort (map fst (get_inclusion_dict db)).

(** ** 809-826 and 964-1023: reading the data sets side by side *)

(** current_id, current_line and what is left of the file *)
Record stream := Stream { current_id : string; current_line : option row; rest : dataset }.
(** 823-826 *)
Definition start (d : dataset) : stream :=
  match d with
  | Some r :: t => Stream (id_of r) (Some r) t
  | None :: t => Stream "" None t
  | [] => Stream "" None []
  end.
(** 1006-1023 *)
Fixpoint advance (id : string) (line : option row) (left : dataset) : stream :=
  match left with
  | [] => Stream id line []
  | None :: t => Stream id line t
  | Some r :: t => if String.eqb (id_of r) id then advance id line t else Stream (id_of r) (Some r) t
  end.
(** 965-1023 for one data set: the row used for the site, and the stream after *)
Definition visit (site : string) (s : stream) : option row * stream :=
  if String.eqb (current_id s) site then (current_line s, advance (current_id s) (current_line s) (rest s)) else (None, s).

(** 478-704: the attributes that a data set gives: heading and attribute *)
Definition given (key : string) : list (string * string) :=
  if String.eqb key "USGS_NWIS_Web" then
    [("site_no", "site_id"); ("station_nm", "site_name"); ("site_tp_cd", "site_type"); ("dec_long_va", "lon"); ("dec_lat_va", "lat");
     ("dec_coord_datum_cd", "horiz_datum"); ("state_cd", "state_code"); ("country_cd", "country_code"); ("alt_va", "elev");
     ("alt_datum_cd", "vert_datum"); ("huc_cd", "huc"); ("drain_area_va", "area"); ("sv_begin_date", "start_date"); ("sv_end_date", "end_date")]
  else if String.eqb key "USGS_GAGES2_all" then
    [("STAID", "site_id"); ("STANAME", "site_name"); ("AGGECOREGI", "eco_region"); ("DRAIN_SQKM", "area"); ("LAT_GAGE", "lat"); ("LNG_GAGE", "lon");
     ("MINLON", "minlon"); ("MAXLON", "maxlon"); ("MINLAT", "minlat"); ("MAXLAT", "maxlat"); ("STATE", "state_code")]
  else if String.eqb key "NOAA_HADS" then
    [("USGS_ID", "site_id"); ("USGS_name", "site_name"); ("Site_type", "site_type"); ("Longitude", "lon"); ("Latitude", "lat"); ("RFC_ID", "rfc");
     ("NWS_loc_ID", "nws_loc_id"); ("NWS_HSA_ID", "hsa"); ("GOES_ID", "goes_id")]
  else if String.eqb key "NOAA_via_API" then
    [("usgs_id", "site_id"); ("nws_loc_id", "nws_loc_id"); ("rfc_abbrev", "rfc"); ("usgs_name", "site_name"); ("state_code", "state_code");
     ("longitude", "lon"); ("latitude", "lat"); ("elevation", "elev"); ("pedts_obs", "pedts_obs")]
  else if String.eqb key "USGS_FPS" then [("Status", "status")]
  else if String.eqb key "USGS_HCDN" then
    [("usgs_stn_id", "site_id"); ("usgs_stn_name", "site_name"); ("huc", "huc"); ("area_sqmi", "area"); ("state_code", "state_code"); ("gage_elev_ft", "elev")]
  else if String.eqb key "MOPEX" then
    [("SiteCode", "site_id"); ("SiteName", "site_name"); ("Latitude", "lat"); ("Longitude", "lon"); ("MINLON", "minlon"); ("MAXLON", "maxlon");
     ("MINLAT", "minlat"); ("MAXLAT", "maxlat"); ("State", "state_code"); ("HUC8", "huc"); ("DrainageAr", "area")]
  else [].

Definition atts := string -> string.
Definition put_att (d : atts) (k v : string) : atts := fun x => if String.eqb x k then v else d x.
Definition if_unknown (k v : string) (d : atts) : atts := if String.eqb (d k) "-" then put_att d k v else d.

(** 499-523, 550-576, 660-666, 681-687: the rest *)
Definition settings (key : string) (r : row) (d : atts) : atts :=
  if String.eqb key "USGS_NWIS_Web" then
    let d := put_att (put_att d "elev_units" "ft") "area_units" "mi2" in
    match strip (cell r "data_types_cd") with
    | String a (String b _) => put_att d "stage_data" ("c" ++ String a "" ++ "i" ++ String b "")
    | _ => d
    end
  else if String.eqb key "USGS_GAGES2_all" then
    let d := if_unknown "country_code" "US" (if_unknown "site_type" "ST" (if_unknown "horiz_datum" "NAD83" (if_unknown "vert_datum" "CHECK_GAGES2"
             (if_unknown "elev_units" "m" (if_unknown "area_units" "km2" d))))) in
    put_att (put_att (put_att d "swb_class" (cell r "swb_class")) "aridity" (cell r "aridity")) "snow_fraction" (cell r "snow_fraction")
  else if String.eqb key "USGS_HCDN" || String.eqb key "MOPEX" then if_unknown "elev_units" "ft" (if_unknown "area_units" "mi2" d)
  else d.

(** 692 *)
Definition unset (v : string) : bool := String.eqb v "-" || String.eqb v "unknown" || String.eqb v "-9999".
Fixpoint no_blanks (s : string) : string :=
  match s with EmptyString => "" | String c r => if Ascii.eqb c " " then no_blanks r else String c (no_blanks r) end.
(** 693-704 *)
Definition set_attribute (r : row) (d : atts) (p : string * string) : atts :=
  let (h, a) := p in
  if unset (d a) then put_att d a (let v := strip (cell r h) in if String.eqb a "horiz_datum" then no_blanks v else v) else d.
Definition update_attributes (r : row) (key : string) (d : atts) : atts :=
  fold_left (set_attribute r) (given key) (settings key r d).

(** 418-474, without the links *)
Definition numbers : list string := ["lon"; "lat"; "elev"; "area"; "minlon"; "maxlon"; "minlat"; "maxlat"].
Definition defaults (site : string) : atts := fun a =>
  if String.eqb a "site_id" then site else if existsb (String.eqb a) numbers then "-9999" else if String.eqb a "hlr_code" then "0" else "-".

(** 964-1023: one site *)
Fixpoint visit_all (site : string) (ss : list (string * stream)) (d : atts) : atts * list (string * stream) :=
  match ss with
  | [] => (d, [])
  | (key, s) :: t =>
      let (o, s') := visit site s in
      let d := match o with Some r => update_attributes r key d | None => d end in
      let (d', t') := visit_all site t d in (d', (key, s') :: t')
  end.
(** 923-1190: the sites written, with their attributes; [count]: counter, [max]: max_count *)
Fixpoint write_sites (max count : nat) (sites : list string) (ss : list (string * stream)) : list (string * atts) :=
  match sites with
  | [] => []
  | site :: t =>
      let (d, ss') := visit_all site ss (defaults site) in
      let count := S count in
      (site, d) :: if Nat.eqb count max then [] else write_sites max count t ss'
  end.
Definition collate (max : nat) (db : string -> dataset) : list (string * atts) :=
  write_sites max 0 (get_all_site_ids db) (map (fun k => (k, start (db k))) primary_keys).

(** ** The file *)

(** 360-380 *)
Definition att_key_list : list string :=
  ["site_id"; "nws_loc_id"; "goes_id"; "rfc"; "wfo"; "hsa"; "huc"; "site_name"; "site_type"; "stage_data"; "pedts_obs"; "state_code"; "country_code";
   "lon"; "lat"; "elev"; "elev_units"; "area"; "area_units"; "horiz_datum"; "vert_datum"; "minlon"; "maxlon"; "minlat"; "maxlat";
   "long_name"; "closest_site_id"; "closest_site_dist"; "site_url"; "huc_url"; "nws_url"; "status"; "start_date"; "end_date"; "eco_region"; "hlr_code";
   "swb_class"; "hgraph_type"; "aridity"; "snow_fraction"].
(** 389-404 and 199-204 *)
Definition heading_list : list string :=
  ["Site_ID"; "NWS_Loc_ID"; "GOES_ID"; "RFC"; "WFO/CWA"; "HSA"; "HUC"; "Site_Name"; "Site_Type"; "Stage_Data"; "PEDTS_Obs"; "State_Code"; "Country_Code";
   "Lon"; "Lat"; "Elev"; "Elev_Units"; "Area"; "Area_Units"; "Horiz_Datum"; "Vert_Datum"; "Minlon"; "Maxlon"; "Minlat"; "Maxlat";
   "Long_Name"; "Closest_Site_ID"; "Closest_Site_Dist"; "Site_URL"; "HUC_URL"; "NWS_URL"; "Status_as_FPS"; "Start_Date"; "End_Date"; "Eco_Region"; "HLR_Code_Outlet";
   "SWB_Class"; "Hgraph_Type"; "Aridity"; "Snow Fraction"].
Definition incl_headings : list string :=
  ["Is_USGS_NWIS_Web"; "Is_GAGES2_Any"; "Is_GAGES2_Ref"; "Is_GAGES2_SB3"; "Is_FPS"; "Is_HCDN"; "Is_RFC"; "Is_CAMELS"; "Is_MOPEX"; "Is_CZO"; "Is_LTER"; "Is_NEON"; "Is_ARS"].
Definition tab_char : ascii := ascii_of_nat 9.
(** 208-211, 262-266: the line without its newline; [:-1] *)
Definition but_last (s : string) : string := take (String.length s - 1) s.
Definition tsv_line (vals : list string) : string := but_last (fold_left (fun l v => l ++ v ++ String tab_char "") vals "").
Definition header_line : string := tsv_line (heading_list ++ incl_headings).
(** 1180-1185: the line of a site; [czo]: 932-936 *)
Definition site_line (d : atts) (flags : list string) (czo : bool) : string :=
  tsv_line (map d att_key_list ++ (flags ++ [if czo then "Y" else "N"; "N"; "N"; "N"])).
