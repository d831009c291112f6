(** Model of the tables of river forecast sites: topoflow/utils/ngen/rfc_utils.py 442-561 (get_equivalent_nws_ids2), 565-632
    (get_equivalent_nws_ids), 905-936 (compare_nws_ids), 1091-1184 (get_hydrograph_type_dict), 1188-1300 (cull_usa_dcp_data_rows) and
    utils/ngen/subset.py 25-123 (read_collated_tsv_file).  Files are lists of lines, dictionaries lists of keys and values in the order
    of insertion.  Left out: what is printed on the way, the saved copy of a dictionary (1096-1103, 1176-1182). *)

From Coq Require Import String Ascii List Arith Bool QArith.
From Verif Require Import Time_Model Io_Model Bundle_Model Usgs_Model.
Import ListNotations.
Local Open Scope string_scope.

(** ** Dictionaries *)

Section Dict.
Context {V : Type}.
Definition dict := list (string * V).
(** d[k]; None: KeyError *)
Fixpoint dget (d : dict) (k : string) : option V :=
  match d with [] => None | (k', v) :: r => if String.eqb k k' then Some v else dget r k end.
(** d[k] = v *)
Fixpoint dset (d : dict) (k : string) (v : V) : dict :=
  match d with [] => [(k, v)] | (k', v') :: r => if String.eqb k k' then (k', v) :: r else (k', v') :: dset r k v end.
Definition keys (d : dict) : list string := map fst d.
End Dict.
Arguments dict : clear implicits.

(** ** Rows of states *)

(** 1231 *)
Definition skip_list : list string := ["GU_DCP"; "P1_DCP"; "P2_DCP"; "P3_DCP"; "P4_DCP"].
(** 1262-1263: the last entry of a line *)
Definition row_name (line : string) : string := strip (last (split ","%char line) "").
(** 1264-1265 *)
Definition keep (line : string) : bool :=
  let name := row_name line in
  negb (existsb (String.eqb name) skip_list) && endswith "_DCP" name && Nat.eqb (String.length name) 6.
(** 1273-1277 *)
Definition count_state (d : dict nat) (line : string) : dict nat :=
  let code := substring 0 2 (row_name line) in
  match dget d code with Some n => dset d code (n + 1)%nat | None => dset d code 0%nat end.
Record culled := { rows_out : list string; n_rows_in : nat; n_rows_skip : nat; n_rows_out : nat; state_dict : dict nat }.
(** 1252-1282 *)
Fixpoint cull_rows (lines : list string) (s : culled) : culled :=
  match lines with
  | [] => s
  | line :: rest =>
    if keep line
    then cull_rows rest {| rows_out := rows_out s ++ [line]; n_rows_in := n_rows_in s + 1; n_rows_skip := n_rows_skip s; n_rows_out := n_rows_out s + 1; state_dict := count_state (state_dict s) line |}
    else cull_rows rest {| rows_out := rows_out s; n_rows_in := n_rows_in s + 1; n_rows_skip := n_rows_skip s + 1; n_rows_out := n_rows_out s; state_dict := state_dict s |}
  end.
(** 1188-1300: the new file, with the header of the old one, and the counts *)
Definition cull_usa_dcp_data_rows (header : string) (lines : list string) : list string * culled :=
  let s := cull_rows lines {| rows_out := []; n_rows_in := 0; n_rows_skip := 0; n_rows_out := 0; state_dict := [] |} in
  (header :: rows_out s, s).

(** ** Sites at one place *)

(** what is used of a record of rfc_dict1 and rfc_dict2: longitude and latitude, as text *)
Definition place := (string * string)%type.
(** 590-597: the last site at each longitude *)
Definition lon_dict (d : dict place) : dict (string * string) :=
  fold_left (fun l e => let '(nws_id, (lon, lat)) := e in dset l lon (lat, nws_id)) d [].
Definition lons (d : dict place) : list string := map (fun e => fst (snd e)) d.
(** 565-632 *)
Definition get_equivalent_nws_ids (d1 d2 : dict place) : list (string * string) :=
  let lon_list := sort (nodup string_dec (lons d1 ++ lons d2)) in
  flat_map (fun lon => match dget (lon_dict d1) lon, dget (lon_dict d2) lon with
    | Some (lat1, id1), Some (lat2, id2) => if String.eqb lat1 lat2 then [(id1, id2)] else []
    | _, _ => [] end) lon_list.
(** 531-548: the loop over the sites in the order of argsort *)
Fixpoint scan (last_lon last_lat last_id : string) (rows : list (string * place)) : list (string * string) :=
  match rows with
  | [] => []
  | (id, (lon, lat)) :: rest =>
    (if String.eqb lon last_lon && String.eqb lat last_lat
     then [if isnumeric last_id then (last_id, id) else (id, last_id)] else []) ++ scan lon lat id rest
  end.
Definition pick {A} (d : A) (l : list A) (s : list nat) : list A := map (fun i => nth i l d) s.
(** 442-561: s is np.argsort of the longitudes, s1 that of the first list.  Simplified: the look at six sites by name (470-496) is left out. *)
Definition get_equivalent_nws_ids2 (d : dict place) (s s1 : list nat) : list (string * string) :=
  pick ("", "") (scan "-999" "-999" "XXXX" (pick ("", ("", "")) d s)) s1.
(** 905-936: the sizes that are printed, and the sorted differences *)
Definition minus (a b : list string) : list string := filter (fun x => negb (existsb (String.eqb x) b)) a.
Definition both (a b : list string) : list string := filter (fun x => existsb (String.eqb x) b) a.
Definition compare_nws_ids (d1 d2 : dict place) : nat * nat * nat * list string * list string :=
  let ids1 := nodup string_dec (keys d1) in
  let ids2 := nodup string_dec (keys d2) in
  (length ids1, length ids2, length (both ids1 ids2), sort (minus ids1 ids2), sort (minus ids2 ids1)).

(** ** Types of hydrograph *)

Record entry := { htype : string; rfc_name : string; huc8 : string; e_lat : string; e_lon : string }.
Record site := { s_lat : string; s_lon : string; s_huc : string }.
(** 1129-1130 *)
Definition htypes : list string := ["flashy"; "slow"; "regulated"; "snow-dom"; "normal"; "low-flow"].
(** 1150-1173: one line *)
Definition htype_line (info : dict site) (ht : string) (d : dict entry) (line : string) : res (dict entry) :=
  let vals := split ","%char line in
  let! v0 := item vals 0 in
  let! v1 := item vals 1 in
  let! v2 := item vals 2 in
  let! v6 := item vals 6 in
  let! v7 := item vals 7 in
  let sid := strip v0 in
  let '(lat, lon, huc, rfc) :=
    if String.eqb (strip v1) "NA"
    then match dget info sid with Some i => (s_lat i, s_lon i, s_huc i, "-") | None => (strip v1, strip v2, strip v6, strip v7) end
    else (strip v1, strip v2, strip v6, strip v7) in
  Ok (if String.eqb lat "NA" then d else dset d sid {| htype := ht; rfc_name := rfc; huc8 := huc; e_lat := lat; e_lon := lon |}).
Fixpoint htype_lines (info : dict site) (ht : string) (d : dict entry) (lines : list string) : res (dict entry) :=
  match lines with [] => Ok d | line :: rest => let! d := htype_line info ht d line in htype_lines info ht d rest end.
(** 1141-1174: each file is a header and its lines *)
Fixpoint htype_files (info : dict site) (fs : list (string * list string)) (d : dict entry) : res (dict entry) :=
  match fs with [] => Ok d | (ht, lines) :: rest => let! d := htype_lines info ht d (skipn 1 lines) in htype_files info rest d end.
Definition get_hydrograph_type_dict (info : dict site) (files : list (list string)) : res (dict entry) :=
  htype_files info (combine htypes files) [].

(** ** Counts of classes *)

(** 53-54 *)
Definition swb_classes : list string := ["A1"; "A2"; "A3"; "B1"; "B2"; "B3"; "C1"; "C2"; "D1"; "D2"; "D3"].
Record tally := { swb_counts : dict nat; area_mins : dict Q; area_maxes : dict Q; hlr_counts : list nat; n_basins : nat; n_missing_areas : nat }.
(** 55-73 *)
Definition tally0 : tally :=
  {| swb_counts := map (fun c => (c, 0%nat)) swb_classes; area_mins := map (fun c => (c, 100000000 # 1)) swb_classes;
     area_maxes := map (fun c => (c, 0)) swb_classes; hlr_counts := repeat 0%nat 21; n_basins := 0; n_missing_areas := 0 |}.
(** headings.index *)
Fixpoint index_of (x : string) (l : list string) : res nat :=
  match l with [] => Err ValueError | y :: r => if String.eqb x y then Ok 0%nat else let! k := index_of x r in Ok (S k) end.
(** line[:-1] *)
Definition chop (line : string) : string := substring 0 (String.length line - 1) line.
Definition dfind {V} (d : dict V) (k : string) : res V := match dget d k with Some v => Ok v | None => Err KeyError end.
Definition add_at (l : list nat) (k : nat) : res (list nat) :=
  if Nat.ltb k (length l) then Ok (firstn k l ++ (nth k l 0 + 1)%nat :: skipn (S k) l)%list else Err KeyError.
Definition Qmin' (a b : Q) : Q := if Qle_bool a b then a else b.
Definition Qmax' (a b : Q) : Q := if Qle_bool b a then a else b.
Section Tally.
(** np.float32 of a text, and int of a text; a negative number is no key of hlr_counts either (simplified: a KeyError here is Err) *)
Variable num : string -> res Q.
Variable int : string -> res nat.
(** 80-101 *)
Definition tally_line (sb3 swb hlr area : nat) (t : tally) (line : string) : res tally :=
  let values := split "009"%char (chop line) in
  let! f := item values sb3 in
  if String.eqb f "Y" then
    let! c := item values swb in
    let! n := dfind (swb_counts t) c in
    let counts := dset (swb_counts t) c (n + 1)%nat in
    let! a := item values area in
    let! amm := (if negb (String.eqb (strip a) "") && negb (String.eqb (strip a) "-9999")
                 then let! x := num a in let! lo := dfind (area_mins t) c in let! hi := dfind (area_maxes t) c in
                      Ok (dset (area_mins t) c (Qmin' lo x), dset (area_maxes t) c (Qmax' hi x), n_missing_areas t)
                 else Ok (area_mins t, area_maxes t, (n_missing_areas t + 1)%nat)) in
    let '(mins, maxes, missing) := amm in
    let! h := item values hlr in
    let! k := int h in
    let! hc := add_at (hlr_counts t) k in
    Ok {| swb_counts := counts; area_mins := mins; area_maxes := maxes; hlr_counts := hc; n_basins := n_basins t + 1; n_missing_areas := missing |}
  else Ok t.
Fixpoint tally_lines (sb3 swb hlr area : nat) (t : tally) (lines : list string) : res tally :=
  match lines with [] => Ok t | line :: rest => let! t := tally_line sb3 swb hlr area t line in tally_lines sb3 swb hlr area t rest end.
(** 25-123 *)
Definition read_collated_tsv_file (header : string) (lines : list string) : res tally :=
  let headings := split "009"%char (chop header) in
  let! sb3 := index_of "Is_GAGES2_SB3" headings in
  let! swb := index_of "SWB_Class" headings in
  let! hlr := index_of "HLR_Code_Outlet" headings in
  let! area := index_of "Area" headings in
  tally_lines sb3 swb hlr area tally0 lines.
End Tally.
