(** Model of topoflow/utils/rti_files.py: RTI header files. *)

From Coq Require Import String Ascii List ZArith NArith QArith Qround Qabs Bool.
From Verif Require Import Time_Model Io_Model.
Import ListNotations.

(** The fields of an info object that are written to the file. *)
Record info := mkinfo {
  grid_file : string; data_source : string; ncols : Z; nrows : Z;
  data_type : string; byte_order : string; pixel_geom : Z;
  xres : Q; yres : Q; zres : Q; z_units : string;
  y_south_edge : Q; y_north_edge : Q; x_east_edge : Q; x_west_edge : Q;
  box_units : string; gmin : Q; gmax : Q; UTM_zone : string }.

(** rti_files.py 68-73 get_file_prefix *)
Definition get_file_prefix (name : string) : string := take (cut_pos "." name) name.

(** rti_files.py 77-83 get_rti_file_name.  The test compares a method with a
    string and is never true, so the name is always rebuilt. *)
Definition get_rti_file_name (name : string) : string := (get_file_prefix name ++ ".rti")%string.

(** rti_files.py 87-124 try_to_find_rti_file; [fuel]: one try per underscore. *)
Fixpoint find_loop (fuel : nat) (F : fs) (prefix : string) : option string :=
  match fuel with
  | O => None
  | S f => match rfind "_" prefix with
           | None => None
           | Some pos => let prefix := take pos prefix in
                         if exists_file F (prefix ++ ".rti") then Some (prefix ++ ".rti")%string
                         else find_loop f F prefix
           end
  end.
Definition try_to_find_rti_file (F : fs) (name : string) : option string :=
  let R := get_rti_file_name name in
  if exists_file F R then Some R
  else find_loop (String.length name) F (get_file_prefix name).

(** rti_files.py 128-164: type and byte order tables (KeyError otherwise) *)
Definition get_rti_data_type (dtype : string) : res string :=
  let d := lower dtype in
  if String.eqb d "uint8" then Ok "BYTE"%string else if String.eqb d "int16" then Ok "INTEGER"%string
  else if String.eqb d "int32" then Ok "LONG"%string else if String.eqb d "int64" then Ok "LONG64"%string
  else if String.eqb d "float32" then Ok "FLOAT"%string else if String.eqb d "float64" then Ok "DOUBLE"%string
  else Err KeyError.
Definition get_numpy_data_type (t : string) : res string :=
  let d := upper t in
  if String.eqb d "BYTE" then Ok "uint8"%string else if String.eqb d "INTEGER" then Ok "int16"%string
  else if String.eqb d "LONG" then Ok "int32"%string else if String.eqb d "LONG64" then Ok "int64"%string
  else if String.eqb d "FLOAT" then Ok "float32"%string else if String.eqb d "DOUBLE" then Ok "float64"%string
  else Err KeyError.
Definition get_bpe (t : string) : res nat :=
  let d := upper t in
  if String.eqb d "BYTE" then Ok 1%nat else if String.eqb d "INTEGER" then Ok 2%nat
  else if String.eqb d "LONG" then Ok 4%nat else if String.eqb d "LONG64" then Ok 8%nat
  else if String.eqb d "FLOAT" then Ok 4%nat else if String.eqb d "DOUBLE" then Ok 8%nat
  else Err KeyError.
Inductive machine := Little | Big.
Definition get_rti_byte_order (m : machine) : string :=
  match m with Big => "MSB" | Little => "LSB" end.

(** ** Number formatting and reading *)

Definition ten12 : N := 1000000000000.

(** ("%22.12f" % x).strip(): twelve decimals, nearest, ties to even.
    Simplified: nan and inf are not numbers here. *)
Definition fmt12 (x : Q) : string :=
  let neg := match Qcompare x 0 with Lt => true | _ => false end in
  let n := Z.to_N (round_even (Qabs x * 1000000000000)) in
  let frac := str_N (n mod ten12) in
  ((if neg then "-" else "") ++ str_N (n / ten12) ++ "." ++
   zeros (12 - String.length frac) ++ frac)%string.

(** eval(s) of a number: [-]digits[.digits].  Simplified: every other
    expression is refused. *)
Definition eval_unsigned (s : string) : res Q :=
  match split "." s with
  | [ip] => let! z := parse_unsigned ip in Ok (inject_Z z)
  | [ip; fp] => if String.eqb ip "" then Err ValueError
                else match parse_digits (ip ++ fp) 0 with
                     | Some n => Ok (inject_Z (Z.of_N n) / inject_Z (10 ^ Z.of_nat (String.length fp)))%Q
                     | None => Err ValueError
                     end
  | _ => Err ValueError
  end.
Definition eval_num (s : string) : res Q :=
  match s with
  | String "-" r => let! q := eval_unsigned r in Ok (- q)%Q
  | _ => eval_unsigned s
  end.

(** ** Reading: rti_files.py 229-282 *)

(** s.find(':') and the text after it *)
Fixpoint after_colon (s : string) : option string :=
  match s with
  | EmptyString => None
  | String a r => if Ascii.eqb a ":" then Some r else after_colon r
  end.

(** rti_files.py 246-256: the loop.  At the end of the file the name s is
    unbound.  [fuel] bounds the number of lines. *)
Fixpoint next_value (fuel : nat) (text : string) : res (string * string) :=
  match fuel with
  | O => Err UnboundLocalError
  | S f => let '(line, rest) := readline text in
           match line with
           | EmptyString => Err UnboundLocalError
           | String char1 _ =>
             match (if Ascii.eqb char1 ";" then None else after_colon line) with
             | Some s => Ok (strip s, rest)
             | None => next_value f rest
             end
           end
  end.
Definition read_string (text : string) (upcase : bool) : res (string * string) :=
  let! (s, rest) := next_value (S (String.length text)) text in
  let s := strip s in Ok (if upcase then upper s else s, rest).
Definition read_num (text : string) : res (Q * string) :=
  let! (s, rest) := next_value (S (String.length text)) text in
  let! q := eval_num s in Ok (q, rest).
(** np.int32(val), np.uint8(val): whole part, range checked *)
Definition read_int (lo hi : Z) (text : string) : res (Z * string) :=
  let! (q, rest) := read_num text in
  let z := trunc q in
  if ((lo <=? z) && (z <=? hi))%Z then Ok (z, rest) else Err OverflowError.

(** rti_files.py 309-352: read_info, after the file has been found.
    Simplified: float32 rounding of zres, gmin and gmax is not modelled. *)
Definition read_info_text (text : string) : res info :=
  let '(line1, t) := readline text in
  if negb (String.eqb (strip (upper line1)) "RIVERTOOLS INFO FILE") then Err TypeError
  else
  let! (grid_file, t) := read_string t false in
  let! (data_source, t) := read_string t false in
  let! (ncols, t) := read_int (-2147483648) 2147483647 t in
  let! (nrows, t) := read_int (-2147483648) 2147483647 t in
  let! (data_type, t) := read_string t true in
  let! (byte_order, t) := read_string t true in
  let! (pixel_geom, t) := read_int 0 255 t in
  let! (xres, t) := read_num t in
  let! (yres, t) := read_num t in
  let! (zres, t) := read_num t in
  let! (z_units, t) := read_string t true in
  let! (y_south_edge, t) := read_num t in
  let! (y_north_edge, t) := read_num t in
  let! (x_east_edge, t) := read_num t in
  let! (x_west_edge, t) := read_num t in
  let! (box_units, t) := read_string t true in
  let! (gmin, t) := read_num t in
  let! (gmax, t) := read_num t in
  let! (UTM_zone, t) := read_string t true in
  let UTM_zone := if String.eqb UTM_zone "-1" then "unknown"%string else UTM_zone in
  let! _ := get_bpe data_type in
  Ok (mkinfo grid_file data_source ncols nrows data_type byte_order pixel_geom xres yres zres
        z_units y_south_edge y_north_edge x_east_edge x_west_edge box_units gmin gmax UTM_zone).

(** rti_files.py 286-401 read_info: None when no header is found *)
Definition read_info (F : fs) (name : string) : res (option info) :=
  match try_to_find_rti_file F name with
  | None => Ok None
  | Some R => match lookup F R with
              | None => Ok None
              | Some text => let! i := read_info_text text in Ok (Some i)
              end
  end.

(** ** Writing: rti_files.py 524-641 *)

Definition info_lines (i : info) : list string :=
  [ "RiverTools Info File"; "";
    ";--------------------"; ";Description of Grid"; ";--------------------";
    "Grid filename:  " ++ grid_file i;
    "Grid source:    " ++ data_source i;
    " ";
    ";----------------------"; ";Grid dimensions, etc."; ";----------------------";
    "Number of columns:  " ++ py_str (ncols i);
    "Number of rows:     " ++ py_str (nrows i);
    "Data type:          " ++ data_type i;
    "Byte order:         " ++ byte_order i;
    "";
    ";--------------------"; ";Pixel geometry info"; ";--------------------";
    "Pixel geometry code:  " ++ py_str (wrap16 (pixel_geom i));
    "Pixel x-resolution:   " ++ fmt12 (xres i);
    "Pixel y-resolution:   " ++ fmt12 (yres i);
    "Pixel z-resolution:   " ++ fmt12 (zres i);
    "Z-resolution units:   " ++ z_units i;
    "";
    ";--------------------------------------------------";
    ";Bounding box coordinates (degrees lat/lon or UTM)";
    ";--------------------------------------------------";
    "South edge y-coordinate:  " ++ fmt12 (y_south_edge i);
    "North edge y-coordinate:  " ++ fmt12 (y_north_edge i);
    "East  edge x-coordinate:  " ++ fmt12 (x_east_edge i);
    "West  edge x-coordinate:  " ++ fmt12 (x_west_edge i);
    "Measurement units:        " ++ box_units i;
    "";
    ";------------------"; ";Min and max value"; ";------------------";
    "Minimum value:  " ++ fmt12 (gmin i);
    "Maximum value:  " ++ fmt12 (gmax i);
    "";
    ";---------"; ";UTM zone"; ";---------";
    "UTM zone: " ++ UTM_zone i;
    ""; "";
    ";----------------------------------";
    ";Notes About RiverTools Info Files";
    ";----------------------------------" ]%string.
(** The trailer's remaining lines (rti_files.py 606-627), all comments, are
    left out: nothing reads them. *)

Fixpoint unlines (l : list string) : string :=
  match l with
  | [] => EmptyString
  | x :: r => (x ++ String newline (unlines r))%string
  end.
Definition info_text (i : info) : string := unlines (info_lines i).

(** rti_files.py 524-641 write_info *)
Definition write_info (F : fs) (name : string) (i : info) : fs :=
  put F (get_rti_file_name name) (info_text i).

(** rti_files.py 405-520 make_info with ncols, nrows, xres and yres given and
    both far edges left to be computed. *)
Definition make_info (gf : string) (nc nr : Z) (xr yr : Q) (ds dt bo : string) (pg : Z)
    (zr : Q) (zu : string) (ys xw : Q) (bu : string) (gn gx : Q) (utm : string) : res info :=
  let xsize := if (pg =? 1)%Z then (inject_Z nc * xr)%Q else (inject_Z nc * (xr / 3600))%Q in
  let ysize := if (pg =? 1)%Z then (inject_Z nr * yr)%Q else (inject_Z nr * (yr / 3600))%Q in
  let! _ := get_bpe dt in
  Ok (mkinfo gf ds nc nr dt bo pg xr yr zr zu ys (ys + ysize)%Q (xw + xsize)%Q xw bu gn gx utm).
