(* Model of how a component starts from its configuration files, /repo/topoflow/utils/BMI_base.py: read_path_info
   (1468-1548), read_time_info (1552-1666) and initialize_config_vars (1940-1976, with READ_GRID_INFO=False: reading the
   grid information is modelled elsewhere).  The attributes of a component are a map from names to values (Cfg_Model); the
   names in the files are Python names.  set_directories is the model of Info_Model.  Printing is left out. *)
From Coq Require Import String Ascii List ZArith QArith Bool.
From Verif Require Import Time_Model Io_Model Fmt_Model Cfg_Model.
From Verif Require Info_Model.
Import ListNotations.
Local Open Scope string_scope.

(* str.replace(old, ''): every occurrence, from the left, without overlaps; old is not empty.  fuel: the length. *)
Fixpoint remove_f (fuel : nat) (old s : string) : string :=
  match fuel, s with
  | S f, String c r => if String.prefix old s then remove_f f old (drop (String.length old) s) else String c (remove_f f old r)
  | _, _ => s
  end.
Definition remove_all (s old : string) : string := remove_f (String.length s) old s.

(* 1496-1498, 1587-1589: the file beside the configuration file *)
Definition sibling (cfg_file ext suffix : string) : string := remove_all cfg_file ext ++ suffix.

(* 1520-1541, 1622-1647: a line with four fields that is not a comment sets an attribute; all values are texts *)
Definition assign (line : string) (A : attrs) : attrs :=
  match split "|" line with
  | [a; b; _; _] => if is_comment line then A else upd A (strip a) (VStr (strip b))
  | _ => A
  end.
Definition assign_all (text : string) (A : attrs) : attrs := fold_left (fun A l => assign l A) (readlines text) A.

(* the files that can be opened, with their texts *)
Definition disk := string -> option string.

(* an attribute that must be there and be a text; None is not modelled as a value except for cfg_directory and cfg_file *)
Definition text_of (A : attrs) (n : string) : res string :=
  match A n with Some (VStr s) => Ok s | Some _ => Err TypeError | None => Err AttributeError end.
Definition opt_of (A : attrs) (n : string) : option string := match A n with Some (VStr s) => Some s | _ => None end.
Definition err_of (e : Info_Model.err) : exn :=
  match e with
  | Info_Model.ValueError => ValueError | Info_Model.IndexError => IndexError
  | Info_Model.UnboundLocalError => UnboundLocalError | Info_Model.AttributeError => AttributeError | Info_Model.TypeError => TypeError
  end.
Definition upd_some (A : attrs) (n : string) (v : option string) : attrs := match v with Some s => upd A n (VStr s) | None => A end.

(* set_directories, 2069-2214, on the attributes *)
Definition set_dirs (E : Info_Model.os) (A : attrs) : res attrs :=
  let! i := text_of A "in_directory" in
  let! o := text_of A "out_directory" in
  match Info_Model.set_directories E (Info_Model.mkDirs (opt_of A "cfg_directory") (opt_of A "cfg_file") i o "" "" "" "") with
  | Info_Model.Raise e => Err (err_of e)
  | Info_Model.Ok d =>
      let A := upd_some A "cfg_directory" (Info_Model.cfg_directory d) in
      let A := upd A "in_directory" (VStr (Info_Model.in_directory d)) in
      let A := upd A "out_directory" (VStr (Info_Model.out_directory d)) in
      let A := upd A "topo_directory" (VStr (Info_Model.topo_directory d)) in
      let A := upd A "soil_directory" (VStr (Info_Model.soil_directory d)) in
      let A := upd A "met_directory" (VStr (Info_Model.met_directory d)) in
      Ok (upd A "misc_directory" (VStr (Info_Model.misc_directory d)))
  end.

(* read_path_info, 1468-1548: without the file a warning, and set_directories is not called *)
Definition read_path_info (E : Info_Model.os) (D : disk) (ext : string) (A : attrs) : res attrs :=
  let! cfg := text_of A "cfg_file" in
  match D (sibling cfg ext "_path_info.cfg") with
  | None => Ok A
  | Some text => set_dirs E (assign_all text A)
  end.

(* read_time_info, 1552-1666: the attributes of the time_info object *)
Definition nothing : attrs := fun _ => None.
Definition read_time_info (D : disk) (ext cfg : string) : res attrs :=
  match D (sibling cfg ext "_time_info.cfg") with
  | None =>
      let T := upd nothing "start_date" (VStr "2020-01-01") in
      let T := upd T "start_time" (VStr "00:00:00") in
      let T := upd T "end_date" (VStr "2020-01-02") in
      let T := upd T "end_time" (VStr "00:00:00") in
      let T := upd T "duration" (VFloat 1440) in
      Ok (upd T "duration_units" (VStr "minutes"))
  | Some text =>
      let T := assign_all text nothing in
      let! sd := text_of T "start_date" in
      let! st := text_of T "start_time" in
      let! ed := text_of T "end_date" in
      let! et := text_of T "end_time" in
      let! dur := get_duration sd st ed et "minutes" in
      let T := upd T "duration" (VFloat dur) in
      let T := upd T "duration_units" (VStr "minutes") in
      let T := upd T "start_datetime" (VStr (sd ++ " " ++ st)) in
      Ok (upd T "end_datetime" (VStr (ed ++ " " ++ et)))
  end.

(* initialize_config_vars(READ_GRID_INFO=False), 1940-1976: the attributes of the component and of its time_info;
   without its file read_config_file only warns (1705-1708) *)
Definition initialize_config_vars (layers : Z -> attrs -> attrs) (E : Info_Model.os) (D : disk) (ext : string) (A : attrs) : res (attrs * attrs) :=
  let! A := read_path_info E D ext A in
  let! cfg := text_of A "cfg_file" in
  let! T := read_time_info D ext cfg in
  let! A := match D cfg with None => Ok A | Some text => read_config_file layers A text end in
  let! A := set_dirs E A in
  Ok (A, T).

(* ncts_files.py 432-437 (and ncgs, ncps): the attributes of time_info that an output file needs *)
Definition output_needs : list string := ["start_date"; "start_time"; "end_date"; "end_time"; "start_datetime"; "end_datetime"].
Definition open_output (T : attrs) : res unit := fold_left (fun r n => let! _ := r in let! _ := text_of T n in Ok tt) output_needs (Ok tt).
