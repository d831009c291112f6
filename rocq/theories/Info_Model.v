(* Model of parts of /repo/topoflow/utils/BMI_base.py that every component inherits: grid information (675-768), edge cells
   (1434-1458), run time report (1193-1269), directories (2043-2214) and the variables' arrays (2230-2375).
   Numbers are rational, arrays are shapes with their values row by row; exceptions are values.  Printing is left out. *)
From Coq Require Import String Ascii ZArith QArith List Bool Arith.
From Verif Require Import Base.
Import ListNotations.
Local Open Scope Q_scope.

Inductive err := ValueError | IndexError | UnboundLocalError | AttributeError | TypeError.
Inductive out (A : Type) := Ok (a : A) | Raise (e : err).
Arguments Ok {A}. Arguments Raise {A}.
Definition bind {A B} (x : out A) (f : A -> out B) : out B := match x with Ok a => f a | Raise e => Raise e end.

(* ---------- save_edge_ids, 1446-1458: top, bottom, left and right cells as row-by-row numbers, then (row, col) ---------- *)
Definition edge_ids (ny nx : nat) : list nat :=
  let T := seq 0 nx in
  let B := map (fun i => i + (ny - 1) * nx)%nat T in
  let L := map (fun i => (1 + i) * nx)%nat (seq 0 (ny - 2)) in
  let Rt := map (fun i => i + (nx - 1))%nat L in
  T ++ B ++ L ++ Rt.
Definition edge_cells (ny nx : nat) : list (nat * nat) := map (fun i => (i / nx, i mod nx)%nat) (edge_ids ny nx).

(* ---------- grid information, 675-768 ---------- *)
Record info := mkInfo { ny : nat; nx : nat; pixel_geom : nat; xres : Q; yres : Q; y_south : Q; x_west : Q }.
Definition get_grid_rank (grid_id : nat) : nat := if Nat.eqb grid_id 0 then 2%nat else 0%nat.
Definition get_grid_size (I : info) (grid_id : nat) : nat := if Nat.eqb grid_id 0 then (ny I * nx I)%nat else 1%nat.
Inductive gtype := uniform_rectilinear | structured_quadrilateral | scalar.
Definition get_grid_type (I : info) (grid_id : nat) : gtype :=
  if Nat.eqb grid_id 0 then if Nat.eqb (pixel_geom I) 1 then uniform_rectilinear else structured_quadrilateral else scalar.
(* dest[:] = two numbers; the argument is returned *)
Definition assign2 {A} (dest : list A) (a b : A) : out (list A) := if Nat.eqb (List.length dest) 2 then Ok [a; b] else Raise ValueError.
Definition get_grid_shape (I : info) (grid_id : nat) (shape : list nat) : out (list nat) := if Nat.eqb grid_id 0 then assign2 shape (ny I) (nx I) else Ok shape.
Definition get_grid_spacing (I : info) (grid_id : nat) (spacing : list Q) : out (list Q) := if Nat.eqb grid_id 0 then assign2 spacing (yres I) (xres I) else Ok spacing.
Definition get_grid_origin (I : info) (grid_id : nat) (origin : list Q) : out (list Q) := if Nat.eqb grid_id 0 then assign2 origin (y_south I) (x_west I) else Ok origin.

(* ---------- get_run_time_string, 1224-1267: the numbers before ' days, ', ' hours, ', ' minutes, ', ' seconds.' ---------- *)
(* np.int32 / np.int32 is the true division; days, hours and minutes are printed when positive; sec is the integer part *)
Record runtime := mkRt { days : Q; hours : Q; minutes : Q; seconds : Z }.
Definition run_time (sec : Z) : runtime :=
  let days := inject_Z sec / 86400 in
  let left := (sec mod 86400)%Z in
  let hours := inject_Z left / 3600 in
  let left := (left mod 3600)%Z in
  let minutes := inject_Z left / 60 in
  mkRt days hours minutes (left mod 60)%Z.

(* ---------- directories, 2069-2214 ---------- *)
Local Open Scope string_scope.
(* the file system and os.path functions that are used *)
Record os := mkOs { exists_dir : string -> bool; expanduser : string -> string; abspath : string -> string; dirname : string -> string; getcwd : string }.
Record dirs := mkDirs { cfg_directory : option string; cfg_file : option string; in_directory : string; out_directory : string; topo_directory : string; soil_directory : string; met_directory : string; misc_directory : string }.
Definition sep : ascii := "/"%char.
Definition first (s : string) : option ascii := match s with EmptyString => None | String c _ => Some c end.
Fixpoint last (s : string) : option ascii := match s with EmptyString => None | String c EmptyString => Some c | String _ r => last r end.
(* 2145-2146, 2154-2155 *)
Definition resolve (E : os) (cfg_dir dir : string) : out string :=
  match first dir with None => Raise IndexError | Some c => Ok (if Ascii.eqb c "."%char then abspath E (cfg_dir ++ dir) else dir) end.
Definition close_dir (dir : string) : out string :=
  match last dir with None => Raise IndexError | Some c => Ok (if Ascii.eqb c sep then dir else dir ++ "/") end.
Definition sub (E : os) (in_dir name : string) : string := let d := in_dir ++ name ++ "/" in if exists_dir E d then d else in_dir.
Definition set_directories (E : os) (s : dirs) : out dirs :=
  (* cfg_dir stays unbound without cfg_directory and cfg_file, 2105-2117 *)
  let cfg_dir := match cfg_directory s with
                 | Some d => Some d
                 | None => match cfg_file s with
                           | Some f => let d := dirname E f in let d := if String.eqb d "" then getcwd E else d in Some (d ++ "/")
                           | None => None
                           end
                 end in
  let i := expanduser E (in_directory s) in
  let o := expanduser E (out_directory s) in
  match cfg_dir with
  | None => match first i with
            | None => Raise IndexError
            | Some _ => match first o with None => if Ascii.eqb (match first i with Some c => c | None => sep end) "."%char then Raise UnboundLocalError else Raise IndexError | Some _ => Raise UnboundLocalError end
            end
  | Some c =>
      bind (resolve E c i) (fun i => bind (resolve E c o) (fun o => bind (close_dir i) (fun i => bind (close_dir o) (fun o =>
      Ok (mkDirs (Some c) (cfg_file s) i o (sub E i "__topo") (sub E i "__soil") (sub E i "__met") (sub E i "__misc"))))))
  end.
(* ---------- prepend_directory, 2043-2065: names of attributes with file names ---------- *)
Definition prepend1 (dir : string) (atts : string -> option string) (x : string) : out (string -> option string) :=
  match atts x with
  | None => Raise AttributeError
  | Some f => Ok (if String.eqb f "" then atts else fun y => if String.eqb y x then Some (dir ++ f) else atts y)
  end.
Fixpoint prepend_directory (dir : string) (l : list string) (atts : string -> option string) : out (string -> option string) :=
  match l with [] => Ok atts | x :: l => bind (prepend1 dir atts x) (prepend_directory dir l) end.

(* ---------- arrays of variables, 2230-2375 ---------- *)
Local Open Scope Q_scope.
Record arr := mkArr { dims : list nat; dat : list Q }.
Definition heap := nat -> arr.
Definition put (h : heap) (l : nat) (a : arr) : heap := fun k => if Nat.eqb k l then a else h k.
(* initialize_scalar, initialize_grid, initialize_var: a new array *)
Definition initialize_var (ny nx : nat) (time_series : bool) (value : Q) : arr := if time_series then mkArr [] [value] else mkArr [ny; nx] (repeat value (ny * nx)).
(* update_var, 2325-2358; the variable's array is at v *)
Inductive value := VNone | VNum (q : Q) | VArr (l : nat).
(* value *= factor is done in place for an array; array[:] = x for an array of one number or of the same shape (other broadcasting is not modelled) *)
Definition fill_from (a : arr) (x : list Q) (xd : list nat) : out arr :=
  match dims a with
  | [] => match x with [q] => Ok (mkArr [] [q]) | _ => Raise ValueError end
  | _ => match x with
         | [q] => Ok (mkArr (dims a) (repeat q (List.length (dat a))))
         | _ => if list_eq_dec Nat.eq_dec xd (dims a) then Ok (mkArr (dims a) x) else Raise ValueError
         end
  end.
Definition update_var (h : heap) (v : nat) (x : value) (factor : Q) : out heap :=
  match x with
  | VNone => Ok h
  | VNum q => let q := if Qeq_bool factor 1 then q else q * factor in bind (fill_from (h v) [q] []) (fun a => Ok (put h v a))
  | VArr l => let h := if Qeq_bool factor 1 then h else put h l (mkArr (dims (h l)) (map (fun y => y * factor) (dat (h l)))) in
              bind (fill_from (h v) (dat (h l)) (dims (h l))) (fun a => Ok (put h v a))
  end.
