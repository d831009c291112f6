(** Model of the file helpers: topoflow/utils/file_utils.py,
    topoflow/utils/model_input.py (text time series and binary grids) and the
    name handling of topoflow/utils/rti_files.py.

    A file system is a list of (name, contents); the first entry for a name
    counts.  Contents are strings of 8-bit characters, for text and binary
    files alike.  Directories, permissions and other processes are not
    modelled. *)

From Coq Require Import String Ascii List ZArith NArith QArith Bool.
From Verif Require Import Time_Model.
Import ListNotations.

Definition fs := list (string * string).

Fixpoint lookup (F : fs) (name : string) : option string :=
  match F with
  | [] => None
  | (n, c) :: r => if String.eqb n name then Some c else lookup r name
  end.
(** open(name, 'w') / 'wb' followed by writing [c] and closing *)
Definition put (F : fs) (name c : string) : fs := (name, c) :: F.
(** os.path.exists *)
Definition exists_file (F : fs) (name : string) : bool :=
  match lookup F name with Some _ => true | None => false end.

(** ** Names *)

(** s.rfind(c): position of the last c. *)
Fixpoint rfind (c : ascii) (s : string) : option nat :=
  match s with
  | EmptyString => None
  | String a r => match rfind c r with
                  | Some k => Some (S k)
                  | None => if Ascii.eqb a c then Some 0%nat else None
                  end
  end.

(** s[:pos] and s[pos:] when pos is the result of rfind, which is -1 when the
    character does not occur: then the slices cut before the last character. *)
Definition cut_pos (c : ascii) (s : string) : nat :=
  match rfind c s with Some k => k | None => String.length s - 1 end.

(** file_utils.py 50-59 get_prefix_and_extension *)
Definition get_prefix_and_extension (name : string) : string * string :=
  (take (cut_pos "." name) name, drop (cut_pos "." name) name).

(** file_utils.py 42-46 replace_extension *)
Definition replace_extension (name ext : string) : string :=
  (fst (get_prefix_and_extension name) ++ ext)%string.

Definition lower_char (a : ascii) : ascii :=
  let n := N_of_ascii a in
  if ((65 <=? n) && (n <=? 90))%N then ascii_of_N (n + 32) else a.
Definition upper_char (a : ascii) : ascii :=
  let n := N_of_ascii a in
  if ((97 <=? n) && (n <=? 122))%N then ascii_of_N (n - 32) else a.
Fixpoint smap (f : ascii -> ascii) (s : string) : string :=
  match s with EmptyString => EmptyString | String a r => String (f a) (smap f r) end.
(** s.lower() and s.upper(), ASCII letters only (simplified). *)
Definition lower (s : string) : string := smap lower_char s.
Definition upper (s : string) : string := smap upper_char s.

(** file_utils.py 29-38 add_extension *)
Definition add_extension (name ext : string) : string :=
  if String.eqb (lower (last_chars (String.length ext) name)) (lower ext) then name
  else (name ++ ext)%string.

(** file_utils.py 76-84: the loop of check_overwrite.  [fuel] bounds the number
    of tries; [None] means out of fuel. *)
Definition version_name (prefix ext : string) (k : Z) : string :=
  (prefix ++ ("_" ++ py_str k) ++ ext)%string.
Fixpoint overwrite_loop (fuel : nat) (F : fs) (prefix ext : string) (k : Z) : option string :=
  match fuel with
  | O => None
  | S f => let new_name := version_name prefix ext k in
           if exists_file F new_name then overwrite_loop f F prefix ext (k + 1)
           else Some new_name
  end.

(** file_utils.py 63-85 check_overwrite; a file system with n entries needs at
    most n + 1 tries. *)
Definition check_overwrite (F : fs) (name : string) : option string :=
  if negb (exists_file F name) then Some name
  else let '(prefix, ext) := get_prefix_and_extension name in
       overwrite_loop (S (List.length F)) F prefix ext 1.

(** ** Reading lines *)

Definition newline : ascii := ascii_of_N 10.

(** f.readline() on the text that is left: the line with its newline, and the
    rest.  At the end of the file the line is empty.  Simplified: only "\n"
    ends a line. *)
Fixpoint readline (s : string) : string * string :=
  match s with
  | EmptyString => (EmptyString, EmptyString)
  | String a r => if Ascii.eqb a newline then (String a EmptyString, r)
                  else let '(l, r') := readline r in (String a l, r')
  end.

(** s.strip() *)
Definition strip (s : string) : string := lstrip (rstrip s).

(** file_utils.py 105-154 count_lines: the number of nonblank lines.
    [fuel] bounds the number of lines read. *)
Fixpoint count_loop (fuel : nat) (s : string) (n : nat) : option nat :=
  match fuel with
  | O => None
  | S f => let '(line, rest) := readline s in
           if String.eqb line "" then Some n
           else count_loop f rest (if String.eqb (strip line) "" then n else S n)
  end.
Definition count_lines (s : string) : option nat := count_loop (S (String.length s)) s 0.

(** ** model_input.py *)

Section Input.
  (** np.float32(word): [None] stands for ValueError. *)
  Variable float_of : string -> option Q.

  (** model_input.py 184-222 read_scalar: value (None = no value) and the text
      left. *)
  Definition read_scalar (s : string) (col : nat) (delim : ascii) : res (option Q * string) :=
    let '(line, rest) := readline s in
    let line := strip line in
    if String.eqb line "" then Ok (None, rest)
    else let! w := item (split delim line) col in
         match float_of w with Some q => Ok (Some q, rest) | None => Err ValueError end.

  (** model_input.py 132-179 read_next for a time series (units_factor
      multiplies a value that is there). *)
  Definition read_next_ts (s : string) (factor : Q) : res (option Q * string) :=
    let! (v, rest) := read_scalar s 0 " " in
    Ok (match v with Some q => Some (q * factor)%Q | None => None end, rest).

  (** BMI_base.py 2325-2358 update_var on a 0D variable: None changes nothing. *)
  Definition update_scalar (x : Q) (v : option Q) : Q := match v with Some q => q | None => x end.

  (** n updates of a component that reads one value from its open file per
      update (e.g. met_base.py read_input_files): the values of the variable
      after each update. *)
  Fixpoint ts_run (n : nat) (s : string) (factor x : Q) : res (list Q) :=
    match n with
    | O => Ok []
    | S k => let! (v, rest) := read_next_ts s factor in
             let x' := update_scalar x v in
             let! l := ts_run k rest factor x' in Ok (x' :: l)
    end.
End Input.
