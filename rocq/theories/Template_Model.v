(** Model of the templates of configuration files:
    topoflow/utils/cfg_templates.py 16-45 ({{name}}) and
    topoflow/utils/template_files.py 42-132 (${name}, method 'RE').

    Files are those of Io_Model.  The values are given as the texts str() makes of
    them.  The method 'STRING' (string.Template) is not modelled, nor are wild cards in
    the names of files (glob.glob is taken as a test of existence). *)

From Coq Require Import String Ascii List Bool Arith.
From Verif Require Import Time_Model Io_Model Fmt_Model.
Import ListNotations.
Local Open Scope string_scope.

(** s.replace(p, o), p not empty: every occurrence from the left, without overlaps;
    [skip] characters of a found occurrence are still to be passed over *)
Fixpoint rep (p o : string) (skip : nat) (s : string) : string :=
  match s with
  | EmptyString => EmptyString
  | String c r =>
      match skip with
      | S k => rep p o k r
      | O => if String.prefix p s then o ++ rep p o (String.length p - 1) r else String c (rep p o 0 r)
      end
  end.
Definition replace_str (p o s : string) : string := rep p o 0 s.

(** ** cfg_templates.py *)

Inductive out := Done (F : fs) | NoTemplate | Raised (e : exn).

(** 34-42 *)
Fixpoint fill_in (vars vals : list string) (text : string) : res string :=
  match vars with
  | [] => Ok text
  | v :: vs =>
      match vals with
      | [] => Err IndexError
      | w :: ws => fill_in vs ws (replace_str ("{{" ++ v ++ "}}") w text)
      end
  end.
(** 31-44 make_new_cfg_file *)
Definition make_new_cfg_file (vars vals : list string) (template cfg_file : string) (F : fs) : out :=
  match lookup F template with
  | None => NoTemplate
  | Some text => match fill_in vars vals text with Ok t => Done (put F cfg_file t) | Err e => Raised e end
  end.

(** ** template_files.py *)

(** the characters before the first '}', if there is one *)
Fixpoint upto (s : string) : option string :=
  match s with
  | EmptyString => None
  | String c r => if Ascii.eqb c "}" then Some EmptyString
                  else match upto r with Some n => Some (String c n) | None => None end
  end.
(** 89, 105: re.findall of '\$\{[^\}]+\}' *)
Fixpoint findall (skip : nat) (s : string) : list string :=
  match s with
  | EmptyString => []
  | String c r =>
      match skip with
      | S k => findall k r
      | O => if Ascii.eqb c "$"
             then match r with
                  | String d r' =>
                      if Ascii.eqb d "{"
                      then match upto r' with
                           | Some (String n ns) => ("${" ++ String n ns ++ "}") :: findall (String.length (String n ns) + 2) r
                           | _ => findall 0 r
                           end
                      else findall 0 r
                  | EmptyString => findall 0 r
                  end
             else findall 0 r
      end
  end.

(** dict(list(zip(var_names, values))): the last pair for a name counts *)
Definition dict := list (string * string).
Fixpoint assoc (d : dict) (k : string) : option string :=
  match d with [] => None | (a, v) :: r => if String.eqb a k then Some v else assoc r k end.
Definition get_dict (d : dict) (k : string) : option string := assoc (rev d) k.

(** 105-110 *)
Definition do_line (d : dict) (line : string) : string :=
  fold_left (fun l m => match get_dict d m with Some v => replace_str m v l | None => l end) (findall 0 line) line.

(** 62-132 replace: the new file is opened (and emptied) before the template is read *)
Definition replace_file (template new_cfg_file : string) (d : dict) (F : fs) : fs :=
  match lookup F template with
  | None => F
  | Some _ =>
      let F1 := put F new_cfg_file EmptyString in
      match lookup F1 template with
      | None => F1
      | Some text => put F1 new_cfg_file (String.concat "" (map (do_line d) (readlines text)))
      end
  end.
