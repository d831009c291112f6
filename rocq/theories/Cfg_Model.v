(** Model of the configuration file reader, topoflow/utils/BMI_base.py
    1670-1936 (read_config_file).

    The attributes of a component are a map from names to values.  The code
    stores with exec("self.<name> = ..."): the name is taken as it is written,
    with its subscript if it has one; names that are not Python names are not
    modelled. *)

From Coq Require Import String Ascii List ZArith NArith QArith Bool.
From Verif Require Import Time_Model Io_Model Fmt_Model.
Import ListNotations.

Inductive cval := VFloat (q : Q) | VInt (z : Z) | VStr (s : string) | VBool (b : bool).
Definition attrs := string -> option cval.
Definition upd (A : attrs) (n : string) (v : cval) : attrs :=
  fun m => if String.eqb n m then Some v else A m.

(** np.float64(text) for digits with an optional point; simplified: nan, inf
    and underscores are not modelled, and the value is not rounded. *)
Definition float_unsigned (s : string) : res Q :=
  match split "." s with
  | [ip] => match ip, parse_digits ip 0 with
            | String _ _, Some n => Ok (inject_Z (Z.of_N n))
            | _, _ => Err ValueError
            end
  | [ip; fp] => match (ip ++ fp)%string, parse_digits (ip ++ fp) 0 with
                | String _ _, Some n => Ok (inject_Z (Z.of_N n) / inject_Z (10 ^ Z.of_nat (String.length fp)))%Q
                | _, _ => Err ValueError
                end
  | _ => Err ValueError
  end.
Definition float_signed (s : string) : res Q :=
  match s with
  | String "-" r => let! q := float_unsigned r in Ok (- q)%Q
  | String "+" r => float_unsigned r
  | _ => float_unsigned s
  end.
(** 10 to a power *)
Definition ten_to (e : Z) : Q :=
  if (e <? 0)%Z then (1 / inject_Z (10 ^ (- e)))%Q else inject_Z (10 ^ e).
(** with an optional exponent *)
Definition float_of (s : string) : res Q :=
  match split "e" (lower s) with
  | [m] => float_signed m
  | [m; e] => let! q := float_signed m in
              let! k := py_int e in Ok (q * ten_to k)%Q
  | _ => Err ValueError
  end.
(** np.int32(text); out of range is an error. *)
Definition int32_of (s : string) : res Z :=
  let! z := py_int s in
  if ((-2147483648 <=? z) && (z <=? 2147483647))%Z then Ok z else Err OverflowError.

(** BMI_base.py 1757-1766: the name without its subscript, and the name of the
    file attribute. *)
Definition file_target (name : string) : string * string :=
  match rfind "[" name, rfind "]" name with
  | Some p1, Some p2 =>
      if ((0 <? p1) && (p1 <? p2))%nat
      then (take p1 name, take p1 name ++ "_file" ++ take (p2 + 1 - p1) (drop p1 name))%string
      else (name, name ++ "_file")%string
  | _, _ => (name, name ++ "_file")%string
  end.

(** 1800-1803: READ_SCALAR and READ_FILENAME *)
Inductive mode := Plain | ReadScalar | ReadFilename.

(** 1850-1857: [case_prefix] and [site_prefix] *)
Definition prefixed (A : attrs) (which rest : string) : res string :=
  match A which with
  | Some (VStr p) => Ok (p ++ rest)%string
  | Some _ => Err TypeError
  | None => Err AttributeError
  end.
Definition expand (A : attrs) (s : string) : res string :=
  if String.eqb (take 13 s) "[case_prefix]" then prefixed A "case_prefix" (drop 13 s)
  else if String.eqb (take 13 s) "[site_prefix]" then prefixed A "site_prefix" (drop 13 s)
  else Ok s.

(** 1873-1875 *)
Definition true_list := ["yes"; "true"; "on"; "1"]%string.
Definition false_list := ["no"; "false"; "off"; "0"]%string.
Definition mem (s : string) (l : list string) : bool := existsb (String.eqb s) l.

Section Reader.
(** self.initialize_layer_vars() with that number of layers: creates the lists
    of the layered variables (1751-1753; only in some components). *)
Variable init_layers : Z -> attrs -> attrs.

Record rstate := mkst { at_ : attrs; last_name : string; last_value : cval }.

(** 1735-1936: a line with four fields *)
Definition setting (name value typ : string) (st : rstate) : res rstate :=
  let! A := (if String.eqb name "n_layers"
             then let! n := int32_of value in Ok (init_layers n (upd (at_ st) "n_layers" (VInt n)))
             else Ok (at_ st)) in
  let '(base, fname) := file_target name in
  let! (A, md) :=
    (if String.prefix (base ++ "_type") (last_name st)
     then match last_value st with
          | VStr t => if String.eqb (lower t) "scalar" then Ok (upd A fname (VStr ""), ReadScalar)
                      else Ok (upd A name (VFloat 0), ReadFilename)
          | _ => Err AttributeError
          end
     else Ok (A, Plain)) in
  if mem typ ["double"; "float"]%string then
    let! q := float_of value in Ok (mkst (upd A name (VFloat q)) name (VFloat q))
  else if mem typ ["long"; "int"]%string then
    let! z := int32_of value in Ok (mkst (upd A name (VInt z)) name (VInt z))
  else if String.eqb typ "string" then
    let! v := expand A value in
    if mem (lower value) true_list then Ok (mkst (upd A name (VBool true)) name (VStr value))
    else if mem (lower value) false_list then Ok (mkst (upd A name (VBool false)) name (VStr value))
    else match md with
         | ReadFilename => Ok (mkst (upd A fname (VStr v)) name (VStr value))
         | _ => Ok (mkst (upd A name (VStr v)) name (VStr value))
         end
  else Ok (mkst A name (VStr value)).

(** 1716-1735: one line of the file *)
Definition is_comment (line : string) : bool :=
  match line with String "#" _ => true | _ => false end.
Definition do_line (line : string) (st : rstate) : res rstate :=
  match split "|" line with
  | [a; b; c; _] => if is_comment line then Ok st else setting (strip a) (strip b) (strip c) st
  | _ => Ok st
  end.
Fixpoint do_lines (lines : list string) (st : rstate) : res rstate :=
  match lines with
  | [] => Ok st
  | l :: r => let! st := do_line l st in do_lines r st
  end.

(** The attributes after reading a file with this text. *)
Definition read_config_file (A : attrs) (text : string) : res attrs :=
  let! st := do_lines (readlines text) (mkst A "" (VStr "")) in Ok (at_ st).
End Reader.
