(** Model of the stand-ins for functions of IDL: topoflow/utils/idl_func.py 64-80 (bytscl), 187-269 (readf with a
    format) and 274-327 (reads with a format).

    The format comes as the list of the field widths (240-245 and 303-308 take it apart, 252-253 and 316-317 take the
    number after the letter).  The fields come out as texts: their conversion to the type of the argument (256-259 and
    320-323) is not modelled, so the errors it may raise are not.  Numbers are rational, without rounding. *)

From Coq Require Import Ascii List ZArith QArith Bool Arith.
From Verif Require Import Time_Model.
Import ListNotations.

Notation text := (list ascii) (only parsing).

(** 246-259: one read of n characters for each argument; at the end of the file there are fewer, or none *)
Fixpoint readf_fields (n_args : nat) (widths : list nat) (file : text) : res (list text * text) :=
  match n_args with
  | O => Ok ([], file)
  | S k => match widths with
           | [] => Err IndexError
           | n :: ws => let! r := readf_fields k ws (skipn n file) in Ok (firstn n file :: fst r, snd r)
           end
  end.
(** 318: line[ pos : pos+n-1 ]; the end is -1, which is the last character, where both are zero *)
Definition reads_field (line : text) (pos n : nat) : text :=
  if (pos + n =? 0)%nat then removelast line else firstn (n - 1) (skipn pos line).
(** 309-323 *)
Fixpoint reads_fields (n_args : nat) (widths : list nat) (line : text) (pos : nat) : res (list text) :=
  match n_args with
  | O => Ok []
  | S k => match widths with
           | [] => Err IndexError
           | n :: ws => let! r := reads_fields k ws line (pos + n) in Ok (reads_field line pos n :: r)
           end
  end.

(** a.max() and a.min() *)
Definition qmax (x y : Q) : Q := if Qle_bool x y then y else x.
Definition qmin (x y : Q) : Q := if Qle_bool x y then x else y.
Definition extreme (f : Q -> Q -> Q) (a : list Q) : res Q :=
  match a with [] => Err ValueError | x :: l => Ok (fold_left f l x) end.
(** 66-80: nan and infinite values are None *)
Definition bytscl (integer : bool) (a : list Q) (max min : option Q) (top : Z) : res (list (option Q)) :=
  let! amax := (match max with Some m => Ok m | None => extreme qmax a end) in
  let! amin := (match min with Some m => Ok m | None => extreme qmin a end) in
  let top := inject_Z (top mod 256) in
  let b x := if integer then ((top + 1) * (x - amin) - 1) / (amax - amin)
             else (top + (9999 # 10000)) * (x - amin) / (amax - amin) in
  Ok (map (fun x => if Qeq_bool (amax - amin) 0 then None else Some (b x)) a).
