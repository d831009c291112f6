(** Model of topoflow/utils/rtg2rts.py 19-86: grid files with a common prefix bundled
    into one RTS file.

    Files are those of Io_Model, a content being its bytes.  In the prefix no character is
    special to glob; directories are left out.  The arguments nx and ny given as text are
    those of decimal integers, not negative.  Printing is left out. *)

From Coq Require Import String Ascii List Bool Arith ZArith.
From Verif Require Import Time_Model Io_Model Rti_Model Rts_Model.
Import ListNotations.
Local Open Scope string_scope.

(** an argument nx or ny: None, text (a command line) or a number (a call) *)
Inductive dim := DNone | DText (s : string) | DInt (z : Z).

(** 44 glob.glob( RTG_prefix + '*' ), in some order *)
Fixpoint has_slash (s : string) : bool := match s with EmptyString => false | String c r => Ascii.eqb c "/" || has_slash r end.
Definition matches (prefix name : string) : bool :=
  String.prefix prefix name && negb (has_slash (drop (String.length prefix) name)).
Definition glob (F : fs) (prefix : string) : list string := filter (matches prefix) (nodup string_dec (map fst F)).

(** 45 numpy.sort of texts *)
Fixpoint insert (x : string) (l : list string) : list string :=
  match l with [] => [x] | y :: r => if String.leb x y then x :: l else y :: insert x r end.
Definition sort (l : list string) : list string := fold_right insert [] l.

(** 65-66 eval: refuses what is not text *)
Definition eval_dim (d : dim) : res Z := match d with DText s => py_int s | DNone | DInt _ => Err TypeError end.

(** 51-66.  try_to_find_rti_file returns None, not 'none', when there is none: then
    read_info( None ) is called, whose rfind is an AttributeError *)
Definition dims (F : fs) (names : list string) (nx ny : dim) : res (Z * Z) :=
  match nx, ny with
  | DNone, DNone =>
      match names with
      | [] => Err IndexError
      | n1 :: _ =>
          match try_to_find_rti_file F n1 with
          | None => Err AttributeError
          | Some R =>
              let! i := read_info F R in
              match i with None => Err AttributeError | Some i => Ok (ncols i, nrows i) end
          end
      end
  | _, _ => let! x := eval_dim nx in let! y := eval_dim ny in Ok (x, y)
  end.

(** 73-79: the elements of a grid file as written; byteswap() returns a new array,
    which is not kept *)
Definition copied (F : fs) (n bpe : nat) (name : string) : string :=
  match lookup F name with Some c => sconcat (from_bytes n bpe c) | None => EmptyString end.

(** 37-84; [bpe]: bytes of the dtype *)
Definition rtg2rts (F : fs) (prefix new_RTS_file : string) (nx ny : dim) (bpe : nat) : res fs :=
  if exists_file F new_RTS_file then Ok F
  else
    let RTG_list := sort (glob F prefix) in
    let! (x, y) := dims F RTG_list nx ny in
    Ok (put F new_RTS_file (sconcat (map (copied F (Z.to_nat (x * y)) bpe) RTG_list))).
