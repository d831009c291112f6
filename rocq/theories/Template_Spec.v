(** What a template says: text with named holes, and its holes filled. *)

From Coq Require Import String Ascii List Bool.
From Verif Require Import Time_Model.
Import ListNotations.
Local Open Scope string_scope.

Inductive token := Lit (s : string) | Hole (name : string).

Section Style.
Variables before after : string.   (* "{{" and "}}", or "${" and "}" *)
Definition write (t : token) : string := match t with Lit s => s | Hole x => before ++ x ++ after end.
Fixpoint written (ts : list token) : string := match ts with [] => "" | t :: r => write t ++ written r end.
(** The holes that have a value are filled, the others stay as they are. *)
Definition filled_token (value : string -> option string) (t : token) : token :=
  match t with Lit s => Lit s | Hole x => match value x with Some v => Lit v | None => Hole x end end.
Definition filled (value : string -> option string) (ts : list token) : string := written (map (filled_token value) ts).
End Style.

(** A character does not occur in a text. *)
Fixpoint without (c : ascii) (s : string) : Prop :=
  match s with EmptyString => True | String a r => a <> c /\ without c r end.

(** The first, the last value listed for a name. *)
Fixpoint first_value (vars vals : list string) (x : string) : option string :=
  match vars, vals with
  | v :: vs, w :: ws => if String.eqb v x then Some w else first_value vs ws x
  | _, _ => None
  end.
Fixpoint last_value (vars vals : list string) (x : string) : option string :=
  match vars, vals with
  | v :: vs, w :: ws => match last_value vs ws x with Some y => Some y | None => if String.eqb v x then Some w else None end
  | _, _ => None
  end.
