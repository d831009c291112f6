(** What the theorems on file names and time series input say. *)

From Coq Require Import String Ascii List ZArith QArith Bool.
Import ListNotations.

(** The last value present among the first k+1 entries, or [x0]. *)
Definition latest (vs : list (option Q)) (k : nat) (x0 : Q) : Q :=
  fold_left (fun x v => match v with Some q => q | None => x end) (firstn (S k) vs) x0.

(** No character of [s] is [c]. *)
Definition free_of (c : ascii) (s : string) : Prop :=
  forall k, String.get k s <> Some c.

(** The text of a file with these lines. *)
Definition file_of (lines : list string) : string :=
  fold_right (fun l r => (l ++ String (ascii_of_nat 10) r)%string) EmptyString lines.
