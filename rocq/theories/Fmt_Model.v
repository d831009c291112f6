(** Python number formatting and word splitting, used by the text file
    readers and writers. *)

From Coq Require Import String Ascii List ZArith NArith QArith Qround Qabs Bool.
From Verif Require Import Time_Model Io_Model Rti_Model.
Import ListNotations.

Fixpoint spaces (n : nat) : string :=
  match n with O => EmptyString | S k => String " " (spaces k) end.
(** s.rjust(w) *)
Definition rjust (w : nat) (s : string) : string := (spaces (w - String.length s) ++ s)%string.
(** ''.ljust(w, '-') *)
Fixpoint dashes (n : nat) : string :=
  match n with O => EmptyString | S k => String "-" (dashes k) end.

(** '%.kf' % x: nearest, ties to even.  Simplified: nan, inf and the sign of
    -0.0 are not modelled. *)
Definition fixed (k : nat) (x : Q) : string :=
  let p := (10 ^ N.of_nat k)%N in
  let n := Z.to_N (round_even (Qabs x * inject_Z (10 ^ Z.of_nat k))) in
  let frac := str_N (n mod p) in
  ((match Qcompare x 0 with Lt => "-" | _ => "" end) ++ str_N (n / p) ++ "." ++
   zeros (k - String.length frac) ++ frac)%string.

(** s.split(): the words between runs of whitespace. *)
Fixpoint words_acc (s : string) (w : string) : list string :=
  match s with
  | EmptyString => match w with EmptyString => [] | _ => [w] end
  | String a r => if is_space a
                  then match w with EmptyString => words_acc r EmptyString
                                  | _ => w :: words_acc r EmptyString end
                  else words_acc r (w ++ String a EmptyString)
  end.
Definition words (s : string) : list string := words_acc s EmptyString.

(** f.readlines(): [fuel] bounds the number of lines. *)
Fixpoint readlines_f (fuel : nat) (s : string) : list string :=
  match fuel with
  | O => []
  | S f => match readline s with
           | (EmptyString, _) => []
           | (l, r) => l :: readlines_f f r
           end
  end.
Definition readlines (s : string) : list string := readlines_f (S (String.length s)) s.
