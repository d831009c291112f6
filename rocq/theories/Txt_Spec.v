(** What the theorems on text tables say. *)

From Coq Require Import String Ascii List ZArith QArith Qabs Bool.
From Verif Require Import Time_Model Rti_Model Fmt_Model Txt_Model.
Import ListNotations.

(** A file with these lines. *)
Definition file_with (lines : list string) : string := unlines lines.
Definition no_breaks (lines : list string) : Prop :=
  Forall (fun l => forall k, String.get k l <> Some (ascii_of_nat 10)) lines.

(** A table line says: this monitored cell (column, row, area, relief, then
    anything), or nothing (fewer than four words). *)
Definition says (line : string) (o : option outlet) : Prop :=
  match o with
  | None => (List.length (words line) < 4)%nat
  | Some o => exists c r a h rest, words line = c :: r :: a :: h :: rest /\
      eval_num c = Ok (inject_Z (o_col o)) /\ eval_num r = Ok (inject_Z (o_row o)) /\
      eval_num a = Ok (o_area o) /\ eval_num h = Ok (o_relief o)
  end.

Fixpoint present {A} (l : list (option A)) : list A :=
  match l with [] => [] | Some x :: r => x :: present r | None :: r => present r end.

Definition in_grid (nx ny : Z) (o : outlet) : Prop :=
  (0 <= o_row o < ny)%Z /\ (0 <= o_col o < nx)%Z.

(** Equal to within half a unit of the k-th decimal. *)
Definition close_to (k : nat) (a b : Q) : Prop :=
  (Qabs (a - b) <= (1 # 2) / inject_Z (10 ^ Z.of_nat k))%Q.

(** Numbers of fewer than m digits before the point. *)
Definition smaller (m : nat) (x : Q) : Prop := (Qabs x < inject_Z (10 ^ Z.of_nat m) - 1)%Q.
