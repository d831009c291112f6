(** What the theorems on grid stacks say. *)

From Coq Require Import String Ascii List ZArith Bool.
From Verif Require Import Io_Model Rti_Model Rts_Model.
Import ListNotations.

(** The bytes of one number on disk: most significant first in MSB files, last
    in LSB files. *)
Definition disk (bo : string) (v : cell) : string :=
  if String.eqb bo "MSB" then v
  else string_of_list_ascii (rev (list_ascii_of_string v)).

(** The file that holds these grids, one after the other. *)
Definition stack (bo : string) (gs : list (list cell)) : string :=
  fold_right (fun v r => (disk bo v ++ r)%string) EmptyString (concat gs).

(** A grid of n numbers of b bytes each. *)
Definition proper (n b : nat) (g : list cell) : Prop :=
  List.length g = n /\ Forall (fun v => String.length v = b) g.

Definition valid_order (bo : string) : Prop := bo = "LSB"%string \/ bo = "MSB"%string.

(** The list with entry k replaced, or appended when k is the length. *)
Definition replaced {A} (l : list A) (k : nat) (x : A) : list A :=
  firstn k l ++ x :: skipn (S k) l.

(** The order a machine uses itself. *)
Definition own_order (m : machine) : string :=
  match m with Little => "LSB" | Big => "MSB" end.

(** What may be handed to add_grid: a grid of the right size and type, or a
    single number where no byte swap is needed. *)
Definition acceptable (m : machine) (bo : string) (n b : nat) (g : grid) : Prop :=
  match g with
  | GGrid l => proper n b l
  | GScalar v => bo = own_order m /\ String.length v = b
  | GArray0 _ => False
  end.
(** The grid meant: a single number fills the grid. *)
Definition contents (n : nat) (g : grid) : list cell :=
  match g with GGrid l => l | GScalar v => repeat v n | GArray0 v => repeat v n end.

(** Number types and their sizes in bytes. *)
Definition type_bytes : list (string * nat) :=
  [("uint8", 1); ("int16", 2); ("int32", 4); ("int64", 8); ("float32", 4); ("float64", 8)]%nat%string.

(** Grids of i's shape with b bytes per number: not empty, byte order known,
    and one grid is smaller than 2^31 bytes. *)
Definition fits (i : info) (n b : nat) : Prop :=
  (0 < ncols i)%Z /\ (0 < nrows i)%Z /\ Z.of_nat n = (ncols i * nrows i)%Z /\
  (0 < b)%nat /\ (Z.of_nat n * Z.of_nat b < 2147483648)%Z /\ valid_order (byte_order i).

(** Successive add_grid(grid, time_index) calls, and what they should leave. *)
Fixpoint updates (m : machine) (F : fs) (o : rts) (ops : list (nat * grid)) : option (fs * rts) :=
  match ops with
  | [] => Some (F, o)
  | (k, g) :: r => match add_grid m F o g (Z.of_nat k) with
                   | Time_Model.Ok (F', o') => updates m F' o' r
                   | Time_Model.Err _ => None
                   end
  end.
Fixpoint after_updates (n : nat) (l : list (list cell)) (ops : list (nat * grid)) : list (list cell) :=
  match ops with
  | [] => l
  | (k, g) :: r => after_updates n (replaced l k (contents n g)) r
  end.
(** Every index is that of a grid in the file, or the next one. *)
Fixpoint in_range (len : nat) (ops : list (nat * grid)) : Prop :=
  match ops with
  | [] => True
  | (k, _) :: r => (k <= len)%nat /\ in_range (Nat.max len (S k)) r
  end.
