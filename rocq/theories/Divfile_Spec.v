(** What the files of the diversions component say: lines of a key, a colon and
    words separated by blanks. *)

From Coq Require Import String Ascii List ZArith NArith QArith Bool.
From Verif Require Import Base Time_Model Time_Proofs Io_Model Io_Proofs Rti_Model Rti_Proofs.
Import ListNotations.

(** The text made of the lines; the last newline may be missing. *)
Inductive text : list string -> string -> Prop :=
  | text_none : text [] EmptyString
  | text_last l : nosep newline l = true -> text [l] l
  | text_line l r t : nosep newline l = true -> text r t -> text (l :: r) (l ++ String newline t).

(** The words, with blanks around and between them. *)
Inductive spaced : list string -> string -> Prop :=
  | spaced_end e : allspace e = true -> spaced [] e
  | spaced_word g w ws s : allspace g = true -> nospace w = true -> w <> EmptyString ->
      spaced ws s -> s = EmptyString \/ (exists a s', s = String a s' /\ is_space a = true) ->
      spaced (w :: ws) (g ++ w ++ s).

Definition says (l : string) (ws : list string) : Prop :=
  exists key body, l = (key ++ String ":" body)%string /\ nosep ":" key = true /\ spaced ws body.

(** The first word after the colon is this number; all words are these numbers. *)
Definition says_first (l : string) (q : Q) : Prop :=
  exists w ws, says l (w :: ws) /\ eval_num w = Ok q.
Definition says_all (l : string) (qs : list Q) : Prop :=
  exists ws, says l ws /\ Forall2 (fun w q => eval_num w = Ok q) ws qs.
Definition says_int (l : string) (z : Z) : Prop :=
  exists q, says_first l q /\ (q == inject_Z z)%Q.

(** A file of sources (or sinks): how many, the longest list, a time step, and
    for each source the cell, how many values, and the values. *)
Inductive source_blocks : list (Z * Z * list Q) -> list string -> Prop :=
  | no_block : source_blocks [] []
  | a_block ID nt vs l1 l2 l3 r ls :
      says_int l1 ID -> says_int l2 nt -> says_all l3 vs -> source_blocks r ls ->
      source_blocks ((ID, nt, vs) :: r) (l1 :: l2 :: l3 :: ls).
Definition source_file (nt_max : nat) (srcs : list (Z * Z * list Q)) (t : string) : Prop :=
  exists l1 l2 l3 dt ls,
    text (l1 :: l2 :: l3 :: ls) t /\ says_int l1 (Z.of_nat (length srcs)) /\
    says_int l2 (Z.of_nat nt_max) /\ says_first l3 dt /\ source_blocks srcs ls.

(** The layout of the shipped plane_sources.txt: column and row instead of the
    cell number. *)
Definition source_file_rc (nt_max : nat) (col row : Z) (nt : Q) (vs : list Q) (t : string) : Prop :=
  exists l1 l2 l3 l4 l5 l6 l7 dt,
    text [l1; l2; l3; l4; l5; l6; l7] t /\ says_int l1 1 /\ says_int l2 (Z.of_nat nt_max) /\
    says_first l3 dt /\ says_int l4 col /\ says_int l5 row /\
    says_all l6 [nt] /\ says_all l7 vs.

(** A file of canals: how many, and for each the two cells, the fraction and the
    travel time. *)
Inductive canal_blocks : list (Z * Z * Q * Q) -> list string -> Prop :=
  | no_canal : canal_blocks [] []
  | a_canal i o f t l1 l2 l3 l4 r ls :
      says_int l1 i -> says_int l2 o -> says_first l3 f -> says_first l4 t -> canal_blocks r ls ->
      canal_blocks ((i, o, f, t) :: r) (l1 :: l2 :: l3 :: l4 :: ls).
Definition canal_file (cs : list (Z * Z * Q * Q)) (t : string) : Prop :=
  exists l1 ls, text (l1 :: ls) t /\ says_int l1 (Z.of_nat (length cs)) /\ canal_blocks cs ls.

(** The layout of the shipped plane_canals.txt. *)
Definition canal_file_rc (in_col in_row : Z) (out_col out_row : Q) (f tt : Q) (t : string) : Prop :=
  exists l1 l2 l3 l4 l5 l6 l7,
    text [l1; l2; l3; l4; l5; l6; l7] t /\ says_int l1 1 /\ says_int l2 in_col /\ says_int l3 in_row /\
    says_first l4 out_col /\ says_first l5 out_row /\ says_first l6 f /\ says_first l7 tt.
