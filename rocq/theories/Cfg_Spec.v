(** What the theorems on configuration files say. *)

From Coq Require Import String Ascii List ZArith NArith QArith Bool.
From Verif Require Import Cfg_Model.
Import ListNotations.

(** ** Lines *)

Definition bar : ascii := "|".
Fixpoint bars (s : string) : nat :=
  match s with EmptyString => 0 | String a r => (if Ascii.eqb a bar then 1 else 0) + bars r end.
Definition one_line (s : string) : Prop := forall k, String.get k s <> Some (ascii_of_nat 10).

(** tab, line feed, ..., and the separators up to the space *)
Definition blank (a : ascii) : Prop :=
  (9 <= nat_of_ascii a <= 13)%nat \/ (28 <= nat_of_ascii a <= 32)%nat.
Fixpoint blanks (s : string) : Prop :=
  match s with EmptyString => True | String a r => blank a /\ blanks r end.
(** [y] is [x] without the blanks around it. *)
Definition trimmed (x y : string) : Prop :=
  (exists w w', blanks w /\ blanks w' /\ x = (w ++ y ++ w')%string) /\
  (y = EmptyString \/
   (exists a m, y = String a m /\ ~ blank a) /\ (exists m a, y = (m ++ String a EmptyString)%string /\ ~ blank a)).

Record entry := mkentry { e_name : string; e_value : string; e_type : string }.

(** A line is a setting (three bars, not starting with '#'), or it is not. *)
Definition line_is (line : string) (o : option entry) : Prop :=
  one_line line /\
  match o with
  | None => (exists r, line = String "#" r) \/ bars line <> 3%nat
  | Some e => exists a b c d, line = (a ++ "|" ++ b ++ "|" ++ c ++ "|" ++ d)%string /\
      bars a = 0%nat /\ bars b = 0%nat /\ bars c = 0%nat /\ bars d = 0%nat /\
      (~ exists r, line = String "#" r) /\
      trimmed a (e_name e) /\ trimmed b (e_value e) /\ trimmed c (e_type e)
  end.

Fixpoint settings (l : list (option entry)) : list entry :=
  match l with [] => [] | Some x :: r => x :: settings r | None :: r => settings r end.

Fixpoint text_of_lines (l : list string) : string :=
  match l with [] => EmptyString
  | x :: r => (x ++ String (ascii_of_nat 10) (text_of_lines r))%string end.

(** A file with these settings, with any comments, blank lines and spacing. *)
Definition cfg_file (text : string) (es : list entry) : Prop :=
  exists lines marks, text = text_of_lines lines /\ Forall2 line_is lines marks /\ settings marks = es.

(** ** Names: base, or base[subscript]; the file attribute that goes with it. *)

Definition brackets_free (s : string) : Prop :=
  forall k, String.get k s <> Some "["%char /\ String.get k s <> Some "]"%char.
Definition proper (name base file : string) : Prop :=
  (brackets_free name /\ base = name /\ file = (name ++ "_file")%string) \/
  (exists k, brackets_free base /\ base <> EmptyString /\ brackets_free k /\
     name = (base ++ "[" ++ k ++ "]")%string /\ file = (base ++ "_file" ++ "[" ++ k ++ "]")%string).

(** A setting that does not concern attribute X. *)
Definition leaves (X : string) (e : entry) : Prop :=
  e_name e <> "n_layers"%string /\ e_name e <> X /\
  exists base file, proper (e_name e) base file /\ file <> X.

(** Text starts with text. *)
Definition starts (p s : string) : Prop := exists r, s = (p ++ r)%string.

(** ** Numbers *)

Definition is_digit (a : ascii) : Prop := (48 <= nat_of_ascii a <= 57)%nat.
Fixpoint digits (s : string) : Prop :=
  match s with EmptyString => True | String a r => is_digit a /\ digits r end.
Fixpoint dval (s : string) (acc : Z) : Z :=
  match s with
  | EmptyString => acc
  | String a r => dval r (acc * 10 + (Z.of_nat (nat_of_ascii a) - 48))%Z
  end.
Definition whole (s : string) (z : Z) : Prop :=
  exists ds, digits ds /\ ds <> EmptyString /\
    ((s = ds \/ s = String "+" ds) /\ z = dval ds 0 \/ s = String "-" ds /\ z = (- dval ds 0)%Z).
(** digits, optional point and digits *)
Definition unsigned_decimal (s : string) (q : Q) : Prop :=
  exists i f, digits i /\ digits f /\
    (s = i /\ f = EmptyString /\ i <> EmptyString \/
     s = (i ++ "." ++ f)%string /\ (i <> EmptyString \/ f <> EmptyString)) /\
    (q * inject_Z (10 ^ Z.of_nat (String.length f)) == inject_Z (dval f (dval i 0)))%Q.
Definition decimal (s : string) (q : Q) : Prop :=
  exists u p, unsigned_decimal u p /\
    ((s = u \/ s = String "+" u) /\ q == p \/ s = String "-" u /\ q == - p)%Q.
(** with an optional exponent *)
Definition numeral (s : string) (q : Q) : Prop :=
  decimal s q \/
  exists m p e k, decimal m p /\ whole e k /\
    (s = (m ++ "e" ++ e)%string \/ s = (m ++ "E" ++ e)%string) /\
    (q * inject_Z (10 ^ Z.max 0 (- k)) == p * inject_Z (10 ^ Z.max 0 k))%Q.

(** ** What a text stands for *)

Inductive number_type (t : string) : Prop :=
  | nt_double : t = "double"%string -> number_type t
  | nt_float : t = "float"%string -> number_type t.
Inductive integer_type (t : string) : Prop :=
  | it_long : t = "long"%string -> integer_type t
  | it_int : t = "int"%string -> integer_type t.

Definition lower_case (s s' : string) : Prop :=
  String.length s = String.length s' /\
  forall k a, String.get k s = Some a ->
    String.get k s' = Some (if (65 <=? nat_of_ascii a)%nat && (nat_of_ascii a <=? 90)%nat
                            then ascii_of_nat (nat_of_ascii a + 32) else a).
Definition says_yes (s : string) : Prop := exists w, lower_case s w /\ In w ["yes"; "true"; "on"; "1"]%string.
Definition says_no (s : string) : Prop := exists w, lower_case s w /\ In w ["no"; "false"; "off"; "0"]%string.
Definition says_scalar (s : string) : Prop := lower_case s "scalar".

(** The file prefixes of a component, put in place of [case_prefix] and
    [site_prefix] at the start of a text. *)
Definition expands_to (A : attrs) (s w : string) : Prop :=
  (exists r p, s = ("[case_prefix]" ++ r)%string /\ A "case_prefix"%string = Some (VStr p) /\ w = (p ++ r)%string) \/
  (exists r p, s = ("[site_prefix]" ++ r)%string /\ A "site_prefix"%string = Some (VStr p) /\ w = (p ++ r)%string) \/
  (~ starts "[case_prefix]" s /\ ~ starts "[site_prefix]" s /\ w = s).
