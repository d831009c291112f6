(** What the date and time theorems say, without the model's own helpers. *)

From Coq Require Import String Ascii ZArith QArith List.
Import ListNotations.

(** The two decimal digits of a number below 100, written out. *)
Definition two_digits (n : Z) : string :=
  String (ascii_of_nat (48 + Z.to_nat (n / 10)))
    (String (ascii_of_nat (48 + Z.to_nat (n mod 10))) EmptyString).

(** "hhmm" *)
Definition hhmm (h m : Z) : string := (two_digits h ++ two_digits m)%string.

(** Length in seconds of the units that have a fixed length. *)
Definition fixed_unit (units : string) (secs : Z) : Prop :=
  (units = "weeks"%string /\ secs = (7 * 24 * 60 * 60)%Z) \/
  (units = "days"%string /\ secs = (24 * 60 * 60)%Z) \/
  (units = "hours"%string /\ secs = (60 * 60)%Z) \/
  (units = "minutes"%string /\ secs = 60%Z) \/
  (units = "seconds"%string /\ secs = 1%Z).

(** Number of days of a month. *)
Definition leap_year (y : Z) : Prop :=
  (y mod 4 = 0 /\ (y mod 100 <> 0 \/ y mod 400 = 0))%Z.
Definition month_length (y m len : Z) : Prop :=
  (In m [1; 3; 5; 7; 8; 10; 12]%Z /\ len = 31%Z) \/
  (In m [4; 6; 9; 11]%Z /\ len = 30%Z) \/
  (m = 2%Z /\ leap_year y /\ len = 29%Z) \/
  (m = 2%Z /\ ~ leap_year y /\ len = 28%Z).

(** (y', m', d') is the calendar day after (y, m, d). *)
Definition next_day (y m d y' m' d' : Z) : Prop :=
  exists len, month_length y m len /\
    (((d < len)%Z /\ y' = y /\ m' = m /\ d' = (d + 1)%Z) \/
     (d = len /\ (m < 12)%Z /\ y' = y /\ m' = (m + 1)%Z /\ d' = 1%Z) \/
     (d = len /\ m = 12%Z /\ y' = (y + 1)%Z /\ m' = 1%Z /\ d' = 1%Z)).
