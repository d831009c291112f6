(** Model of topoflow/utils/time_utils.py: date and time strings, hhmm times,
    durations and the arithmetic between a datetime and a "time since" number.

    Python strings are Coq strings of 8-bit characters.  Exceptions are values
    of type [res].  Python's own [str], [int], [str.split], slicing,
    [datetime] and [dateutil.relativedelta] are modelled from their
    documentation, because the module is nothing but calls to them.  Float
    arithmetic is exact rational arithmetic. *)

From Coq Require Import String Ascii List ZArith NArith QArith Qround Bool.
Import ListNotations.

(** ** Exceptions *)

Inductive exn := ValueError | IndexError | KeyError | TypeError
               | UnboundLocalError | OverflowError | AttributeError | NameError.
Inductive res (A : Type) := Ok (a : A) | Err (e : exn).
Arguments Ok {A}. Arguments Err {A}.

Definition rbind {A B} (a : res A) (f : A -> res B) : res B :=
  match a with Ok x => f x | Err e => Err e end.
Notation "'let!' x := a 'in' b" := (rbind a (fun x => b))
  (at level 200, x pattern, a at level 100, b at level 200).

(** ** Python's str(int), int(str), str.split and slices *)

Definition digit (n : N) : ascii := ascii_of_N (48 + n).
Definition digit_val (a : ascii) : option N :=
  let n := N_of_ascii a in
  if (48 <=? n)%N && (n <=? 57)%N then Some (n - 48)%N else None.

(** Decimal digits of a natural number, most significant first, no leading
    zeros. [fuel] bounds the number of digits; [str_N] supplies enough. *)
Fixpoint str_fuel (fuel : nat) (n : N) : string :=
  match fuel with
  | O => EmptyString
  | S f => if (n <? 10)%N then String (digit n) EmptyString
           else (str_fuel f (n / 10) ++ String (digit (n mod 10)) EmptyString)%string
  end.
Definition str_N (n : N) : string := str_fuel (S (N.size_nat n)) n.

(** str(z) of a Python int. *)
Definition py_str (z : Z) : string :=
  if (z <? 0)%Z then String "-" (str_N (Z.to_N (- z))) else str_N (Z.to_N z).

Fixpoint parse_digits (s : string) (acc : N) : option N :=
  match s with
  | EmptyString => Some acc
  | String a r => match digit_val a with
                  | Some d => parse_digits r (10 * acc + d)
                  | None => None
                  end
  end.

Definition is_space (a : ascii) : bool :=
  let n := N_of_ascii a in
  ((9 <=? n) && (n <=? 13))%N || ((28 <=? n) && (n <=? 32))%N.
Fixpoint lstrip (s : string) : string :=
  match s with
  | String a r => if is_space a then lstrip r else s
  | EmptyString => EmptyString
  end.
Fixpoint rstrip (s : string) : string :=
  match s with
  | EmptyString => EmptyString
  | String a r => match rstrip r with
                  | EmptyString => if is_space a then EmptyString else String a EmptyString
                  | r' => String a r'
                  end
  end.

Definition parse_unsigned (s : string) : res Z :=
  match s with
  | EmptyString => Err ValueError
  | _ => match parse_digits s 0 with Some n => Ok (Z.of_N n) | None => Err ValueError end
  end.

(** int(s).  Simplified: underscores between digits and non-ASCII digits are
    refused here although Python accepts them. *)
Definition py_int (s : string) : res Z :=
  match lstrip (rstrip s) with
  | String "-" r => let! z := parse_unsigned r in Ok (- z)%Z
  | String "+" r => parse_unsigned r
  | s' => parse_unsigned s'
  end.

(** s.split(c) for a one-character separator. *)
Fixpoint split (c : ascii) (s : string) : list string :=
  match s with
  | EmptyString => [EmptyString]
  | String a r => if Ascii.eqb a c then EmptyString :: split c r
                  else match split c r with
                       | p :: ps => String a p :: ps
                       | [] => []
                       end
  end.
Definition item {A} (l : list A) (k : nat) : res A :=
  match nth_error l k with Some x => Ok x | None => Err IndexError end.

(** s[:n] and s[n:] and s[-k:] *)
Fixpoint take (n : nat) (s : string) : string :=
  match n, s with
  | S n', String a r => String a (take n' r)
  | _, _ => EmptyString
  end.
Fixpoint drop (n : nat) (s : string) : string :=
  match n, s with
  | S n', String _ r => drop n' r
  | O, _ => s
  | _, EmptyString => EmptyString
  end.
Definition last_chars (k : nat) (s : string) : string := drop (String.length s - k) s.

(** int(x) of a float: truncation toward zero. *)
Definition trunc (q : Q) : Z := if Qlt_le_dec q 0 then (- Qfloor (- q))%Z else Qfloor q.

(** ** Strings *)

Fixpoint zeros (m : nat) : string :=
  match m with O => EmptyString | S k => String "0" (zeros k) end.

(** time_utils.py 278-284 pad_with_zeros ('0'*m is empty for m <= 0) *)
Definition pad_with_zeros (num : Q) (target_len : nat) : string :=
  let num_string := py_str (trunc num) in
  (zeros (target_len - String.length num_string) ++ num_string)%string.

(** time_utils.py 216-228 get_datetime_str. Simplified: the year is an int. *)
Definition get_datetime_str (y : Z) (m1 d h m2 s : Q) : string :=
  (py_str y ++ "-" ++ pad_with_zeros m1 2 ++ "-" ++ pad_with_zeros d 2 ++ " " ++
   pad_with_zeros h 2 ++ ":" ++ pad_with_zeros m2 2 ++ ":" ++ pad_with_zeros s 2)%string.

(** time_utils.py 232-241 standardize_datetime_str *)
Definition standardize_datetime_str (s : string) : string :=
  (take 10 s ++ " " ++ last_chars 8 s)%string.

(** time_utils.py 310-316 split_date_str and 320-326 split_time_str *)
Definition split3 (sep : ascii) (s : string) : res (Z * Z * Z) :=
  let parts := split sep s in
  let! a := item parts 0 in let! a := py_int a in
  let! b := item parts 1 in let! b := py_int b in
  let! c := item parts 2 in let! c := py_int c in
  Ok (a, b, c).
Definition split_date_str (s : string) : res (Z * Z * Z) := split3 "-" s.
Definition split_time_str (s : string) : res (Z * Z * Z) := split3 ":" s.

(** time_utils.py 288-306 split_datetime_str, ALL=False and ALL=True *)
Definition split_datetime_str (s : string) : res (string * string) :=
  let parts := split " " s in
  let! a := item parts 0 in let! b := item parts 1 in Ok (a, b).
Definition split_datetime_str_all (s : string) : res (Z * Z * Z * (Z * Z * Z)) :=
  let! (ds, ts) := split_datetime_str s in
  let! d := split_date_str ds in
  let! t := split_time_str ts in
  Ok (d, t).

(** ** hhmm times *)

(** Two's complement wrap of a 16-bit integer. *)
Definition wrap16 (z : Z) : Z := ((z + 32768) mod 65536 - 32768)%Z.
Definition np_int16 (s : string) : res Z :=
  let! z := py_int s in
  if ((-32768 <=? z) && (z <=? 32767))%Z then Ok z else Err OverflowError.

(** One entry of a times_hhmm array: the function slices it, so only strings
    work; a float (what the other direction returns) raises TypeError. *)
Inductive hhmm_item := HStr (s : string) | HNum (q : Q).

(** time_utils.py 474-481, one turn of the loop of
    convert_times_from_hhmm_to_minutes *)
Definition hhmm_to_minutes (x : hhmm_item) : res Z :=
  match x with
  | HNum _ => Err TypeError
  | HStr s => let! hour := np_int16 (take 2 s) in
              let! mn := np_int16 (drop 2 s) in
              Ok (wrap16 (wrap16 (hour * 60) + mn))
  end.

Definition pad1 (s : string) : string :=
  if (String.length s =? 1)%nat then String "0" s else s.

(** time_utils.py 491-501, one turn of the loop of
    convert_times_from_minutes_to_hhmm; t % 60 is Python's floor modulus. *)
Definition minutes_to_hhmm (t : Q) : res Z :=
  let hour := trunc (t / 60) in
  let mn := trunc (t - 60 * inject_Z (Qfloor (t / 60))) in
  py_int (pad1 (py_str hour) ++ pad1 (py_str mn))%string.

Fixpoint rmap {A B} (f : A -> res B) (l : list A) : res (list B) :=
  match l with
  | [] => Ok []
  | x :: r => let! y := f x in let! ys := rmap f r in Ok (y :: ys)
  end.

(** time_utils.py 469-483 and 487-503: the loops over the arrays *)
Definition convert_times_from_hhmm_to_minutes (l : list hhmm_item) : res (list Z) :=
  rmap hhmm_to_minutes l.
Definition convert_times_from_minutes_to_hhmm (l : list Q) : res (list Z) :=
  rmap minutes_to_hhmm l.

(** ** datetime objects *)

Record dt := mkdt { yr : Z; mo : Z; dy : Z; us_day : Z }.
(** [us_day]: microseconds since midnight. *)

Open Scope Z_scope.

Definition leap (y : Z) : bool :=
  (y mod 4 =? 0) && (negb (y mod 100 =? 0) || (y mod 400 =? 0)).
Definition days_in_month (y m : Z) : Z :=
  if m =? 2 then (if leap y then 29 else 28)
  else if (m =? 4) || (m =? 6) || (m =? 9) || (m =? 11) then 30 else 31.
Definition days_before_year (y : Z) : Z :=
  let p := y - 1 in p * 365 + p / 4 - p / 100 + p / 400.
Definition cum_days (m : Z) : Z :=
  match m with
  | 1 => 0 | 2 => 31 | 3 => 59 | 4 => 90 | 5 => 120 | 6 => 151
  | 7 => 181 | 8 => 212 | 9 => 243 | 10 => 273 | 11 => 304 | _ => 334
  end.
Definition days_before_month (y m : Z) : Z :=
  cum_days m + (if (2 <? m) && leap y then 1 else 0).
Definition ordinal (y m d : Z) : Z := days_before_year y + days_before_month y m + d.

Definition us_per_day : Z := 86400 * 1000000.
Definition valid_date (y m d : Z) : bool :=
  (1 <=? y) && (y <=? 9999) && (1 <=? m) && (m <=? 12) && (1 <=? d) && (d <=? days_in_month y m).
Definition valid_dt (t : dt) : bool :=
  valid_date (yr t) (mo t) (dy t) && (0 <=? us_day t) && (us_day t <? us_per_day).

(** datetime.datetime(y, m1, d, h, m2, s) *)
Definition datetime (y m1 d h m2 s : Z) : res dt :=
  if valid_date y m1 d && (0 <=? h) && (h <? 24) && (0 <=? m2) && (m2 <? 60)
     && (0 <=? s) && (s <? 60)
  then Ok (mkdt y m1 d ((h * 3600 + m2 * 60 + s) * 1000000))
  else Err ValueError.

(** Microseconds since the start of year 1: what datetime subtraction uses. *)
Definition to_us (t : dt) : Z := (ordinal (yr t) (mo t) (dy t) - 1) * us_per_day + us_day t.

(** The inverse of [ordinal], as Python's datetime computes it
    (Lib/datetime.py, _ord2ymd). *)
Definition of_ordinal (n : Z) : Z * Z * Z :=
  let n := n - 1 in
  let n400 := n / 146097 in let n := n mod 146097 in
  let n100 := n / 36524 in let n := n mod 36524 in
  let n4 := n / 1461 in let n := n mod 1461 in
  let n1 := n / 365 in let n := n mod 365 in
  let year := n400 * 400 + 1 + n100 * 100 + n4 * 4 + n1 in
  if (n1 =? 4) || (n100 =? 4) then (year - 1, 12, 31)
  else
    let month := (n + 50) / 32 in
    if days_before_month year month >? n
    then (year, month - 1, n - days_before_month year (month - 1) + 1)
    else (year, month, n - days_before_month year month + 1).

Definition max_ordinal : Z := 3652059.

(** origin + timedelta(microseconds = k) *)
Definition add_us (t : dt) (k : Z) : res dt :=
  let x := to_us t + k in
  let n := x / us_per_day + 1 in
  if (1 <=? n) && (n <=? max_ordinal)
  then let '(y, m, d) := of_ordinal n in Ok (mkdt y m d (x mod us_per_day))
  else Err OverflowError.

(** origin + relativedelta(years = a, months = b), with |b| folded into years
    first (dateutil relativedelta._fix and __add__); the day is cut to the
    length of the month. *)
Definition add_months (t : dt) (a b : Z) : res dt :=
  let sgn := if b <? 0 then -1 else 1 in
  let a' := if 11 <? Z.abs b then a + sgn * (Z.abs b / 12) else a in
  let b' := if 11 <? Z.abs b then sgn * (Z.abs b mod 12) else b in
  let year := yr t + a' in
  let month := mo t + b' in
  let '(year, month) := if 12 <? month then (year + 1, month - 12)
                        else if month <? 1 then (year - 1, month + 12)
                        else (year, month) in
  let day := Z.min (days_in_month year month) (dy t) in
  if (1 <=? year) && (year <=? 9999) then Ok (mkdt year month day (us_day t))
  else Err ValueError.

(** Python's round(): nearest integer, ties to even. *)
Definition round_even (q : Q) : Z :=
  let f := Qfloor q in
  let r := (q - inject_Z f)%Q in
  match Qcompare r (1 # 2) with
  | Lt => f
  | Gt => f + 1
  | Eq => if Z.even f then f else f + 1
  end.

Close Scope Z_scope.

(** Seconds per unit, time_utils.py 343-345 (KeyError for other keys). *)
Definition secs_per_unit (units : string) : res Z :=
  if (units =? "years")%string then Ok 31536000%Z
  else if (units =? "weeks")%string then Ok 604800%Z
  else if (units =? "days")%string then Ok 86400%Z
  else if (units =? "hours")%string then Ok 3600%Z
  else if (units =? "minutes")%string then Ok 60%Z
  else if (units =? "seconds")%string then Ok 1%Z
  else Err KeyError.

Definition total_seconds (a b : dt) : Q := (inject_Z (to_us b - to_us a) / 1000000)%Q.

(** time_utils.py 330-350 get_time_since_from_datetime *)
Definition get_time_since_from_datetime (origin t : dt) (units : string) : res Q :=
  let! s := secs_per_unit units in
  Ok (total_seconds origin t / inject_Z s)%Q.

Definition is_int (q : Q) : bool := Qeq_bool q (inject_Z (Qfloor q)).

(** timedelta(seconds = x): rounded to whole microseconds *)
Definition add_secs (t : dt) (x : Q) : res dt := add_us t (round_even (x * 1000000)%Q).

(** time_utils.py 354-436 get_datetime_from_time_since.  relativedelta refuses
    fractional years and months.  For unknown units [delta] stays None and the
    function returns the name [origin_obj], which is only assigned at 433. *)
Definition get_datetime_from_time_since (origin : dt) (t : Q) (units : string) : res dt :=
  if (units =? "years")%string then
    if is_int t then add_months origin (Qfloor t) 0 else Err ValueError
  else if (units =? "months")%string then
    if is_int t then add_months origin 0 (Qfloor t) else Err ValueError
  else if (units =? "weeks")%string then add_secs origin (t * 604800)%Q
  else if (units =? "days")%string then add_secs origin (t * 86400)%Q
  else if (units =? "hours")%string then add_secs origin (t * 3600)%Q
  else if (units =? "minutes")%string then add_secs origin (t * 60)%Q
  else if (units =? "seconds")%string then add_secs origin t
  else Err UnboundLocalError.

(** time_utils.py 440-464 get_month_difference *)
Definition get_month_difference (a b : dt) : Z :=
  let months := ((yr b - yr a) * 12)%Z in
  let months := (months - mo a)%Z in
  (months + mo b)%Z.

(** time_utils.py 245-264 get_datetime_obj_from_str *)
Definition get_datetime_obj_from_str (date_str time_str : string) : res dt :=
  let! (y, m1, d) := split_date_str date_str in
  let! (h, m2, s) := split_time_str time_str in
  let y := if (y <=? 0)%Z then 1%Z else y in
  datetime y m1 d h m2 s.

(** time_utils.py 268-274 get_datetime_obj_from_one_str *)
Definition get_datetime_obj_from_one_str (s : string) : res dt :=
  let! (ds, ts) := split_datetime_str s in
  let! (y, m1, d) := split_date_str ds in
  let! (h, m2, s) := split_time_str ts in
  datetime y m1 d h m2 s.

(** time_utils.py 83-161 get_duration (all arguments given) *)
Definition get_duration (start_date start_time end_date end_time units : string) : res Q :=
  let! (y1, m1, d1) := split_date_str start_date in
  let! (h1, mm1, s1) := split_time_str start_time in
  let! (y2, m2, d2) := split_date_str end_date in
  let! (h2, mm2, s2) := split_time_str end_time in
  let! a := datetime y1 m1 d1 h1 mm1 s1 in
  let! b := datetime y2 m2 d2 h2 mm2 s2 in
  let secs := total_seconds a b in
  if (units =? "seconds")%string then Ok secs
  else if (units =? "minutes")%string then Ok (secs / 60)%Q
  else if (units =? "hours")%string then Ok (secs / 3600)%Q
  else if (units =? "days")%string then Ok (secs / 86400)%Q
  else if (units =? "months")%string then Ok (inject_Z (get_month_difference a b))
  else if (units =? "years")%string then Ok (secs / 31536000)%Q
  else Ok (secs / 3600)%Q.

(** time_utils.py 187-203 get_current_datetime; 207-214 get_end_datetime is the
    same function with n_steps for time. *)
Definition get_current_datetime (start : string) (time : Q) (units : string) : res dt :=
  let! o := get_datetime_obj_from_one_str start in
  get_datetime_from_time_since o time units.
