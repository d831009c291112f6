(** Model of topoflow/utils/mct_files.py 138-192 (find_wettest_month).

    A record is the year, the month and the rain rate of a line.  The reading of the
    lines (read_column) and of the dates (text YYYY-MM-DD, compared as text) is left
    out: years and months are numbers, taken as written in dates of equal width.
    Numbers are exact rationals. *)

From Coq Require Import List ZArith QArith Qminmax Bool.
From Verif Require Import Base Time_Model.
Import ListNotations.

Record record := mkrec { year : Z; month : Z; rain : Q }.

(** 146-150, 157-160; [sums] is the array of 20 years and 12 months in C order *)
Record state := mkst { sums : list Q; rain_sum : Q; year_index : nat; month_index : nat; last_year : Z; last_month : Z }.

(** 161-180; [done]: k is the last index.  A row beyond the 20 is an IndexError. *)
Definition step (done : bool) (s : state) (x : record) : res state :=
  let NEW_MONTH := negb (month x =? last_month s)%Z || done in
  let NEW_YEAR := negb (year x =? last_year s)%Z || done in
  let! s := (if NEW_MONTH
             then if (year_index s <? 20)%nat
                  then Ok (mkst (set (sums s) (12 * year_index s + month_index s) (rain_sum s)) 0
                                (year_index s) ((month_index s + 1) mod 12) (last_year s) (month x))
                  else Err IndexError
             else Ok s) in
  let s := if NEW_YEAR
           then mkst (sums s) (rain_sum s) (year_index s + 1) (month_index s) (year x) (last_month s) else s in
  Ok (mkst (sums s) (rain_sum s + rain x) (year_index s) (month_index s) (last_year s) (last_month s)).

(** 152-180 *)
Fixpoint loop (s : state) (xs : list record) : res state :=
  match xs with
  | [] => Ok s
  | x :: r => let! s' := step (match r with [] => true | _ => false end) s x in loop s' r
  end.

(** rain_sums.max() and the first place where it is *)
Definition amax (l : list Q) : Q := match l with [] => 0 | a :: r => fold_left Qmax r a end.
Fixpoint first_at (v : Q) (l : list Q) : nat :=
  match l with [] => 0 | a :: r => if Qeq_bool a v then 0 else S (first_at v r) end.

(** the year, the month and the sum printed (185-191); without records min_year is
    not defined *)
Definition find_wettest_month (xs : list record) : res (Z * Z * Q) :=
  match xs with
  | [] => Err UnboundLocalError
  | x :: _ =>
      let! s := loop (mkst (tab 240 (fun _ => 0)) 0 0 0 (year x) (month x)) xs in
      let rmax := amax (sums s) in
      let k := first_at rmax (sums s) in
      Ok (Z.of_nat (k / 12) + year x, Z.of_nat (k mod 12) + 1, rmax)%Z
  end.
