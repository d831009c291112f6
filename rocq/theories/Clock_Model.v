(** Model of the clocks in double precision: topoflow/utils/BMI_base.py 1029-1079 (and the
    same in topoflow/framework/emeli.py 1254-1300), the stop test of topoflow_driver.py 697-701
    and the test of emeli.py 1048.

    A number is a real; each operation rounds to the nearest double (53 bits, least exponent
    -1074), to even in a tie.  Overflow is not modelled.  (Other files of the model take these
    numbers as exact.) *)

From Coq Require Import ZArith Reals.
From Flocq Require Import Core.
Local Open Scope R_scope.

(** rounding of np.float64 *)
Definition fmt : Z -> Z := FLT_exp (-1074) 53.
Definition rnd : R -> R := round radix2 fmt ZnearestE.
Definition is_double (x : R) : Prop := generic_format radix2 fmt x.
Definition fadd (x y : R) : R := rnd (x + y).
Definition fmul (x y : R) : R := rnd (x * y).
Definition fdiv (x y : R) : R := rnd (x / y).

(** 1041 time += dt, after n updates *)
Fixpoint clock (dt : R) (n : nat) : R := match n with O => 0 | S k => fadd (clock dt k) dt end.

Inductive tunits := Seconds | Minutes | Hours | Days | Weeks | Months | Years.
(** 1004: sec_per_year *)
Definition sec_per_year : R := fmul (fmul 365 24) 3600.
(** 1051-1071 *)
Definition time_sec (u : tunits) (t : R) : R :=
  match u with
  | Seconds => t
  | Minutes => fmul t 60
  | Hours => fmul t 3600
  | Days => fmul (fmul t 3600) 24
  | Weeks => fmul (fmul (fmul t 3600) 24) 7
  | Months => fdiv (fmul t sec_per_year) 12
  | Years => fmul t sec_per_year
  end.
(** 1079 *)
Definition time_min (u : tunits) (t : R) : R := fdiv (time_sec u t) 60.

(** topoflow_driver.py 701: done after n updates of dt seconds *)
Definition until_model_time (T_stop dt : R) (n : nat) : Prop := T_stop <= time_min Seconds (clock dt n).

(** emeli.py 1048: a component with step dt that has made m updates is updated when the framework (step fdt) has made n *)
Definition is_due (fdt dt : R) (n m : nat) : Prop := clock fdt n > clock dt m.
