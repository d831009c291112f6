(* Specification of the soil property tool: what a value of a grid, a cell and a result should satisfy. *)
From Coq Require Import Reals List.
From Verif Require Import ChanR_Model Pedo_Model.
Import ListNotations.
Local Open Scope R_scope.

(* grid l holds v at place i *)
Definition at_ {A} (l : list A) (i : nat) (v : A) : Prop := nth_error l i = Some v.
(* a value between 0 and the maximum is a measurement; anything else marks a missing one *)
Definition valid (vmax v : R) : Prop := 0 <= v <= vmax.
(* the contents of a cell make physical sense: percent of clay and silt, percent of organic matter (1.724 times
   the organic carbon), density of at most that of rock *)
Definition physical (x : cell) : Prop :=
  0 < clay x <= 100 /\ 0 < silt x <= 100 /\ 0 < om x <= 1724/10 /\ 0 < dens x <= 265/100.
(* the cell is not one of those that stand for missing values *)
Definition measured (x : cell) : Prop := clay x <> 101 /\ silt x <> 101 /\ om x <> 101 /\ dens x <> 10.
(* the same cell with denser soil *)
Definition denser (x y : cell) : Prop := clay x = clay y /\ silt x = silt y /\ om x = om y /\ dens x < dens y.
(* water content of van Genuchten's curve at pressure head p < 0 *)
Definition vanGenuchten (alpha n qs qr p : R) : R := qr + (qs - qr) * Rpower (1 + Rpower (alpha * p) n) (- (1 - 1/n)).

(* The regressions published by Wosten et al. (1999) as tables of coefficients and regressors *)
Inductive regressor := one | var (v : cell -> R) | sq (v : cell -> R) | inv (v : cell -> R) | log (v : cell -> R)
  | times (v w : cell -> R) | top | top_times (v : cell -> R).
Definition regress (t : R) (x : cell) (r : regressor) : R :=
  match r with
  | one => 1 | var v => v x | sq v => v x * v x | inv v => / v x | log v => ln (v x) | times v w => v x * w x
  | top => t | top_times v => t * v x
  end.
Definition regression (table : list (R * regressor)) (t : R) (x : cell) : R :=
  fold_right (fun p s => fst p * regress t x (snd p) + s) 0 table.
Definition porosity_table : list (R * regressor) :=
  [(0.7919, one); (0.001691, var clay); (-0.29619, var dens); (-0.000001491, sq silt); (0.0000821, sq om); (0.02427, inv clay);
   (0.01113, inv silt); (0.01472, log silt); (-0.0000733, times om clay); (-0.000619, times dens clay); (-0.001183, times dens om);
   (-0.0001664, top_times silt)].
Definition Ks_table : list (R * regressor) :=     (* ln of the conductivity in cm/day *)
  [(7.755, one); (0.0352, var silt); (0.93, top); (-0.967, sq dens); (-0.000484, sq clay); (-0.000322, sq silt); (0.001, inv silt);
   (-0.0748, inv om); (-0.643, log silt); (-0.01398, times dens clay); (-0.1673, times dens om); (0.02986, top_times clay); (-0.03305, top_times silt)].
Definition alpha_table : list (R * regressor) :=  (* ln of alpha in 1/cm *)
  [(-14.96, one); (0.03135, var clay); (0.0351, var silt); (0.646, var om); (15.29, var dens); (-0.192, top); (-4.671, sq dens);
   (-0.000781, sq clay); (-0.00687, sq om); (0.0449, inv om); (0.0663, log silt); (0.1482, log om); (-0.04546, times dens silt);
   (-0.4852, times dens om); (0.00673, top_times clay)].
Definition n_table : list (R * regressor) :=      (* ln (n - 1) *)
  [(-25.23, one); (-0.02195, var clay); (0.0074, var silt); (-0.1940, var om); (45.5, var dens); (-7.24, sq dens); (0.0003658, sq clay);
   (0.002885, sq om); (-12.81, inv dens); (-0.1524, inv silt); (-0.01958, inv om); (-0.2876, log silt); (-0.0709, log om); (-44.6, log dens);
   (-0.02264, times dens clay); (0.0896, times dens om); (0.00718, top_times clay)].
Definition L_table : list (R * regressor) :=      (* ln ((10 + L) / (10 - L)) *)
  [(0.0202, one); (0.0006193, sq clay); (-0.001136, sq om); (-0.2316, log om); (-0.03544, times dens clay); (0.00283, times dens silt);
   (0.0488, times dens om)].
