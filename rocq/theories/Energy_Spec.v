(** What the energy balance theorems are stated with. *)
From Coq Require Import Reals List.
From Verif Require Import Energy_Model.
Import ListNotations.
Local Open Scope R_scope.

(** Sum of the last [k] numbers of a list (of all, if there are fewer). *)
Definition last_sum (k : nat) (l : list R) : R := fold_right Rplus 0 (skipn (length l - k) l).

(** [since k l n]: the last time at which the sum over the [k] most recent numbers reached 0.03 was [n] steps
    before the end of [l]; if it never did, [n] is the length of [l]. *)
Inductive since (k : nat) : list R -> nat -> Prop :=
| since_start : since k [] 0
| since_reached l a : 3/100 <= last_sum k (l ++ [a]) -> since k (l ++ [a]) 0
| since_later l a n : last_sum k (l ++ [a]) < 3/100 -> since k l n -> since k (l ++ [a]) (S n).

(** Snowfall of a step, as depth of snow. *)
Definition snowfall (dt rho_snow : R) (w : weather) : R := w_Psnow w * dt * (rho_H2O / rho_snow).

(** Wind, instruments above the snow and the roughness, and air above absolute zero. *)
Definition sound_cell (c : cell) : Prop :=
  0 < c_z0 c /\ c_z0 c < c_z c - c_hsnow c /\ 0 < c_z c /\ 0 < c_uz c /\ -27315/100 < c_Tair c.

