(* Model of /repo/topoflow/utils/calibrate.py, the Spearman cost: spearman_metric, 1224-1242, compute_cost, 779-813,
   with cost_fcn_name = 'spearman', and the choice of the best run with it (calibrate, 930-945 and 970-975).
   Numbers are the reals of the standard library (rounding and infinities are not modelled); NaN is [None].
   scipy.stats.spearmanr is taken as documented: Pearson's coefficient of the ranks, tied values sharing the mean of
   their ranks, NaN when one of the series is constant (or has fewer than two values). *)
From Coq Require Import Reals List Bool Arith.
From Verif Require Import Calib_Model.
Import ListNotations.
Local Open Scope R_scope.

(* scipy.stats.rankdata, method 'average': the number of smaller values, plus the mean position within the ties *)
Definition lower (l : list R) (x : R) : nat := length (filter (fun y => if Rlt_dec y x then true else false) l).
Definition equal (l : list R) (x : R) : nat := length (filter (fun y => if Req_EM_T y x then true else false) l).
Definition ranks (l : list R) : list R := map (fun x => INR (lower l x) + (INR (equal l x) + 1) / 2) l.
(* numpy.corrcoef of two series of one length; 0/0 for a constant series *)
Definition mean (l : list R) : R := rsum l / INR (length l).
Definition sxy (a b : list R) : R := rsum (map (fun p => (fst p - mean a) * (snd p - mean b)) (combine a b)).
Definition corrcoef (a b : list R) : option R :=
  if Req_EM_T (sxy a a * sxy b b) 0 then None else Some (sxy a b / sqrt (sxy a a * sxy b b)).
Definition spearmanr (x y : list R) : option R := corrcoef (ranks x) (ranks y).
(* spearman_metric, 1240-1242 *)
Definition spearman_metric (x y : list R) : option R :=
  match spearmanr x y with Some coeff => Some ((1 - coeff) / 2) | None => None end.
(* compute_cost, 787-798: the longer series is cut; 806-807 *)
Definition spearman_cost (obs sim : list R) : option R :=
  let n_obs := length obs in let n_sim := length sim in
  if (n_obs =? n_sim)%nat then spearman_metric obs sim
  else if (n_obs <? n_sim)%nat then spearman_metric obs (firstn n_obs sim)
  else spearman_metric (firstn n_sim obs) sim.

(* calibrate, 883-884 and 940-945: the loop over the runs, given their costs; a comparison with NaN is false *)
Fixpoint choose (index : nat) (min_cost : R) (best : option nat) (costs : list (option R)) : option nat :=
  match costs with
  | [] => best
  | None :: l => choose (S index) min_cost best l
  | Some cost :: l => if Rlt_dec cost min_cost then choose (S index) cost (Some index) l
                      else choose (S index) min_cost best l
  end.
(* the index of the best run; [None]: best_index was never set, UnboundLocalError at 975 *)
Definition best_run (costs : list (option R)) : option nat := choose 0 1000000 None costs.
