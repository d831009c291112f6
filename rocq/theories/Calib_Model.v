(* Model of /repo/topoflow/utils/calibrate.py: the cost of a simulated series against an observed one, the
   resampling of the observed series, and the search over parameter values with its backup of the input file.
   Numbers are the reals of the standard library (rounding, NaN and infinities are not modelled).  Not modelled:
   reading of the text files (the series are given as lists), the Spearman cost (scipy's spearmanr), plots. *)
From Coq Require Import Reals List Bool Arith.
From Verif Require Import ChanR_Model.
Import ListNotations.
Local Open Scope R_scope.

Definition rsum (l : list R) : R := fold_right Rplus 0 l.
(* Lp_norm, 1207-1214, of two series of the same length *)
Definition Lp_norm (obs sim : list R) (p : R) : R :=
  powr (rsum (map (fun x => powr (Rabs (fst x - snd x)) p) (combine obs sim))) (1 / p).
(* compute_cost, 779-813, cost function 'Lp_norm': the longer series is cut (787-798) *)
Definition compute_cost (obs sim : list R) (p : R) : R :=
  let n_obs := length obs in let n_sim := length sim in
  if n_obs =? n_sim then Lp_norm obs sim p
  else if n_obs <? n_sim then Lp_norm obs (firstn n_obs sim) p
  else Lp_norm (firstn n_sim obs) sim p.

(* scipy's interp1d(kind='linear', fill_value='extrapolate') as documented, for increasing times and at least two
   of them: the interval is found by searchsorted (the first index whose time is >= t) clipped to 1..n-1 *)
Fixpoint searchsorted (times : list R) (t : R) : nat :=
  match times with [] => 0 | x :: l => if Rle_dec t x then 0 else S (searchsorted l t) end.
Definition interp (times values : list R) (t : R) : R :=
  let hi := Nat.max 1 (Nat.min (searchsorted times t) (length times - 1)) in let lo := (hi - 1)%nat in
  let x0 := nth lo times 0 in let x1 := nth hi times 0 in let y0 := nth lo values 0 in let y1 := nth hi values 0 in
  (y1 - y0) / (x1 - x0) * (t - x0) + y0.

(* the interval of a series: a number or 'irregular' *)
Inductive interval := Irregular | Every (dt : R).
(* get_observed_values, 608-614, and interpolate_obs_time_series, 383-442: is the observed series replaced by its
   values at the simulated times?  (The simulated interval is a number.) *)
Definition observed_series (obs_int : interval) (sim_dt : R) (obs_times obs_values sim_times : list R) : list R :=
  let interpolate := match obs_int with Irregular => true | Every o => if Rlt_dec sim_dt o then true else false end in
  if interpolate then map (interp obs_times obs_values) sim_times else obs_values.

(* get_parameter_values, 817-831 *)
Definition get_parameter_values (vmin vmax : R) (n : nat) : list R :=
  if (n =? 1) || (if Req_EM_T vmin vmax then true else false) then [vmin]
  else map (fun k => (vmax - vmin) * (INR k / INR (n - 1)) + vmin) (seq 0 n).

(* ---------- calibrate, 835-983 ---------- *)
Section Calibrate.
(* contents of a grid file *)
Context {F : Type}.
Record files := { inp : F; bak : option F }.
(* backup_input_file, 699-715, and restore_input_file, 719-735 *)
Definition backup (f : files) : files := {| inp := inp f; bak := Some (inp f) |}.
Definition restore (f : files) : files := match bak f with Some b => {| inp := b; bak := bak f |} | None => f end.

(* the grid written for a parameter (modify_channel_grid_file, 739-775; C67) and the simulation that reads the
   grid (main.run_model, update_sim_data_file, get_simulated_values): the simulated times and values, or [None]
   when the run raises an exception *)
Variable gen : R -> F.
Variable run : F -> option (list R * list R).
Variable obs_int : interval.
Variable sim_dt : R.
Variables obs_times obs_values : list R.
Variable p : R.

Record search := { costs : list R; min_cost : R; best : option nat; obs : list R }.
(* one pass of the loop, 909-947; the observed series is resampled once, at the times of the first run *)
Definition try_param (st : files * search) (param : R) : option (files * search) * files :=
  let '(f, s) := st in
  let f := {| inp := gen param; bak := bak f |} in
  match run (inp f) with
  | None => (None, f)
  | Some (times, values) =>
      let index := length (costs s) in
      let o := if index =? 0 then observed_series obs_int sim_dt obs_times obs_values times else obs s in
      let cost := compute_cost o values p in
      let better := if Rlt_dec cost (min_cost s) then true else false in
      (Some (f, {| costs := costs s ++ [cost]; min_cost := if better then cost else min_cost s;
                   best := if better then Some index else best s; obs := o |}), f)
  end.
Fixpoint try_all (st : files * search) (params : list R) : option (files * search) * files :=
  match params with
  | [] => (Some st, fst st)
  | x :: l => match try_param st x with
              | (None, f) => (None, f)
              | (Some st, _) => try_all st l
              end
  end.
Inductive outcome :=
| RunError (f : files)                    (* a run raised: the input file is left as it was for that run *)
| UnboundBest (f : files)                 (* 975: best_index was never set *)
| NameErr (f : files) (b : R) (c : list R)   (* 980: with SILENT=False, after all results are stored: cal is not defined *)
| Done (f : files) (best_param : R) (all_costs : list R).
(* 902: an array of n zeros, the first ones overwritten at 941 *)
Definition cost_array (n : nat) (c : list R) : list R := c ++ repeat 0 (n - length c).
Definition calibrate (SILENT : bool) (vmin vmax : R) (n : nat) (f : files) : outcome :=
  let params := get_parameter_values vmin vmax n in
  match try_all (backup f, {| costs := []; min_cost := 1000000; best := None; obs := obs_values |}) params with
  | (None, f) => RunError f
  | (Some (f, s), _) =>
      let f := restore f in
      match best s with
      | None => UnboundBest f
      | Some i => (if SILENT then Done else NameErr) f (nth i params 0) (cost_array n (costs s))
      end
  end.
End Calibrate.
Arguments files : clear implicits.
Arguments outcome : clear implicits.

(* ---------- which output file is read ---------- *)
(* Names are represented by their numbers: 0 is prefix_0D-Q.txt, k is prefix_0D-Q_k.txt.  A run writes to the first
   free name (file_utils.check_overwrite, C43); update_sim_data_file, 1022-1056, then picks the highest number
   ([None]: no file, UnboundLocalError at 1056). *)
Fixpoint first_free (fuel : nat) (versions : list nat) (k : nat) : nat :=
  match fuel with
  | 0 => k
  | S f => if existsb (Nat.eqb k) versions then first_free f versions (S k) else k
  end.
Definition write_output (versions : list nat) : nat := first_free (length versions) versions 0.
Definition update_sim_data_file (versions : list nat) : option nat :=
  match versions with [] => None | v :: l => Some (fold_right Nat.max v l) end.
