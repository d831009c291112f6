(* Model of the evaporation components (/repo/topoflow/components/evap_base.py, evap_priestley_taylor.py,
   evap_energy_balance.py).  Numbers are exact rationals; rounding, NaN and infinities are not modelled, so
   soil_x is taken to be nonzero everywhere (x/0 would be inf or NaN in numpy). *)
From Coq Require Import ZArith QArith Qminmax List Bool.
From Verif Require Import Base Field Snow_Model.
Import ListNotations.
Local Open Scope Q_scope.

Section Evap.
Variable n : nat.          (* rti.n_pixels *)
Variable da : field.       (* cell areas *)
Variable dt : Q.           (* time step, seconds *)

(* initialize_computed_vars 303-309: ET and Qc are grids of zeros, vol_ET = 0 *)
Record evap := mkEvap { ET : field; Qc : field; vol_ET : Q }.
Definition evap_init : evap := mkEvap (Grid (tab n (fun _ => 0))) (Grid (tab n (fun _ => 0))) 0.
(* 147-155: a disabled component reports 0 as 0D arrays and its update (184-186) does nothing *)
Definition evap_disabled : evap := mkEvap (Scalar 0) (Scalar 0) 0.

(* inputs of one update: soil variables as read (388-410), the others as provided by the met component *)
Record evap_in := mkEvapIn {
  T_air : field; T_surf : field; T_soil : field; K_soil : field; soil_x : field; alpha : field;
  Qn_SW : field; Qn_LW : field; Q_sum : field; Qe : field }.

(* evap_base.py 341-342: Qc[:] = K_soil * (T_surf - T_soil_x) / soil_x *)
Definition update_Qc (s : evap) (x : evap_in) : option field :=
  store n (Qc s)
    (lift2 n Qdiv (lift2 n Qmult (K_soil x) (lift2 n Qminus (T_surf x) (T_soil x))) (soil_x x)).

Inductive et_method := PriestleyTaylor | EnergyBal.
(* evap_priestley_taylor.py 342, 362; evap_energy_balance.py 347-348 *)
Definition Qet (m : et_method) (x : evap_in) (qc : field) : field :=
  match m with
  | PriestleyTaylor =>
      lift2 n Qmult
        (lift2 n Qmult (alpha x) (lift1 n (fun t => (406#1000) + (11#1000) * t) (T_air x)))
        (lift2 n Qplus (lift2 n Qplus (Qn_SW x) (Qn_LW x)) qc)
  | EnergyBal => lift2 n Qplus (lift2 n Qminus (Q_sum x) (Qe x)) qc
  end.
(* evap_priestley_taylor.py 375, 393; evap_energy_balance.py 364-365: np.maximum(ET, 0, self.ET), in place *)
Definition update_ET_rate (m : et_method) (s : evap) (x : evap_in) (qc : field) : option field :=
  store n (ET s) (lift1 n (fun e => Qmax e 0) (lift1 n (fun e => e / 2500000000) (Qet m x qc))).

(* evap_base.py 196-227 update, 366-375 update_ET_integral *)
Definition evap_update (m : et_method) (s : evap) (x : evap_in) : option evap :=
  do qc <- update_Qc s x ;;
  do et <- update_ET_rate m s x qc ;;
  Some (mkEvap et qc (vol_ET s + volume n da dt et)).

(* The ET array is shared with other components, and channels_base.py update_R (1627) writes zeros into it
   between two updates.  A history is a list of events: an update of this component, or another component
   overwriting the ET array with arbitrary values. *)
Inductive event := Update (x : evap_in) | Overwrite (l : field).
Definition evap_event (m : et_method) (s : evap) (e : event) : option evap :=
  match e with
  | Update x => evap_update m s x
  | Overwrite v => do et <- store n (ET s) v ;; Some (mkEvap et (Qc s) (vol_ET s))
  end.
(* the states after each event; None if one raises *)
Fixpoint evap_trace (m : et_method) (s : evap) (es : list event) : option (list evap) :=
  match es with
  | [] => Some []
  | e :: t => do s' <- evap_event m s e ;; do l <- evap_trace m s' t ;; Some (s' :: l)
  end.
End Evap.

(* met_base.py 2305-2311 update_net_energy_flux: Q_sum = Qn_SW + Qn_LW + Qh + Qe + Qa + Qc (Qa = Qc = 0, 1227-1228) *)
Definition met_Q_sum (n : nat) (qsw qlw qh qe : field) : field :=
  Grid (tab n (fun i => fat qsw i + fat qlw i + fat qh i + fat qe i + 0 + 0)).
