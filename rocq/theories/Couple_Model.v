(* Model of a run of coupled components and of the driver's mass balance report
   (/repo/topoflow/components/topoflow_driver.py, /repo/topoflow/framework/emeli.py).
   The component models are those of Snow_Model, Evap_Model and Chan_Model; infiltration and groundwater enter
   through the rates they report, which are arbitrary, so that the result holds for every component of these
   kinds.  The glacier component is disabled (MR = 0).  Simplifications: all components have the framework's
   time step and values are passed without time interpolation, so that an update uses the latest values of the
   others. *)
From Coq Require Import ZArith QArith Qminmax List Bool.
From Verif Require Import Base Field Snow_Model Evap_Model.
From Verif Require Chan_Model D8_Model.
Import ListNotations.
Local Open Scope Q_scope.

Section Couple.
Variable G : D8_Model.geom.
Notation n := (D8_Model.ncells G).
Variables (d8 pid : list Z) (da : field) (dt : Q) (ds width : nat -> Q) (bank : list Q).
Variables (FLOOD : bool) (att : option Q) (T_rain_snow : field) (sm : method) (em : et_method).

(* the components' states; the rates of groundwater seepage and infiltration and their volumes *)
Record sys := mkSys {
  y_met : met; y_chan : Chan_Model.state; y_snow : snow; y_evap : evap;
  y_GW : field; y_IN : field; y_vol_GW : Q; y_vol_IN : Q }.
(* what comes from input files, from the hydraulic formulas, and from satzone and infil in this step;
   x_evap = None: the evaporation component is disabled *)
Record sysin := mkSysIn {
  x_met : met_in; x_uf : list Q; x_A : list Q; x_u : list Q;
  x_Qsum : field; x_ratio : field; x_evap : option evap_in; x_GW : field; x_IN : field }.

(* runoff and the evaporation array that update_R leaves, channels_base.py 1604-1649 *)
Definition runoff (m : met) (s : sys) : field * field :=
  Chan_Model.update_R G (fat da) dt (Chan_Model.vol (y_chan s))
    (P_rain m) (SM (y_snow s)) (y_GW s) (Scalar 0) (ET (y_evap s)) (y_IN s).
Definition chan_in (m : met) (s : sys) (x : sysin) : Chan_Model.inputs :=
  Chan_Model.mkIn (fst (runoff m s)) (x_uf x) (x_A x) (x_u x).

(* emeli.py 1034-1064, one pass over the provider list in the order of the examples (for instance
   framework/provider_file_examples/June_20_67_providers.txt): meteorology, channels, snow, satzone, evap,
   infil, hydro_model *)
Definition sys_step (s : sys) (x : sysin) : option sys :=
  do m <- met_update n da dt T_rain_snow (y_met s) (x_met x) ;;
  let c := Chan_Model.update G d8 pid (fat da) ds width bank dt FLOOD (is_scalar da) att (y_chan s) (chan_in m s x) in
  do w <- snow_update n da dt sm (y_snow s) (mkSnowIn (P_snow m) (mT (x_met x)) (x_Qsum x) (x_ratio x)) ;;
  do e <- (let e1 := mkEvap (snd (runoff m s)) (Qc (y_evap s)) (vol_ET (y_evap s)) in
           match x_evap x with None => Some e1 | Some y => evap_update n da dt em e1 y end) ;;
  Some (mkSys m c w e (x_GW x) (x_IN x)
          (y_vol_GW s + volume n da dt (x_GW x)) (y_vol_IN s + volume n da dt (x_IN x))).
Fixpoint sys_run (s : sys) (xs : list sysin) : option sys :=
  match xs with [] => Some s | x :: t => do s' <- sys_step s x ;; sys_run s' t end.

(* The report.  add_storage_volumes_to_report 1238-1261: channels and flood (channels_base.py 3107, 3136), soil
   (as the infiltration component reports it), snowpack (snow_base.py 721-728); the initial flood volume is
   taken as 0 (1241) *)
Definition stored_start (s : sys) (soil : Q) : Q :=
  total (Chan_Model.vol_chan (y_chan s)) + soil + total_volume n da (h_swe (y_snow s)) + 0.
Definition stored_final (s : sys) (soil : Q) : Q :=
  total (Chan_Model.vol_chan (y_chan s)) + soil + total_volume n da (h_swe (y_snow s))
  + total (Chan_Model.vol_flood (y_chan s)).
(* add_mass_balance_to_report 1329-1331, with 1288 *)
Definition reported_error (s0 s : sys) (soil0 soil : Q) : Q :=
  (vol_P (y_met s) - (vol_ET (y_evap s) + Chan_Model.vol_edge (y_chan s)))
  - (stored_final s soil - stored_start s0 soil0).
(* add_flux_volumes_to_report 1177-1178 *)
Definition reported_gain (s : sys) : Q := vol_PR (y_met s) + vol_SM (y_snow s) + 0 + y_vol_GW s.
Definition reported_loss (s : sys) : Q := y_vol_IN s + vol_ET (y_evap s).
End Couple.
