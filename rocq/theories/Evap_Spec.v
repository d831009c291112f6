(* What the evaporation properties speak about: the energy balance of one cell and the account of evaporated water. *)
From Coq Require Import ZArith QArith Qminmax List Bool.
From Verif Require Import Base Field Snow_Model Evap_Model.
Import ListNotations.
Local Open Scope Q_scope.

(* heat conducted between surface and soil at cell i (Fourier's law, the component's sign convention) *)
Definition conduction (x : evap_in) (i : nat) : Q :=
  fat (K_soil x) i * (fat (T_surf x) i - fat (T_soil x) i) / fat (soil_x x) i.
(* net radiation plus conduction, W/m2 *)
Definition net_energy (x : evap_in) (i : nat) : Q := fat (Qn_SW x) i + fat (Qn_LW x) i + conduction x i.
(* latent heat of one m3 of water: 1000 kg/m3 * 2500000 J/kg *)
Definition latent : Q := 1000 * 2500000.
(* water volume evaporated by the updates of a history, given the state after each event *)
Definition evaporated (n : nat) (da : field) (dt : Q) (es : list event) (l : list evap) : Q :=
  qsuml (fun p => match fst p with
                  | Update _ => qsum n (fun i => fat (ET (snd p)) i * fat da i * dt)
                  | Overwrite _ => 0 end) (combine es l).
Definition is_update (e : event) : bool := match e with Update _ => true | Overwrite _ => false end.
