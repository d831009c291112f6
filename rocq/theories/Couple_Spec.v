(* What the mass balance theorems are stated with. *)
From Coq Require Import ZArith QArith Qminmax List Bool.
From Verif Require Import Base Field D8_Spec Snow_Model Evap_Model Couple_Model.
From Verif Require Chan_Model Chan_Spec D8_Model.
Import ListNotations.
Local Open Scope Q_scope.

(* water volume of a rate that lasts dt: sum over the cells of rate * area * dt *)
Definition vol_of (n : nat) (da : field) (dt : Q) (f : field) : Q := qsum n (fun i => fat f i * fat da i * dt).

Section S.
Variable G : D8_Model.geom.
Notation n := (D8_Model.ncells G).
Variables (d8 pid : list Z) (da : field) (dt : Q) (ds width : nat -> Q) (bank : list Q).
Variables (FLOOD : bool) (att : option Q) (Trs : field) (sm : method) (em : et_method).

(* evaporation that the channels can supply in cell i: all of it where the cell holds enough water, otherwise
   none; a uniform evaporation rate is not charged *)
Definition taken (vol : list Q) (ET : field) (i : nat) : Q :=
  match ET with
  | Scalar _ => 0
  | Grid _ => if Qltb (get 0 vol i) (fat ET i * fat da i * dt) then 0 else fat ET i
  end.
(* over a run: the water created by the clipping of channel volumes, and the evaporation charged to channels *)
Fixpoint created (s : sys) (xs : list sysin) : Q :=
  match xs with
  | [] => 0
  | x :: t => match sys_step G d8 pid da dt ds width bank FLOOD att Trs sm em s x with
              | None => 0
              | Some s' =>
                  qsum n (Chan_Spec.step_overdraft G d8 (fat da) dt width FLOOD att (y_chan s)
                            (chan_in G da dt (y_met s') s x)) + created s' t
              end
  end.
Fixpoint charged (s : sys) (xs : list sysin) : Q :=
  match xs with
  | [] => 0
  | x :: t => qsum n (fun i => taken (Chan_Model.vol (y_chan s)) (ET (y_evap s)) i * fat da i * dt) +
              match sys_step G d8 pid da dt ds width bank FLOOD att Trs sm em s x with
              | None => 0
              | Some s' => charged s' t
              end
  end.
(* a state before the first step: no rates, no volumes counted, snow not negative, channel grids as they
   should be *)
Record fresh (s : sys) : Prop := {
  f_met : vol_P (y_met s) == 0 /\ vol_PR (y_met s) == 0 /\ vol_PS (y_met s) == 0;
  f_chan : Chan_Spec.ok G d8 FLOOD (y_chan s);
  f_chan0 : Chan_Model.vol_R (y_chan s) == 0 /\ Chan_Model.vol_edge (y_chan s) == 0 /\
            Chan_Model.vol_chan (y_chan s) = Chan_Model.vol (y_chan s) /\ total (Chan_Model.vol_flood (y_chan s)) == 0;
  f_snow : vol_SM (y_snow s) == 0 /\ vol_of n da dt (SM (y_snow s)) == 0;
  f_swe : forall i, (i < n)%nat -> 0 <= fat (h_swe (y_snow s)) i;
  f_evap : vol_ET (y_evap s) == 0;
  f_GW : y_vol_GW s == 0 /\ vol_of n da dt (y_GW s) == 0;
  f_IN : y_vol_IN s == 0 /\ vol_of n da dt (y_IN s) == 0 }.
(* water that the report counts as stored in channels and on floodplains, beyond what the channels hold *)
Definition doubled (s : sys) : Q :=
  total (Chan_Model.vol_chan (y_chan s)) + total (Chan_Model.vol_flood (y_chan s)) - total (Chan_Model.vol (y_chan s)).
(* inputs of a step: grids of the right size, no negative precipitation *)
Definition sound (x : sysin) : Prop :=
  length (x_u x) = n /\ (forall i, (i < n)%nat -> 0 <= fat (mP (x_met x)) i).
End S.
