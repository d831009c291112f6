(* What the channel bookkeeping should achieve, independent of how it is computed. *)
From Coq Require Import ZArith QArith Qminmax List Bool.
From Verif Require Import Base D8_Spec Chan_Model.
From Verif Require D8_Model.
Import ListNotations.
Local Open Scope Q_scope.

Section S.
Variable G : D8_Model.geom.
Notation n := (D8_Model.ncells G).
Variable d8 : list Z.
Variables (da : nat -> Q) (dt : Q).

(* does cell j flow to cell i? *)
Definition flows_to (j i : nat) : bool :=
  match next G d8 j with Some i' => Nat.eqb i' i | None => false end.
(* does cell j have a downstream neighbour? *)
Definition has_parent (j : nat) : bool := match next G d8 j with Some _ => true | None => false end.

(* discharge entering cell i from its upstream neighbours *)
Definition inflow (Qg : list Q) (i : nat) : Q := qsum n (fun j => if flows_to j i then get 0 Qg j else 0).

(* volume of cell i before clipping at zero: held + lateral supply + dt*(in - out) *)
Definition unclipped (lat : nat -> Q) (Qg vol : list Q) (i : nat) : Q :=
  get 0 vol i + lat i + dt * inflow Qg i - dt * get 0 Qg i.

(* how much more than it has cell i would have to give away *)
Definition overdraft (lat : nat -> Q) (Qg vol : list Q) (i : nat) : Q := Qmax (- unclipped lat Qg vol i) 0.

(* Water that the hillslope hands to channel cell i in one step: all of the runoff or, with flood attenuation
   over [n_days] days, the fraction dt/(n_days days) of the water stored on the hillslope, at most all of it. *)
Definition lateral (att : option Q) (R : field) (stored : list Q) (i : nat) : Q :=
  match att with
  | None => fat R i * da i * dt
  | Some nd => let s := get 0 stored i + fat R i * da i * dt in Qmin (s / (3600 * 24 * nd) * dt) s
  end.

Variables (pid : list Z) (ds width : nat -> Q) (bank : list Q).
Variables (FLOOD scalar_da : bool) (att : option Q).

(* total overdraft of one update, and of a sequence of updates *)
Definition step_overdraft (s : state) (x : inputs) (i : nat) : Q :=
  overdraft (lateral att (iR x) (vol_stored s)) (discharge G width FLOOD s x) (vol s) i.
Fixpoint run_overdraft (s : state) (xs : list inputs) : Q :=
  match xs with
  | [] => 0
  | x :: t => qsum n (step_overdraft s x) +
              run_overdraft (update G d8 pid da ds width bank dt FLOOD scalar_da att s x) t
  end.

(* states with grids of the right size and, as after initialize() and after every update(), no velocity and
   no flood water on the cells without a flow direction *)
Record ok (s : state) : Prop := {
  ok_vol : length (vol s) = n; ok_st : length (vol_stored s) = n;
  ok_u : forall i, In i (noflow_IDs G d8) -> get 0 (u s) i == 0;
  ok_df : FLOOD = true -> forall i, In i (noflow_IDs G d8) -> get 0 (d_flood s) i == 0
}.
Definition sized (x : inputs) : Prop := length (iu x) = n.
End S.

(* a usable slope: finite and positive *)
Definition good (x : ev) : Prop := exists q, x = Fin q /\ 0 < q.

(* The water that the step or run has to account for. *)
Definition stock (s : state) : Q := total (vol s) + total (vol_stored s) + vol_edge s.

(* the largest of a list and a starting value, with the time of its first occurrence *)
Definition is_peak (init : Q * Q) (hist : list (Q * Q)) (p : Q * Q) : Prop :=
  (forall q, In q (init :: hist) -> fst q <= fst p) /\
  exists before after, init :: hist = before ++ p :: after /\ forall q, In q before -> fst q < fst p.
