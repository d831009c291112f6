(* What the groundwater properties speak about. *)
From Coq Require Import ZArith QArith Qminmax List Bool.
From Verif Require Import Base Field D8_Spec Chan_Spec Satzone_Model.
Import ListNotations.
Local Open Scope Q_scope.

(* wetted and total thickness of layer k *)
Notation yk ys k := (get 0 ys k).
Notation lk ls k := (get lay0 ls k).

(* water held in the layers of a cell, as a depth: sum of porosity x wetted thickness *)
Definition stored (ls : list layer) (ys : list Q) : Q := qsum (length ls) (fun k => qs (lk ls k) * yk ys k).
(* total wetted thickness, total thickness *)
Definition wetted (ys : list Q) : Q := qsum (length ys) (fun k => yk ys k).
Definition thickness (ls : list layer) : Q := qsum (length ls) (fun k => th (lk ls k)).

Definition layers_ok (ls : list layer) : Prop :=
  (0 < length ls)%nat /\ forall k, (k < length ls)%nat -> 0 <= th (lk ls k) /\ 0 < qs (lk ls k).
(* every wetted thickness lies between 0 and the layer's thickness *)
Definition bounded (ls : list layer) (ys : list Q) : Prop :=
  length ys = length ls /\ forall k, (k < length ls)%nat -> 0 <= yk ys k /\ yk ys k <= th (lk ls k).
(* no perched water: below a layer that holds water every layer is full *)
Definition no_perched (ls : list layer) (ys : list Q) : Prop :=
  forall k j, (k < j)%nat -> (j < length ls)%nat -> 0 < yk ys k -> yk ys j == th (lk ls j).
