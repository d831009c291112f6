(* What the closed channel model should achieve. *)
From Coq Require Import ZArith Reals List Bool.
From Verif Require Import Base D8_Spec ChanR_Model Wave_Model.
From Verif Require D8_Model.
Import ListNotations.
Local Open Scope R_scope.

(* sums over lists and over all cells *)
Definition rsuml {X} (f : X -> R) (l : list X) : R := fold_right (fun a s => f a + s) 0 l.
Definition rsumn (n : nat) (f : nat -> R) : R := rsuml f (seq 0 n).

Section S.
Variable G : D8_Model.geom.
Notation n := (D8_Model.ncells G).
Variable d8 : list Z.
Variable c : chan.

(* does water of cell j flow to cell i? does cell j have a downstream neighbour? *)
Definition flows_to (j i : nat) : bool := match next G d8 j with Some i' => Nat.eqb i' i | None => false end.
Definition flows (j : nat) : bool := match next G d8 j with Some _ => true | None => false end.
(* what enters cell i from upstream *)
Definition inflow (q : nat -> R) (i : nat) : R := rsumn n (fun j => if flows_to j i then q j else 0).

(* a usable channel network *)
Record chan_ok : Prop := {
  ok_dt : 0 < dt c;
  ok_ds : forall i, (i < n)%nat -> 0 < ds c i;
  ok_width : forall i, (i < n)%nat -> 0 < width c i;
  ok_angle : forall i, (i < n)%nat -> 0 <= angle c i < PI / 2;
  ok_rough : forall i, (i < n)%nat -> 0 < rough c i;
  ok_bank : forall i, (i < n)%nat -> 0 <= vol_bankfull c i
}.

(* velocity of the water on the flood plain: Manning's formula with roughness 1/10 and the depth as radius *)
Definition flood_velocity (s : wave) (i : nat) : R :=
  powr (get 0 (w_df s) i) (2/3) * sqrt (Rabs (slope_of c s i)) / (1/10).
(* k times the distance that the water moves in one step is within one cell, everywhere *)
Definition courant (k : R) (s : wave) : Prop :=
  forall i, (i < n)%nat -> flows i = true ->
    k * (get 0 (w_u s) i * dt c) <= ds c i /\ (FLOOD c = true -> k * (flood_velocity s i * dt c) <= ds c i).

(* water in the network, and water that has left it over the edges *)
Definition stock (s : wave) : R := rsumn n (get 0 (w_vol s)) + w_edge s.
(* water supplied by runoff r in one step *)
Definition supplied (r : nat -> R) : R := rsumn n (fun i => r i * da c i * dt c).
End S.

(* [P] holds before every update of the run *)
Fixpoint along (G : D8_Model.geom) (d8 pid : list Z) (c : chan) (P : wave -> Prop) (s : wave) (rs : list (nat -> R)) : Prop :=
  match rs with
  | [] => True
  | r :: t => P s /\ along G d8 pid c P (update G d8 pid c s r) t
  end.

(* The state a run is in: what it holds fits together. *)
Record fits (G : D8_Model.geom) (d8 : list Z) (c : chan) (s : wave) : Prop := {
  f_vol : forall i, (i < D8_Model.ncells G)%nat -> 0 <= get 0 (w_vol s) i;
  f_d : forall i, (i < D8_Model.ncells G)%nat -> 0 <= get 0 (w_d s) i /\ 0 <= get 0 (w_df s) i;
  (* velocities are never negative; nothing moves in cells without a flow direction *)
  f_u : forall i, (i < D8_Model.ncells G)%nat -> 0 <= get 0 (w_u s) i;
  f_edge : forall i, (i < D8_Model.ncells G)%nat -> flows G d8 i = false -> get 0 (w_u s) i = 0 /\ get 0 (w_df s) i = 0;
  (* the trapezoid filled to the depth d has the wetted area; along the cell it holds the channel water; the rest is on
     the flood plain, five channel widths wide *)
  f_A : forall i, (i < D8_Model.ncells G)%nat -> flows G d8 i = true ->
          get 0 (w_A s) i = get 0 (w_d s) i * (width c i + get 0 (w_d s) i * tan (angle c i)) /\
          get 0 (w_A s) i * ds c i + 5 * width c i * get 0 (w_df s) i * ds c i = get 0 (w_vol s) i
}.

(* L lists the cells whose water passes through cell i (i among them) *)
Definition is_upstream (G : D8_Model.geom) (d8 : list Z) (i : nat) (L : list nat) : Prop :=
  NoDup L /\ forall j, In j L <-> (j < D8_Model.ncells G)%nat /\ drains G d8 j i.

(* a flow grid as the D8 component makes it, with usable channels *)
Definition network (G : D8_Model.geom) (O : D8_Model.opts) (d8 : list Z) (c : chan) : Prop :=
  geom_ok G /\ (forall i, (i < D8_Model.ncells G)%nat -> closed_side G O i -> get 0%Z d8 i = 0%Z) /\
  code_grid G d8 /\ chan_ok G c.
(* the states a run can reach *)
Definition reached (G : D8_Model.geom) (O : D8_Model.opts) (d8 : list Z) (c : chan) (s : wave) : Prop :=
  exists d0 rs, (forall i, (i < D8_Model.ncells G)%nat -> 0 <= d0 i) /\
    s = run G d8 (D8_Model.update_parent_ID_grid G O d8) c (initialize G c d0) rs.
