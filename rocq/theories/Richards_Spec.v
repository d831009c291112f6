(* What is expected of a soil column, stated on the observable water contents and fluxes. *)
From Coq Require Import Reals List.
From Verif Require Import Base ChanR_Model Richards_Model.
Import ListNotations.
Local Open Scope R_scope.

Fixpoint rsumn (n : nat) (f : nat -> R) : R := match n with O => 0 | S m => rsumn m f + f m end.
(* water depth stored in the first m nodes of a profile *)
Definition stored (m : nat) (dzs th : list R) : R := rsumn m (fun k => get 0 dzs k * get 0 th k).
(* all node spacings are d *)
Definition uniform (sps : list soilp) (dzs : list R) (d : R) : Prop :=
  length dzs = length sps /\ forall k, (k < length sps)%nat -> get 0 dzs k = d.
(* the flux profile of a state belongs to its pressure and conductivity profiles (Darcy's law) *)
Definition darcy (sps : list soilp) (dzs : list R) (s : column) : Prop :=
  length (q s) = length sps /\ v s = update_v sps dzs (p s) (K s) /\ Rg s = get 0 (v s) (length sps - 1) /\ v0 s = get 0 (v s) 0.
Definition in_range (sps : list soilp) (th : list R) (k : nat) : Prop :=
  qr (get sp0 sps k) + 1 / 1000 <= get 0 th k <= qs (get sp0 sps k).
(* parameters for which the range is not empty *)
Definition range_ok (sps : list soilp) : Prop :=
  forall k, (k < length sps)%nat -> qr (get sp0 sps k) + 1 / 1000 <= qs (get sp0 sps k).
