(* Vocabulary for the statements about the Spearman cost. *)
From Coq Require Import Reals List Permutation.
From Verif Require Import Calib_Spec.
Import ListNotations.
Local Open Scope R_scope.

(* all values are the same *)
Definition constant (l : list R) : Prop := forall a b, In a l -> In b l -> a = b.
(* whenever one series is larger at one position than at another, so is (is not) the other series *)
Definition same_order (x y : list R) : Prop := forall i j a b c d,
  at_pos x i a -> at_pos x j b -> at_pos y i c -> at_pos y j d -> (a < b <-> c < d).
Definition opposite_order (x y : list R) : Prop := forall i j a b c d,
  at_pos x i a -> at_pos x j b -> at_pos y i c -> at_pos y j d -> (a < b <-> d < c).
Definition strictly_increasing (f : R -> R) : Prop := forall a b, a < b -> f a < f b.
Definition strictly_decreasing (f : R -> R) : Prop := forall a b, a < b -> f b < f a.
(* r gives every position its place, 1 .. n, when the values are put in increasing order (no two are equal) *)
Definition ranking (x : list R) (r : list nat) : Prop :=
  Permutation r (seq 1 (length x)) /\
  forall i j a b p q, at_pos x i a -> at_pos x j b -> nth_error r i = Some p -> nth_error r j = Some q -> (a < b <-> (p < q)%nat).
