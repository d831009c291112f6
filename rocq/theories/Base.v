(* Shared vocabulary: arrays as lists, finite sums over Q, small helper lemmas.
   numpy arrays are lists in C order; [get] is element access (total, with a default that the
   statements always exclude by a bound), [tab n f] builds an array of length n from f. *)
From Coq Require Import ZArith QArith Qminmax List Bool Lia Lqa Permutation.
Import ListNotations.

Definition tab {A} (n : nat) (f : nat -> A) : list A := map f (seq 0 n).
Definition get {A} (d : A) (l : list A) (i : nat) : A := nth i l d.

Lemma tab_length {A} n (f : nat -> A) : length (tab n f) = n.
Proof. unfold tab. rewrite map_length, seq_length. reflexivity. Qed.

Lemma get_tab {A} (d : A) n f i : (i < n)%nat -> get d (tab n f) i = f i.
Proof.
  intros H. unfold get, tab.
  rewrite (nth_indep _ d (f 0%nat)) by (rewrite map_length, seq_length; exact H).
  rewrite map_nth. rewrite seq_nth by exact H. reflexivity.
Qed.

Lemma get_overflow {A} (d : A) l i : (length l <= i)%nat -> get d l i = d.
Proof. intros H. unfold get. apply nth_overflow. exact H. Qed.

Lemma tab_ext {A} n (f g : nat -> A) : (forall i, (i < n)%nat -> f i = g i) -> tab n f = tab n g.
Proof. intros H. unfold tab. apply map_ext_in. intros a Ha. apply in_seq in Ha. apply H. lia. Qed.

Lemma tab_get {A} (d : A) l : tab (length l) (get d l) = l.
Proof.
  apply (nth_ext _ _ d d); [apply tab_length|].
  intros i Hi. rewrite tab_length in Hi. apply (get_tab d _ (get d l) i Hi).
Qed.

Lemma list_eq_get {A} (d : A) (l l' : list A) :
  length l = length l' -> (forall i, (i < length l)%nat -> get d l i = get d l' i) -> l = l'.
Proof. intros Hl H. apply (nth_ext _ _ d d); [exact Hl|exact H]. Qed.

(* in-place assignment a[i] = v *)
Fixpoint set {A} (l : list A) (i : nat) (v : A) : list A :=
  match l, i with
  | [], _ => []
  | _ :: l', O => v :: l'
  | x :: l', S i' => x :: set l' i' v
  end.

Lemma set_length {A} (l : list A) i v : length (set l i v) = length l.
Proof. revert i. induction l as [|x l IH]; intros [|i]; cbn; auto. Qed.

Lemma get_set_same {A} (d : A) l i v : (i < length l)%nat -> get d (set l i v) i = v.
Proof.
  revert i. induction l as [|x l IH]; intros [|i] H; cbn in *; try lia; auto.
  apply IH. lia.
Qed.

Lemma get_set_other {A} (d : A) l i j v : i <> j -> get d (set l i v) j = get d l j.
Proof.
  revert i j. induction l as [|x l IH]; intros [|i] [|j] H; cbn; auto; try lia.
  apply IH. lia.
Qed.

(* ---- sums over Q ---- *)
Local Open Scope Q_scope.

Definition qsuml {A} (f : A -> Q) (l : list A) : Q := fold_right (fun a s => f a + s) 0 l.
Definition qsum (n : nat) (f : nat -> Q) : Q := qsuml f (seq 0 n).
(* sum of all entries of an array *)
Definition total (l : list Q) : Q := qsuml (fun x => x) l.

Lemma qsuml_nil {A} (f : A -> Q) : qsuml f [] = 0.
Proof. reflexivity. Qed.
Lemma qsuml_cons {A} (f : A -> Q) a l : qsuml f (a :: l) = f a + qsuml f l.
Proof. reflexivity. Qed.
Global Arguments qsuml : simpl never.

Lemma qsuml_ext {A} (f g : A -> Q) l : (forall a, In a l -> f a == g a) -> qsuml f l == qsuml g l.
Proof.
  induction l as [|a l IH]; intros H; [reflexivity|]. rewrite !qsuml_cons.
  rewrite (H a) by (left; reflexivity). rewrite IH; [reflexivity|].
  intros b Hb. apply H. right. exact Hb.
Qed.

Lemma qsuml_plus {A} (f g : A -> Q) l : qsuml (fun a => f a + g a) l == qsuml f l + qsuml g l.
Proof. induction l as [|a l IH]; [rewrite !qsuml_nil; ring|]. rewrite !qsuml_cons, IH. ring. Qed.

Lemma qsuml_minus {A} (f g : A -> Q) l : qsuml (fun a => f a - g a) l == qsuml f l - qsuml g l.
Proof. induction l as [|a l IH]; [rewrite !qsuml_nil; ring|]. rewrite !qsuml_cons, IH. ring. Qed.

Lemma qsuml_scale {A} c (f : A -> Q) l : qsuml (fun a => c * f a) l == c * qsuml f l.
Proof. induction l as [|a l IH]; [rewrite !qsuml_nil; ring|]. rewrite !qsuml_cons, IH. ring. Qed.

Lemma qsuml_const {A} c (l : list A) : qsuml (fun _ => c) l == inject_Z (Z.of_nat (length l)) * c.
Proof.
  induction l as [|a l IH]; [rewrite qsuml_nil; cbn [length]; change (inject_Z (Z.of_nat 0)) with 0; ring|].
  rewrite qsuml_cons, IH. cbn [length].
  rewrite Nat2Z.inj_succ, <- Z.add_1_r, inject_Z_plus. change (inject_Z 1) with 1. ring.
Qed.

Lemma qsuml_zero {A} (f : A -> Q) l : (forall a, In a l -> f a == 0) -> qsuml f l == 0.
Proof.
  intros H. rewrite (qsuml_ext f (fun _ => 0) l H). rewrite qsuml_const. ring.
Qed.

Lemma qsuml_app {A} (f : A -> Q) l1 l2 : qsuml f (l1 ++ l2) == qsuml f l1 + qsuml f l2.
Proof.
  induction l1 as [|a l IH]; [rewrite qsuml_nil; cbn [app]; ring|].
  cbn [app]. rewrite !qsuml_cons, IH. ring.
Qed.

Lemma qsuml_perm {A} (f : A -> Q) l1 l2 : Permutation l1 l2 -> qsuml f l1 == qsuml f l2.
Proof.
  induction 1 as [|x l l' _ IH|x y l|l1 l2 l3 _ IH1 _ IH2].
  - reflexivity.
  - rewrite !qsuml_cons, IH. reflexivity.
  - rewrite !qsuml_cons. ring.
  - rewrite IH1. exact IH2.
Qed.

Lemma qsuml_le {A} (f g : A -> Q) l : (forall a, In a l -> f a <= g a) -> qsuml f l <= qsuml g l.
Proof.
  induction l as [|a l IH]; intros H; [rewrite !qsuml_nil; lra|]. rewrite !qsuml_cons.
  pose proof (H a (or_introl eq_refl)).
  assert (qsuml f l <= qsuml g l) by (apply IH; intros b Hb; apply H; right; exact Hb).
  lra.
Qed.

Lemma qsuml_nonneg {A} (f : A -> Q) l : (forall a, In a l -> 0 <= f a) -> 0 <= qsuml f l.
Proof.
  intros H. apply Qle_trans with (qsuml (fun _ => 0) l).
  - rewrite qsuml_const. lra.
  - apply qsuml_le. exact H.
Qed.

Lemma qsuml_map {A B} (g : A -> B) (f : B -> Q) l : qsuml f (map g l) = qsuml (fun a => f (g a)) l.
Proof. induction l as [|a l IH]; [reflexivity|]. cbn [map]. rewrite !qsuml_cons, IH. reflexivity. Qed.

(* exchange of finite sums *)
Lemma qsuml_swap {A B} (f : A -> B -> Q) l m :
  qsuml (fun a => qsuml (f a) m) l == qsuml (fun b => qsuml (fun a => f a b) l) m.
Proof.
  induction l as [|a l IH].
  - rewrite qsuml_nil. symmetry. apply qsuml_zero. intros b _. rewrite qsuml_nil. reflexivity.
  - rewrite qsuml_cons, IH, <- qsuml_plus. apply qsuml_ext. intros b _.
    rewrite qsuml_cons. reflexivity.
Qed.

(* a sum in which only the entry i0 can be nonzero *)
Lemma qsuml_single {A} (f : A -> Q) (l : list A) i0 :
  NoDup l -> In i0 l -> (forall a, In a l -> a <> i0 -> f a == 0) -> qsuml f l == f i0.
Proof.
  induction l as [|a l IH]; intros Hnd Hin H; [destruct Hin|].
  inversion Hnd as [|? ? Hni Hnd']; subst. rewrite qsuml_cons. destruct Hin as [->|Hin].
  - rewrite (qsuml_zero f l); [ring|].
    intros b Hb. apply H; [right; exact Hb|]. intros ->. contradiction.
  - rewrite IH; [|assumption|assumption|intros b Hb; apply H; right; exact Hb].
    rewrite (H a); [ring|left; reflexivity|]. intros ->. contradiction.
Qed.

Lemma total_tab n f : total (tab n f) = qsum n f.
Proof. unfold total, tab, qsum. rewrite qsuml_map. reflexivity. Qed.

Lemma total_get l : total l = qsum (length l) (get 0 l).
Proof. rewrite <- total_tab. rewrite tab_get. reflexivity. Qed.

Lemma qsum_ext n f g : (forall i, (i < n)%nat -> f i == g i) -> qsum n f == qsum n g.
Proof. intros H. apply qsuml_ext. intros a Ha. apply in_seq in Ha. apply H. lia. Qed.

Lemma qsum_plus n f g : qsum n (fun i => f i + g i) == qsum n f + qsum n g.
Proof. apply qsuml_plus. Qed.

Lemma qsum_minus n f g : qsum n (fun i => f i - g i) == qsum n f - qsum n g.
Proof. apply qsuml_minus. Qed.

Lemma qsum_scale n c f : qsum n (fun i => c * f i) == c * qsum n f.
Proof. apply qsuml_scale. Qed.

Lemma qsum_le n f g : (forall i, (i < n)%nat -> f i <= g i) -> qsum n f <= qsum n g.
Proof. intros H. apply qsuml_le. intros a Ha. apply in_seq in Ha. apply H. lia. Qed.

Lemma qsum_nonneg n f : (forall i, (i < n)%nat -> 0 <= f i) -> 0 <= qsum n f.
Proof. intros H. apply qsuml_nonneg. intros a Ha. apply in_seq in Ha. apply H. lia. Qed.

Lemma qsum_zero n f : (forall i, (i < n)%nat -> f i == 0) -> qsum n f == 0.
Proof. intros H. apply qsuml_zero. intros a Ha. apply in_seq in Ha. apply H. lia. Qed.

Lemma qsum_S n f : qsum (S n) f == qsum n f + f n.
Proof.
  unfold qsum. rewrite seq_S, qsuml_app, qsuml_cons, qsuml_nil. cbn [Nat.add]. ring.
Qed.

Lemma qsum_swap n m (f : nat -> nat -> Q) :
  qsum n (fun i => qsum m (f i)) == qsum m (fun j => qsum n (fun i => f i j)).
Proof. apply qsuml_swap. Qed.

Lemma qsum_single n f i0 :
  (i0 < n)%nat -> (forall i, (i < n)%nat -> i <> i0 -> f i == 0) -> qsum n f == f i0.
Proof.
  intros Hi H. unfold qsum. apply qsuml_single.
  - apply seq_NoDup.
  - apply in_seq. lia.
  - intros a Ha Hne. apply in_seq in Ha. apply H; [lia|exact Hne].
Qed.

(* pigeonhole: a duplicate-free list of numbers below n has length at most n *)
Lemma NoDup_bounded_length (l : list nat) n :
  NoDup l -> (forall x, In x l -> (x < n)%nat) -> (length l <= n)%nat.
Proof.
  intros Hnd Hb. rewrite <- (seq_length n 0). apply NoDup_incl_length; [exact Hnd|].
  intros x Hx. apply in_seq. specialize (Hb x Hx). lia.
Qed.

(* boolean comparison helpers on Q *)
Definition Qltb (x y : Q) : bool := negb (Qle_bool y x).
Lemma Qltb_lt x y : Qltb x y = true <-> x < y.
Proof.
  unfold Qltb. rewrite negb_true_iff. split.
  - intros H. apply Qnot_le_lt. intros Hc. apply Qle_bool_iff in Hc. congruence.
  - intros H. destruct (Qle_bool y x) eqn:E; [|reflexivity].
    apply Qle_bool_iff in E. lra.
Qed.
Lemma Qltb_ge x y : Qltb x y = false <-> y <= x.
Proof.
  unfold Qltb. rewrite negb_false_iff. apply Qle_bool_iff.
Qed.
Lemma Qleb_gt x y : Qle_bool x y = false <-> y < x.
Proof.
  split.
  - intros H. apply Qnot_le_lt. intros Hc. apply Qle_bool_iff in Hc. congruence.
  - intros H. destruct (Qle_bool x y) eqn:E; [|reflexivity]. apply Qle_bool_iff in E. lra.
Qed.
Lemma Qeqb_neq x y : Qeq_bool x y = false <-> ~ x == y.
Proof.
  split; [apply Qeq_bool_neq|]. intros H. destruct (Qeq_bool x y) eqn:E; [|reflexivity].
  apply Qeq_bool_iff in E. contradiction.
Qed.
