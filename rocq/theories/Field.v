(* Variables that are either scalars (0D numpy arrays) or grids, shared by several component models.
   A grid is a list in C order.  Shapes other than "0D" and "the model grid" are not modelled. *)
From Coq Require Import ZArith QArith List Bool Lia Lqa.
From Verif Require Import Base.
Import ListNotations.
Local Open Scope Q_scope.

Inductive field := Scalar (q : Q) | Grid (l : list Q).
(* value at cell i; a scalar applies to every cell *)
Definition fat (f : field) (i : nat) : Q := match f with Scalar q => q | Grid l => get 0 l i end.
Definition shaped (n : nat) (f : field) : Prop := match f with Scalar _ => True | Grid l => length l = n end.
Definition is_scalar (f : field) : bool := match f with Scalar _ => true | Grid _ => false end.

(* elementwise operations with numpy broadcasting *)
Definition lift1 (n : nat) (op : Q -> Q) (a : field) : field :=
  match a with Scalar x => Scalar (op x) | Grid _ => Grid (tab n (fun i => op (fat a i))) end.
Definition lift2 (n : nat) (op : Q -> Q -> Q) (a b : field) : field :=
  match a, b with
  | Scalar x, Scalar y => Scalar (op x y)
  | _, _ => Grid (tab n (fun i => op (fat a i) (fat b i)))
  end.

(* Writing a value into an existing variable, x.fill(v) for a 0D x and x[:] = v for a grid x, also x += v etc.
   None: a grid does not fit into a 0D array (TypeError or ValueError). *)
Definition store (n : nat) (x v : field) : option field :=
  match x, v with
  | Scalar _, Scalar q => Some (Scalar q)
  | Scalar _, Grid _ => None
  | Grid _, _ => Some (Grid (tab n (fat v)))
  end.

(* sum over the domain as the *_integral methods compute it: a scalar counts once per pixel *)
Definition domain_sum (n : nat) (v : field) : Q :=
  match v with Scalar q => q * inject_Z (Z.of_nat n) | Grid l => total l end.

Lemma fat_lift1 n op a i : (i < n)%nat -> fat (lift1 n op a) i = op (fat a i).
Proof. intros Hi. destruct a; cbn [lift1 fat]; [reflexivity|]. rewrite get_tab by exact Hi. reflexivity. Qed.
Lemma fat_lift2 n op a b i : (i < n)%nat -> fat (lift2 n op a b) i = op (fat a i) (fat b i).
Proof.
  intros Hi. destruct a, b; cbn [lift2]; try reflexivity; cbn [fat]; rewrite get_tab by exact Hi; reflexivity.
Qed.
Lemma shaped_lift1 n op a : shaped n (lift1 n op a).
Proof. destruct a; cbn; [exact I|apply tab_length]. Qed.
Lemma shaped_lift2 n op a b : shaped n (lift2 n op a b).
Proof. destruct a, b; cbn; try exact I; apply tab_length. Qed.
Lemma fat_store n x v y i : store n x v = Some y -> (i < n)%nat -> fat y i = fat v i.
Proof.
  destruct x, v; cbn; intros H Hi; inversion H; subst; cbn; try reflexivity; rewrite get_tab by exact Hi; reflexivity.
Qed.
Lemma shaped_store n x v y : store n x v = Some y -> shaped n y /\ is_scalar y = is_scalar x.
Proof. destruct x, v; cbn; intros H; inversion H; subst; cbn; auto using tab_length. Qed.
Lemma store_ok n x v : (is_scalar x = true -> is_scalar v = true) -> exists y, store n x v = Some y.
Proof. destruct x, v; cbn; intros H; eauto. discriminate (H eq_refl). Qed.
Lemma is_scalar_lift1 n op a : is_scalar (lift1 n op a) = is_scalar a.
Proof. destruct a; reflexivity. Qed.
Lemma is_scalar_lift2 n op a b : is_scalar (lift2 n op a b) = is_scalar a && is_scalar b.
Proof. destruct a, b; reflexivity. Qed.

Lemma domain_sum_eq n v : shaped n v -> domain_sum n v == qsum n (fat v).
Proof.
  destruct v as [q|l]; cbn [shaped domain_sum fat]; intros H.
  - unfold qsum. change (qsuml (fat (Scalar q))) with (qsuml (fun _ : nat => q)).
    setoid_rewrite qsuml_const. rewrite seq_length. ring.
  - rewrite total_get, H. reflexivity.
Qed.
Lemma domain_sum_ext n v f : shaped n v -> (forall i, (i < n)%nat -> fat v i == f i) -> domain_sum n v == qsum n f.
Proof. intros H E. rewrite domain_sum_eq by exact H. apply qsum_ext. exact E. Qed.
