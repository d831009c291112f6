(* C67: grids made from the contributing area. *)
From Coq Require Import Reals Lra Lia List Bool.
From Verif Require Import Prep_Model Prep_Spec.
Import ListNotations.
Local Open Scope R_scope.

Lemma maxl_spec x l : (forall y, In y (x :: l) -> y <= maxl x l) /\ In (maxl x l) (x :: l).
Proof.
  induction l as [|z l [IH1 IH2]]; cbn [maxl fold_right].
  - split; [intros y [<-|[]]; lra|left; reflexivity].
  - fold (maxl x l). split.
    + intros y [<-|[<-|H]].
      * eapply Rle_trans; [apply IH1; left; reflexivity|apply Rmax_r].
      * apply Rmax_l.
      * eapply Rle_trans; [apply IH1; right; exact H|apply Rmax_r].
    + unfold Rmax. destruct (Rle_dec z (maxl x l)); [|right; left; reflexivity].
      destruct IH2 as [E|E]; [left; exact E|right; right; exact E].
Qed.
Lemma minl_spec x l : (forall y, In y (x :: l) -> minl x l <= y) /\ In (minl x l) (x :: l).
Proof.
  induction l as [|z l [IH1 IH2]]; cbn [minl fold_right].
  - split; [intros y [<-|[]]; lra|left; reflexivity].
  - fold (minl x l). split.
    + intros y [<-|[<-|H]].
      * eapply Rle_trans; [apply Rmin_r|apply IH1; left; reflexivity].
      * apply Rmin_l.
      * eapply Rle_trans; [apply Rmin_r|apply IH1; right; exact H].
    + unfold Rmin. destruct (Rle_dec z (minl x l)); [right; left; reflexivity|].
      destruct IH2 as [E|E]; [left; exact E|right; right; exact E].
Qed.
Lemma max_unique A a x l : A = x :: l -> is_max A a -> maxl x l = a.
Proof. intros -> [H1 H2]. destruct (maxl_spec x l) as [M1 M2]. apply Rle_antisym; auto. Qed.
Lemma pos_true x : pos x = true <-> 0 < x.
Proof. unfold pos. destruct (Rlt_dec 0 x); split; intros; try reflexivity; try assumption; try discriminate; lra. Qed.
Lemma min_unique A a x l : filter pos A = x :: l -> is_min_pos A a -> minl x l = a.
Proof.
  intros E [H1 [H2 H3]]. destruct (minl_spec x l) as [M1 M2]. rewrite <- E in M1, M2.
  apply filter_In in M2 as [I P]. apply pos_true in P. apply Rle_antisym; [|auto].
  apply M1. apply filter_In. split; [exact H1|]. apply pos_true. exact H2.
Qed.
Lemma grid_nth c p A i a : nth_error A i = Some a ->
  nth_error (power_grid c p A) i = Some (if Rle_dec a 0 then 1 else c * Rpower a p).
Proof. intros H. unfold power_grid. rewrite nth_error_map, H. reflexivity. Qed.

Lemma Rpower_pos x y : 0 < Rpower x y. Proof. apply exp_pos. Qed.
Lemma Rpower_div x y p : 0 < x -> 0 < y -> Rpower (x / y) p = Rpower x p / Rpower y p.
Proof.
  intros Hx Hy. unfold Rdiv. rewrite <- Rpower_mult_distr; [|exact Hx|apply Rinv_0_lt_compat; exact Hy]. f_equal.
  unfold Rpower. rewrite ln_Rinv by exact Hy. rewrite <- exp_Ropp. f_equal. ring.
Qed.
Lemma ln_ne0 x : 0 < x -> x <> 1 -> ln x <> 0.
Proof. intros H N E. rewrite <- ln_1 in E. apply ln_inv in E; lra. Qed.

(* the exponent of the law through two points *)
Definition exponent (A1 g1 A2 g2 : R) : R := ln (g1 / g2) / ln (A1 / A2).
Lemma two_points_at A1 g1 A2 g2 A g : two_points A1 g1 A2 g2 A = Written g ->
  0 < A1 /\ 0 < A2 /\ A1 <> A2 /\ 0 < g1 / g2 /\
  g = power_grid (g1 / Rpower A1 (exponent A1 g1 A2 g2)) (exponent A1 g1 A2 g2) A.
Proof.
  unfold two_points, exponent. destruct (Rlt_dec 0 (g1 / g2)); [|discriminate]. destruct (Rlt_dec 0 A1); [|discriminate].
  destruct (Rlt_dec 0 A2); [|discriminate]. destruct (Req_EM_T A1 A2); [discriminate|]. intros [= <-]. auto.
Qed.
Lemma quot_pos x y : 0 < x -> 0 < y -> 0 < x / y.
Proof. intros. apply Rmult_lt_0_compat; [assumption|]. apply Rinv_0_lt_compat. assumption. Qed.
Lemma exponent_at A1 g1 A2 g2 : 0 < A1 -> 0 < A2 -> A1 <> A2 -> 0 < g1 / g2 ->
  Rpower (A1 / A2) (exponent A1 g1 A2 g2) = g1 / g2.
Proof.
  intros H1 H2 Hn Hg. unfold Rpower, exponent. assert (ln (A1 / A2) <> 0).
  { apply ln_ne0; [apply quot_pos; assumption|]. intros E. apply Hn. apply (Rmult_eq_reg_r (/ A2)); [|apply Rinv_neq_0_compat; lra].
    rewrite (Rinv_r A2) by lra. exact E. }
  replace (ln (g1 / g2) / ln (A1 / A2) * ln (A1 / A2)) with (ln (g1 / g2)) by (field; assumption).
  apply exp_ln. exact Hg.
Qed.

(* a value of the law relative to the value at another area *)
Definition scaled (g1 A1 p a : R) : R := g1 * Rpower (a / A1) p.
Lemma law_scaled g1 A1 p a : 0 < A1 -> 0 < a -> g1 / Rpower A1 p * Rpower a p = scaled g1 A1 p a.
Proof. intros H1 H. unfold scaled. rewrite Rpower_div by assumption. field. apply Rgt_not_eq, Rpower_pos. Qed.

(* given the exponent and the value g1 at the largest area *)
Theorem C67_given_exponent : forall A A1 g1 p a_max, is_max A a_max ->
  exists g, get_grid_from_TCA A A1 (Some g1) None None (Some p) = Written g /\ length g = length A /\
    forall i a, holds A i a ->
      (0 < a -> holds g i (g1 * Rpower (a / a_max) p)) /\ (a <= 0 -> holds g i 1).
Proof.
  intros A A1 g1 p am Hm. destruct A as [|x l] eqn:EA; [destruct Hm as [[] _]|]. rewrite <- EA in *.
  pose proof (max_unique A am x l EA Hm) as M. exists (power_grid (g1 / Rpower am p) p A). split.
  - unfold get_grid_from_TCA. destruct A1; rewrite EA; cbv zeta; rewrite M; reflexivity.
  - split; [unfold power_grid; apply map_length|]. intros i a H. unfold holds in *. rewrite (grid_nth _ _ _ _ _ H).
    assert (a <= am) by (apply Hm; eapply nth_error_In; exact H).
    split; intros Ha; destruct (Rle_dec a 0); try lra; [|reflexivity]. f_equal. apply law_scaled; lra.
Qed.
Print Assumptions C67_given_exponent.

(* given the values at the largest and at the smallest positive area: the two values are met exactly, and all
   other cells with area lie on the power law between them *)
Theorem C67_given_extremes : forall A A1 g1 g2 a_max a_min, is_max A a_max -> is_min_pos A a_min -> a_min < a_max ->
  0 < g1 -> 0 < g2 ->
  exists g p, get_grid_from_TCA A A1 (Some g1) None (Some g2) None = Written g /\ length g = length A /\
    forall i a, holds A i a ->
      (0 < a -> holds g i (g1 * Rpower (a / a_max) p)) /\ (a <= 0 -> holds g i 1) /\
      (a = a_max -> holds g i g1) /\ (a = a_min -> holds g i g2).
Proof.
  intros A A1 g1 g2 am an Hm Hn Hlt Hg1 Hg2. destruct A as [|x l] eqn:EA; [destruct Hm as [[] _]|]. rewrite <- EA in *.
  destruct (filter pos A) as [|y m] eqn:EF.
  { destruct Hn as (I & P & _). assert (X : In an (filter pos A)) by (apply filter_In; split; [exact I|apply pos_true; exact P]).
    rewrite EF in X. destruct X. }
  pose proof (max_unique A am x l EA Hm) as M. pose proof (min_unique A an y m EF Hn) as N.
  destruct Hn as (In_ & Pn & _). assert (Pm : 0 < am) by lra. assert (Q := quot_pos g1 g2 Hg1 Hg2).
  set (p := exponent am g1 an g2). exists (power_grid (g1 / Rpower am p) p A), p. split.
  { assert (T : two_points am g1 an g2 A = Written (power_grid (g1 / Rpower am p) p A)).
    { unfold two_points. destruct (Rlt_dec 0 (g1 / g2)); [|lra]. destruct (Rlt_dec 0 am); [|lra].
      destruct (Rlt_dec 0 an); [|lra]. destruct (Req_EM_T am an); [lra|]. reflexivity. }
    unfold get_grid_from_TCA. destruct A1; rewrite EA, <- EA, EF, M, N; exact T. }
  split; [unfold power_grid; apply map_length|]. intros i a H. unfold holds in *. rewrite (grid_nth _ _ _ _ _ H).
  assert (S1 : 0 < a -> g1 / Rpower am p * Rpower a p = g1 * Rpower (a / am) p) by (intros; apply law_scaled; lra).
  repeat split; intros Ha; destruct (Rle_dec a 0); try lra; try reflexivity; f_equal.
  - apply S1; lra.
  - rewrite Ha. field. apply Rgt_not_eq, Rpower_pos.
  - rewrite S1 by lra. rewrite Ha. assert (E := exponent_at am g1 an g2 Pm Pn ltac:(lra) Q). fold p in E.
    rewrite Rpower_div in * by assumption. pose proof (Rpower_pos am p). pose proof (Rpower_pos an p).
    replace (Rpower an p / Rpower am p) with (/ (Rpower am p / Rpower an p)) by (field; lra). rewrite E. field. lra.
Qed.
Print Assumptions C67_given_extremes.

(* given two points of the law *)
Theorem C67_given_points : forall A A1 g1 A2 g2 p0, 0 < A1 -> 0 < A2 -> A1 <> A2 -> 0 < g1 -> 0 < g2 ->
  exists g p, get_grid_from_TCA A (Some A1) (Some g1) (Some A2) (Some g2) p0 = Written g /\ length g = length A /\
    g1 * Rpower (A2 / A1) p = g2 /\
    forall i a, holds A i a -> (0 < a -> holds g i (g1 * Rpower (a / A1) p)) /\ (a <= 0 -> holds g i 1).
Proof.
  intros A A1 g1 A2 g2 p0 H1 H2 Hn Hg1 Hg2. assert (Q := quot_pos g1 g2 Hg1 Hg2). set (p := exponent A1 g1 A2 g2).
  exists (power_grid (g1 / Rpower A1 p) p A), p. split.
  { unfold get_grid_from_TCA, two_points. destruct (Rlt_dec 0 (g1 / g2)); [|lra]. destruct (Rlt_dec 0 A1); [|lra].
    destruct (Rlt_dec 0 A2); [|lra]. destruct (Req_EM_T A1 A2); [lra|]. reflexivity. }
  split; [unfold power_grid; apply map_length|]. split.
  - assert (E := exponent_at A1 g1 A2 g2 H1 H2 Hn Q). fold p in E. rewrite Rpower_div in * by assumption.
    pose proof (Rpower_pos A1 p). pose proof (Rpower_pos A2 p).
    replace (Rpower A2 p / Rpower A1 p) with (/ (Rpower A1 p / Rpower A2 p)) by (field; lra). rewrite E. field. lra.
  - intros i a H. unfold holds in *. rewrite (grid_nth _ _ _ _ _ H).
    split; intros Ha; destruct (Rle_dec a 0); try lra; [|reflexivity]. f_equal. apply law_scaled; lra.
Qed.
Print Assumptions C67_given_points.

Lemma Rpower_mono x y p : 0 <= p -> 0 < x <= y -> Rpower x p <= Rpower y p.
Proof.
  intros Hp [Hx H]. unfold Rpower. assert (L : ln x <= ln y) by (destruct (Req_dec x y) as [->|]; [lra|left; apply ln_increasing; lra]).
  destruct (Req_dec (p * ln x) (p * ln y)) as [->|N]; [lra|]. left. apply exp_increasing.
  assert (p * ln x <= p * ln y) by (apply Rmult_le_compat_l; assumption). lra.
Qed.
Lemma Rpower_anti x y p : p <= 0 -> 0 < x <= y -> Rpower y p <= Rpower x p.
Proof.
  intros Hp [Hx H]. unfold Rpower. assert (L : ln x <= ln y) by (destruct (Req_dec x y) as [->|]; [lra|left; apply ln_increasing; lra]).
  assert (p * ln y <= p * ln x).
  { assert ((- p) * ln x <= (- p) * ln y) by (apply Rmult_le_compat_l; lra). lra. }
  destruct (Req_dec (p * ln y) (p * ln x)) as [->|N]; [lra|]. left. apply exp_increasing. lra.
Qed.

(* larger areas get larger values when the exponent is positive (smaller ones when it is negative) *)
Theorem C67_grows_with_area : forall A A1 g1 p g, 0 < g1 ->
  get_grid_from_TCA A A1 (Some g1) None None (Some p) = Written g ->
  forall i j a b x y, holds A i a -> holds A j b -> holds g i x -> holds g j y -> 0 < a <= b ->
  (0 <= p -> x <= y) /\ (p <= 0 -> y <= x) /\ 0 < x.
Proof.
  intros A A1 g1 p g Hg E i j a b x y Ha Hb Hx Hy [Pa Hab].
  assert (exists am, is_max A am) as [am Hm].
  { destruct A as [|z l]; [destruct A1; discriminate E|]. exists (maxl z l). destruct (maxl_spec z l). split; assumption. }
  destruct (C67_given_exponent A A1 g1 p am Hm) as (g' & E' & _ & Q). rewrite E in E'. injection E' as <-.
  assert (Pm : 0 < am) by (apply Rlt_le_trans with b; [lra|]; apply Hm; eapply nth_error_In; exact Hb).
  destruct (Q i a Ha) as [Q1 _]. destruct (Q j b Hb) as [Q2 _]. specialize (Q1 Pa). specialize (Q2 ltac:(lra)).
  unfold holds in *. rewrite Hx in Q1. rewrite Hy in Q2. injection Q1 as ->. injection Q2 as ->.
  assert (R1 : 0 < a / am <= b / am).
  { split; [apply quot_pos; lra|]. apply Rmult_le_compat_r; [|exact Hab]. left. apply Rinv_0_lt_compat. exact Pm. }
  repeat split; [intros Hp; apply Rmult_le_compat_l; [lra|apply Rpower_mono; assumption]
               |intros Hp; apply Rmult_le_compat_l; [lra|apply Rpower_anti; assumption]
               |apply Rmult_lt_0_compat; [exact Hg|apply Rpower_pos]].
Qed.
Print Assumptions C67_grows_with_area.

(* with the extremes given, every cell with area lies between the two values *)
Theorem C67_between_extremes : forall A A1 g1 g2 g, 0 < g1 -> 0 < g2 ->
  get_grid_from_TCA A A1 (Some g1) None (Some g2) None = Written g ->
  forall i a x, holds A i a -> 0 < a -> holds g i x -> Rmin g1 g2 <= x <= Rmax g1 g2.
Proof.
  intros A A1 g1 g2 g Hg1 Hg2 E i a x Ha Pa Hx.
  destruct A as [|z l] eqn:EA; [destruct A1; discriminate E|]. rewrite <- EA in *.
  destruct (filter pos A) as [|y m] eqn:EF.
  { assert (X : In a (filter pos A)) by (apply filter_In; split; [eapply nth_error_In; exact Ha|apply pos_true; exact Pa]).
    rewrite EF in X. destruct X. }
  assert (Hm : is_max A (maxl z l)) by (rewrite EA; destruct (maxl_spec z l); split; assumption).
  assert (Hn : is_min_pos A (minl y m)).
  { destruct (minl_spec y m) as [M1 M2]. rewrite <- EF in M1, M2. apply filter_In in M2 as [I P]. split; [exact I|].
    split; [apply pos_true; exact P|]. intros w Hw Pw. apply M1. apply filter_In. split; [exact Hw|apply pos_true; exact Pw]. }
  assert (T : two_points (maxl z l) g1 (minl y m) g2 A = Written g).
  { rewrite <- E. unfold get_grid_from_TCA. destruct A1; rewrite EA, <- EA, EF; reflexivity. }
  destruct (two_points_at _ _ _ _ _ _ T) as (Pm & Pn & Ne & Q & Eg).
  set (am := maxl z l) in *. set (an := minl y m) in *.
  assert (Ham : a <= am) by (apply Hm; eapply nth_error_In; exact Ha).
  assert (Han : an <= a) by (apply Hn; [eapply nth_error_In; exact Ha|exact Pa]).
  destruct (C67_given_extremes A A1 g1 g2 am an Hm Hn ltac:(lra) Hg1 Hg2) as (g' & p & E' & _ & R).
  rewrite E in E'. injection E' as <-. destruct (R i a Ha) as [R1 _]. specialize (R1 Pa). unfold holds in *. rewrite Hx in R1. injection R1 as ->.
  assert (exists j, nth_error A j = Some an) as [j Hj] by (apply In_nth_error; apply Hn).
  destruct (R j an Hj) as (R2 & _ & _ & R3). specialize (R2 Pn). specialize (R3 eq_refl). unfold holds in *. rewrite R2 in R3. injection R3 as E2.
  assert (I1 : 0 < a / am <= 1) by (split; [apply quot_pos; lra|]; apply (Rmult_le_reg_r am); [lra|]; unfold Rdiv; rewrite Rmult_assoc, Rinv_l by lra; lra).
  assert (I2 : 0 < an / am <= a / am).
  { split; [apply quot_pos; lra|]. apply Rmult_le_compat_r; [|exact Han]. left. apply Rinv_0_lt_compat. exact Pm. }
  assert (One : Rpower 1 p = 1) by (unfold Rpower; rewrite ln_1, Rmult_0_r; apply exp_0).
  destruct (Rle_dec 0 p) as [Hp|Hp].
  - pose proof (Rpower_mono _ _ p Hp I1). pose proof (Rpower_mono _ _ p Hp I2). rewrite One in *.
    assert (g1 * Rpower (an / am) p <= g1 * Rpower (a / am) p) by (apply Rmult_le_compat_l; lra).
    assert (g1 * Rpower (a / am) p <= g1 * 1) by (apply Rmult_le_compat_l; lra).
    pose proof (Rmin_r g1 g2). pose proof (Rmax_l g1 g2). lra.
  - pose proof (Rpower_anti _ _ p ltac:(lra) I1). pose proof (Rpower_anti _ _ p ltac:(lra) I2). rewrite One in *.
    assert (g1 * Rpower (a / am) p <= g1 * Rpower (an / am) p) by (apply Rmult_le_compat_l; lra).
    assert (g1 * 1 <= g1 * Rpower (a / am) p) by (apply Rmult_le_compat_l; lra).
    pose proof (Rmin_l g1 g2). pose proof (Rmax_r g1 g2). lra.
Qed.
Print Assumptions C67_between_extremes.

(* no grid for a site where all positive areas are equal, for any two values *)
Theorem C67_equal_areas_refuted : forall A1 g1 g2 a n, 0 < a ->
  get_grid_from_TCA (repeat a (S n)) A1 (Some g1) None (Some g2) None = Undefined.
Proof.
  intros A1 g1 g2 a n Ha. assert (F : forall k, filter pos (repeat a k) = repeat a k).
  { induction k; [reflexivity|]. cbn [repeat filter]. rewrite (proj2 (pos_true a) Ha), IHk. reflexivity. }
  assert (M : forall k, maxl a (repeat a k) = a).
  { induction k; [reflexivity|]. cbn [repeat maxl fold_right]. fold (maxl a (repeat a k)). rewrite IHk. apply Rmax_left. lra. }
  assert (N : forall k, minl a (repeat a k) = a).
  { induction k; [reflexivity|]. cbn [repeat minl fold_right]. fold (minl a (repeat a k)). rewrite IHk. apply Rmin_left. lra. }
  assert (T : two_points a g1 a g2 (repeat a (S n)) = Undefined).
  { unfold two_points. destruct (Rlt_dec 0 (g1 / g2)); [|reflexivity]. destruct (Rlt_dec 0 a); [|reflexivity].
    destruct (Req_EM_T a a); [reflexivity|lra]. }
  unfold get_grid_from_TCA. pose proof (F (S n)) as FS. cbn [repeat] in *.
  destruct A1; rewrite FS, M, N; exact T.
Qed.
Print Assumptions C67_equal_areas_refuted.

(* which inputs are enough *)
Theorem C67_enough_inputs : forall A A1 g1 A2 g2 p,
  get_grid_from_TCA A A1 g1 A2 g2 p = NotEnough <-> g1 = None \/ (g2 = None /\ p = None).
Proof.
  assert (T : forall A A1 g1 A2 g2, two_points A1 g1 A2 g2 A <> NotEnough).
  { intros A A1 g1 A2 g2. unfold two_points. destruct (Rlt_dec 0 (g1 / g2)); [|discriminate]. destruct (Rlt_dec 0 A1); [|discriminate].
    destruct (Rlt_dec 0 A2); [|discriminate]. destruct (Req_EM_T A1 A2); discriminate. }
  intros A A1 g1 A2 g2 p. unfold get_grid_from_TCA.
  split.
  - destruct g1; [|intros _; left; reflexivity].
    destruct g2, p, A1, A2, A; intros H; try discriminate H; try (right; split; reflexivity);
      try (exfalso; exact (T _ _ _ _ _ H)); try (destruct (filter pos _); [discriminate H|exfalso; exact (T _ _ _ _ _ H)]).
  - intros [->|[-> ->]]; [reflexivity|]. destruct g1; [|reflexivity]. reflexivity.
Qed.
Print Assumptions C67_enough_inputs.

(* edges: a Manning roughness between 0.03 and 0.2 is asked for, the cells on the edges of the DEM get 1 *)
Theorem C67_edge_values_refuted :
  exists g, get_grid_from_TCA [0; 1; 100] None (Some (3/100)) None (Some (2/10)) None = Written g /\
    holds g 0 1 /\ holds g 1 (2/10) /\ holds g 2 (3/100).
Proof.
  destruct (C67_given_extremes [0; 1; 100] None (3/100) (2/10) 100 1) as (g & p & E & _ & Q); try lra.
  - split; [right; right; left; reflexivity|]. intros x [<-|[<-|[<-|[]]]]; lra.
  - split; [right; left; reflexivity|]. split; [lra|]. intros x [<-|[<-|[<-|[]]]]; lra.
  - exists g. split; [exact E|]. destruct (Q 0%nat 0 eq_refl) as (_ & Q0 & _). destruct (Q 1%nat 1 eq_refl) as (_ & _ & _ & Q1).
    destruct (Q 2%nat 100 eq_refl) as (_ & _ & Q2 & _). auto using Rle_refl.
Qed.
Print Assumptions C67_edge_values_refuted.
