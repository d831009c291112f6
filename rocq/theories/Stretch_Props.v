(* C91: the stretches used for pictures of grids keep the order of the values and ignore cells without data. *)
From Coq Require Import Reals List Bool ZArith Lia Lra.
From Verif Require Import Stretch_Model.
Import ListNotations.
Local Open Scope R_scope.

Lemma rlt_iff : forall x y, rlt x y = true <-> x < y.
Proof. intros. unfold rlt. destruct (Rlt_dec x y); split; intros; try assumption; try reflexivity; try discriminate; contradiction. Qed.
Lemma rle_iff : forall x y, rle x y = true <-> x <= y.
Proof. intros. unfold rle. destruct (Rle_dec x y); split; intros; try assumption; try reflexivity; try discriminate; contradiction. Qed.
Lemma req_iff : forall x y, req x y = true <-> x = y.
Proof. intros. unfold req. destruct (Req_EM_T x y); split; intros; try assumption; try reflexivity; try discriminate; contradiction. Qed.

Lemma gmin_le : forall g x, In x g -> gmin g <= x.
Proof. intros g. unfold gmin. generalize (hd 0 g). induction g as [|y g IH]; intros d x H; [contradiction|]. simpl. destruct H as [->|H]; [apply Rmin_l|]. eapply Rle_trans; [apply Rmin_r|auto]. Qed.
Lemma gmax_ge : forall g x, In x g -> x <= gmax g.
Proof. intros g. unfold gmax. generalize (hd 0 g). induction g as [|y g IH]; intros d x H; [contradiction|]. simpl. destruct H as [->|H]; [apply Rmax_l|]. eapply Rle_trans; [apply IH; exact H|apply Rmax_r]. Qed.
Lemma gmin_in : forall g, g <> [] -> In (gmin g) g.
Proof.
  intros [|y g] H; [contradiction|]. unfold gmin. simpl hd. clear H.
  assert (G : forall l d, In (fold_right Rmin d l) (d :: l)).
  { induction l as [|z l IH]; intros d; [now left|]. cbn [fold_right]. unfold Rmin at 1. destruct (Rle_dec _ _); [right; now left|]. destruct (IH d) as [E|]; [left; exact E|right; now right]. }
  destruct (G (y :: g) y) as [E|H]; [rewrite <- E; now left|exact H].
Qed.
Lemma gmax_in : forall g, g <> [] -> In (gmax g) g.
Proof.
  intros [|y g] H; [contradiction|]. unfold gmax. simpl hd. clear H.
  assert (G : forall l d, In (fold_right Rmax d l) (d :: l)).
  { induction l as [|z l IH]; intros d; [now left|]. cbn [fold_right]. unfold Rmax at 1. destruct (Rle_dec _ _); [|right; now left]. destruct (IH d) as [E|]; [left; exact E|right; now right]. }
  destruct (G (y :: g) y) as [E|H]; [rewrite <- E; now left|exact H].
Qed.
Lemma nonempty : forall (g : list R) x, In x g -> g <> [].
Proof. intros g x H ->. contradiction. Qed.

(* each stretch is a function of the value, for a given grid *)
Definition norm (g : list R) (x : R) : R := if req (gmin g) (gmax g) then 0 else (x - gmin g) / (gmax g - gmin g).
Definition point (g : list R) (s : stretch) (a b p x : R) : option R :=
  match s with
  | hist_equal => Some (if req (gmax g) (gmin g) then ncs g 0 else ncs g (flat2 g x))
  | linear => Some (norm g x)
  | log => if rle (a * x + 1) 0 then None else Some (ln (a * x + 1))
  | power => npow (norm g x) p
  | power1 => npow x p
  | power2 => nbind (npow (1 + a * norm g x) (- b)) (fun y => Some (1 - y))
  | power3 => nbind (npow (norm g x) a) (fun y => nbind (npow (1 - y) b) (fun z => npow (1 - z) (1 / b)))
  | tanh_ => Some (tanh (a * norm g x) / tanh a)
  | unknown => Some x
  end.
Lemma normalize_map : forall g, normalize_grid g = map (norm g) g.
Proof. intros g. unfold normalize_grid, norm. cbv zeta. destruct (req (gmin g) (gmax g)); reflexivity. Qed.
Lemma stretch_map : forall g s a b p, stretch_grid g s a b p = map (point g s a b p) g.
Proof.
  intros g s a b p. destruct s; unfold stretch_grid, point, histogram_equalize, linear_stretch, log_stretch, power_stretch0, power_stretch1, power_stretch2, power_stretch3, tanh_stretch; rewrite ?normalize_map, ?map_map; try reflexivity.
  destruct (req (gmax g) (gmin g)); rewrite map_map; reflexivity.
Qed.

Lemma norm_facts : forall g, (forall x, In x g -> 0 <= norm g x <= 1) /\ norm g (gmin g) = 0 /\ (gmin g <> gmax g -> In (gmin g) g -> norm g (gmax g) = 1 /\ forall x y, In x g -> In y g -> x < y -> norm g x < norm g y).
Proof.
  intros g. unfold norm. destruct (req (gmin g) (gmax g)) eqn:E.
  - apply req_iff in E. split; [intros; lra|]. split; [reflexivity|intros; contradiction].
  - assert (N : gmin g <> gmax g) by (intros H; apply req_iff in H; congruence).
    split; [|split].
    + intros x Hx. pose proof (gmin_le g x Hx). pose proof (gmax_ge g x Hx). assert (P : 0 < gmax g - gmin g) by lra.
      assert (M : (x - gmin g) / (gmax g - gmin g) * (gmax g - gmin g) = x - gmin g) by (field; lra). set (r := (x - gmin g) / (gmax g - gmin g)) in *. clearbody r. split; nra.
    + unfold Rdiv. replace (gmin g - gmin g) with 0 by ring. apply Rmult_0_l.
    + intros _ Hin. pose proof (gmax_ge g _ Hin). split; [field; lra|]. intros x y _ _ H1. apply Rmult_lt_compat_r; [apply Rinv_0_lt_compat; lra|lra].
Qed.

(* ---------- powers ---------- *)
Definition pw0 (x p : R) : R := if req x 0 then 0 else Rpower x p.
Lemma npow_some : forall x p, 0 <= x -> npow x p = Some (pw0 x p).
Proof. intros x p H. unfold npow, pw0. destruct (rlt x 0) eqn:E; [apply rlt_iff in E; lra|]. destruct (req x 0); reflexivity. Qed.
Lemma pw0_0 : forall p, pw0 0 p = 0.
Proof. intros. unfold pw0. destruct (req 0 0) eqn:E; [reflexivity|]. assert (0 = 0) by reflexivity. apply req_iff in H. congruence. Qed.
Lemma pw0_1 : forall p, pw0 1 p = 1.
Proof. intros. unfold pw0. destruct (req 1 0) eqn:E; [apply req_iff in E; lra|]. unfold Rpower. now rewrite ln_1, Rmult_0_r, exp_0. Qed.
Lemma pw0_lt : forall x y p, 0 <= x -> x < y -> 0 < p -> pw0 x p < pw0 y p.
Proof.
  intros x y p Hx Hy Hp. unfold pw0. destruct (req y 0) eqn:Ey; [apply req_iff in Ey; lra|]. destruct (req x 0) eqn:Ex; [apply exp_pos|].
  assert (x <> 0) by (intros E; apply req_iff in E; congruence). unfold Rpower. apply exp_increasing. assert (ln x < ln y) by (apply ln_increasing; lra). nra.
Qed.
Lemma pw0_range : forall x p, 0 <= x <= 1 -> 0 < p -> 0 <= pw0 x p <= 1.
Proof.
  intros x p H Hp. split.
  - destruct (Req_dec x 0) as [->|n]; [rewrite pw0_0; lra|]. pose proof (pw0_lt 0 x p ltac:(lra) ltac:(lra) Hp). rewrite pw0_0 in H0. lra.
  - destruct (Req_dec x 1) as [->|n]; [rewrite pw0_1; lra|]. pose proof (pw0_lt x 1 p ltac:(lra) ltac:(lra) Hp). rewrite pw0_1 in H0. lra.
Qed.
Lemma tanh_form : forall x, tanh x = 1 - 2 * / (exp (2 * x) + 1).
Proof.
  intros x. unfold tanh, sinh, cosh. pose proof (exp_pos x). pose proof (exp_pos (- x)). replace (2 * x) with (x + x) by ring. rewrite exp_plus.
  rewrite exp_Ropp. field. repeat split; nra.
Qed.
Lemma tanh_lt : forall x y, x < y -> tanh x < tanh y.
Proof.
  intros x y H. rewrite !tanh_form. pose proof (exp_pos (2 * x)). pose proof (exp_increasing (2 * x) (2 * y) ltac:(lra)).
  assert (/ (exp (2 * y) + 1) < / (exp (2 * x) + 1)) by (apply Rinv_lt_contravar; [apply Rmult_lt_0_compat; lra|lra]). lra.
Qed.
Lemma tanh_0' : tanh 0 = 0.
Proof. rewrite tanh_form. rewrite Rmult_0_r, exp_0. lra. Qed.

(* ---------- specification: a picture of the grid ---------- *)
(* strictly: different values stay different and in order *)
Definition value_of (g : list R) (o : list (option R)) (x v : R) : Prop := exists i, nth_error g i = Some x /\ nth_error o i = Some (Some v).
Definition total_picture (g : list R) (o : list (option R)) : Prop := length o = length g /\ forall i x, nth_error g i = Some x -> exists v, nth_error o i = Some (Some v).
Definition in_order (g : list R) (o : list (option R)) : Prop := forall x y v w, value_of g o x v -> value_of g o y w -> x <= y -> v <= w.
Definition in_strict_order (g : list R) (o : list (option R)) : Prop := forall x y v w, value_of g o x v -> value_of g o y w -> x < y -> v < w.
Definition in_unit (o : list (option R)) : Prop := forall v, In (Some v) o -> 0 <= v <= 1.

(* a stretch given by a function f of the value *)
Lemma picture_of : forall g (f : R -> option R), length (map f g) = length g /\ (forall x v, value_of g (map f g) x v -> In x g /\ f x = Some v).
Proof.
  intros g f. split; [apply map_length|]. intros x v (i & H1 & H2). split; [eapply nth_error_In; eauto|]. rewrite (map_nth_error _ _ _ H1) in H2. congruence.
Qed.
Lemma total_of : forall g (f : R -> option R), (forall x, In x g -> exists v, f x = Some v) -> total_picture g (map f g).
Proof. intros g f H. split; [apply map_length|]. intros i x Hi. destruct (H x) as (v & Hv); [eapply nth_error_In; eauto|]. exists v. now rewrite (map_nth_error _ _ _ Hi), Hv. Qed.

(* the stretches of the normalised grid, as functions from [0,1] *)
Definition curve (s : stretch) (a b p t : R) : R :=
  match s with
  | power => pw0 t p
  | power2 => 1 - Rpower (1 + a * t) (- b)
  | power3 => pw0 (1 - pw0 (1 - pw0 t a) b) (1 / b)
  | tanh_ => tanh (a * t) / tanh a
  | _ => t
  end.
Definition normalised (s : stretch) : bool := match s with linear | power | power2 | power3 | tanh_ => true | _ => false end.
Lemma curve_point : forall g s a b p x, normalised s = true -> 0 < a -> 0 < b -> 0 < p -> 0 <= norm g x <= 1 -> point g s a b p x = Some (curve s a b p (norm g x)).
Proof.
  intros g s a b p x Hs Ha Hb Hp H. destruct s; try discriminate Hs; unfold point, curve; try reflexivity.
  - apply npow_some. lra.
  - set (t := norm g x) in *. clearbody t. assert (1 <= 1 + a * t) by nra. rewrite npow_some by lra. cbn [nbind]. unfold pw0. destruct (req (1 + a * t) 0) eqn:E; [apply req_iff in E; lra|reflexivity].
  - set (t := norm g x) in *. clearbody t. rewrite npow_some by lra. cbn [nbind]. pose proof (pw0_range t a H Ha). rewrite npow_some by lra. cbn [nbind].
    pose proof (pw0_range (1 - pw0 t a) b ltac:(lra) Hb). rewrite npow_some by lra. reflexivity.
Qed.
Lemma curve_facts : forall s a b p, normalised s = true -> 0 < a -> 0 < b -> 0 < p ->
  curve s a b p 0 = 0 /\ (s <> power2 -> curve s a b p 1 = 1) /\ (s = power2 -> 0 < curve s a b p 1 < 1) /\ (forall t u, 0 <= t -> t < u -> u <= 1 -> curve s a b p t < curve s a b p u).
Proof.
  intros s a b p Hs Ha Hb Hp. assert (Ib : 0 < 1 / b) by (apply Rmult_lt_0_compat; [lra|apply Rinv_0_lt_compat; lra]).
  destruct s; try discriminate Hs; unfold curve.
  - repeat split; intros; try lra; discriminate.
  - repeat split; intros; try discriminate; [apply pw0_0|apply pw0_1|apply pw0_lt; lra].
  - assert (D : forall t u, 0 <= t -> t < u -> 1 - Rpower (1 + a * t) (- b) < 1 - Rpower (1 + a * u) (- b)).
    { intros t u Ht Hu. assert (Rpower (1 + a * u) (- b) < Rpower (1 + a * t) (- b)); [|lra]. unfold Rpower. apply exp_increasing. assert (ln (1 + a * t) < ln (1 + a * u)) by (apply ln_increasing; nra). nra. }
    assert (Z : 1 - Rpower (1 + a * 0) (- b) = 0) by (rewrite Rmult_0_r, Rplus_0_r; unfold Rpower; rewrite ln_1, Rmult_0_r, exp_0; ring).
    split; [exact Z|]. split; [intros H; contradiction|]. split.
    + intros _. pose proof (D 0 1 ltac:(lra) ltac:(lra)). rewrite Z in H. split; [exact H|]. assert (0 < Rpower (1 + a * 1) (- b)) by apply exp_pos. lra.
    + intros t u Ht Hu _. now apply D.
  - split; [|split; [|split]].
    + rewrite pw0_0. rewrite Rminus_0_r, pw0_1. replace (1 - 1) with 0 by ring. apply pw0_0.
    + intros _. rewrite pw0_1. replace (1 - 1) with 0 by ring. rewrite pw0_0, Rminus_0_r. apply pw0_1.
    + discriminate.
    + intros t u Ht Hu H1. pose proof (pw0_lt t u a Ht Hu Ha) as L1. pose proof (pw0_range t a ltac:(lra) Ha). pose proof (pw0_range u a ltac:(lra) Ha).
      pose proof (pw0_lt (1 - pw0 u a) (1 - pw0 t a) b ltac:(lra) ltac:(lra) Hb) as L2. pose proof (pw0_range (1 - pw0 t a) b ltac:(lra) Hb). apply pw0_lt; lra.
  - pose proof (tanh_lt 0 a Ha) as T. rewrite tanh_0' in T. assert (0 < / tanh a) by (apply Rinv_0_lt_compat; exact T). split; [|split; [|split]].
    + rewrite Rmult_0_r, tanh_0'. unfold Rdiv. apply Rmult_0_l.
    + intros _. rewrite Rmult_1_r. field. lra.
    + discriminate.
    + intros t u Ht Hu _. apply Rmult_lt_compat_r; [assumption|]. apply tanh_lt. nra.
Qed.

(* linear, power, power2, power3 and tanh: every cell gets a number in [0,1]; larger values stay strictly larger; the least value gets 0 and, except for power2, the largest gets 1 *)
Theorem C91_stretch : forall g s a b p, normalised s = true -> 0 < a -> 0 < b -> 0 < p -> let o := stretch_grid g s a b p in
  total_picture g o /\ in_unit o /\ in_order g o /\ in_strict_order g o /\
  (forall v, value_of g o (gmin g) v -> v = 0) /\ (forall v, gmin g < gmax g -> value_of g o (gmax g) v -> s <> power2 -> v = 1).
Proof.
  intros g s a b p Hs Ha Hb Hp o. unfold o. rewrite stretch_map.
  destruct (norm_facts g) as (N1 & N2 & N3). destruct (curve_facts s a b p Hs Ha Hb Hp) as (C0 & C1 & C2 & C3).
  assert (P : forall x, In x g -> point g s a b p x = Some (curve s a b p (norm g x))) by (intros x Hx; apply curve_point; auto).
  destruct (picture_of g (point g s a b p)) as (_ & V).
  assert (V' : forall x v, value_of g (map (point g s a b p) g) x v -> In x g /\ v = curve s a b p (norm g x)) by (intros x v H; apply V in H; destruct H as [H1 H2]; split; [exact H1|]; rewrite P in H2 by exact H1; congruence).
  assert (S : forall x y v w, value_of g (map (point g s a b p) g) x v -> value_of g (map (point g s a b p) g) y w -> x < y -> v < w).
  { intros x y v w Hx Hy Hl. apply V' in Hx. apply V' in Hy. destruct Hx as [Ix ->]. destruct Hy as [Iy ->].
    pose proof (gmin_le g x Ix). pose proof (gmax_ge g y Iy). pose proof (gmin_in g (nonempty g x Ix)) as Im. destruct (N3 ltac:(lra) Im) as [_ N4].
    apply C3; [apply N1; exact Ix|apply N4; auto|apply N1; exact Iy]. }
  split; [|split; [|split; [|split; [|split]]]].
  - apply total_of. intros x Hx. rewrite P by exact Hx. eauto.
  - intros v Hv. apply in_map_iff in Hv. destruct Hv as (x & E & Hx). rewrite P in E by exact Hx. injection E as <-. specialize (N1 x Hx).
    set (t := norm g x) in *. clearbody t. assert (A : 0 <= curve s a b p t) by (destruct (Req_dec t 0) as [->|n]; [lra|]; pose proof (C3 0 t ltac:(lra) ltac:(lra) ltac:(lra)); lra).
    split; [exact A|]. assert (B : curve s a b p t <= curve s a b p 1) by (destruct (Req_dec t 1) as [->|n]; [lra|]; pose proof (C3 t 1 ltac:(lra) ltac:(lra) ltac:(lra)); lra).
    destruct s; try discriminate Hs; try (rewrite C1 in B by discriminate; exact B). pose proof (C2 eq_refl). lra.
  - intros x y v w Hx Hy Hl. destruct (Req_dec x y) as [->|n]; [|left; eapply S; eauto; lra]. apply V' in Hx. apply V' in Hy. destruct Hx as [_ ->]. destruct Hy as [_ ->]. lra.
  - exact S.
  - intros v Hv. apply V' in Hv. destruct Hv as [_ ->]. now rewrite N2.
  - intros v Hlt Hv Hn. apply V' in Hv. destruct Hv as [Hi ->]. pose proof (gmin_in g (nonempty _ _ Hi)) as Im. destruct (N3 ltac:(lra) Im) as [N4 _]. rewrite N4. auto.
Qed.
Print Assumptions C91_stretch.
(* a grid of one value gives 0 everywhere *)
Theorem C91_constant : forall g s a b p v, normalised s = true -> 0 < a -> 0 < b -> 0 < p -> gmin g = gmax g -> In (Some v) (stretch_grid g s a b p) -> v = 0.
Proof.
  intros g s a b p v Hs Ha Hb Hp E H. rewrite stretch_map in H. apply in_map_iff in H. destruct H as (x & H & Hx).
  destruct (norm_facts g) as (N1 & _). rewrite curve_point in H; auto. injection H as <-. unfold norm. apply req_iff in E. rewrite E. now apply curve_facts.
Qed.
Print Assumptions C91_constant.

(* ---------- histogram ---------- *)
Lemma cs_mono : forall g j k, (j <= k)%nat -> (cs g j <= cs g k)%nat.
Proof. intros g j k H. induction H; [lia|]. simpl. lia. Qed.
Lemma cs_hist : forall g k, (1 <= k)%nat -> (hist g k + cs g 0 <= cs g k)%nat.
Proof. intros g [|k] H; [lia|]. pose proof (cs_mono g 0 k ltac:(lia)). simpl in *. lia. Qed.
Lemma filter_pos : forall {A} (f : A -> bool) l x, In x l -> f x = true -> (1 <= length (filter f l))%nat.
Proof. intros A f l x H E. assert (In x (filter f l)) by (apply filter_In; auto). destruct (filter f l); [contradiction|simpl; lia]. Qed.
Lemma bin_width : forall g, g <> [] -> 0 < (hist_hi g - hist_lo g) / 256.
Proof.
  intros g H. unfold hist_hi, hist_lo. destruct (req (gmin g) (gmax g)) eqn:E; [apply req_iff in E; lra|]. assert (gmin g <> gmax g) by (intros X; apply req_iff in X; congruence).
  pose proof (gmax_ge g _ (gmin_in g H)). lra.
Qed.
(* some value lies outside the first bin, so the scale of the cumulative counts is never 0/0 *)
Lemma cs_pos : forall g, g <> [] -> (cs g 0 < cs g 255)%nat.
Proof.
  intros g H. pose proof (bin_width g H) as W. destruct (req (gmin g) (gmax g)) eqn:E.
  - assert (1 <= hist g 128)%nat.
    { apply (filter_pos _ g (gmin g)); [now apply gmin_in|]. unfold in_bin, bin_edge, hist_lo, hist_hi. rewrite E. apply req_iff in E. rewrite <- E.
      apply andb_true_iff. split; [apply rle_iff; simpl INR; lra|]. apply orb_true_iff. left. apply rlt_iff. rewrite S_INR. simpl INR. lra. }
    pose proof (cs_hist g 128 ltac:(lia)). pose proof (cs_mono g 128 255 ltac:(lia)). lia.
  - assert (1 <= hist g 255)%nat.
    { apply (filter_pos _ g (gmax g)); [now apply gmax_in|]. unfold in_bin, bin_edge. apply andb_true_iff. split; [|apply orb_true_iff; right; reflexivity].
      apply rle_iff. replace (INR 255) with 255 by (simpl; lra). unfold hist_lo, hist_hi in *. rewrite E in *. lra. }
    pose proof (cs_hist g 255 ltac:(lia)). lia.
Qed.
Lemma ncs_facts : forall g, g <> [] -> ncs g 0 = 0 /\ ncs g 255 = 1 /\ (forall j k, (j <= k)%nat -> ncs g j <= ncs g k).
Proof.
  intros g H. pose proof (cs_pos g H) as P. apply lt_INR in P. assert (0 < / (INR (cs g 255) - INR (cs g 0))) by (apply Rinv_0_lt_compat; lra). unfold ncs. split; [|split].
  - replace (INR (cs g 0) - INR (cs g 0)) with 0 by ring. unfold Rdiv. apply Rmult_0_l.
  - field. lra.
  - intros j k Hjk. apply Rmult_le_compat_r; [lra|]. pose proof (le_INR _ _ (cs_mono g j k Hjk)). lra.
Qed.
Lemma Int_part_le : forall x y, x <= y -> (Int_part x <= Int_part y)%Z.
Proof. intros x y H. pose proof (base_Int_part x) as [A B]. pose proof (base_Int_part y) as [C D]. apply Z.lt_succ_r. apply lt_IZR. rewrite succ_IZR. lra. Qed.
Lemma Int_part_IZR : forall z, Int_part (IZR z) = z.
Proof.
  intros z. pose proof (base_Int_part (IZR z)) as [A B]. apply le_IZR in A. assert (IZR z < IZR (Int_part (IZR z)) + 1) by lra. rewrite <- succ_IZR in H. apply lt_IZR in H. lia.
Qed.
Definition scaled (g : list R) (x : R) : R := 255 * (x - gmin g) / (gmax g - gmin g).
Lemma scaled_facts : forall g x, In x g -> gmin g <> gmax g -> 0 <= scaled g x <= 255 /\ scaled g (gmin g) = 0 /\ scaled g (gmax g) = 255 /\ (forall y, x <= y -> scaled g x <= scaled g y).
Proof.
  intros g x Hx Hn. pose proof (gmin_le g x Hx). pose proof (gmax_ge g x Hx). assert (I : 0 < / (gmax g - gmin g)) by (apply Rinv_0_lt_compat; lra). unfold scaled.
  assert (M : 255 * (x - gmin g) / (gmax g - gmin g) * (gmax g - gmin g) = 255 * (x - gmin g)) by (field; lra). repeat split.
  - apply Rmult_le_pos; lra.
  - set (r := 255 * (x - gmin g) / (gmax g - gmin g)) in *. clearbody r. nra.
  - unfold Rdiv. replace (gmin g - gmin g) with 0 by ring. now rewrite Rmult_0_r, Rmult_0_l.
  - field. lra.
  - intros y Hy. apply Rmult_le_compat_r; lra.
Qed.
(* histogram equalisation: never reverses the order, in [0,1], least value 0, largest 1 *)
Theorem C91_histogram : forall g a b p, let o := stretch_grid g hist_equal a b p in
  total_picture g o /\ in_unit o /\ in_order g o /\ (forall v, value_of g o (gmin g) v -> v = 0) /\ (forall v, gmin g < gmax g -> value_of g o (gmax g) v -> v = 1).
Proof.
  intros g a b p o. unfold o. rewrite stretch_map. destruct (picture_of g (point g hist_equal a b p)) as (_ & V).
  destruct (req (gmax g) (gmin g)) eqn:E.
  - assert (Q : gmax g = gmin g) by (apply req_iff; exact E).
    assert (V' : forall x v, value_of g (map (point g hist_equal a b p) g) x v -> v = 0).
    { intros x v H. apply V in H. destruct H as [H1 H2]. unfold point in H2. rewrite E in H2. injection H2 as <-. now apply ncs_facts, (nonempty g x). }
    split; [apply total_of; intros; unfold point; eauto|]. split; [|split; [|split]].
    + intros v Hv. apply in_map_iff in Hv. destruct Hv as (x & Hv & Hx). unfold point in Hv. rewrite E in Hv. injection Hv as <-. rewrite (proj1 (ncs_facts g (nonempty g x Hx))). lra.
    + intros x y v w Hx Hy _. rewrite (V' _ _ Hx), (V' _ _ Hy). lra.
    + intros v Hv. eauto.
    + intros v Hlt. lra.
  - assert (Q : gmin g <> gmax g) by (intros X; symmetry in X; apply req_iff in X; congruence).
    assert (V' : forall x v, value_of g (map (point g hist_equal a b p) g) x v -> In x g /\ v = ncs g (flat2 g x)).
    { intros x v H. apply V in H. destruct H as [H1 H2]. unfold point in H2. rewrite E in H2. split; congruence. }
    assert (R255 : forall x, In x g -> (flat2 g x <= 255)%nat).
    { intros x Hx. unfold flat2. fold (scaled g x). destruct (scaled_facts g x Hx Q) as (A & _). pose proof (Int_part_le _ 255 (proj2 A)) as L. rewrite (Int_part_IZR 255) in L. lia. }
    split; [apply total_of; intros; unfold point; eauto|]. split; [|split; [|split]].
    + intros v Hv. apply in_map_iff in Hv. destruct Hv as (x & Hv & Hx). unfold point in Hv. rewrite E in Hv. injection Hv as <-.
      destruct (ncs_facts g (nonempty g x Hx)) as (F0 & F1 & F2). split; [rewrite <- F0; apply F2; lia|rewrite <- F1; apply F2; auto].
    + intros x y v w Hx Hy Hl. apply V' in Hx. apply V' in Hy. destruct Hx as [Ix ->]. destruct Hy as [Iy ->]. destruct (ncs_facts g (nonempty g x Ix)) as (_ & _ & F2). apply F2.
      unfold flat2. fold (scaled g x) (scaled g y). destruct (scaled_facts g x Ix Q) as (A & _ & _ & A'). pose proof (Int_part_le _ _ (A' y Hl)). lia.
    + intros v Hv. apply V' in Hv. destruct Hv as [Hi ->]. destruct (scaled_facts g _ Hi Q) as (_ & Z & _). unfold flat2. fold (scaled g (gmin g)). rewrite Z. rewrite (Int_part_IZR 0). now apply ncs_facts, (nonempty g (gmin g)).
    + intros v _ Hv. apply V' in Hv. destruct Hv as [Hi ->]. destruct (scaled_facts g _ Hi Q) as (_ & _ & Z & _). unfold flat2. fold (scaled g (gmax g)). rewrite Z. rewrite (Int_part_IZR 255).
      now apply ncs_facts, (nonempty g (gmax g)).
Qed.
Print Assumptions C91_histogram.
(* the number shown for a value is the share of values up to its own bin or the bin just below (255 colours over 256 bins) *)
Theorem C91_histogram_bin : forall g x, In x g -> gmin g < gmax g -> in_bin g (flat2 g x) x = true \/ in_bin g (S (flat2 g x)) x = true.
Proof.
  intros g x Hx Hlt. destruct (scaled_facts g x Hx ltac:(lra)) as (A & _). unfold flat2. fold (scaled g x).
  pose proof (base_Int_part (scaled g x)) as [B1 B2]. set (z := Int_part (scaled g x)) in *.
  assert (Hz : (0 <= z)%Z) by (apply Z.lt_succ_r; apply lt_IZR; rewrite succ_IZR; lra). assert (Hk : IZR z = INR (Z.to_nat z)) by (rewrite INR_IZR_INZ, Z2Nat.id by exact Hz; reflexivity). rewrite Hk in B1, B2. set (k := Z.to_nat z) in *. clearbody k. clear Hk Hz z.
  assert (Kx : INR k <= 255) by lra.
  set (w := (gmax g - gmin g) / 256). assert (W : 0 < w) by (unfold w; lra).
  assert (X : x = gmin g + scaled g x * (256 / 255) * w) by (unfold scaled, w; field; lra).
  assert (Ed : forall j, bin_edge g j = gmin g + INR j * w). { intros j. unfold bin_edge, hist_lo, hist_hi. destruct (req (gmin g) (gmax g)) eqn:E; [apply req_iff in E; lra|reflexivity]. }
  set (t := scaled g x) in *. clearbody t. assert (Lk : INR k <= t * (256/255)) by lra. assert (Uk : t * (256/255) < INR k + 2) by lra.
  unfold in_bin. rewrite !Ed. rewrite !S_INR.
  destruct (Rlt_dec x (gmin g + (INR k + 1) * w)) as [L|L].
  - left. apply andb_true_iff. split; [apply rle_iff; nra|]. apply orb_true_iff. left. now apply rlt_iff.
  - destruct (Nat.eq_dec k 255) as [->|n].
    + left. apply andb_true_iff. split; [apply rle_iff; nra|]. apply orb_true_iff. now right.
    + right. apply andb_true_iff. split; [apply rle_iff; lra|]. apply orb_true_iff. left. apply rlt_iff. nra.
Qed.
Print Assumptions C91_histogram_bin.

(* ---------- log and power1 ---------- *)
Theorem C91_log : forall g a b p, 0 < a -> (forall x, In x g -> 0 < a * x + 1) -> let o := stretch_grid g log a b p in total_picture g o /\ in_order g o /\ in_strict_order g o.
Proof.
  intros g a b p Ha H o. unfold o. rewrite stretch_map. destruct (picture_of g (point g log a b p)) as (_ & V).
  assert (P : forall x, In x g -> point g log a b p x = Some (ln (a * x + 1))). { intros x Hx. unfold point. destruct (rle (a * x + 1) 0) eqn:E; [apply rle_iff in E; specialize (H x Hx); lra|reflexivity]. }
  assert (V' : forall x v, value_of g (map (point g log a b p) g) x v -> In x g /\ v = ln (a * x + 1)) by (intros x v Hv; apply V in Hv; destruct Hv as [H1 H2]; rewrite P in H2 by exact H1; split; congruence).
  assert (S : in_strict_order g (map (point g log a b p) g)) by (intros x y v w Hx Hy Hl; apply V' in Hx; apply V' in Hy; destruct Hx as [Ix ->]; destruct Hy as [Iy ->]; apply ln_increasing; [auto|nra]).
  split; [apply total_of; intros x Hx; rewrite P by exact Hx; eauto|]. split; [|exact S].
  intros x y v w Hx Hy Hl. destruct (Req_dec x y) as [->|n]; [|left; apply (S x y v w); auto; lra]. apply V' in Hx. apply V' in Hy. destruct Hx as [_ ->]. destruct Hy as [_ ->]. lra.
Qed.
Print Assumptions C91_log.
(* the log stretch has no number for values of -1/a or less (the sea floor, say), and may leave [0,1] *)
Theorem C91_log_refuted : (forall g a b p i x, 0 < a -> nth_error g i = Some x -> x <= - 1 / a -> nth_error (stretch_grid g log a b p) i = Some None) /\
  (exists g a b p v, 0 < a /\ In (Some v) (stretch_grid g log a b p) /\ 1 < v).
Proof.
  split.
  - intros g a b p i x Ha Hi Hx. rewrite stretch_map, (map_nth_error _ _ _ Hi). unfold point. destruct (rle (a * x + 1) 0) eqn:E; [reflexivity|]. exfalso.
    assert (a * x + 1 <= 0). { assert (M : a * (- 1 / a) = - 1) by (field; lra). nra. } apply rle_iff in H. congruence.
  - exists [8], 1, 1, 1, (ln (1 * 8 + 1)). split; [lra|]. split.
    + rewrite stretch_map. simpl. left. destruct (rle (1 * 8 + 1) 0) eqn:E; [apply rle_iff in E; lra|reflexivity].
    + rewrite <- (ln_exp 1) at 1. apply ln_increasing; [apply exp_pos|]. pose proof exp_le_3. lra.
Qed.
Print Assumptions C91_log_refuted.
Theorem C91_power1 : forall g a b p, 0 < p -> (forall x, In x g -> 0 <= x) -> let o := stretch_grid g power1 a b p in total_picture g o /\ in_strict_order g o.
Proof.
  intros g a b p Hp H o. unfold o. rewrite stretch_map. destruct (picture_of g (point g power1 a b p)) as (_ & V). split.
  - apply total_of. intros x Hx. unfold point. rewrite npow_some by auto. eauto.
  - intros x y v w Hx Hy Hl. apply V in Hx. apply V in Hy. destruct Hx as [Ix Ex]. destruct Hy as [Iy Ey]. unfold point in *. rewrite npow_some in Ex, Ey by auto. injection Ex as <-. injection Ey as <-. apply pw0_lt; auto.
Qed.
Print Assumptions C91_power1.
Theorem C91_power1_refuted : forall g a b p i x, nth_error g i = Some x -> x < 0 -> nth_error (stretch_grid g power1 a b p) i = Some None.
Proof. intros g a b p i x Hi Hx. rewrite stretch_map, (map_nth_error _ _ _ Hi). unfold point, npow. apply rlt_iff in Hx. now rewrite Hx. Qed.
Print Assumptions C91_power1_refuted.
Theorem C91_unknown : forall g a b p, stretch_grid g unknown a b p = map Some g.
Proof. reflexivity. Qed.
Print Assumptions C91_unknown.

(* ---------- cells without data ---------- *)
Lemma gmin_unique : forall g m, In m g -> (forall x, In x g -> m <= x) -> gmin g = m.
Proof. intros g m H1 H2. pose proof (gmin_le g m H1). pose proof (H2 _ (gmin_in g (nonempty g m H1))). lra. Qed.
Lemma gmax_unique : forall g m, In m g -> (forall x, In x g -> x <= m) -> gmax g = m.
Proof. intros g m H1 H2. pose proof (gmax_ge g m H1). pose proof (H2 _ (gmax_in g (nonempty g m H1))). lra. Qed.
Section NoData.
Variables (g : list R) (nodata : R).
Let good := filter (fun x => rlt nodata x) g.
Let g1 := map (fun x => if rle x nodata then gmin good else x) g.
Hypothesis Hgood : good <> [].
Lemma good_in : forall x, In x good <-> In x g /\ nodata < x.
Proof. intros x. unfold good. rewrite filter_In, rlt_iff. tauto. Qed.
Lemma g1_in : forall x, In x g1 <-> In x good \/ (x = gmin good /\ exists y, In y g /\ y <= nodata).
Proof.
  intros x. unfold g1. rewrite in_map_iff. split.
  - intros (y & E & Hy). destruct (rle y nodata) eqn:L.
    + right. apply rle_iff in L. subst x. split; eauto.
    + left. subst x. apply good_in. split; [exact Hy|]. assert (~ y <= nodata) by (intros N; apply rle_iff in N; congruence). lra.
  - intros [H|(E & y & Hy & L)].
    + apply good_in in H. exists x. split; [|tauto]. destruct (rle x nodata) eqn:L; [apply rle_iff in L; lra|reflexivity].
    + exists y. split; [|exact Hy]. apply rle_iff in L. rewrite L. now symmetry.
Qed.
Lemma g1_min : gmin g1 = gmin good.
Proof. apply gmin_unique; [apply g1_in; left; now apply gmin_in|]. intros x Hx. apply g1_in in Hx. destruct Hx as [H|[-> _]]; [now apply gmin_le|lra]. Qed.
Lemma g1_max : gmax g1 = gmax good.
Proof.
  apply gmax_unique; [apply g1_in; left; now apply gmax_in|]. intros x Hx. apply g1_in in Hx. destruct Hx as [H|[-> _]]; [now apply gmax_ge|]. apply gmax_ge. now apply gmin_in.
Qed.
Lemma hist_same : forall k, (1 <= k)%nat -> gmin good <> gmax good -> hist g1 k = hist good k.
Proof.
  intros k Hk Hn. unfold hist.
  assert (Eb : forall x, in_bin g1 k x = in_bin good k x) by (intros x; unfold in_bin, bin_edge, hist_lo, hist_hi; now rewrite g1_min, g1_max).
  rewrite (filter_ext _ _ Eb).
  assert (F : in_bin good k (gmin good) = false).
  { unfold in_bin, bin_edge, hist_lo, hist_hi. destruct (req (gmin good) (gmax good)) eqn:E; [apply req_iff in E; contradiction|]. apply andb_false_iff. left.
    pose proof (gmax_ge good _ (gmin_in good Hgood)). assert (1 <= INR k) by (apply (le_INR 1); exact Hk).
    destruct (rle (gmin good + INR k * ((gmax good - gmin good) / 256)) (gmin good)) eqn:L; [|reflexivity]. apply rle_iff in L. assert (0 < (gmax good - gmin good) / 256) by lra. nra. }
  set (P := in_bin good k) in *. clearbody P. unfold g1. set (e := gmin good) in *. unfold good. clear Eb Hn Hgood. clearbody e. clear good g1. clear Hk k.
  induction g as [|x l IH]; [reflexivity|]. simpl. destruct (rle x nodata) eqn:L.
  - rewrite F. apply rle_iff in L. destruct (rlt nodata x) eqn:L2; [apply rlt_iff in L2; lra|]. exact IH.
  - destruct (rlt nodata x) eqn:L2.
    + simpl. destruct (P x); simpl; now rewrite IH.
    + exfalso. assert (~ x <= nodata) by (intros N; apply rle_iff in N; congruence). assert (~ nodata < x) by (intros N; apply rlt_iff in N; congruence). lra.
Qed.
Lemma cs_same : forall k, gmin good <> gmax good -> INR (cs g1 k) - INR (cs g1 0) = INR (cs good k) - INR (cs good 0).
Proof. intros k Hn. induction k as [|k IH]; [ring|]. cbn [cs]. rewrite !plus_INR, hist_same by (auto; lia). cbn [cs] in IH. lra. Qed.
Lemma point_same : forall s a b p x, point g1 s a b p x = point good s a b p x.
Proof.
  intros s a b p x. assert (N : norm g1 x = norm good x) by (unfold norm; now rewrite g1_min, g1_max).
  assert (Hg1 : g1 <> []) by (intros E; pose proof (proj2 (g1_in _) (or_introl (gmin_in good Hgood))) as H; rewrite E in H; contradiction).
  destruct s; unfold point; rewrite ?N; try reflexivity. rewrite g1_min, g1_max. f_equal. destruct (req (gmax good) (gmin good)) eqn:E.
  - rewrite (proj1 (ncs_facts g1 Hg1)), (proj1 (ncs_facts good Hgood)). reflexivity.
  - assert (Hn : gmin good <> gmax good) by (intros X; symmetry in X; apply req_iff in X; congruence). unfold flat2. rewrite g1_min, g1_max. unfold ncs. now rewrite !cs_same.
Qed.
End NoData.
(* each cell with data looks as if the grid had only the cells with data; cells without data are blank *)
Theorem C91_nodata : forall g nodata s a b p, (exists x, In x g /\ nodata < x) -> exists g1 o, prepare g nodata s a b p = Some (g1, o) /\ length o = length g /\
  forall i x, nth_error g i = Some x -> (x <= nodata -> nth_error o i = Some None) /\
    (nodata < x -> exists j, nth_error (filter (fun y => rlt nodata y) g) j = Some x /\ nth_error o i = nth_error (stretch_grid (filter (fun y => rlt nodata y) g) s a b p) j).
Proof.
  intros g nodata s a b p (x0 & Hx0 & H0). unfold prepare. cbv zeta. pose proof (proj2 (good_in g nodata x0) (conj Hx0 H0)) as Hin. cbv zeta in Hin.
  set (good := filter (fun x => rlt nodata x) g) in *. assert (Hg : good <> []) by (intros E; rewrite E in Hin; contradiction).
  destruct good as [|y l] eqn:Eg; [contradiction|]. rewrite <- Eg in *. clear y l Eg.
  eexists. eexists. split; [reflexivity|]. rewrite stretch_map. set (g1 := map (fun x => if rle x nodata then gmin good else x) g).
  assert (Hp : forall x, point g1 s a b p x = point good s a b p x) by (intros x; apply (point_same g nodata Hg)).
  split; [rewrite map_length, combine_length, map_length; unfold g1; rewrite map_length; lia|].
  intros i x Hi.
  assert (Hc : nth_error (combine g (map (point g1 s a b p) g1)) i = Some (x, point g1 s a b p (if rle x nodata then gmin good else x))).
  { assert (G : forall (A B : Type) (l : list A) (m : list B) i u v, nth_error l i = Some u -> nth_error m i = Some v -> nth_error (combine l m) i = Some (u, v)).
    { clear. induction l as [|? l IH]; intros m [|i] u v H1 H2; destruct m; simpl in *; try discriminate; [congruence|auto]. }
    apply G; [exact Hi|]. apply map_nth_error. unfold g1. exact (map_nth_error (fun x => if rle x nodata then gmin good else x) i g Hi). }
  rewrite (map_nth_error _ _ _ Hc). cbn [fst snd]. split.
  - intros L. apply rle_iff in L. now rewrite L.
  - intros L. destruct (rle x nodata) eqn:E; [apply rle_iff in E; lra|]. assert (Hxg : In x good) by (apply (good_in g nodata); split; [eapply nth_error_In; eauto|exact L]).
    apply In_nth_error in Hxg. destruct Hxg as (j & Hj). exists j. split; [exact Hj|]. rewrite stretch_map, (map_nth_error _ _ _ Hj), Hp. reflexivity.
Qed.
Print Assumptions C91_nodata.
(* but the caller's grid is changed: its cells without data now hold the least value; and a grid without any data fails *)
Theorem C91_caller_refuted : (forall g nodata s a b p g1 o i x, prepare g nodata s a b p = Some (g1, o) -> nth_error g i = Some x -> x <= nodata -> exists e, nth_error g1 i = Some e /\ In e g /\ nodata < e) /\
  (forall g nodata s a b p, (forall x, In x g -> x <= nodata) -> prepare g nodata s a b p = None).
Proof.
  split.
  - intros g nodata s a b p g1 o i x H Hi Hx. unfold prepare in H. cbv zeta in H. pose proof (good_in g nodata) as GI. cbv zeta in GI.
    set (good := filter (fun x => rlt nodata x) g) in *. destruct good as [|y l] eqn:Eg; [discriminate|]. rewrite <- Eg in *. injection H as <- _. exists (gmin good). split.
    + rewrite (map_nth_error _ _ _ Hi). apply rle_iff in Hx. now rewrite Hx.
    + apply GI. apply gmin_in. rewrite Eg. discriminate.
  - intros g nodata s a b p H. unfold prepare. cbv zeta. assert (E : filter (fun x => rlt nodata x) g = []); [|now rewrite E]. induction g as [|x l IH]; [reflexivity|]. simpl.
    destruct (rlt nodata x) eqn:L; [apply rlt_iff in L; specialize (H x (or_introl eq_refl)); lra|]. apply IH. intros; apply H; now right.
Qed.
Print Assumptions C91_caller_refuted.
Example C91_case : exists g1 o v, prepare [-9999; 10; 30; 20] (-9999) linear 1 2 (1/2) = Some (g1, o) /\ nth_error o 0 = Some None /\ nth_error o 3 = Some (Some v) /\ 0 <= v <= 1.
Proof.
  destruct (C91_nodata [-9999; 10; 30; 20] (-9999) linear 1 2 (1/2)) as (g1 & o & H & L & K); [exists 10; simpl; split; [tauto|lra]|].
  destruct (K 3%nat 20 eq_refl) as [_ K3]. destruct (K3 ltac:(lra)) as (j & Hj & E). destruct (K 0%nat (-9999) eq_refl) as [K0 _].
  destruct (C91_stretch (filter (fun y => rlt (-9999) y) [-9999; 10; 30; 20]) linear 1 2 (1/2) eq_refl ltac:(lra) ltac:(lra) ltac:(lra)) as (T & U & _). destruct T as [_ T]. destruct (T j 20 Hj) as (v & Hv).
  exists g1, o, v. split; [exact H|]. split; [apply K0; lra|]. split; [now rewrite E|]. apply U. eapply nth_error_In; eauto.
Qed.
