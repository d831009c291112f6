(** C113, continued: smoothing, the exact solution and the long profiles. *)

From Coq Require Import Reals String List Arith ZArith Bool Lra Lia.
From Verif Require Import Time_Model Hamil_Model Hamil_Props.
Import ListNotations.
Local Open Scope R_scope.

(** ** Smoothing *)

(** the cell (i, j) is at least m cells away from every edge *)
Definition inside (m ncols nrows i j : Z) : Prop := (m <= i < nrows - m /\ m <= j < ncols - m)%Z.

Lemma smooth_inside : forall ncols nrows z i j, inside 2 ncols nrows i j ->
  smooth_once ncols nrows z i j =
  rsum (map (fun a => rsum (map (fun b => nth b (nth a kernel []) 0 * z (i + 2 - Z.of_nat a)%Z (j + 2 - Z.of_nat b)%Z) (seq 0 5))) (seq 0 5)).
Proof.
  intros ncols nrows z i j [H1 H2]. unfold smooth_once. f_equal. apply map_ext_in. intros a Ha. f_equal. apply map_ext_in. intros b Hb.
  apply in_seq in Ha. apply in_seq in Hb. cbv zeta.
  rewrite (proj2 (Z.leb_le 0 _)), (proj2 (Z.ltb_lt _ nrows)), (proj2 (Z.leb_le 0 (j + 2 - _))), (proj2 (Z.ltb_lt _ ncols)) by lia.
  reflexivity.
Qed.

Lemma seq05 : seq 0 5 = [0; 1; 2; 3; 4]%nat. Proof. reflexivity. Qed.

Lemma smooth_plane_once : forall ncols nrows a b c z m, (0 <= m)%Z ->
  (forall i j, inside m ncols nrows i j -> z i j = a + b * IZR i + c * IZR j) ->
  forall i j, inside (m + 2) ncols nrows i j -> smooth_once ncols nrows z i j = a + b * IZR i + c * IZR j.
Proof.
  intros ncols nrows a b c z m Hm H i j I. rewrite smooth_inside by (unfold inside in *; lia).
  rewrite (map_ext_in _ (fun a0 => rsum (map (fun b0 => nth b0 (nth a0 kernel []) 0 *
     (a + b * (IZR i + 2 - IZR (Z.of_nat a0)) + c * (IZR j + 2 - IZR (Z.of_nat b0)))) (seq 0 5)))).
  - rewrite seq05. cbn [map rsum fold_right]. unfold rsum. cbn [fold_right nth kernel map Z.of_nat Pos.of_succ_nat Pos.succ]. field.
  - intros p Hp. f_equal. apply map_ext_in. intros q Hq. apply in_seq in Hp. apply in_seq in Hq.
    rewrite H by (unfold inside in *; lia). f_equal. rewrite !minus_IZR, !plus_IZR. reflexivity.
Qed.

(** Smoothing a plane (a level one too) changes no cell that is at least two cells per pass away
    from every edge. *)
Theorem C113_smooth_plane : forall n ncols nrows a b c i j, inside (2 * Z.of_nat n) ncols nrows i j ->
  smooth_dem n ncols nrows (fun i j => a + b * IZR i + c * IZR j) i j = a + b * IZR i + c * IZR j.
Proof.
  intros n ncols nrows a b c.
  assert (A : forall n m z, (0 <= m)%Z -> (forall i j, inside m ncols nrows i j -> z i j = a + b * IZR i + c * IZR j) ->
    forall i j, inside (m + 2 * Z.of_nat n) ncols nrows i j -> smooth_dem n ncols nrows z i j = a + b * IZR i + c * IZR j).
  { clear n. intros n. induction n as [|n IH]; intros m z Hm H i j I; cbn [smooth_dem].
    - apply H. unfold inside in *; lia.
    - apply (IH (m + 2)%Z); [lia | | unfold inside in *; lia].
      intros; now apply (smooth_plane_once _ _ a b c z m). }
  intros i j I. apply (A n 0%Z); auto. lia.
Qed.
Print Assumptions C113_smooth_plane.

Lemma smooth_range_once : forall ncols nrows lo hi z m, (0 <= m)%Z ->
  (forall i j, inside m ncols nrows i j -> lo <= z i j <= hi) ->
  forall i j, inside (m + 2) ncols nrows i j -> lo <= smooth_once ncols nrows z i j <= hi.
Proof.
  intros ncols nrows lo hi z m Hm H i j I. rewrite smooth_inside by (unfold inside in *; lia).
  assert (K : forall p q, In p (seq 0 5) -> In q (seq 0 5) -> lo <= z (i + 2 - Z.of_nat p)%Z (j + 2 - Z.of_nat q)%Z <= hi)
    by (intros p q Hp Hq; apply in_seq in Hp; apply in_seq in Hq; apply H; unfold inside in *; lia).
  set (w := fun p q => z (i + 2 - Z.of_nat p)%Z (j + 2 - Z.of_nat q)%Z) in *.
  change (forall p q, In p (seq 0 5) -> In q (seq 0 5) -> lo <= w p q <= hi) in K.
  assert (L : Forall (fun p => Forall (fun q => lo <= w p q <= hi) (seq 0 5)) (seq 0 5)).
  { apply Forall_forall. intros p Hp. apply Forall_forall. auto. }
  change (lo <= rsum (map (fun a => rsum (map (fun b => nth b (nth a kernel []) 0 * w a b) (seq 0 5))) (seq 0 5)) <= hi).
  clear K H I. clearbody w. rewrite seq05 in *.
  repeat match goal with H : Forall _ (_ :: _) |- _ => inversion_clear H end.
  cbn [map]. unfold rsum. cbn [fold_right nth kernel map]. cbv beta in *. lra.
Qed.

(** Away from the edges smoothing makes no cell higher than the highest or lower than the lowest. *)
Theorem C113_smooth_range : forall n ncols nrows lo hi z,
  (forall i j, inside 0 ncols nrows i j -> lo <= z i j <= hi) ->
  forall i j, inside (2 * Z.of_nat n) ncols nrows i j -> lo <= smooth_dem n ncols nrows z i j <= hi.
Proof.
  intros n ncols nrows lo hi.
  assert (A : forall n m z, (0 <= m)%Z -> (forall i j, inside m ncols nrows i j -> lo <= z i j <= hi) ->
    forall i j, inside (m + 2 * Z.of_nat n) ncols nrows i j -> lo <= smooth_dem n ncols nrows z i j <= hi).
  { clear n. intros n. induction n as [|n IH]; intros m z Hm H i j I; cbn [smooth_dem].
    - apply H. unfold inside in *; lia.
    - apply (IH (m + 2)%Z); [lia | | unfold inside in *; lia].
      intros; now apply (smooth_range_once _ _ lo hi z m). }
  intros z H i j I. apply (A n 0%Z z); auto. lia.
Qed.
Print Assumptions C113_smooth_range.

(** Refuted: smoothing keeps a level landscape level.  The corner of a level DEM of height h sinks to
    less than half in one pass. *)
Theorem C113_smooth_edge_refuted : forall ncols nrows h, (3 <= ncols)%Z -> (3 <= nrows)%Z ->
  smooth_dem 1 ncols nrows (fun _ _ => h) 0 0 = 121 / 256 * h.
Proof.
  intros ncols nrows h H1 H2. cbn [smooth_dem]. unfold smooth_once.
  rewrite (map_ext_in _ (fun a => rsum (map (fun b => nth b (nth a kernel []) 0 *
     (if (Nat.leb a 2 && Nat.leb b 2)%bool then h else 0)) (seq 0 5)))).
  - rewrite seq05. cbn [map]. unfold rsum. cbn [fold_right nth kernel map Nat.leb andb]. field.
  - intros p Hp. f_equal. apply map_ext_in. intros q Hq. apply in_seq in Hp. apply in_seq in Hq. cbv zeta. f_equal.
    replace ((0 <=? 0 + 2 - Z.of_nat p) && (0 + 2 - Z.of_nat p <? nrows) && (0 <=? 0 + 2 - Z.of_nat q) && (0 + 2 - Z.of_nat q <? ncols))%Z%bool
      with (Nat.leb p 2 && Nat.leb q 2)%bool; auto.
    apply eq_true_iff_eq. rewrite !andb_true_iff, !Z.leb_le, !Z.ltb_lt, !Nat.leb_le. lia.
Qed.
Print Assumptions C113_smooth_edge_refuted.

(** ** The exact solution *)

(** z = - (1/Rs) ln (r^2 / b) solves div (S^(gamma - 1) grad z) = - Rs for gamma = -1 away from the origin. *)
Theorem C113_radial : forall Rs b, 0 < Rs -> 0 < b ->
  exists zx zy : R -> R -> R,
    (forall x y, 0 < x ^ 2 + y ^ 2 ->
       derivable_pt_lim (fun t => radial_log Rs 0 b t y) x (zx x y) /\
       derivable_pt_lim (fun t => radial_log Rs 0 b x t) y (zy x y)) /\
    (forall x y, 0 < x ^ 2 + y ^ 2 -> exists d1 d2,
       derivable_pt_lim (fun t => Rpower (sqrt (zx t y ^ 2 + zy t y ^ 2)) (-1 - 1) * zx t y) x d1 /\
       derivable_pt_lim (fun t => Rpower (sqrt (zx x t ^ 2 + zy x t ^ 2)) (-1 - 1) * zy x t) y d2 /\
       d1 + d2 = - Rs).
Proof.
  intros Rs b HR Hb.
  exists (fun x y => - 2 * x / (Rs * (x ^ 2 + y ^ 2))), (fun x y => - 2 * y / (Rs * (x ^ 2 + y ^ 2))).
  assert (D : forall y x, 0 < x ^ 2 + y ^ 2 -> derivable_pt_lim (fun t => -1 / Rs * ln (0 + (t ^ 2 + y ^ 2) / b)) x (- 2 * x / (Rs * (x ^ 2 + y ^ 2)))).
  { intros y x H.
    assert (I : derivable_pt_lim (fun t => 0 + (t ^ 2 + y ^ 2) / b) x (2 * x / b)).
    { replace (2 * x / b) with (0 + ((INR 2 * x ^ 1 + 0) * / b + (x ^ 2 + y ^ 2) * 0)) by (cbn [INR pow]; unfold Rdiv; ring).
      apply (derivable_pt_lim_plus (fct_cte 0)). { apply derivable_pt_lim_const. }
      apply (derivable_pt_lim_mult (fun t => t ^ 2 + y ^ 2) (fct_cte (/ b))). 2:{ apply derivable_pt_lim_const. }
      apply (derivable_pt_lim_plus (fun t => t ^ 2) (fct_cte (y ^ 2))). 2:{ apply derivable_pt_lim_const. }
      apply (derivable_pt_lim_pow x 2). }
    assert (P : 0 < 0 + (x ^ 2 + y ^ 2) / b) by (rewrite Rplus_0_l; now apply Rdiv_lt_0_compat).
    replace (-2 * x / (Rs * (x ^ 2 + y ^ 2))) with (-1 / Rs * (/ (0 + (x ^ 2 + y ^ 2) / b) * (2 * x / b))) by (field; repeat split; lra).
    apply (derivable_pt_lim_scal (fun t => ln (0 + (t ^ 2 + y ^ 2) / b)) (-1 / Rs)).
    apply (derivable_pt_lim_comp (fun t => 0 + (t ^ 2 + y ^ 2) / b) ln); auto. now apply derivable_pt_lim_ln. }
  split.
  - intros x y H. split; [apply D; auto|].
    unfold radial_log. rewrite (Rplus_comm (x ^ 2) (y ^ 2)) in H. specialize (D x y H).
    rewrite (Rplus_comm (x ^ 2) (y ^ 2)). intros eps He. destruct (D eps He) as [de Hde]. exists de. intros h Hh Hl.
    rewrite !(Rplus_comm (x ^ 2)). now apply Hde.
  - assert (F : forall x y, 0 < x ^ 2 + y ^ 2 ->
      Rpower (sqrt ((-2 * x / (Rs * (x ^ 2 + y ^ 2))) ^ 2 + (-2 * y / (Rs * (x ^ 2 + y ^ 2))) ^ 2)) (-1 - 1) = Rs ^ 2 * (x ^ 2 + y ^ 2) / 4).
    { intros x y H. set (A := _ + _). assert (EA : A = 4 / (Rs ^ 2 * (x ^ 2 + y ^ 2))) by (unfold A; field; lra).
      assert (PA : 0 < A) by (rewrite EA; apply Rdiv_lt_0_compat; [lra | apply Rmult_lt_0_compat; auto; apply pow_lt; auto]).
      replace (-1 - 1) with (- (2)) by ring. rewrite Rpower_Ropp. replace 2 with (INR 2) at 1 by reflexivity.
      rewrite Rpower_pow by (apply sqrt_lt_R0; auto). rewrite pow2_sqrt by lra. rewrite EA. field. lra. }
    assert (Z0 : forall x y, ~ 0 < x ^ 2 + y ^ 2 -> x = 0 /\ y = 0).
    { intros x y H. pose proof (pow2_ge_0 x). pose proof (pow2_ge_0 y). split; nra. }
    assert (E1 : forall x y, Rpower (sqrt ((-2 * x / (Rs * (x ^ 2 + y ^ 2))) ^ 2 + (-2 * y / (Rs * (x ^ 2 + y ^ 2))) ^ 2)) (-1 - 1)
      * (-2 * x / (Rs * (x ^ 2 + y ^ 2))) = (- Rs / 2) * x).
    { intros x y. destruct (Rlt_dec 0 (x ^ 2 + y ^ 2)) as [H | H]. { rewrite F by auto. field. lra. }
      destruct (Z0 x y H) as [-> ->]. unfold Rdiv. ring. }
    assert (E2 : forall x y, Rpower (sqrt ((-2 * x / (Rs * (x ^ 2 + y ^ 2))) ^ 2 + (-2 * y / (Rs * (x ^ 2 + y ^ 2))) ^ 2)) (-1 - 1)
      * (-2 * y / (Rs * (x ^ 2 + y ^ 2))) = (- Rs / 2) * y).
    { intros x y. destruct (Rlt_dec 0 (x ^ 2 + y ^ 2)) as [H | H]. { rewrite F by auto. field. lra. }
      destruct (Z0 x y H) as [-> ->]. unfold Rdiv. ring. }
    assert (L : forall c x, derivable_pt_lim (fun t => c * t) x c).
    { intros c x. pose proof (derivable_pt_lim_scal id c x 1 (derivable_pt_lim_id x)) as K. rewrite Rmult_1_r in K. exact K. }
    intros x y _. exists (- Rs / 2), (- Rs / 2). split; [|split; [|field]].
    + intros eps He. destruct (L (- Rs / 2) x eps He) as [de H]. exists de. intros h N B. rewrite !E1. now apply H.
    + intros eps He. destruct (L (- Rs / 2) y eps He) as [de H]. exists de. intros h N B. rewrite !E2. now apply H.
Qed.
Print Assumptions C113_radial.

(** Refuted: the grid made for it has the spacing recorded with it.  Its columns are 10/199 apart and dx is
    10/200, so the gradient of the plane z = x comes out as 200/199. *)
Theorem C113_spacing_refuted : forall i j, (i < 200)%nat -> (j + 1 < 200)%nat ->
  linspace (-5) 5 200 (j + 1) - linspace (-5) 5 200 j = 10 / 199 /\ dx radial_geom = 10 / 200 /\
  d_dx_R radial_geom (fun _ j => Some (linspace (-5) 5 200 j)) i j = Some (200 / 199).
Proof.
  intros i j Hi Hj.
  assert (E : linspace (-5) 5 200 (j + 1) - linspace (-5) 5 200 j = 10 / 199).
  { unfold linspace. rewrite plus_INR. replace (INR (200 - 1)) with 199 by (cbn [Nat.sub]; rewrite INR_IZR_INZ; reflexivity). cbn [INR]. field. }
  split; [exact E|]. split; [cbn [dx radial_geom]; field|].
  rewrite dxR_eq by (cbn [nx radial_geom]; lia). cbn [has_x nx radial_geom]. rewrite (proj2 (Nat.ltb_lt _ _)) by lia.
  cbn [lift2]. rewrite E. f_equal. cbn [dx radial_geom]. field.
Qed.
Print Assumptions C113_spacing_refuted.

(** ** Profiles *)

Lemma affine_lim : forall A B x0 x, derivable_pt_lim (fun t => A + B * (t - x0)) x B.
Proof.
  intros A B x0 x. cut (derivable_pt_lim (fun t => A + B * (t - x0)) x (0 + B * (1 - 0))).
  { replace (0 + B * (1 - 0)) with B by ring. auto. }
  apply (derivable_pt_lim_plus (fct_cte A)). { apply derivable_pt_lim_const. }
  apply (derivable_pt_lim_scal (fun t => t - x0)). apply (derivable_pt_lim_minus id (fct_cte x0)).
  - apply derivable_pt_lim_id.
  - apply derivable_pt_lim_const.
Qed.
Lemma power_lim : forall A B x0 p x, 0 < A + B * (x - x0) ->
  derivable_pt_lim (fun t => Rpower (A + B * (t - x0)) p) x (p * Rpower (A + B * (x - x0)) (p - 1) * B).
Proof.
  intros. apply (derivable_pt_lim_comp (fun t => A + B * (t - x0)) (fun u => Rpower u p)).
  - apply affine_lim.
  - now apply derivable_pt_lim_power.
Qed.

(** The model profile starts at (x0, z0) with slope S0; its slope is S, the slope of S is kp, and kp is the
    profile curvature of the curvature equation for kc = 0; wherever S0^gamma + Rs (x - x0) > 0. *)
Theorem C113_peckham : forall x0 z0 S0 gamma Rs x, 0 < S0 -> gamma <> 0 -> Rs <> 0 ->
  0 < Rpower S0 gamma + Rs * (x - x0) ->
  peckham_z x0 z0 S0 gamma Rs x0 = z0 /\ peckham_S x0 S0 gamma Rs x0 = S0 /\
  derivable_pt_lim (peckham_z x0 z0 S0 gamma Rs) x (- peckham_S x0 S0 gamma Rs x) /\
  derivable_pt_lim (peckham_S x0 S0 gamma Rs) x (peckham_kp x0 S0 gamma Rs x) /\
  peckham_kp x0 S0 gamma Rs x = kp_from_curvature_eqn (peckham_S x0 S0 gamma Rs x) 0 gamma Rs.
Proof.
  intros x0 z0 S0 gamma Rs x HS Hg HR HP.
  assert (B0 : Rpower S0 gamma + Rs * (x0 - x0) = Rpower S0 gamma) by ring.
  split.
  { unfold peckham_z. destruct (Req_EM_T gamma (-1)) as [-> | N].
    - replace (1 + S0 * Rs * (x0 - x0)) with 1 by ring. rewrite ln_1. ring.
    - cbv zeta. rewrite B0, Rpower_mult. replace (gamma * ((gamma + 1) / gamma)) with (gamma + 1) by (field; auto).
      unfold Rdiv. ring. }
  split.
  { unfold peckham_S. rewrite B0, Rpower_mult. replace (gamma * (1 / gamma)) with 1 by (field; auto). now apply Rpower_1. }
  split.
  { unfold peckham_z, peckham_S. destruct (Req_EM_T gamma (-1)) as [-> | N].
    - replace (1 / -1) with (-1) in * by field.
      assert (ES : Rpower S0 (-1) = / S0) by (change (-1) with (- (1)); rewrite Rpower_Ropp, Rpower_1; auto).
      rewrite ES in *.
      assert (Q : 0 < 1 + S0 * Rs * (x - x0)).
      { replace (1 + S0 * Rs * (x - x0)) with (S0 * (/ S0 + Rs * (x - x0))) by (field; lra). now apply Rmult_lt_0_compat. }
      assert (E : Rpower (/ S0 + Rs * (x - x0)) (-1) = S0 / (1 + S0 * Rs * (x - x0))).
      { change (-1) with (- (1)). rewrite Rpower_Ropp, Rpower_1 by auto.
        replace (/ S0 + Rs * (x - x0)) with ((1 + S0 * Rs * (x - x0)) / S0) by (field; lra). field. split; lra. }
      rewrite E. replace (- (S0 / (1 + S0 * Rs * (x - x0)))) with (0 - 1 / Rs * (/ (1 + S0 * Rs * (x - x0)) * (S0 * Rs))) by (field; lra).
      apply (derivable_pt_lim_minus (fct_cte z0) (fun t => 1 / Rs * ln (1 + S0 * Rs * (t - x0)))). { apply derivable_pt_lim_const. }
      apply (derivable_pt_lim_scal (fun t => ln (1 + S0 * Rs * (t - x0)))).
      apply (derivable_pt_lim_comp (fun t => 1 + S0 * Rs * (t - x0)) ln). { apply affine_lim. } now apply derivable_pt_lim_ln.
    - set (p := (gamma + 1) / gamma).
      assert (Np : p <> 0). { unfold p. intros K. apply N. apply Rmult_eq_compat_r with (r := gamma) in K. field_simplify in K; auto. lra. }
      replace (1 / gamma) with (p - 1) by (unfold p; field; auto).
      replace (- Rpower (Rpower S0 gamma + Rs * (x - x0)) (p - 1))
        with (0 + (0 - p * Rpower (Rpower S0 gamma + Rs * (x - x0)) (p - 1) * Rs) * / (p * Rs)) by (field; auto).
      cbv zeta. apply (derivable_pt_lim_plus (fct_cte z0) (fun t => (Rpower S0 (gamma + 1) - Rpower (Rpower S0 gamma + Rs * (t - x0)) p) / (p * Rs))).
      { apply derivable_pt_lim_const. }
      unfold Rdiv.
      replace ((0 - p * Rpower (Rpower S0 gamma + Rs * (x - x0)) (p - 1) * Rs) * / (p * Rs)) with
        ((0 - p * Rpower (Rpower S0 gamma + Rs * (x - x0)) (p - 1) * Rs) * / (p * Rs) +
         (Rpower S0 (gamma + 1) - Rpower (Rpower S0 gamma + Rs * (x - x0)) p) * 0) by ring.
      apply (derivable_pt_lim_mult (fun t => Rpower S0 (gamma + 1) - Rpower (Rpower S0 gamma + Rs * (t - x0)) p) (fct_cte (/ (p * Rs)))).
      2:{ apply derivable_pt_lim_const. }
      apply (derivable_pt_lim_minus (fct_cte (Rpower S0 (gamma + 1)))). { apply derivable_pt_lim_const. }
      now apply power_lim. }
  split.
  { unfold peckham_S, peckham_kp. cbv zeta.
    replace (1 / gamma * Rs * Rpower (Rpower S0 gamma + Rs * (x - x0)) (1 / gamma - 1))
      with (1 / gamma * Rpower (Rpower S0 gamma + Rs * (x - x0)) (1 / gamma - 1) * Rs) by ring.
    now apply power_lim. }
  unfold peckham_kp, kp_from_curvature_eqn, peckham_S. cbv zeta. rewrite Rpower_mult.
  replace (1 / gamma * gamma) with 1 by (field; auto). rewrite Rpower_1 by auto.
  unfold Rminus at 2. rewrite Rpower_plus, Rpower_Ropp, Rpower_1 by auto. field. split; auto. lra.
Qed.
Print Assumptions C113_peckham.

(** For gamma < 0 < Rs, the case of rivers, the profile falls and flattens downstream. *)
Theorem C113_peckham_concave : forall x0 z0 S0 gamma Rs x y, 0 < S0 -> gamma < 0 -> 0 < Rs -> x0 <= x < y ->
  0 < peckham_S x0 S0 gamma Rs y < peckham_S x0 S0 gamma Rs x /\
  peckham_z x0 z0 S0 gamma Rs y < peckham_z x0 z0 S0 gamma Rs x /\ peckham_kp x0 S0 gamma Rs x < 0.
Proof.
  intros x0 z0 S0 gamma Rs x y HS Hg HR [H1 H2].
  assert (P0 : 0 < Rpower S0 gamma) by apply exp_pos.
  assert (PX : forall t, x0 <= t -> 0 < Rpower S0 gamma + Rs * (t - x0)) by (intros t T; assert (0 <= Rs * (t - x0)) by (apply Rmult_le_pos; lra); lra).
  split; [split|split].
  - apply exp_pos.
  - unfold peckham_S. unfold Rpower at 1 3. apply exp_increasing.
    assert (1 / gamma < 0) by (apply Rdiv_pos_neg || (unfold Rdiv; rewrite Rmult_1_l; now apply Rinv_lt_0_compat)).
    assert (ln (Rpower S0 gamma + Rs * (x - x0)) < ln (Rpower S0 gamma + Rs * (y - x0)))
      by (apply ln_increasing; [now apply PX | apply Rplus_lt_compat_l; apply Rmult_lt_compat_l; lra]).
    apply Rmult_lt_gt_compat_neg_l; auto.
  - destruct (MVT_cor2 (peckham_z x0 z0 S0 gamma Rs) (fun t => - peckham_S x0 S0 gamma Rs t) x y H2) as (c & E & C).
    { intros c C. apply C113_peckham; try lra. apply PX. lra. }
    assert (0 < peckham_S x0 S0 gamma Rs c) by apply exp_pos. nra.
  - unfold peckham_kp. cbv zeta.
    assert (1 / gamma < 0) by (unfold Rdiv; rewrite Rmult_1_l; now apply Rinv_lt_0_compat).
    assert (0 < Rpower (Rpower S0 gamma + Rs * (x - x0)) (1 / gamma - 1)) by apply exp_pos. 
    assert (1 / gamma * Rs < 0) by nra. nra.
Qed.
Print Assumptions C113_peckham_concave.

(** The other model profile starts at (x0, z0) and has slope c x^(p - 1). *)
Theorem C113_whipple : forall x0 z0 c p x, 0 < x -> p <> 0 ->
  whipple_z x0 z0 c p x0 = z0 /\ derivable_pt_lim (whipple_z x0 z0 c p) x (- (c * Rpower x (p - 1))).
Proof.
  intros x0 z0 c p x Hx Hp. split. { unfold whipple_z. ring. }
  unfold whipple_z. replace (- (c * Rpower x (p - 1))) with (0 - c / p * (p * Rpower x (p - 1) - 0)) by (field; auto).
  apply (derivable_pt_lim_minus (fct_cte z0) (fun t => c / p * (Rpower t p - Rpower x0 p))). { apply derivable_pt_lim_const. }
  apply (derivable_pt_lim_scal (fun t => Rpower t p - Rpower x0 p)).
  apply (derivable_pt_lim_minus (fun t => Rpower t p) (fct_cte (Rpower x0 p))). { now apply derivable_pt_lim_power. }
  apply derivable_pt_lim_const.
Qed.
Print Assumptions C113_whipple.

(** The two forms of the curvature equation undo each other. *)
Theorem C113_curvature_eqn : forall s kc kp gamma Rs, 0 < s -> gamma <> 0 ->
  kp_from_curvature_eqn s (kc_from_curvature_eqn s kp gamma Rs) gamma Rs = kp /\
  kc_from_curvature_eqn s (kp_from_curvature_eqn s kc gamma Rs) gamma Rs = kc.
Proof.
  intros s kc kp gamma Rs Hs Hg. unfold kp_from_curvature_eqn, kc_from_curvature_eqn.
  assert (0 < Rpower s gamma) by apply exp_pos. split; field; repeat split; lra.
Qed.
Print Assumptions C113_curvature_eqn.

(** ** Profiles read from a file *)

Lemma map2_length : forall A B C (f : A -> B -> C) l m, List.length (map2 f l m) = Nat.min (List.length l) (List.length m).
Proof. intros. unfold map2. now rewrite map_length, combine_length. Qed.
Lemma map2_nth : forall A B C (f : A -> B -> C) l m a b c k, (k < List.length l)%nat -> (k < List.length m)%nat ->
  nth k (map2 f l m) c = f (nth k l a) (nth k m b).
Proof.
  intros A B C f l. induction l as [|x l IH]; intros [|y m] a b c [|k] H1 H2; cbn in *; try lia; auto.
  apply IH; lia.
Qed.
Lemma roll_length : forall A (l : list A), List.length (roll_left l) = List.length l.
Proof. intros A [|a l]; cbn; auto. rewrite app_length. cbn. lia. Qed.
Lemma roll_nth : forall A (l : list A) d k, (k + 1 < List.length l)%nat -> nth k (roll_left l) d = nth (S k) l d.
Proof. intros A [|a l] d k H; cbn in *; try lia. rewrite app_nth1 by lia. reflexivity. Qed.
Lemma set_last_length : forall A (l : list A) v, List.length (set_last l v) = List.length l.
Proof.
  intros A [|a l] v; auto. unfold set_last. rewrite app_length.
  pose proof (@app_removelast_last A (a :: l) a) as E. assert (N : a :: l <> []) by discriminate. specialize (E N).
  apply (f_equal (@List.length A)) in E. rewrite app_length in E. cbn [List.length] in *. lia.
Qed.
Lemma removelast_nth : forall A (l : list A) d k, (k + 1 < List.length l)%nat -> nth k (removelast l) d = nth k l d.
Proof.
  intros A l. induction l as [|a l IH]; intros d k H; cbn [List.length] in *; try lia.
  destruct l as [|b l]; cbn [List.length] in *; try lia. destruct k; [reflexivity|].
  change (nth k (removelast (b :: l)) d = nth k (b :: l) d). apply IH. cbn [List.length]. lia.
Qed.
Lemma removelast_length : forall A (l : list A), List.length (removelast l) = (List.length l - 1)%nat.
Proof.
  intros A l. induction l as [|a l IH]; auto. destruct l as [|b l]; auto.
  change (S (List.length (removelast (b :: l))) = (List.length (a :: b :: l) - 1)%nat). rewrite IH. cbn [List.length]. lia.
Qed.
Lemma set_last_nth : forall A (l : list A) v d k, (k < List.length l)%nat ->
  nth k (set_last l v) d = if Nat.eqb (S k) (List.length l) then v else nth k l d.
Proof.
  intros A l v d k H. destruct l as [|a l]; cbn [List.length] in H; try lia. unfold set_last.
  destruct (Nat.eqb_spec (S k) (List.length (a :: l))) as [E | E].
  - rewrite app_nth2; rewrite removelast_length; [|lia]. replace (k - _)%nat with 0%nat by lia. reflexivity.
  - rewrite app_nth1 by (rewrite removelast_length; cbn [List.length] in *; lia).
    apply removelast_nth. cbn [List.length] in *. lia.
Qed.

Lemma fold_max_ge : forall l d k, (k < List.length l)%nat -> nth k l 0 <= fold_right Rmax d l.
Proof.
  intros l. induction l as [|a l IH]; intros d k H; cbn in *; try lia. destruct k.
  - apply Rmax_l.
  - apply Rle_trans with (2 := Rmax_r _ _). apply IH. lia.
Qed.
Lemma fold_max_in : forall l d, fold_right Rmax d l = d \/ In (fold_right Rmax d l) l.
Proof.
  intros l d. induction l as [|a l IH]; cbn; auto.
  destruct (Rle_dec a (fold_right Rmax d l)) as [L | L]; [rewrite Rmax_right by auto | rewrite Rmax_left by lra].
  - destruct IH as [-> | I]; auto.
  - auto.
Qed.
Lemma first_max_spec : forall l, l <> [] ->
  (first_max l < List.length l)%nat /\
  (forall k, (k < List.length l)%nat -> nth k l 0 <= nth (first_max l) l 0) /\
  (forall k, (k < first_max l)%nat -> nth k l 0 < nth (first_max l) l 0).
Proof.
  intros l N. unfold first_max. cbv zeta. pose proof (fold_max_ge l (nth 0 l 0)) as G.
  assert (I : In (fold_right Rmax (nth 0 l 0) l) l).
  { destruct (fold_max_in l (nth 0 l 0)) as [-> | I]; auto. apply nth_In. destruct l; [easy | cbn; lia]. }
  set (m := fold_right Rmax _ l) in *. clearbody m.
  set (go := fix go l := match l with [] => [] | a :: r => if Req_EM_T a m then [] else a :: go r end).
  assert (A : (List.length (go l) < List.length l)%nat /\ nth (List.length (go l)) l 0 = m /\ forall k, (k < List.length (go l))%nat -> nth k l 0 <> m).
  { clear N G. induction l as [|a l IH]; [easy|]. cbn [go List.length]. destruct (Req_EM_T a m) as [-> | e].
    - cbn. repeat split; auto; intros; lia.
    - destruct I as [I | I]; [easy|]. destruct (IH I) as (A & B & C). cbn [List.length nth]. repeat split; auto; try lia.
      intros [|k] K; [exact e | apply C; lia]. }
  destruct A as (A & B & C). split; [exact A|]. rewrite B. split; [exact G|].
  intros k K. specialize (G k ltac:(lia)). destruct G as [G | G]; auto. now elim (C k K).
Qed.

(** the slope of the profile from point k to the next; 0 at the last point *)
Definition slope_at (x z : list R) (k : nat) : R :=
  if Nat.ltb (k + 1) (List.length x) then (nth k z 0 - nth (k + 1) z 0) / (nth (k + 1) x 0 - nth k x 0) else 0.

Definition slopes (x z : list R) : list R := set_last (map2 Rdiv (map2 Rminus z (roll_left z)) (map2 Rminus (roll_left x) x)) 0.
Lemma slopes_length : forall x z, List.length x = List.length z -> List.length (slopes x z) = List.length x.
Proof. intros x z H. unfold slopes. rewrite set_last_length, !map2_length, !roll_length. lia. Qed.
Lemma slopes_nth : forall x z k, List.length x = List.length z -> (k < List.length x)%nat -> nth k (slopes x z) 0 = slope_at x z k.
Proof.
  intros x z k H K. unfold slopes, slope_at. rewrite set_last_nth by (rewrite !map2_length, !roll_length; lia).
  replace (List.length (map2 _ _ _)) with (List.length x) by (rewrite !map2_length, !roll_length; lia).
  destruct (Nat.eqb_spec (S k) (List.length x)); destruct (Nat.ltb_spec (k + 1) (List.length x)); try lia; auto.
  rewrite (map2_nth _ _ _ Rdiv _ _ 0 0) by (rewrite !map2_length, !roll_length; lia).
  rewrite (map2_nth _ _ _ Rminus z _ 0 0), (map2_nth _ _ _ Rminus _ x 0 0) by (rewrite ?roll_length; lia).
  rewrite !roll_nth by lia. replace (k + 1)%nat with (S k) by lia. reflexivity.
Qed.
Lemma skipn_two : forall A (l : list A) w d, (w + 1 < List.length l)%nat -> exists r, skipn w l = nth w l d :: nth (w + 1) l d :: r.
Proof.
  intros A l. induction l as [|a l IH]; intros w d H; cbn [List.length] in H; try lia. destruct w.
  - destruct l as [|b l]; cbn [List.length] in H; try lia. exists l. reflexivity.
  - destruct (IH w d ltac:(lia)) as [r E]. exists r. cbn [skipn Nat.add nth]. exact E.
Qed.
Lemma skipn_nth' : forall A (l : list A) w k d, nth k (skipn w l) d = nth (w + k) l d.
Proof. intros A l. induction l as [|a l IH]; intros [|w] k d; cbn; auto. now destruct k. Qed.

Lemma read_eq : forall (c : bool) x z, List.length x = List.length z -> (1 <= List.length x)%nat ->
  let w := (if c then first_max (slopes x z) else 0)%nat in
  read_profile 0 0 c x z = match skipn w x, skipn w z with
    | a :: b :: _, u :: v :: _ => Ok {| px := skipn w x; pz := skipn w z; pS := skipn w (slopes x z); p0x := a; p0z := u; p0S := (u - v) / (b - a) |}
    | _, _ => Err IndexError end.
Proof.
  intros c x z H L w. unfold read_profile. cbn [skipn Nat.eqb].
  destruct (map2 Rdiv (map2 Rminus z (roll_left z)) (map2 Rminus (roll_left x) x)) eqn:E.
  - apply (f_equal (@List.length R)) in E. rewrite !map2_length, !roll_length in E. cbn in E. lia.
  - rewrite <- E. fold (slopes x z). fold w. reflexivity.
Qed.

(** A profile of two points or more is kept whole, with the slope from each point to the next and slope 0 at the end. *)
Theorem C113_profile : forall x z, List.length x = List.length z -> (2 <= List.length x)%nat ->
  exists P, read_profile 0 0 false x z = Ok P /\ px P = x /\ pz P = z /\ p0x P = nth 0 x 0 /\ p0z P = nth 0 z 0 /\
    p0S P = slope_at x z 0 /\ List.length (pS P) = List.length x /\
    forall k, (k < List.length x)%nat -> nth k (pS P) 0 = slope_at x z k.
Proof.
  intros x z H L. pose proof (read_eq false x z H ltac:(lia)) as E. cbn [skipn] in E.
  destruct x as [|a [|b x]]; cbn [List.length] in L; try lia. destruct z as [|u [|v z]]; cbn [List.length] in H; try lia.
  eexists. split; [exact E|]. cbn [px pz pS p0x p0z p0S].
  repeat split; auto.
  - apply slopes_length; auto.
  - intros k K. apply slopes_nth; auto.
Qed.
Print Assumptions C113_profile.

(** Clipping a file's head and tail is reading the profile without those points. *)
Theorem C113_profile_clip : forall h t c x z,
  read_profile h t c x z = read_profile 0 0 c (firstn (List.length x - h - t) (skipn h x)) (firstn (List.length z - h - t) (skipn h z)).
Proof.
  intros h t c x z.
  assert (E : forall l : list R, (if Nat.eqb t 0 then skipn h l else firstn (List.length (skipn h l) - t) (skipn h l)) = firstn (List.length l - h - t) (skipn h l)).
  { intros l. destruct (Nat.eqb_spec t 0) as [-> | N]; rewrite ?skipn_length; auto.
    rewrite firstn_all2; auto. rewrite skipn_length. lia. }
  unfold read_profile at 1. cbv zeta. rewrite !E. reflexivity.
Qed.
Print Assumptions C113_profile_clip.

(** With clip_hilltop the profile starts at the first point of the greatest slope, and S0 is that slope,
    provided it descends or is level somewhere. *)
Theorem C113_hilltop : forall x z, List.length x = List.length z ->
  (exists k, (k + 1 < List.length x)%nat /\ 0 <= slope_at x z k) ->
  exists P w, read_profile 0 0 true x z = Ok P /\ px P = skipn w x /\ pz P = skipn w z /\ (w + 1 < List.length x)%nat /\
    p0x P = nth w x 0 /\ p0z P = nth w z 0 /\ p0S P = slope_at x z w /\
    (forall k, (k < List.length x)%nat -> slope_at x z k <= slope_at x z w) /\
    (forall k, (k < w)%nat -> slope_at x z k < slope_at x z w) /\
    forall k, (w + k < List.length x)%nat -> nth k (pS P) 0 = slope_at x z (w + k).
Proof.
  intros x z H (k0 & K0 & P0). pose proof (read_eq true x z H ltac:(lia)) as E. cbv zeta in E.
  assert (N : slopes x z <> []). { intros N. apply (f_equal (@List.length R)) in N. rewrite slopes_length in N by auto. cbn in N. lia. }
  destruct (first_max_spec _ N) as (A & B & C). rewrite slopes_length in A, B by auto.
  set (w := first_max (slopes x z)) in *. clearbody w.
  assert (B' : forall k, (k < List.length x)%nat -> slope_at x z k <= slope_at x z w) by (intros k K; specialize (B k K); now rewrite !slopes_nth in B by auto).
  assert (C' : forall k, (k < w)%nat -> slope_at x z k < slope_at x z w).
  { intros k K. specialize (C k K). rewrite !slopes_nth in C by (auto; lia). exact C. }
  assert (W : (w + 1 < List.length x)%nat).
  { destruct (Nat.ltb_spec (w + 1) (List.length x)) as [L | L]; auto. exfalso.
    assert (slope_at x z w = 0) by (unfold slope_at; now rewrite (proj2 (Nat.ltb_ge _ _)) by lia).
    specialize (C' k0 ltac:(lia)). lra. }
  destruct (skipn_two _ x w 0 W) as [rx Ex]. destruct (skipn_two _ z w 0 ltac:(lia)) as [rz Ez].
  rewrite Ex, Ez in E. eexists. exists w. split; [exact E|]. cbn [px pz pS p0x p0z p0S]. rewrite <- Ex, <- Ez.
  repeat split; auto.
  - unfold slope_at. now rewrite (proj2 (Nat.ltb_lt _ _)) by lia.
  - intros k K. rewrite skipn_nth'. apply slopes_nth; auto.
Qed.
Print Assumptions C113_hilltop.

(** Refuted: every profile of two points or more can be read with clip_hilltop.  One that rises all the way
    ends in an error: the slope 0 of its last point is the greatest, and every other point is clipped. *)
Theorem C113_uphill_refuted : forall x z, List.length x = List.length z -> (2 <= List.length x)%nat ->
  (forall k, (k + 1 < List.length x)%nat -> slope_at x z k < 0) ->
  read_profile 0 0 true x z = Err IndexError /\ exists P, read_profile 0 0 false x z = Ok P.
Proof.
  intros x z H L U. split. 2:{ destruct (C113_profile x z H L) as (P & E & _). now exists P. }
  pose proof (read_eq true x z H ltac:(lia)) as E. cbv zeta in E.
  assert (N : slopes x z <> []). { intros N. apply (f_equal (@List.length R)) in N. rewrite slopes_length in N by auto. cbn in N. lia. }
  destruct (first_max_spec _ N) as (A & B & C). rewrite slopes_length in A, B by auto.
  set (w := first_max (slopes x z)) in *. clearbody w.
  assert (W : (w + 1 = List.length x)%nat).
  { destruct (Nat.ltb_spec (w + 1) (List.length x)) as [K | K]; [exfalso | lia].
    specialize (B (List.length x - 1)%nat ltac:(lia)). rewrite !slopes_nth in B by (auto; lia). specialize (U w K).
    assert (slope_at x z (List.length x - 1) = 0) by (unfold slope_at; now rewrite (proj2 (Nat.ltb_ge _ _)) by lia). lra. }
  assert (S1 : List.length (skipn w x) = 1%nat) by (rewrite skipn_length; lia).
  destruct (skipn w x) as [|a [|b r]]; cbn in S1; try lia. exact E.
Qed.
Print Assumptions C113_uphill_refuted.

(** The profile of slopes has the slope to the next point; its last value is 0/0, always (refuted: it has a slope
    at every point), and so are the last two of the profile of curvatures. *)
Definition increasing (x : list R) : Prop := forall k, (k + 1 < List.length x)%nat -> nth k x 0 < nth (k + 1) x 0.

Lemma next_nth : forall A (l : list A) d k, (2 <= List.length l)%nat -> (k < List.length l)%nat ->
  nth k (next_values d l) d = if Nat.eqb (S k) (List.length l) then nth k l d else nth (S k) l d.
Proof.
  intros A l d k L K. unfold next_values. rewrite set_last_nth by (now rewrite roll_length). rewrite roll_length.
  destruct (Nat.eqb_spec (S k) (List.length l)).
  - rewrite roll_nth by lia. f_equal. lia.
  - apply roll_nth. lia.
Qed.
Lemma next_length : forall A (l : list A) d, List.length (next_values d l) = List.length l.
Proof. intros. unfold next_values. now rewrite set_last_length, roll_length. Qed.

Lemma slope_profile_nth : forall x z, List.length x = List.length z -> (2 <= List.length x)%nat -> increasing x ->
  exists l, get_slope_profile x z = Ok l /\ List.length l = List.length x /\
    forall k, (k < List.length x)%nat -> nth k l None = if Nat.ltb (k + 1) (List.length x) then Some (slope_at x z k) else None.
Proof.
  intros x z H L I. unfold get_slope_profile. rewrite (proj2 (Nat.ltb_ge _ _)) by lia. eexists. split; [reflexivity|].
  split. { rewrite !map2_length, !next_length. lia. }
  intros k K. rewrite (map2_nth _ _ _ _ _ _ 0 0) by (rewrite !map2_length, !next_length; lia).
  rewrite (map2_nth _ _ _ Rminus z _ 0 0), (map2_nth _ _ _ Rminus _ x 0 0) by (rewrite ?next_length; lia).
  rewrite !next_nth by lia. rewrite <- H.
  destruct (Nat.eqb_spec (S k) (List.length x)); destruct (Nat.ltb_spec (k + 1) (List.length x)); try lia; unfold ndiv.
  - destruct (Req_EM_T _ _) as [e9 | e9]; auto. elim e9. ring.
  - specialize (I k ltac:(lia)). replace (k + 1)%nat with (S k) in I by lia.
    destruct (Req_EM_T _ _) as [e9 | e9]; [lra|]. unfold slope_at. rewrite (proj2 (Nat.ltb_lt _ _)) by lia. now replace (k + 1)%nat with (S k) by lia.
Qed.

Theorem C113_slope_profile_refuted : forall x z, List.length x = List.length z -> (2 <= List.length x)%nat -> increasing x ->
  exists s, get_slope_profile x z = Ok s /\ List.length s = List.length x /\
    (forall k, (k + 1 < List.length x)%nat -> nth k s None = Some (slope_at x z k)) /\
    nth (List.length x - 1) s None = None /\
    exists kp, get_kappa_p_profile x s = Ok kp /\
      (forall k, (k + 2 < List.length x)%nat ->
         nth k kp None = Some ((slope_at x z (k + 1) - slope_at x z k) / (nth (k + 1) x 0 - nth k x 0))) /\
      nth (List.length x - 2) kp None = None /\ nth (List.length x - 1) kp None = None.
Proof.
  intros x z H L I. destruct (slope_profile_nth x z H L I) as (s & E & Ls & N). exists s. split; [exact E|]. split; [exact Ls|].
  split. { intros k K. rewrite N by lia. now rewrite (proj2 (Nat.ltb_lt _ _)) by lia. }
  split. { rewrite N by lia. now rewrite (proj2 (Nat.ltb_ge _ _)) by lia. }
  unfold get_kappa_p_profile. rewrite (proj2 (Nat.ltb_ge _ _)) by lia. eexists. split; [reflexivity|]. unfold num in *.
  assert (A : forall k, (k < List.length x)%nat -> nth k (map2 (fun (a : option R) b => match a with Some s0 => ndiv s0 b | None => None end)
    (map2 (lift2 Rminus) s (next_values None s)) (map2 Rminus x (next_values 0 x))) None =
    match lift2 Rminus (nth k s None) (if Nat.eqb (S k) (List.length x) then nth k s None else nth (S k) s None) with
    | Some s0 => ndiv s0 (nth k x 0 - (if Nat.eqb (S k) (List.length x) then nth k x 0 else nth (S k) x 0)) | None => None end).
  { intros k K. rewrite (map2_nth _ _ _ _ _ _ None 0) by (rewrite !map2_length, !next_length; unfold num in *; lia).
    rewrite (map2_nth _ _ _ (lift2 Rminus) s _ None None), (map2_nth _ _ _ Rminus x _ 0 0) by (rewrite ?next_length; unfold num in *; lia).
    rewrite !next_nth by (unfold num in *; lia). unfold num in *. now rewrite Ls. }
  split; [|split].
  - intros k K. rewrite A by lia. rewrite (proj2 (Nat.eqb_neq _ _)) by lia. rewrite !N by lia.
    rewrite !(proj2 (Nat.ltb_lt _ _)) by lia. cbn [lift2]. replace (S k) with (k + 1)%nat by lia.
    specialize (I k ltac:(lia)). unfold ndiv. destruct (Req_EM_T _ _) as [e | e]; [lra|]. f_equal. field. lra.
  - rewrite A by lia. rewrite (proj2 (Nat.eqb_neq _ _)) by lia. rewrite !N by lia.
    rewrite (proj2 (Nat.ltb_ge (S (List.length x - 2) + 1) _)) by lia. now destruct (Nat.ltb _ _).
  - rewrite A by lia. rewrite (proj2 (Nat.eqb_eq _ _)) by lia. rewrite !N by lia.
    now rewrite (proj2 (Nat.ltb_ge (List.length x - 1 + 1) _)) by lia.
Qed.
Print Assumptions C113_slope_profile_refuted.

(** Refuted: smoothing a level profile keeps it level.  Away from its ends it is multiplied by a constant
    above 7/4, since the weights are not divided by their sum. *)
Theorem C113_smooth_profile_refuted : exists W, 7 / 4 < W /\
  forall n c k, (5 <= k)%nat -> (k + 4 < n)%nat -> smooth_profile_once n (fun _ => c) k = W * c.
Proof.
  exists (rsum (map gauss (seq 0 10))). split.
  - cbn [seq map]. unfold rsum. cbn [fold_right].
    assert (P : forall m, 0 < gauss m) by (intros; apply exp_pos).
    assert (E4 : 7 / 8 < gauss 4).
    { unfold gauss. replace (- (INR 4 - 9 / 2) ^ 2 / 2) with (-1 / 8) by (cbn [INR]; field). pose proof (exp_ineq1 (-1 / 8)). lra. }
    assert (E5 : 7 / 8 < gauss 5).
    { unfold gauss. replace (- (INR 5 - 9 / 2) ^ 2 / 2) with (-1 / 8) by (cbn [INR]; field). pose proof (exp_ineq1 (-1 / 8)). lra. }
    pose proof (P 0%nat). pose proof (P 1%nat). pose proof (P 2%nat). pose proof (P 3%nat). pose proof (P 6%nat).
    pose proof (P 7%nat). pose proof (P 8%nat). pose proof (P 9%nat). lra.
  - intros n c k H1 H2. unfold smooth_profile_once.
    rewrite (map_ext_in _ (fun m => gauss m * c)).
    + cbn [seq map]. unfold rsum. cbn [fold_right]. ring.
    + intros m Hm. apply in_seq in Hm. rewrite (proj2 (Nat.leb_le _ _)), (proj2 (Nat.ltb_lt _ _)) by lia. reflexivity.
Qed.
Print Assumptions C113_smooth_profile_refuted.

(** ** Cases *)

Example C113_case :
  (exists G, good G /\ nx G = 5%nat /\ ny G = 5%nat /\
     kappa_c G (surface G (plane 1 2 3)) 3%nat 1%nat = Some 0 /\ kappa_c G (surface G (plane 1 2 3)) 1%nat 1%nat = None) /\
  inside 4 20 20 5 6 /\
  0 < Rpower 1 (-1) + 1 * (3 - 0) /\
  slope_at [0; 1; 2] [5; 6; 2] 0 = -1 /\ slope_at [0; 1; 2] [5; 6; 2] 1 = 4 /\
  slope_at [0; 1] [5; 6] 0 < 0.
Proof.
  split.
  { exists {| nx := 5; ny := 5; dx := 1; dy := 1 |}. split; [split; cbn; lra|]. split; [reflexivity|]. split; [reflexivity|].
    assert (g : good {| nx := 5; ny := 5; dx := 1; dy := 1 |}) by (split; cbn; lra).
    destruct (C113_plane {| nx := 5; ny := 5; dx := 1; dy := 1 |} SideR SideT 1 1 2 3 3%nat 1%nat g ltac:(left; lra) ltac:(cbn; lia) ltac:(cbn; lia)) as (_ & _ & A & _).
    destruct (C113_plane {| nx := 5; ny := 5; dx := 1; dy := 1 |} SideR SideT 1 1 2 3 1%nat 1%nat g ltac:(left; lra) ltac:(cbn; lia) ltac:(cbn; lia)) as (_ & _ & B & _).
    rewrite A, B. split; reflexivity. }
  split; [unfold inside; lia|]. split.
  { assert (0 < Rpower 1 (-1)) by apply exp_pos. lra. }
  unfold slope_at; cbn. repeat split; lra.
Qed.
