(* C65: pixel dimensions. *)
From Coq Require Import ZArith Reals Lra Lia List Bool FunctionalExtensionality.
From Verif Require Import Base Geo_Model Geo_Spec.
Import ListNotations.
Local Open Scope R_scope.

Lemma pi_pos : 0 < PI. Proof. exact PI_RGT_0. Qed.
Lemma sc2 p : sin p ^ 2 + cos p ^ 2 = 1.
Proof. generalize (sin2_cos2 p). unfold Rsqr. lra. Qed.
Lemma dtor_pos : 0 < dtor. Proof. unfold dtor. generalize pi_pos. lra. Qed.
(* the squared eccentricity *)
Definition e2 (a b : R) : R := (a ^ 2 - b ^ 2) / a ^ 2.
Lemma ecc_sq a b : 0 < b <= a -> eccentricity a b ^ 2 = e2 a b /\ 0 <= e2 a b < 1.
Proof.
  intros [Hb Ha]. assert (E : 2 * flattening a b - flattening a b ^ 2 = e2 a b) by (unfold flattening, e2; field; lra).
  assert (P : 0 <= e2 a b < 1).
  { unfold e2. assert (0 < a ^ 2) by (apply pow_lt; lra). assert (0 < b ^ 2) by (apply pow_lt; lra).
    assert (b ^ 2 <= a ^ 2) by (apply pow_incr; lra). split.
    - apply Rmult_le_pos; [lra|]. left. apply Rinv_0_lt_compat. exact H.
    - apply (Rmult_lt_reg_r (a ^ 2)); [exact H|]. unfold Rdiv. rewrite Rmult_assoc, Rinv_l by lra. lra. }
  split; [|exact P]. unfold eccentricity. rewrite E, pow2_sqrt; lra.
Qed.
Definition w2 (a b p : R) : R := 1 - e2 a b * sin p ^ 2.
Lemma w2_pos a b p : 0 < b <= a -> 0 < w2 a b p.
Proof.
  intros H. destruct (ecc_sq a b H) as [_ [E0 E1]]. unfold w2. pose proof (sc2 p). pose proof (pow2_ge_0 (cos p)). pose proof (pow2_ge_0 (sin p)).
  assert (e2 a b * sin p ^ 2 <= e2 a b * 1) by (apply Rmult_le_compat_l; lra). lra.
Qed.
Lemma w2_eq a b p : 0 < b <= a -> 1 - (eccentricity a b * sin p) ^ 2 = w2 a b p.
Proof. intros H. destruct (ecc_sq a b H) as [E _]. rewrite Rpow_mult_distr, E. reflexivity. Qed.
Lemma b2 a b : 0 < b <= a -> b ^ 2 = a ^ 2 * (1 - e2 a b).
Proof. intros H. unfold e2. field. lra. Qed.
Lemma power32 x : 0 < x -> Rpower x (3 / 2) = x * sqrt x.
Proof.
  intros H. replace (3 / 2) with (1 + / 2) by lra. rewrite Rpower_plus, Rpower_1 by exact H. rewrite Rpower_sqrt by exact H. reflexivity.
Qed.

(* the point of a latitude *)
Definition mx (a b p : R) : R := a * cos p / sqrt (w2 a b p).
Definition mz (a b p : R) : R := a * (1 - e2 a b) * sin p / sqrt (w2 a b p).
Lemma meridian_point a b p : 0 < b <= a -> on_meridian a b p (mx a b p) (mz a b p).
Proof.
  intros H. pose proof (w2_pos a b p H) as W. pose proof (sqrt_lt_R0 _ W) as S. pose proof (pow2_sqrt _ (Rlt_le _ _ W)) as Q.
  destruct (ecc_sq a b H) as [_ [E0 E1]]. unfold on_meridian, mx, mz. rewrite (b2 a b H). split.
  - assert (X : (a * cos p / sqrt (w2 a b p)) ^ 2 / a ^ 2 + (a * (1 - e2 a b) * sin p / sqrt (w2 a b p)) ^ 2 / (a ^ 2 * (1 - e2 a b))
                = (cos p ^ 2 + (1 - e2 a b) * sin p ^ 2) / sqrt (w2 a b p) ^ 2) by (field; repeat split; lra).
    rewrite X, Q. replace (cos p ^ 2 + (1 - e2 a b) * sin p ^ 2) with (w2 a b p) by (unfold w2; pose proof (sc2 p); lra).
    field. lra.
  - exists (/ (a * sqrt (w2 a b p))). split; [apply Rinv_0_lt_compat, Rmult_lt_0_compat; lra|]. split; field; repeat split; lra.
Qed.
Lemma meridian_unique a b p x z : 0 < b <= a -> on_meridian a b p x z -> x = mx a b p /\ z = mz a b p.
Proof.
  intros H [E (k & K & X & Z)]. pose proof (w2_pos a b p H) as W. pose proof (sqrt_lt_R0 _ W) as S. pose proof (pow2_sqrt _ (Rlt_le _ _ W)) as Q.
  destruct (ecc_sq a b H) as [_ [E0 E1]]. assert (B := b2 a b H).
  assert (Xe : x = k * cos p * a ^ 2) by (rewrite <- X; field; lra).
  assert (Ze : z = k * sin p * b ^ 2) by (rewrite <- Z; field; lra).
  assert (N : k ^ 2 * a ^ 2 * w2 a b p = 1).
  { rewrite <- E, Xe, Ze, B.
    transitivity (k ^ 2 * a ^ 2 * (cos p ^ 2 + (1 - e2 a b) * sin p ^ 2)).
    - unfold w2. pose proof (sc2 p) as C. replace (cos p ^ 2) with (1 - sin p ^ 2) by lra. ring.
    - field. lra. }
  assert (KE : k * (a * sqrt (w2 a b p)) = 1).
  { apply Rsqr_inj; [apply Rmult_le_pos; [lra|apply Rmult_le_pos; lra]|lra|]. unfold Rsqr.
    replace (k * (a * sqrt (w2 a b p)) * (k * (a * sqrt (w2 a b p)))) with (k ^ 2 * a ^ 2 * sqrt (w2 a b p) ^ 2) by ring.
    rewrite Q, N. ring. }
  assert (Ke : k = / (a * sqrt (w2 a b p))).
  { apply (Rmult_eq_reg_r (a * sqrt (w2 a b p))); [|apply Rgt_not_eq, Rmult_lt_0_compat; lra]. rewrite KE. field. lra. }
  rewrite Xe, Ze, Ke, B. unfold mx, mz. split; field; lra.
Qed.
(* dw/dp for w = sqrt(1 - e2 sin^2 p) *)
Lemma w_deriv a b p : 0 < b <= a ->
  derivable_pt_lim (fun q => sqrt (w2 a b q)) p (- e2 a b * sin p * cos p / sqrt (w2 a b p)).
Proof.
  intros H. pose proof (w2_pos a b p H) as W. pose proof (sqrt_lt_R0 _ W) as S.
  assert (D : derivable_pt_lim (fun q => w2 a b q) p (- (e2 a b * (2 * sin p * cos p)))).
  { unfold w2. replace (- (e2 a b * (2 * sin p * cos p))) with (0 - e2 a b * (cos p * sin p + sin p * cos p)) by ring.
    apply (derivable_pt_lim_minus (fun _ => 1) (fun q => e2 a b * sin q ^ 2)); [apply derivable_pt_lim_const|].
    apply (derivable_pt_lim_scal (fun q => sin q ^ 2)).
    replace (fun q => sin q ^ 2) with (sin * sin)%F by (apply functional_extensionality; intros q; unfold mult_fct; ring).
    apply derivable_pt_lim_mult; apply derivable_pt_lim_sin. }
  pose proof (derivable_pt_lim_comp _ sqrt p _ _ D (derivable_pt_lim_sqrt _ W)) as C.
  replace (- e2 a b * sin p * cos p / sqrt (w2 a b p)) with (/ (2 * sqrt (w2 a b p)) * - (e2 a b * (2 * sin p * cos p))) by (field; lra).
  exact C.
Qed.
Lemma mx_deriv a b p : 0 < b <= a ->
  derivable_pt_lim (mx a b) p (- (a * (1 - e2 a b) / (w2 a b p * sqrt (w2 a b p)) * sin p)).
Proof.
  intros H. pose proof (w2_pos a b p H) as W. pose proof (sqrt_lt_R0 _ W) as S. pose proof (pow2_sqrt _ (Rlt_le _ _ W)) as Q.
  assert (C : derivable_pt_lim (fun q => a * cos q) p (a * - sin p))
    by (apply (derivable_pt_lim_scal cos), derivable_pt_lim_cos).
  pose proof (derivable_pt_lim_div _ _ p _ _ C (w_deriv a b p H) ltac:(lra)) as D.
  replace (- (a * (1 - e2 a b) / (w2 a b p * sqrt (w2 a b p)) * sin p)) with
    ((a * - sin p * sqrt (w2 a b p) - - e2 a b * sin p * cos p / sqrt (w2 a b p) * (a * cos p)) / Rsqr (sqrt (w2 a b p))).
  { exact D. }
  unfold Rsqr. rewrite sqrt_sqrt by lra.
  assert (N : a * - sin p * sqrt (w2 a b p) - - e2 a b * sin p * cos p / sqrt (w2 a b p) * (a * cos p) =
              - a * sin p * (sqrt (w2 a b p) ^ 2 - e2 a b * cos p ^ 2) / sqrt (w2 a b p)) by (field; lra).
  rewrite N, Q. replace (w2 a b p - e2 a b * cos p ^ 2) with (1 - e2 a b)
    by (unfold w2; pose proof (sc2 p); replace (cos p ^ 2) with (1 - sin p ^ 2) by lra; ring).
  field. lra.
Qed.
Lemma mz_deriv a b p : 0 < b <= a ->
  derivable_pt_lim (mz a b) p (a * (1 - e2 a b) / (w2 a b p * sqrt (w2 a b p)) * cos p).
Proof.
  intros H. pose proof (w2_pos a b p H) as W. pose proof (sqrt_lt_R0 _ W) as S. pose proof (pow2_sqrt _ (Rlt_le _ _ W)) as Q.
  assert (C : derivable_pt_lim (fun q => a * (1 - e2 a b) * sin q) p (a * (1 - e2 a b) * cos p))
    by (apply (derivable_pt_lim_scal sin), derivable_pt_lim_sin).
  pose proof (derivable_pt_lim_div _ _ p _ _ C (w_deriv a b p H) ltac:(lra)) as D.
  replace (a * (1 - e2 a b) / (w2 a b p * sqrt (w2 a b p)) * cos p) with
    ((a * (1 - e2 a b) * cos p * sqrt (w2 a b p) - - e2 a b * sin p * cos p / sqrt (w2 a b p) * (a * (1 - e2 a b) * sin p)) / Rsqr (sqrt (w2 a b p))).
  { exact D. }
  unfold Rsqr. rewrite sqrt_sqrt by lra.
  assert (N : a * (1 - e2 a b) * cos p * sqrt (w2 a b p) - - e2 a b * sin p * cos p / sqrt (w2 a b p) * (a * (1 - e2 a b) * sin p) =
              a * (1 - e2 a b) * cos p * (sqrt (w2 a b p) ^ 2 + e2 a b * sin p ^ 2) / sqrt (w2 a b p)) by (field; lra).
  rewrite N, Q. replace (w2 a b p + e2 a b * sin p ^ 2) with 1 by (unfold w2; ring). field. lra.
Qed.

(* A degree of longitude is a degree of the circle of latitude: its radius is the distance of the point from the
   axis, at height h along the normal. *)
Theorem C65_degree_of_longitude : forall a b h lat x z, 0 < b <= a ->
  on_meridian a b (lat * PI / 180) x z ->
  meters_per_degree_lon a b h lat = PI / 180 * (x + h * cos (lat * PI / 180)).
Proof.
  intros a b h lat x z H M. destruct (meridian_unique _ _ _ _ _ H M) as [-> _].
  unfold meters_per_degree_lon. replace (lat * dtor) with (lat * PI / 180) by (unfold dtor; field).
  rewrite w2_eq by exact H. unfold mx, dtor. ring.
Qed.
(* A degree of latitude is a degree times the speed of the point along the meridian (plus the height). *)
Theorem C65_degree_of_latitude : forall a b h lat v, 0 < b <= a ->
  meridian_speed a b (lat * PI / 180) v ->
  meters_per_degree_lat a b h lat = PI / 180 * (h + v).
Proof.
  intros a b h lat v H (x & z & M & x' & z' & Dx & Dz & V & E).
  assert (x = mx a b) by (apply functional_extensionality; intros q; apply (meridian_unique _ _ _ _ _ H (M q))).
  assert (z = mz a b) by (apply functional_extensionality; intros q; apply (meridian_unique _ _ _ _ _ H (M q))).
  subst x z. set (p := lat * PI / 180) in *.
  pose proof (uniqueness_limite _ _ _ _ Dx (mx_deriv a b p H)) as X. pose proof (uniqueness_limite _ _ _ _ Dz (mz_deriv a b p H)) as Z.
  pose proof (w2_pos a b p H) as W. pose proof (sqrt_lt_R0 _ W) as S. destruct (ecc_sq a b H) as [Ee [E0 E1]].
  set (k := a * (1 - e2 a b) / (w2 a b p * sqrt (w2 a b p))) in *.
  assert (K : 0 < k) by (unfold k; apply Rdiv_lt_0_compat; apply Rmult_lt_0_compat; lra).
  assert (v = k).
  { apply Rsqr_inj; [exact V|lra|]. unfold Rsqr. replace (v * v) with (v ^ 2) by ring. rewrite E, X, Z.
    replace ((- (k * sin p)) ^ 2 + (k * cos p) ^ 2) with (k * k * (sin p ^ 2 + cos p ^ 2)) by ring. rewrite sc2. ring. }
  unfold meters_per_degree_lat. replace (lat * dtor) with p by (unfold p, dtor; field).
  rewrite w2_eq, power32, Ee by (try exact H; exact W). unfold dtor. rewrite H0. reflexivity.
Qed.
Example C65_meridian_speed_demo a b lat : 0 < b <= a -> exists v, 0 < v /\ meridian_speed a b lat v.
Proof.
  intros H. pose proof (w2_pos a b lat H) as W. pose proof (sqrt_lt_R0 _ W) as S. destruct (ecc_sq a b H) as [Ee [E0 E1]].
  exists (a * (1 - e2 a b) / (w2 a b lat * sqrt (w2 a b lat))).
  assert (K : 0 < a * (1 - e2 a b) / (w2 a b lat * sqrt (w2 a b lat))) by (apply Rdiv_lt_0_compat; apply Rmult_lt_0_compat; lra).
  split; [exact K|]. exists (mx a b), (mz a b). split; [intros q; apply meridian_point; exact H|].
  eexists; eexists. split; [apply mx_deriv; exact H|]. split; [apply mz_deriv; exact H|]. split; [lra|].
  match goal with |- ?k ^ 2 = _ => set (K' := k) end.
  replace ((- (K' * sin lat)) ^ 2 + (K' * cos lat) ^ 2) with (K' ^ 2 * (sin lat ^ 2 + cos lat ^ 2)) by ring. rewrite sc2. ring.
Qed.

(* ---------------------------------------------------------------- rows of a grid *)
Lemma radii : 0 < b_radius <= a_radius. Proof. unfold a_radius, b_radius. lra. Qed.
Lemma e2_val : 0.0066 < e2 a_radius b_radius < 0.0068.
Proof. unfold e2, a_radius, b_radius. split; (apply (Rmult_lt_reg_r (6378137 ^ 2)); [lra|]); unfold Rdiv; rewrite ?Rmult_assoc, ?Rinv_l by lra; lra. Qed.
Lemma deg_range lat : Rabs lat < 90 -> 0 < cos (lat * dtor).
Proof.
  intros H. apply Rabs_def2 in H. unfold dtor. pose proof pi_pos.
  apply cos_gt_0; nra.
Qed.
Lemma deg_closed lat : Rabs lat <= 90 -> 0 <= cos (lat * dtor).
Proof.
  intros H. assert (A : - 90 <= lat <= 90) by (unfold Rabs in H; destruct (Rcase_abs lat); lra). unfold dtor. pose proof pi_pos.
  apply cos_ge_0; nra.
Qed.
Lemma deg_order l1 l0 : Rabs l0 < Rabs l1 -> Rabs l1 <= 90 -> 0 <= cos (l1 * dtor) < cos (l0 * dtor).
Proof.
  intros A B. split; [apply deg_closed; exact B|].
  assert (C : forall l, cos (l * dtor) = cos (Rabs l * dtor)).
  { intros l. unfold Rabs. destruct (Rcase_abs l); [|reflexivity]. rewrite <- (cos_neg (l * dtor)). f_equal. ring. }
  rewrite (C l1), (C l0). pose proof (Rabs_pos l0). pose proof pi_pos. unfold dtor.
  apply cos_decreasing_1; nra.
Qed.
Lemma w2_cos a b p : w2 a b p = (1 - e2 a b) + e2 a b * cos p ^ 2.
Proof. unfold w2. pose proof (sc2 p). replace (sin p ^ 2) with (1 - cos p ^ 2) by lra. ring. Qed.
Lemma lon_eq h lat : meters_per_degree_lon a_radius b_radius h lat =
  dtor * (h * cos (lat * dtor) + a_radius * cos (lat * dtor) / sqrt (w2 a_radius b_radius (lat * dtor))).
Proof. unfold meters_per_degree_lon. rewrite w2_eq by exact radii. reflexivity. Qed.
Lemma lat_eq h lat : meters_per_degree_lat a_radius b_radius h lat =
  dtor * (h + a_radius * (1 - e2 a_radius b_radius) / (w2 a_radius b_radius (lat * dtor) * sqrt (w2 a_radius b_radius (lat * dtor)))).
Proof.
  unfold meters_per_degree_lat. destruct (ecc_sq _ _ radii) as [E _].
  rewrite w2_eq, power32, E; [reflexivity|apply w2_pos; exact radii|exact radii].
Qed.
Lemma lon_pos lat : Rabs lat < 90 -> 0 < meters_per_degree_lon a_radius b_radius 0 lat.
Proof.
  intros H. rewrite lon_eq. pose proof (w2_pos _ _ (lat * dtor) radii) as W. pose proof (sqrt_lt_R0 _ W).
  pose proof (deg_range lat H). pose proof dtor_pos. apply Rmult_lt_0_compat; [lra|]. rewrite Rmult_0_l, Rplus_0_l.
  apply Rdiv_lt_0_compat; [|lra]. apply Rmult_lt_0_compat; [unfold a_radius; lra|lra].
Qed.
Lemma lat_pos lat : 0 < meters_per_degree_lat a_radius b_radius 0 lat.
Proof.
  rewrite lat_eq. pose proof (w2_pos _ _ (lat * dtor) radii) as W. pose proof (sqrt_lt_R0 _ W). pose proof e2_val.
  pose proof dtor_pos. apply Rmult_lt_0_compat; [lra|]. rewrite Rplus_0_l.
  apply Rdiv_lt_0_compat; apply Rmult_lt_0_compat; try lra. unfold a_radius; lra.
Qed.

(* Sizes are positive where the row is not at a pole, and the diagonal is the diagonal of the pixel. *)
Theorem C65_sizes_positive : forall METERS r k dx dy dd,
  0 < xres r -> 0 < yres r -> (pixel_geom r = 0%Z -> Rabs (row_lat r k) < 90) ->
  sizes_by_row METERS r k = (dx, dy, dd) ->
  0 < dx /\ 0 < dy /\ dd ^ 2 = dx ^ 2 + dy ^ 2 /\ Rmax dx dy < dd < dx + dy.
Proof.
  intros M r k dx dy dd Hx Hy Hl E. unfold sizes_by_row in E.
  assert (U : 0 < (if M then 1 else 1000)) by (destruct M; lra). set (u := if M then 1 else 1000) in *.
  assert (P : 0 < dx /\ 0 < dy /\ dd = sqrt (dx ^ 2 + dy ^ 2)).
  { destruct (Z.eqb_spec (pixel_geom r) 0) as [Z|Z]; injection E as <- <- <-.
    - pose proof (lon_pos _ (Hl Z)). pose proof (lat_pos (row_lat r k)). split; [|split; [|reflexivity]].
      + apply Rdiv_lt_0_compat; [|exact U]. apply Rmult_lt_0_compat; lra.
      + apply Rdiv_lt_0_compat; [|exact U]. apply Rmult_lt_0_compat; lra.
    - split; [|split; [|reflexivity]]; apply Rdiv_lt_0_compat; lra. }
  destruct P as (Dx & Dy & ->). split; [exact Dx|]. split; [exact Dy|].
  assert (0 < dx ^ 2) by (apply pow_lt; exact Dx). assert (0 < dy ^ 2) by (apply pow_lt; exact Dy).
  split; [apply pow2_sqrt; lra|]. assert (0 < dx * dy) by (apply Rmult_lt_0_compat; lra). split.
  - unfold Rmax. destruct (Rle_dec dx dy).
    + rewrite <- (sqrt_pow2 dy) at 1 by lra. apply sqrt_lt_1; lra.
    + rewrite <- (sqrt_pow2 dx) at 1 by lra. apply sqrt_lt_1; lra.
  - rewrite <- (sqrt_pow2 (dx + dy)) by lra. apply sqrt_lt_1; try lra; nra.
Qed.

(* Towards a pole rows become narrower and taller, and pixels smaller. *)
Theorem C65_towards_the_pole : forall METERS r j k dx dy dd dx' dy' dd',
  pixel_geom r = 0%Z -> 0 < xres r -> 0 < yres r ->
  Rabs (row_lat r j) < Rabs (row_lat r k) <= 90 ->
  sizes_by_row METERS r j = (dx, dy, dd) -> sizes_by_row METERS r k = (dx', dy', dd') ->
  dx' < dx /\ dy < dy' /\ dx' * dy' < dx * dy.
Proof.
  intros M r j k dx dy dd dx' dy' dd' Hg Hx Hy [A B] E E'. unfold sizes_by_row in E, E'. rewrite Hg in E, E'. cbn [Z.eqb] in E, E'.
  assert (U : 0 < (if M then 1 else 1000)) by (destruct M; lra). set (u := if M then 1 else 1000) in *.
  injection E as <- <- _. injection E' as <- <- _.
  destruct (deg_order _ _ A B) as [C1 C2].
  rewrite !lon_eq, !lat_eq, !Rmult_0_l, !Rplus_0_l.
  pose proof (w2_pos _ _ (row_lat r j * dtor) radii) as W. pose proof (w2_pos _ _ (row_lat r k * dtor) radii) as W'.
  pose proof (w2_cos a_radius b_radius (row_lat r j * dtor)) as Wc. pose proof (w2_cos a_radius b_radius (row_lat r k * dtor)) as Wc'.
  set (w := w2 _ _ (row_lat r j * dtor)) in *. set (w' := w2 _ _ (row_lat r k * dtor)) in *.
  pose proof (COS_bound (row_lat r j * dtor)) as [_ C3].
  set (c := cos (row_lat r j * dtor)) in *. set (c' := cos (row_lat r k * dtor)) in *.
  pose proof e2_val as Ev. set (e := e2 a_radius b_radius) in *. clearbody c c' w w' e.
  pose proof (sqrt_lt_R0 _ W) as S. pose proof (sqrt_lt_R0 _ W') as S'. pose proof dtor_pos as D.
  assert (Ap : 0 < a_radius) by (unfold a_radius; lra). set (a := a_radius) in *. clearbody a.
  assert (X0 : 0 < xres r / 3600 * dtor / u) by (apply Rdiv_lt_0_compat; [apply Rmult_lt_0_compat; lra|exact U]).
  assert (Y0 : 0 < yres r / 3600 * dtor / u) by (apply Rdiv_lt_0_compat; [apply Rmult_lt_0_compat; lra|exact U]).
  assert (Clt : c' ^ 2 < c ^ 2) by (assert (0 < (c - c') * (c + c')) by (apply Rmult_lt_0_compat; lra); lra).
  assert (Wlt : w' < w) by (assert (e * c' ^ 2 < e * c ^ 2) by (apply Rmult_lt_compat_l; lra); lra).
  assert (Slt : sqrt w' < sqrt w) by (apply sqrt_lt_1; lra).
  assert (Q : sqrt w * sqrt w = w) by (apply sqrt_sqrt; lra). assert (Q' : sqrt w' * sqrt w' = w') by (apply sqrt_sqrt; lra).
  set (s := sqrt w) in *. set (s' := sqrt w') in *. clearbody s s'.
  (* c'/s' < c/s *)
  assert (L1 : c' * s < c * s').
  { apply Rnot_le_lt. intros N. assert (N2 : (c * s') ^ 2 <= (c' * s) ^ 2).
    { apply pow_incr. split; [apply Rmult_le_pos; lra|exact N]. }
    replace ((c * s') ^ 2) with (c ^ 2 * w') in N2 by (rewrite <- Q'; ring).
    replace ((c' * s) ^ 2) with (c' ^ 2 * w) in N2 by (rewrite <- Q; ring).
    rewrite Wc, Wc' in N2. assert ((1 - e) * c' ^ 2 < (1 - e) * c ^ 2) by (apply Rmult_lt_compat_l; lra). lra. }
  assert (L1' : c' / s' < c / s).
  { apply (Rmult_lt_reg_r (s * s')); [apply Rmult_lt_0_compat; lra|].
    replace (c' / s' * (s * s')) with (c' * s) by (field; lra). replace (c / s * (s * s')) with (c * s') by (field; lra). exact L1. }
  assert (L2 : / (w * s) < / (w' * s')).
  { apply Rinv_lt_contravar; [apply Rmult_lt_0_compat; apply Rmult_lt_0_compat; lra|]. nra. }
  (* c'/w'^2 < c/w^2 *)
  assert (L3 : c' * w ^ 2 < c * w' ^ 2).
  { assert (c * w' ^ 2 - c' * w ^ 2 = (c - c') * ((1 - e) ^ 2 - 2 * (1 - e) * e * (c * c') - e ^ 2 * (c * c') * (c ^ 2 + c * c' + c' ^ 2))).
    { rewrite Wc, Wc'. ring. }
    assert (0 <= c * c' <= 1) by nra. assert (0 <= c ^ 2 + c * c' + c' ^ 2 <= 3) by nra.
    assert (0 <= (c * c') * (c ^ 2 + c * c' + c' ^ 2) <= 3) by nra.
    assert (0 < (1 - e) ^ 2 - 2 * (1 - e) * e * (c * c') - e ^ 2 * (c * c') * (c ^ 2 + c * c' + c' ^ 2)).
    { assert (2 * (1 - e) * e * (c * c') <= 2 * (1 - e) * e * 1) by (apply Rmult_le_compat_l; nra).
      assert (0 <= e ^ 2 <= 0.0001) by nra.
      assert (e ^ 2 * ((c * c') * (c ^ 2 + c * c' + c' ^ 2)) <= e ^ 2 * 3) by (apply Rmult_le_compat_l; lra).
      assert (e ^ 2 * (c * c') * (c ^ 2 + c * c' + c' ^ 2) = e ^ 2 * ((c * c') * (c ^ 2 + c * c' + c' ^ 2))) by ring.
      nra. }
    assert (0 < (c - c') * ((1 - e) ^ 2 - 2 * (1 - e) * e * (c * c') - e ^ 2 * (c * c') * (c ^ 2 + c * c' + c' ^ 2)))
      by (apply Rmult_lt_0_compat; lra). lra. }
  split; [|split].
  - replace (xres r / 3600 * (dtor * (a * c' / s')) / u) with (xres r / 3600 * dtor / u * a * (c' / s')) by (field; lra).
    replace (xres r / 3600 * (dtor * (a * c / s)) / u) with (xres r / 3600 * dtor / u * a * (c / s)) by (field; lra).
    apply Rmult_lt_compat_l; [apply Rmult_lt_0_compat; lra|exact L1'].
  - replace (yres r / 3600 * (dtor * (a * (1 - e) / (w * s))) / u) with (yres r / 3600 * dtor / u * a * (1 - e) * / (w * s)) by (field; lra).
    replace (yres r / 3600 * (dtor * (a * (1 - e) / (w' * s'))) / u) with (yres r / 3600 * dtor / u * a * (1 - e) * / (w' * s')) by (field; lra).
    apply Rmult_lt_compat_l; [apply Rmult_lt_0_compat; [apply Rmult_lt_0_compat|]; lra|exact L2].
  - assert (F : forall x y z : R, 0 < x -> 0 < y -> 0 < z -> z * z = x -> forall cc,
        xres r / 3600 * (dtor * (a * cc / z)) / u * (yres r / 3600 * (dtor * (a * (1 - e) / (x * z))) / u) =
        (xres r / 3600 * dtor / u) * (yres r / 3600 * dtor / u) * a * a * (1 - e) * (cc / x ^ 2)).
    { intros x y z Px _ Pz Ez cc. rewrite <- Ez. field. split; lra. }
    rewrite (F w 1 s W ltac:(lra) S Q c), (F w' 1 s' W' ltac:(lra) S' Q' c').
    set (X1 := xres r / 3600 * dtor / u) in *. set (Y1 := yres r / 3600 * dtor / u) in *. clearbody X1 Y1.
    apply Rmult_lt_compat_l; [repeat (apply Rmult_lt_0_compat; [|lra]); lra|].
    apply (Rmult_lt_reg_r (w ^ 2 * w' ^ 2)); [apply Rmult_lt_0_compat; apply pow_lt; lra|].
    replace (c' / w' ^ 2 * (w ^ 2 * w' ^ 2)) with (c' * w ^ 2) by (field; lra).
    replace (c / w ^ 2 * (w ^ 2 * w' ^ 2)) with (c * w' ^ 2) by (field; lra). exact L3.
Qed.

(* The rows of a fixed-length grid are all alike, and kilometres are metres divided by 1000. *)
Theorem C65_fixed_length : forall r k, pixel_geom r <> 0%Z ->
  sizes_by_row true r k = (xres r, yres r, sqrt (xres r ^ 2 + yres r ^ 2)).
Proof.
  intros r k H. unfold sizes_by_row. destruct (Z.eqb_spec (pixel_geom r) 0); [contradiction|].
  unfold Rdiv. rewrite Rinv_1, !Rmult_1_r. reflexivity.
Qed.
Theorem C65_kilometres : forall r k dx dy dd, sizes_by_row true r k = (dx, dy, dd) ->
  sizes_by_row false r k = (dx / 1000, dy / 1000, dd / 1000).
Proof.
  intros r k dx dy dd E. unfold sizes_by_row in *.
  assert (Q : forall x y, sqrt ((x / 1000) ^ 2 + (y / 1000) ^ 2) = sqrt (x ^ 2 + y ^ 2) / 1000).
  { intros x y. replace ((x / 1000) ^ 2 + (y / 1000) ^ 2) with ((x ^ 2 + y ^ 2) / 1000 ^ 2) by field.
    assert (0 <= x ^ 2 + y ^ 2) by (pose proof (pow2_ge_0 x); pose proof (pow2_ge_0 y); lra).
    rewrite sqrt_div by lra. rewrite sqrt_pow2 by lra. reflexivity. }
  cbv beta iota zeta in *. destruct (Z.eqb (pixel_geom r) 0); cbv beta iota in *.
  all: pose proof (f_equal snd E) as Ed; pose proof (f_equal (fun t => fst (fst t)) E) as Ex; pose proof (f_equal (fun t => snd (fst t)) E) as Ey.
  all: cbn [fst snd] in Ed, Ex, Ey; rewrite <- Ed, <- Ex, <- Ey, <- Q; unfold Rdiv; rewrite !Rinv_1, !Rmult_1_r; reflexivity.
Qed.
(* The area grid: one number for fixed-length pixels; otherwise one area per pixel, that of its row. *)
Theorem C65_areas : forall r,
  (pixel_geom r = 1%Z -> get_da r = Uniform (xres r * yres r)) /\
  (pixel_geom r <> 1%Z -> exists l, get_da r = Areas l /\ length l = (nrows r * ncols r)%nat /\
     forall i j dx dy dd, (i < nrows r)%nat -> (j < ncols r)%nat -> sizes_by_row true r i = (dx, dy, dd) ->
     nth (i * ncols r + j) l 0 = dx * dy).
Proof.
  intros r. unfold get_da. split; intros H.
  - rewrite H. cbn [Z.eqb Pos.eqb]. rewrite C65_fixed_length by (rewrite H; discriminate). reflexivity.
  - destruct (Z.eqb_spec (pixel_geom r) 1); [contradiction|]. eexists. split; [reflexivity|].
    set (f := fun k => fst (fst (sizes_by_row true r k)) * snd (fst (sizes_by_row true r k))).
    assert (K : forall m s, length (concat (map (fun d => repeat d (ncols r)) (map f (seq s m)))) = (m * ncols r)%nat /\
                forall i j, (i < m)%nat -> (j < ncols r)%nat ->
                nth (i * ncols r + j) (concat (map (fun d => repeat d (ncols r)) (map f (seq s m)))) 0 = f (s + i)%nat).
    { induction m as [|m IH]; intros s; [split; [reflexivity|intros; lia]|]. cbn [seq map concat].
      destruct (IH (Datatypes.S s)) as [L N]. split; [rewrite app_length, repeat_length, L; cbn; lia|].
      intros [|i] j Hi Hj.
      - cbn [Nat.mul Nat.add]. rewrite app_nth1 by (rewrite repeat_length; lia).
        assert (RN : forall (x : R) q t, (t < q)%nat -> nth t (repeat x q) 0 = x).
        { intros x q. induction q; intros t Ht; [lia|]. destruct t; [reflexivity|]. cbn. apply IHq. lia. }
        rewrite RN by lia. f_equal. lia.
      - rewrite app_nth2 by (rewrite repeat_length; lia). rewrite repeat_length.
        replace (Datatypes.S i * ncols r + j - ncols r)%nat with (i * ncols r + j)%nat by lia. rewrite N by lia. f_equal. lia. }
    split; [apply (K (nrows r) O)|]. intros i j dx dy dd Hi Hj E.
    destruct (K (nrows r) O) as [_ N]. rewrite N by lia. unfold f. cbn [Nat.add]. rewrite E. reflexivity.
Qed.
(* The two hemispheres are treated alike. *)
Theorem C65_hemispheres : forall a b h lat,
  meters_per_degree_lon a b h (- lat) = meters_per_degree_lon a b h lat /\
  meters_per_degree_lat a b h (- lat) = meters_per_degree_lat a b h lat.
Proof.
  intros a b h lat. unfold meters_per_degree_lon, meters_per_degree_lat.
  replace (- lat * dtor) with (- (lat * dtor)) by ring. rewrite cos_neg, sin_neg.
  replace ((eccentricity a b * - sin (lat * dtor)) ^ 2) with ((eccentricity a b * sin (lat * dtor)) ^ 2) by ring. split; reflexivity.
Qed.
(* Row k of a fixed-angle grid is measured along its southern edge, not along its middle ... *)
Theorem C65_row_latitude : forall r k, yres r <> 0 ->
  row_lat r k = y_north r - (INR k + 1) * (yres r / 3600) /\ row_lat r k <> y_north r - (INR k + 1 / 2) * (yres r / 3600).
Proof. intros r k H. unfold row_lat. split; [ring|]. intros E. apply H. lra. Qed.
(* ... so that north of the equator every row is taken wider than it is in its middle. *)
Theorem C65_width_at_middle_refuted :
  ~ (forall r k dx dy dd, pixel_geom r = 0%Z -> 0 < xres r -> 0 < yres r -> 0 < row_lat r k < 89 ->
       sizes_by_row true r k = (dx, dy, dd) ->
       dx = xres r / 3600 * meters_per_degree_lon a_radius b_radius 0 (y_north r - (INR k + 1 / 2) * (yres r / 3600))).
Proof.
  intros H. pose (r := mkRti 0 1 1 3600 3600 41). 
  assert (L : row_lat r 0 = 40) by (unfold row_lat, r; cbn; lra).
  destruct (sizes_by_row true r 0) as [[dx dy] dd] eqn:E.
  assert (K := H r O dx dy dd eq_refl ltac:(cbn; lra) ltac:(cbn; lra) ltac:(rewrite L; lra) E).
  unfold sizes_by_row in E. rewrite L in E. cbn [pixel_geom r Z.eqb] in E. injection E as Ex _ _.
  pose (r2 := mkRti 0 1 1 3600 1800 41).
  destruct (sizes_by_row true r2 0) as [[dx2 dy2] dd2] eqn:E2. destruct (sizes_by_row true r2 1) as [[dx3 dy3] dd3] eqn:E3.
  assert (L2 : row_lat r2 0 = 40.5) by (unfold row_lat, r2; cbn; lra).
  assert (L3 : row_lat r2 1 = 40) by (unfold row_lat, r2; cbn; lra).
  destruct (C65_towards_the_pole true r2 1 0 dx3 dy3 dd3 dx2 dy2 dd2 eq_refl ltac:(cbn; lra) ltac:(cbn; lra)) as [A _]; [|exact E3|exact E2|].
  { rewrite L2, L3, !Rabs_pos_eq; lra. }
  unfold sizes_by_row in E2, E3. rewrite L2 in E2. rewrite L3 in E3. cbn [pixel_geom r2 Z.eqb xres] in E2, E3.
  injection E2 as E2 _ _. injection E3 as E3 _ _. cbn [xres yres y_north r INR] in *.
  replace (41 - (0 + 1 / 2) * (3600 / 3600)) with 40.5 in K by lra. lra.
Qed.
(* How long a degree is, in metres. *)
Theorem C65_degree_lengths : forall lat,
  6335439 * (PI / 180) < meters_per_degree_lat a_radius b_radius 0 lat < 6399594 * (PI / 180) /\
  (Rabs lat <= 90 -> 0 <= meters_per_degree_lon a_radius b_radius 0 lat <= 6378137 * (PI / 180)).
Proof.
  intros lat. rewrite lat_eq, lon_eq, Rmult_0_l, !Rplus_0_l. pose proof dtor_pos as D. change (PI / 180) with dtor.
  pose proof (w2_pos _ _ (lat * dtor) radii) as W. pose proof (w2_cos a_radius b_radius (lat * dtor)) as Wc.
  pose proof (sqrt_lt_R0 _ W) as S. pose proof (COS_bound (lat * dtor)) as [Cl Cu].
  assert (Ee : 0.006694383 < e2 a_radius b_radius < 0.006694387).
  { unfold e2, a_radius, b_radius. split; (apply (Rmult_lt_reg_r (6378137 ^ 2)); [lra|]); unfold Rdiv; rewrite ?Rmult_assoc, ?Rinv_l by lra; lra. }
  assert (C2 : 0 <= cos (lat * dtor) ^ 2 <= 1) by (split; [apply pow2_ge_0|nra]).
  set (w := w2 a_radius b_radius (lat * dtor)) in *. set (e := e2 a_radius b_radius) in *. clearbody e.
  assert (Q : sqrt w * sqrt w = w) by (apply sqrt_sqrt; lra). set (s := sqrt w) in *.
  assert (Wr : 1 - e <= w <= 1) by (rewrite Wc; split; nra). clearbody w. 
  assert (Sr : 0.99664718 <= s <= 1).
  { split; apply Rnot_lt_le; intros N; nra. }
  clearbody s. unfold a_radius in *. split.
  - assert (P : 0.9933 * 0.9966 < w * s) by (apply Rmult_le_0_lt_compat; lra). assert (P1 : w * s <= 1) by nra.
    assert (P2 : (1 - e) * 0.99664718 <= w * s) by (apply Rmult_le_compat; lra).
    split; rewrite (Rmult_comm _ dtor); apply Rmult_lt_compat_l; try exact D.
    + apply (Rmult_lt_reg_r (w * s)); [lra|]. unfold Rdiv. rewrite Rmult_assoc, Rinv_l by lra. nra.
    + apply (Rmult_lt_reg_r (w * s)); [lra|]. unfold Rdiv. rewrite Rmult_assoc, Rinv_l by lra. nra.
  - intros HL. pose proof (deg_closed lat HL) as Cp. set (c := cos (lat * dtor)) in *. clearbody c.
    assert (c <= s).
    { apply Rnot_lt_le. intros N. assert (s * s < c * c) by nra. rewrite Q, Wc in H. nra. }
    assert (R : 0 <= c / s <= 1).
    { split; [apply Rmult_le_pos; [exact Cp|left; apply Rinv_0_lt_compat; exact S]|].
      apply (Rmult_le_reg_r s); [exact S|]. unfold Rdiv. rewrite Rmult_assoc, Rinv_l by lra. lra. }
    replace (dtor * (6378137 * c / s)) with (6378137 * dtor * (c / s)) by (field; lra). nra.
Qed.
Example C65_demo : let r := mkRti 0 2 2 3 3 40 in
  0 < xres r /\ 0 < yres r /\ Rabs (row_lat r 1) < Rabs (row_lat r 0) <= 90 /\ Rabs (row_lat r 0) < 90.
Proof.
  assert (L0 : row_lat (mkRti 0 2 2 3 3 40) 0 = 40 - 1 / 1200) by (unfold row_lat; cbn; lra).
  assert (L1 : row_lat (mkRti 0 2 2 3 3 40) 1 = 40 - 2 / 1200) by (unfold row_lat; cbn; lra).
  cbv zeta. rewrite L0, L1, !Rabs_pos_eq by lra. cbn [xres yres]. lra.
Qed.
Print Assumptions C65_degree_of_longitude.
Print Assumptions C65_degree_of_latitude.
Print Assumptions C65_sizes_positive.
Print Assumptions C65_towards_the_pole.
Print Assumptions C65_fixed_length.
Print Assumptions C65_kilometres.
Print Assumptions C65_areas.
Print Assumptions C65_hemispheres.
Print Assumptions C65_row_latitude.
Print Assumptions C65_width_at_middle_refuted.
Print Assumptions C65_degree_lengths.
