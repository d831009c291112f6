(* C84: map projections keep area or angles, are defined and one-to-one where they should be, and have their origin at (0,0). *)
From Coq Require Import Reals ZArith List Lra Lia.
From Verif Require Import Proj_Model.
Import ListNotations.
Local Open Scope R_scope.

(* ---------- specification ---------- *)
(* the point of the unit sphere with a longitude and latitude in degrees *)
Definition point (lon lat : R) : R * R * R := (cos (lat * d2r) * cos (lon * d2r), cos (lat * d2r) * sin (lon * d2r), sin (lat * d2r)).
Definition dot (p q : R * R * R) : R := let '(a, b, c) := p in let '(x, y, z) := q in a * x + b * y + c * z.
Definition dist2 (p q : R * R * R) : R := let '(a, b, c) := p in let '(x, y, z) := q in (a - x) ^ 2 + (b - y) ^ 2 + (c - z) ^ 2.
(* f is given by two functions on a domain *)
Definition given (f : R -> R -> option (R * R)) (dom : R -> R -> Prop) (X Y : R -> R -> R) : Prop := forall lon lat, dom lon lat -> f lon lat = Some (X lon lat, Y lon lat).
Definition partials (X Y : R -> R -> R) (lon lat xl xp yl yp : R) : Prop :=
  derivable_pt_lim (fun u => X u lat) lon xl /\ derivable_pt_lim (fun v => X lon v) lat xp /\ derivable_pt_lim (fun u => Y u lat) lon yl /\ derivable_pt_lim (fun v => Y lon v) lat yp.
(* the factor by which areas (per square degree) are multiplied *)
Definition area_factor (X Y : R -> R -> R) (lon lat A : R) : Prop := exists xl xp yl yp, partials X Y lon lat xl xp yl yp /\ xl * yp - xp * yl = A.
(* length along the parallel, per degree *)
Definition parallel_length (X Y : R -> R -> R) (lon lat L : R) : Prop := 0 <= L /\ exists xl xp yl yp, partials X Y lon lat xl xp yl yp /\ xl ^ 2 + yl ^ 2 = L ^ 2.
Definition anywhere (lon lat : R) : Prop := True.
(* ellipsoid: radii of curvature; the area of a square degree is meridian * prime * cos lat * d2r^2 *)
Definition prime (a e lat : R) : R := a / sqrt (1 - (e * sin (lat * d2r)) ^ 2).
Definition meridian (a e lat : R) : R := a * (1 - e ^ 2) / ((1 - (e * sin (lat * d2r)) ^ 2) * sqrt (1 - (e * sin (lat * d2r)) ^ 2)).

(* ---------- lemmas ---------- *)
Lemma nsqrt_ok x : 0 <= x -> nsqrt x = Some (sqrt x).
Proof. intro H. unfold nsqrt. destruct (Rle_dec 0 x); [reflexivity | contradiction]. Qed.
Lemma ndiv_ok x y : y <> 0 -> ndiv x y = Some (x / y).
Proof. intro H. unfold ndiv. destruct (Req_EM_T y 0); [contradiction | reflexivity]. Qed.
Lemma nlog_ok x : 0 < x -> nlog x = Some (ln x).
Proof. intro H. unfold nlog. destruct (Rlt_dec 0 x); [reflexivity | contradiction]. Qed.
Lemma dl_eq f x l m : derivable_pt_lim f x l -> l = m -> derivable_pt_lim f x m.
Proof. intros H ->. exact H. Qed.
Lemma dl_ext f g x l : (forall t, f t = g t) -> derivable_pt_lim g x l -> derivable_pt_lim f x l.
Proof. intros H D eps E. destruct (D eps E) as [d K]. exists d. intros h A B. rewrite !H. apply K; assumption. Qed.
Lemma dl_const c x : derivable_pt_lim (fun _ => c) x 0. Proof. apply derivable_pt_lim_const. Qed.
Lemma dl_id x : derivable_pt_lim (fun t => t) x 1. Proof. apply derivable_pt_lim_id. Qed.
Lemma dl_plus f g x l m : derivable_pt_lim f x l -> derivable_pt_lim g x m -> derivable_pt_lim (fun t => f t + g t) x (l + m).
Proof. apply derivable_pt_lim_plus. Qed.
Lemma dl_minus f g x l m : derivable_pt_lim f x l -> derivable_pt_lim g x m -> derivable_pt_lim (fun t => f t - g t) x (l - m).
Proof. apply derivable_pt_lim_minus. Qed.
Lemma dl_mult f g x l m : derivable_pt_lim f x l -> derivable_pt_lim g x m -> derivable_pt_lim (fun t => f t * g t) x (l * g x + f x * m).
Proof. apply derivable_pt_lim_mult. Qed.
Lemma dl_div f g x l m : derivable_pt_lim f x l -> derivable_pt_lim g x m -> g x <> 0 -> derivable_pt_lim (fun t => f t / g t) x ((l * g x - m * f x) / Rsqr (g x)).
Proof. intros A B C. exact (derivable_pt_lim_div f g x l m A B C). Qed.
Lemma dl_comp f g x l m : derivable_pt_lim f x l -> derivable_pt_lim g (f x) m -> derivable_pt_lim (fun t => g (f t)) x (m * l).
Proof. intros A B. exact (derivable_pt_lim_comp f g x l m A B). Qed.
Lemma dl_scale c f x l : derivable_pt_lim f x l -> derivable_pt_lim (fun t => c * f t) x (c * l).
Proof. intro H. apply derivable_pt_lim_scal. exact H. Qed.
Lemma dl_sin f x l : derivable_pt_lim f x l -> derivable_pt_lim (fun t => sin (f t)) x (cos (f x) * l).
Proof. intro H. apply dl_comp; [exact H | apply derivable_pt_lim_sin]. Qed.
Lemma dl_cos f x l : derivable_pt_lim f x l -> derivable_pt_lim (fun t => cos (f t)) x (- sin (f x) * l).
Proof. intro H. apply dl_comp; [exact H | apply derivable_pt_lim_cos]. Qed.
Lemma dl_sqrt f x l : 0 < f x -> derivable_pt_lim f x l -> derivable_pt_lim (fun t => sqrt (f t)) x (/ (2 * sqrt (f x)) * l).
Proof. intros P H. apply dl_comp; [exact H | apply derivable_pt_lim_sqrt, P]. Qed.
Lemma dl_ln f x l : 0 < f x -> derivable_pt_lim f x l -> derivable_pt_lim (fun t => ln (f t)) x (/ f x * l).
Proof. intros P H. apply dl_comp; [exact H | apply derivable_pt_lim_ln, P]. Qed.
Lemma d2r_pos : 0 < d2r.
Proof. unfold d2r. pose proof PI_RGT_0. lra. Qed.
Lemma deg a : a * d2r = a / 180 * PI. Proof. unfold d2r. field. Qed.
Lemma sc2 x : sin x * sin x + cos x * cos x = 1.
Proof. pose proof (sin2_cos2 x) as H. unfold Rsqr in H. exact H. Qed.
Lemma cos_deg_pos lat : -90 < lat < 90 -> 0 < cos (lat * d2r).
Proof. intro H. pose proof PI_RGT_0. apply cos_gt_0; rewrite deg; nra. Qed.
Lemma sin_deg_lt a b : -90 <= a -> b <= 90 -> a < b -> sin (a * d2r) < sin (b * d2r).
Proof. intros A B H. pose proof PI_RGT_0. apply sin_increasing_1; rewrite ?deg; try nra. Qed.
Lemma sin_deg_inj a b : -90 <= a <= 90 -> -90 <= b <= 90 -> sin (a * d2r) = sin (b * d2r) -> a = b.
Proof. intros A B H. destruct (Rtotal_order a b) as [L|[E|L]]; [|exact E|]; exfalso; [pose proof (sin_deg_lt a b ltac:(lra) ltac:(lra) L) | pose proof (sin_deg_lt b a ltac:(lra) ltac:(lra) L)]; lra. Qed.
(* the sines of the standard parallels *)
Definition s1 := sin (295/10 * d2r).
Definition s2 := sin (455/10 * d2r).
Lemma s_facts : 0 < s1 /\ s1 < s2 /\ s2 < 1.
Proof.
  unfold s1, s2. split; [|split].
  - rewrite <- sin_0. replace 0 with (0 * d2r) at 1 by ring. apply sin_deg_lt; lra.
  - apply sin_deg_lt; lra.
  - rewrite <- sin_PI2. replace (PI / 2) with (90 * d2r) by (unfold d2r; field). apply sin_deg_lt; lra.
Qed.
Lemma sin_in x : -1 <= sin x <= 1. Proof. apply SIN_bound. Qed.

(* conic projections *)
Definition conicX (K n : R) (g : R -> R) (lon0 u v : R) : R := K * sqrt (g v) * sin (n * (u * d2r - lon0)).
Definition conicY (K n : R) (g : R -> R) (lon0 r0 u v : R) : R := K * r0 - K * sqrt (g v) * cos (n * (u * d2r - lon0)).
Lemma conic_partials K n g lon0 r0 u v g' : 0 < g v -> derivable_pt_lim g v g' ->
  let r := sqrt (g v) in let th := n * (u * d2r - lon0) in
  partials (conicX K n g lon0) (conicY K n g lon0 r0) u v (K * r * cos th * (n * d2r)) (K * (g' / (2 * r)) * sin th) (K * r * sin th * (n * d2r)) (- (K * (g' / (2 * r)) * cos th)).
Proof.
  intros P D r th. assert (Rp : 0 < r) by (apply sqrt_lt_R0, P).
  assert (T : derivable_pt_lim (fun u => n * (u * d2r - lon0)) u (n * d2r)).
  { eapply dl_eq; [apply dl_scale, dl_minus; [apply dl_mult; [apply dl_id | apply dl_const] | apply dl_const] | cbv beta; ring]. }
  assert (S : derivable_pt_lim (fun v => K * sqrt (g v)) v (K * (g' / (2 * r)))).
  { eapply dl_eq; [apply dl_scale, dl_sqrt; [exact P | exact D] | cbv beta; fold r; field; lra]. }
  unfold partials, conicX, conicY. split; [|split; [|split]].
  - eapply dl_eq; [apply dl_scale, dl_sin, T | cbv beta; fold r th; ring].
  - eapply dl_eq; [apply dl_mult; [exact S | apply dl_const] | cbv beta; fold th; ring].
  - eapply dl_eq; [apply dl_minus; [apply dl_const | apply dl_scale, dl_cos, T] | cbv beta; fold r th; ring].
  - eapply dl_eq; [apply dl_minus; [apply dl_const | apply dl_mult; [exact S | apply dl_const]] | cbv beta; fold th; ring].
Qed.
Lemma conic_area K n g lon0 r0 u v g' A : 0 < g v -> derivable_pt_lim g v g' -> A = - (K ^ 2 * n * d2r * g' / 2) -> area_factor (conicX K n g lon0) (conicY K n g lon0 r0) u v A.
Proof.
  intros P D ->. pose proof (conic_partials K n g lon0 r0 u v g' P D) as H. cbv zeta in H. do 4 eexists. split; [exact H|]. assert (Rp : 0 < sqrt (g v)) by (apply sqrt_lt_R0, P). set (r := sqrt (g v)) in *. set (th := n * (u * d2r - lon0)) in *.
  transitivity (- (K ^ 2 * n * d2r * g' / 2) * (sin th * sin th + cos th * cos th)); [field; lra | rewrite sc2; ring].
Qed.
Lemma conic_parallel K n g lon0 r0 u v g' L : 0 < g v -> derivable_pt_lim g v g' -> 0 <= L -> L ^ 2 = K ^ 2 * g v * n ^ 2 * d2r ^ 2 -> parallel_length (conicX K n g lon0) (conicY K n g lon0 r0) u v L.
Proof.
  intros P D L0 E. split; [exact L0|]. pose proof (conic_partials K n g lon0 r0 u v g' P D) as H. cbv zeta in H. do 4 eexists. split; [exact H|]. set (th := n * (u * d2r - lon0)) in *. rewrite E. rewrite <- (sqrt_sqrt (g v)) at 3 by lra.
  transitivity (K ^ 2 * (sqrt (g v) * sqrt (g v)) * n ^ 2 * d2r ^ 2 * (sin th * sin th + cos th * cos th)); [ring | rewrite sc2; ring].
Qed.
Lemma polar_inj r r' t t' : 0 < r -> 0 < r' -> - PI < t < PI -> - PI < t' < PI -> r * sin t = r' * sin t' -> r * cos t = r' * cos t' -> r = r' /\ t = t'.
Proof.
  intros A B T T' H1 H2. pose proof (sc2 t). pose proof (sc2 t').
  assert (Q : r * r = r' * r'). { transitivity ((r * sin t) * (r * sin t) + (r * cos t) * (r * cos t)); [|rewrite H1, H2]; [transitivity (r * r * (sin t * sin t + cos t * cos t)); [rewrite H; ring | ring] | transitivity (r' * r' * (sin t' * sin t' + cos t' * cos t')); [ring | rewrite H0; ring]]. }
  assert (E : r = r') by (apply Rsqr_inj; [lra | lra | exact Q]). subst r'. split; [reflexivity|]. apply Rmult_eq_reg_l in H1; [|lra]. apply Rmult_eq_reg_l in H2; [|lra].
  assert (S0 : sin (t - t') = 0) by (rewrite sin_minus, H1, H2; ring). assert (C1 : cos (t - t') = 1) by (rewrite cos_minus, H1, H2; lra).
  pose proof PI_RGT_0. destruct (Rtotal_order (t - t') 0) as [L|[E|L]]; [|lra|].
  - exfalso. destruct (Rle_or_lt (- PI) (t - t')) as [M|M].
    + destruct (Req_dec (t - t') (- PI)) as [Z|Z]; [rewrite Z, cos_neg, cos_PI in C1; lra|]. pose proof (sin_gt_0 (- (t - t')) ltac:(lra) ltac:(lra)) as X. rewrite sin_neg in X. lra.
    + pose proof (sin_gt_0 (t - t' + 2 * PI) ltac:(lra) ltac:(lra)) as X. rewrite sin_plus, sin_2PI, cos_2PI in X. lra.
  - exfalso. destruct (Rle_or_lt (t - t') PI) as [M|M].
    + destruct (Req_dec (t - t') PI) as [Z|Z]; [rewrite Z, cos_PI in C1; lra|]. pose proof (sin_gt_0 (t - t') ltac:(lra) ltac:(lra)). lra.
    + pose proof (sin_lt_0 (t - t') ltac:(lra) ltac:(lra)). lra.
Qed.
Lemma conic_inj K n g lon0 r0 u v u' v' : 0 < K -> 0 < n < 1 -> 0 < g v -> 0 < g v' -> - PI <= u * d2r - lon0 <= PI -> - PI <= u' * d2r - lon0 <= PI ->
  conicX K n g lon0 u v = conicX K n g lon0 u' v' -> conicY K n g lon0 r0 u v = conicY K n g lon0 r0 u' v' -> u = u' /\ g v = g v'.
Proof.
  unfold conicX, conicY. intros PK N G G' U U' H1 H2. pose proof (sqrt_lt_R0 _ G). pose proof (sqrt_lt_R0 _ G'). pose proof PI_RGT_0.
  destruct (polar_inj (K * sqrt (g v)) (K * sqrt (g v')) (n * (u * d2r - lon0)) (n * (u' * d2r - lon0))) as [A B]; try nra. apply Rmult_eq_reg_l in A; [|lra]. apply Rmult_eq_reg_l in B; [|lra]. split.
  - apply (Rmult_eq_reg_r d2r); [lra | pose proof d2r_pos; lra].
  - apply sqrt_inj; lra.
Qed.

Lemma lon_range u : -276 <= u <= 84 -> - PI <= u * d2r - -96 * d2r <= PI.
Proof. intro H. pose proof PI_RGT_0. rewrite !deg. split; nra. Qed.
(* ---------- Albers, sphere ---------- *)
Definition sg (v : R) : R := 1 + s1 * s2 - (s1 + s2) * sin (v * d2r).
Lemma sg_pos v : 0 < sg v.
Proof. unfold sg. pose proof s_facts. pose proof (sin_in (v * d2r)). assert (0 < (1 - s1) * (1 - s2)) by (apply Rmult_lt_0_compat; lra). nra. Qed.
Lemma sg_d v : derivable_pt_lim sg v (- ((s1 + s2) * (cos (v * d2r) * d2r))).
Proof. unfold sg. eapply dl_eq; [apply dl_minus; [apply dl_const | apply dl_scale, dl_sin, dl_mult; [apply dl_id | apply dl_const]] | cbv beta; ring]. Qed.
Lemma albers_sphere_eq lon lat : albers_sphere lon lat = Some (conicX (6378137 / ((s1 + s2) / 2)) ((s1 + s2) / 2) sg (-96 * d2r) lon lat, conicY (6378137 / ((s1 + s2) / 2)) ((s1 + s2) / 2) sg (-96 * d2r) (sqrt (sg 23)) lon lat).
Proof.
  assert (G : forall v, cos (295/10 * d2r) ^ 2 + 2 * ((s1 + s2) / 2) * s1 - 2 * ((s1 + s2) / 2) * sin (v * d2r) = sg v).
  { intro v. unfold sg. pose proof (sc2 (295/10 * d2r)) as H. fold s1 in H. replace (cos (295/10 * d2r) ^ 2) with (1 - s1 * s1) by lra. field. }
  unfold albers_sphere. fold s1 s2. cbv zeta. rewrite !G, !nsqrt_ok by (left; apply sg_pos). cbn [bind]. rewrite ndiv_ok by (pose proof s_facts; lra). reflexivity.
Qed.
(* equal areas, defined everywhere *)
Theorem C84_albers_sphere_area : exists X Y, given albers_sphere anywhere X Y /\ forall lon lat, area_factor X Y lon lat (6378137 ^ 2 * cos (lat * d2r) * d2r ^ 2).
Proof.
  do 2 eexists. split; [intros lon lat _; apply albers_sphere_eq|]. intros lon lat. pose proof s_facts. eapply conic_area; [apply sg_pos | apply sg_d | field; lra].
Qed.
Print Assumptions C84_albers_sphere_area.
Theorem C84_albers_sphere_origin : albers_sphere (-96) 23 = Some (0, 0).
Proof. rewrite albers_sphere_eq. unfold conicX, conicY. replace ((s1 + s2) / 2 * (-96 * d2r - -96 * d2r)) with 0 by ring. rewrite sin_0, cos_0. f_equal. f_equal; ring. Qed.
Print Assumptions C84_albers_sphere_origin.
(* true lengths along the two standard parallels *)
Theorem C84_albers_sphere_standard : exists X Y, given albers_sphere anywhere X Y /\ forall lon lat, lat = 295/10 \/ lat = 455/10 -> parallel_length X Y lon lat (6378137 * cos (lat * d2r) * d2r).
Proof.
  do 2 eexists. split; [intros lon lat _; apply albers_sphere_eq|]. intros lon lat L. pose proof s_facts. pose proof d2r_pos. pose proof (cos_deg_pos lat ltac:(lra)). eapply conic_parallel; [apply sg_pos | apply sg_d | |].
  - apply Rmult_le_pos; [apply Rmult_le_pos; lra | lra].
  - assert (E : sg lat = cos (lat * d2r) * cos (lat * d2r)). { pose proof (sc2 (lat * d2r)). unfold sg. destruct L as [-> | ->]; fold s1 s2 in *; lra. }
    rewrite E. field. lra.
Qed.
Print Assumptions C84_albers_sphere_standard.
(* no two points of the earth (up to the pole) share a point of the map *)
Theorem C84_albers_sphere_injective lon lat lon' lat' : -276 <= lon <= 84 -> -276 <= lon' <= 84 -> -90 <= lat <= 90 -> -90 <= lat' <= 90 ->
  albers_sphere lon lat = albers_sphere lon' lat' -> lon = lon' /\ lat = lat'.
Proof.
  intros A A' B B'. rewrite !albers_sphere_eq. intro E. pose proof s_facts. pose proof PI_RGT_0. assert (N : 0 < (s1 + s2) / 2 < 1) by lra. apply (f_equal (fun o => match o with Some p => p | None => (0, 0) end)) in E. pose proof (f_equal fst E) as E1. pose proof (f_equal snd E) as E2. cbn [fst snd] in E1, E2.
  assert (KP : 0 < 6378137 / ((s1 + s2) / 2)) by (apply Rdiv_lt_0_compat; lra).
  destruct (conic_inj _ _ _ _ _ _ _ _ _ KP N (sg_pos lat) (sg_pos lat') (lon_range _ A) (lon_range _ A') E1 E2) as [U V].
  split; [exact U|]. apply sin_deg_inj; [exact B | exact B'|]. unfold sg in V. apply (Rmult_eq_reg_l (s1 + s2)); lra.
Qed.
Print Assumptions C84_albers_sphere_injective.

(* ---------- Albers, ellipsoid ---------- *)
Lemma flat_range : 0 < flat < 1.
Proof. unfold flat. split; lra. Qed.
Lemma ecc2 : ecc ^ 2 = flat * (2 - flat).
Proof. unfold ecc. pose proof flat_range. rewrite pow2_sqrt; [reflexivity | nra]. Qed.
Lemma ecc_range : 0 < ecc < 1.
Proof. pose proof flat_range. assert (0 < ecc) by (apply sqrt_lt_R0; nra). split; [assumption|]. pose proof ecc2. nra. Qed.
Section Ell.
Variable e : R.
Hypothesis He : 0 < e < 1.
(* functions of the sine of the latitude *)
Definition W (s : R) : R := 1 - (e * s) ^ 2.
Definition qs (s : R) : R := (1 - e ^ 2) * (s / W s - ln ((1 - e * s) / (1 + e * s)) / (2 * e)).
Definition ms (s : R) : R := (1 - s ^ 2) / W s.
Lemma es_range s : -1 <= s <= 1 -> -1 < e * s < 1. Proof. intro H. split; nra. Qed.
Lemma W_pos s : -1 <= s <= 1 -> 0 < W s.
Proof. intro H. pose proof (es_range s H). unfold W. nra. Qed.
Lemma f_pos s : -1 <= s <= 1 -> 0 < (1 - e * s) / (1 + e * s).
Proof. intro H. pose proof (es_range s H). apply Rdiv_lt_0_compat; lra. Qed.
Lemma qs_d s : -1 <= s <= 1 -> derivable_pt_lim qs s (2 * (1 - e ^ 2) / W s ^ 2).
Proof.
  intro H. pose proof (es_range s H) as E. pose proof (W_pos s H) as P. pose proof (f_pos s H) as F. unfold qs.
  assert (DW : derivable_pt_lim W s (- (2 * e ^ 2 * s))).
  { unfold W. apply (dl_ext _ (fun s => 1 - (e * s) * (e * s))); [intro t; ring|]. eapply dl_eq; [apply dl_minus; [apply dl_const | apply dl_mult; apply dl_scale, dl_id] | cbv beta; ring]. }
  assert (DL : derivable_pt_lim (fun s => ln ((1 - e * s) / (1 + e * s))) s (- (2 * e) / W s)).
  { eapply dl_eq; [apply dl_ln; [exact F | apply dl_div; [apply dl_minus; [apply dl_const | apply dl_scale, dl_id] | apply dl_plus; [apply dl_const | apply dl_scale, dl_id] | lra]]|]. cbv beta. unfold Rsqr, W. field. repeat split; try lra. assert (0 < 1 - (e * s) ^ 2) by exact P. nra. }
  eapply dl_eq; [apply dl_scale, dl_minus; [apply dl_div; [apply dl_id | exact DW | lra] | apply dl_div; [exact DL | apply dl_const | lra]]|]. cbv beta. unfold Rsqr. field_simplify_eq; [|repeat split; lra|lra..]. unfold W. ring.
Qed.
Lemma ms_d s : -1 <= s <= 1 -> derivable_pt_lim ms s (- s * (2 * (1 - e ^ 2) / W s ^ 2)).
Proof.
  intro H. pose proof (W_pos s H) as P. unfold ms.
  assert (DW : derivable_pt_lim W s (- (2 * e ^ 2 * s))).
  { unfold W. apply (dl_ext _ (fun s => 1 - (e * s) * (e * s))); [intro t; ring|]. eapply dl_eq; [apply dl_minus; [apply dl_const | apply dl_mult; apply dl_scale, dl_id] | cbv beta; ring]. }
  assert (DN : derivable_pt_lim (fun s => 1 - s ^ 2) s (- (2 * s))).
  { apply (dl_ext _ (fun s => 1 - s * s)); [intro t; ring|]. eapply dl_eq; [apply dl_minus; [apply dl_const | apply dl_mult; apply dl_id] | cbv beta; ring]. }
  eapply dl_eq; [apply dl_div; [exact DN | exact DW | lra]|]. cbv beta. unfold Rsqr. field_simplify_eq; [|lra..]. unfold W. ring.
Qed.
Lemma q'_pos s : -1 <= s <= 1 -> 0 < 2 * (1 - e ^ 2) / W s ^ 2.
Proof. intro H. pose proof (W_pos s H). apply Rdiv_lt_0_compat; [nra | nra]. Qed.
Lemma qs_lt a b : -1 <= a -> b <= 1 -> a < b -> qs a < qs b.
Proof.
  intros A B L. destruct (MVT_cor2 qs (fun s => 2 * (1 - e ^ 2) / W s ^ 2) a b L) as (c & E & C); [intros c C; apply qs_d; lra|]. pose proof (q'_pos c ltac:(lra)). nra.
Qed.
Variables a b : R.
Hypothesis Hab : 0 < a /\ a < b /\ b < 1.
Definition nn : R := (ms a - ms b) / (qs b - qs a).
Lemma nn_eq : nn * (qs b - qs a) = ms a - ms b.
Proof. unfold nn. field. pose proof (qs_lt a b ltac:(lra) ltac:(lra) ltac:(lra)). lra. Qed.
(* n is the sine of a latitude between the standard parallels *)
Lemma nn_range : a < nn < b.
Proof.
  destruct (MVT_cor2 (fun s => ms s + nn * qs s) (fun s => - s * (2 * (1 - e ^ 2) / W s ^ 2) + nn * (2 * (1 - e ^ 2) / W s ^ 2)) a b ltac:(lra)) as (c & E & C).
  - intros c C. apply dl_plus; [apply ms_d; lra | apply dl_scale, qs_d; lra].
  - pose proof nn_eq as N. pose proof (q'_pos c ltac:(lra)) as P. set (q' := 2 * (1 - e ^ 2) / W c ^ 2) in *. assert (Z : (nn - c) * (q' * (b - a)) = 0) by nra. apply Rmult_integral in Z. destruct Z as [Z|Z]; [lra | nra].
Qed.
Definition gs (s : R) : R := ms a + nn * qs a - nn * qs s.
Lemma ms_nonneg s : -1 <= s <= 1 -> 0 <= ms s.
Proof. intro H. pose proof (W_pos s H). unfold ms. apply Rmult_le_pos; [nra | left; apply Rinv_0_lt_compat; lra]. Qed.
Lemma gs_pos s : -1 <= s <= 1 -> 0 < gs s.
Proof.
  intro H. pose proof nn_range as N. assert (MB : 0 < ms b) by (unfold ms; apply Rdiv_lt_0_compat; [nra | apply W_pos; lra]). assert (GB : gs b = ms b) by (unfold gs; pose proof nn_eq; lra).
  destruct (Rle_or_lt s b) as [L|L].
  - destruct (Req_dec s b) as [->|D]; [lra|]. pose proof (qs_lt s b ltac:(lra) ltac:(lra) ltac:(lra)). assert (gs b < gs s) by (unfold gs; nra). lra.
  - (* past the second parallel gs - ms grows *)
    destruct (MVT_cor2 (fun s => gs s - ms s) (fun s => - (nn * (2 * (1 - e ^ 2) / W s ^ 2)) - (- s * (2 * (1 - e ^ 2) / W s ^ 2))) b s L) as (c & E & C).
    + intros c C. apply dl_minus; [|apply ms_d; lra]. unfold gs. eapply dl_eq; [apply dl_minus; [apply dl_const | apply dl_scale, qs_d; lra] | ring].
    + pose proof (q'_pos c ltac:(lra)) as P. set (q' := 2 * (1 - e ^ 2) / W c ^ 2) in *. pose proof (ms_nonneg s H). assert (0 < (c - nn) * q' * (s - b)) by (apply Rmult_lt_0_compat; [apply Rmult_lt_0_compat; lra | lra]). nra.
Qed.
Lemma gs_a : gs a = ms a. Proof. unfold gs. ring. Qed.
Lemma gs_b : gs b = ms b. Proof. unfold gs. pose proof nn_eq. lra. Qed.
End Ell.
Definition en : R := nn ecc s1 s2.
Definition eg (v : R) : R := gs ecc s1 s2 (sin (v * d2r)).
Lemma q_eq lat : albers_q lat ecc = Some (qs ecc (sin lat)).
Proof.
  pose proof (sin_in lat) as S. pose proof ecc_range as E. pose proof (W_pos ecc E _ S) as P. pose proof (f_pos ecc E _ S). pose proof (es_range ecc E _ S). unfold W in P. unfold albers_q. rewrite ndiv_ok by lra. cbn [bind]. rewrite ndiv_ok by lra. cbn [bind]. rewrite nlog_ok by assumption. cbn [bind]. rewrite ndiv_ok by lra. reflexivity.
Qed.
Lemma m_eq lat : albers_m lat ecc = Some (cos lat / sqrt (W ecc (sin lat))).
Proof. pose proof (W_pos ecc ecc_range _ (sin_in lat)) as P. unfold albers_m. unfold W in *. rewrite nsqrt_ok by lra. cbn [bind]. apply ndiv_ok. pose proof (sqrt_lt_R0 _ P). lra. Qed.
Lemma m_sq lat : (cos lat / sqrt (W ecc (sin lat))) ^ 2 = ms ecc (sin lat).
Proof.
  pose proof (W_pos ecc ecc_range _ (sin_in lat)) as P. pose proof (sqrt_lt_R0 _ P). unfold ms. pose proof (sc2 lat). replace (1 - sin lat ^ 2) with (cos lat * cos lat) by lra. rewrite <- (sqrt_sqrt (W ecc (sin lat))) at 2 by lra. field. lra.
Qed.
Lemma en_pos : 0 < en < 1.
Proof. pose proof (nn_range ecc ecc_range s1 s2 s_facts). pose proof s_facts. unfold en. lra. Qed.
Lemma eg_pos v : 0 < eg v.
Proof. apply gs_pos; [apply ecc_range | apply s_facts | apply sin_in]. Qed.
Lemma eg_d v : derivable_pt_lim eg v (- (en * (2 * (1 - ecc ^ 2) / W ecc (sin (v * d2r)) ^ 2 * (cos (v * d2r) * d2r)))).
Proof.
  unfold eg, gs. eapply dl_eq; [apply dl_minus; [apply dl_const | apply dl_scale; apply (dl_comp (fun v => sin (v * d2r)) (qs ecc)); [apply dl_sin, dl_mult; [apply dl_id | apply dl_const] | apply qs_d; [apply ecc_range | apply sin_in]]]|]. cbv beta. unfold en. ring.
Qed.
Lemma albers_ellipsoid_eq lon lat : albers_ellipsoid lon lat = Some (conicX (6378137 / en) en eg (-96 * d2r) lon lat, conicY (6378137 / en) en eg (-96 * d2r) (sqrt (eg 23)) lon lat).
Proof.
  unfold albers_ellipsoid. cbv zeta. rewrite !m_eq, !q_eq. cbn [bind]. rewrite !m_sq. fold s1 s2. pose proof (qs_lt ecc ecc_range s1 s2) as L. pose proof s_facts. rewrite ndiv_ok by (specialize (L ltac:(lra) ltac:(lra) ltac:(lra)); lra). cbn [bind].
  change ((ms ecc s1 - ms ecc s2) / (qs ecc s2 - qs ecc s1)) with en. change (ms ecc s1 + en * qs ecc s1 - en * qs ecc (sin (lat * d2r))) with (eg lat). change (ms ecc s1 + en * qs ecc s1 - en * qs ecc (sin (23 * d2r))) with (eg 23).
  rewrite !nsqrt_ok by (left; apply eg_pos). cbn [bind]. pose proof en_pos. rewrite ndiv_ok by lra. reflexivity.
Qed.
Lemma W_sqrt lat : 1 - (ecc * sin (lat * d2r)) ^ 2 = W ecc (sin (lat * d2r)). Proof. reflexivity. Qed.
(* equal areas: a square degree has the area it has on the ellipsoid *)
Theorem C84_albers_ellipsoid_area : exists X Y, given albers_ellipsoid anywhere X Y /\
  forall lon lat, area_factor X Y lon lat (meridian 6378137 ecc lat * (prime 6378137 ecc lat * cos (lat * d2r)) * d2r ^ 2).
Proof.
  do 2 eexists. split; [intros lon lat _; apply albers_ellipsoid_eq|]. intros lon lat. pose proof en_pos. eapply conic_area; [apply eg_pos | apply eg_d|]. unfold meridian, prime. rewrite W_sqrt. pose proof (W_pos ecc ecc_range _ (sin_in (lat * d2r))) as P. set (w := W ecc (sin (lat * d2r))) in *. pose proof (sqrt_lt_R0 _ P).
  rewrite <- (sqrt_sqrt w) at 4 by lra. rewrite <- (sqrt_sqrt w) at 1 by lra. field. repeat split; lra.
Qed.
Print Assumptions C84_albers_ellipsoid_area.
Theorem C84_albers_ellipsoid_origin : albers_ellipsoid (-96) 23 = Some (0, 0).
Proof. rewrite albers_ellipsoid_eq. unfold conicX, conicY. replace (en * (-96 * d2r - -96 * d2r)) with 0 by ring. rewrite sin_0, cos_0. f_equal. f_equal; ring. Qed.
Print Assumptions C84_albers_ellipsoid_origin.
Theorem C84_albers_ellipsoid_standard : exists X Y, given albers_ellipsoid anywhere X Y /\ forall lon lat, lat = 295/10 \/ lat = 455/10 -> parallel_length X Y lon lat (prime 6378137 ecc lat * cos (lat * d2r) * d2r).
Proof.
  do 2 eexists. split; [intros lon lat _; apply albers_ellipsoid_eq|]. intros lon lat L. pose proof en_pos. pose proof d2r_pos. pose proof (cos_deg_pos lat ltac:(lra)) as CP. pose proof (W_pos ecc ecc_range _ (sin_in (lat * d2r))) as P. pose proof (sqrt_lt_R0 _ P) as SP. unfold prime. rewrite W_sqrt. eapply conic_parallel; [apply eg_pos | apply eg_d | |].
  - apply Rmult_le_pos; [apply Rmult_le_pos; [left; apply Rdiv_lt_0_compat; lra | lra] | lra].
  - assert (E : eg lat = ms ecc (sin (lat * d2r))). { unfold eg. destruct L as [-> | ->]; fold s1 s2; [apply gs_a | apply gs_b; [apply ecc_range | apply s_facts]]. }
    rewrite E, <- m_sq. field. lra.
Qed.
Print Assumptions C84_albers_ellipsoid_standard.
Theorem C84_albers_ellipsoid_injective lon lat lon' lat' : -276 <= lon <= 84 -> -276 <= lon' <= 84 -> -90 <= lat <= 90 -> -90 <= lat' <= 90 ->
  albers_ellipsoid lon lat = albers_ellipsoid lon' lat' -> lon = lon' /\ lat = lat'.
Proof.
  intros A A' B B'. rewrite !albers_ellipsoid_eq. intro E. pose proof en_pos as N. apply (f_equal (fun o => match o with Some p => p | None => (0, 0) end)) in E. pose proof (f_equal fst E) as E1. pose proof (f_equal snd E) as E2. cbn [fst snd] in E1, E2.
  assert (KP : 0 < 6378137 / en) by (apply Rdiv_lt_0_compat; lra).
  destruct (conic_inj _ _ _ _ _ _ _ _ _ KP N (eg_pos lat) (eg_pos lat') (lon_range _ A) (lon_range _ A') E1 E2) as [U V].
  split; [exact U|]. apply sin_deg_inj; [exact B | exact B'|]. unfold eg, gs in V. fold en in V. assert (Q : qs ecc (sin (lat * d2r)) = qs ecc (sin (lat' * d2r))) by (apply (Rmult_eq_reg_l en); lra).
  pose proof (sin_in (lat * d2r)). pose proof (sin_in (lat' * d2r)). destruct (Rtotal_order (sin (lat * d2r)) (sin (lat' * d2r))) as [L|[Z|L]]; [|exact Z|]; exfalso; apply (qs_lt ecc ecc_range) in L; lra.
Qed.
Print Assumptions C84_albers_ellipsoid_injective.

(* ---------- Lambert ---------- *)
(* the point in the frame of the centre: east, north, towards the centre *)
Definition lE (lon0 lat1 u v : R) : R := cos (v * d2r) * sin (u * d2r - lon0 * d2r).
Definition lN (lon0 lat1 u v : R) : R := cos (lat1 * d2r) * sin (v * d2r) - sin (lat1 * d2r) * cos (v * d2r) * cos (u * d2r - lon0 * d2r).
Definition lC (lon0 lat1 u v : R) : R := sin (lat1 * d2r) * sin (v * d2r) + cos (lat1 * d2r) * cos (v * d2r) * cos (u * d2r - lon0 * d2r).
Definition lk (lon0 lat1 u v : R) : R := sqrt (2 / (1 + lC lon0 lat1 u v)).
Definition lX (lon0 lat1 u v : R) : R := 6370997 * (lk lon0 lat1 u v * lE lon0 lat1 u v).
Definition lY (lon0 lat1 u v : R) : R := 6370997 * (lk lon0 lat1 u v * lN lon0 lat1 u v).
Lemma lC_dot lon0 lat1 u v : lC lon0 lat1 u v = dot (point lon0 lat1) (point u v).
Proof. unfold lC, dot, point. rewrite cos_minus. ring. Qed.
Lemma frame_unit lon0 lat1 u v : lE lon0 lat1 u v ^ 2 + lN lon0 lat1 u v ^ 2 + lC lon0 lat1 u v ^ 2 = 1.
Proof.
  unfold lE, lN, lC. pose proof (sc2 (v * d2r)) as A. pose proof (sc2 (lat1 * d2r)) as B. pose proof (sc2 (u * d2r - lon0 * d2r)) as C. set (sp := sin (v * d2r)) in *. set (cp := cos (v * d2r)) in *. set (a := sin (lat1 * d2r)) in *. set (b := cos (lat1 * d2r)) in *. set (sl := sin (u * d2r - lon0 * d2r)) in *. set (cl := cos (u * d2r - lon0 * d2r)) in *.
  transitivity (cp * cp * (sl * sl + cl * cl * (a * a + b * b)) + sp * sp * (a * a + b * b)); [ring|]. rewrite B. rewrite !Rmult_1_r. rewrite C. lra.
Qed.
Lemma lC_range lon0 lat1 u v : -1 <= lC lon0 lat1 u v <= 1.
Proof. pose proof (frame_unit lon0 lat1 u v). set (c := lC _ _ _ _) in *. assert (c ^ 2 <= 1) by nra. split; nra. Qed.
Definition opposite (lon0 lat1 u v : R) : Prop := dot (point lon0 lat1) (point u v) = -1.
Lemma lambert_eq lon0 lat1 u v : ~ opposite lon0 lat1 u v -> 0 < 1 + lC lon0 lat1 u v /\ lambert lon0 lat1 u v = Some (lX lon0 lat1 u v, lY lon0 lat1 u v).
Proof.
  intro H. unfold opposite in H. rewrite <- lC_dot in H. pose proof (lC_range lon0 lat1 u v). assert (P : 0 < 1 + lC lon0 lat1 u v) by lra. split; [exact P|]. unfold lambert. cbv zeta.
  assert (E : 1 + sin (lat1 * d2r) * sin (v * d2r) + cos (lat1 * d2r) * cos (v * d2r) * cos (u * d2r - lon0 * d2r) = 1 + lC lon0 lat1 u v) by (unfold lC; ring). rewrite E, ndiv_ok by lra. cbn [bind]. rewrite nsqrt_ok by (left; apply Rdiv_lt_0_compat; lra). cbn [bind]. unfold lX, lY, lk, lE, lN. f_equal. f_equal; ring.
Qed.
Theorem C84_lambert_defined lon0 lat1 lon lat : lambert lon0 lat1 lon lat = None <-> opposite lon0 lat1 lon lat.
Proof.
  split; intro H.
  - destruct (Req_dec (dot (point lon0 lat1) (point lon lat)) (-1)) as [E|E]; [exact E|]. destruct (lambert_eq lon0 lat1 lon lat E) as [_ X]. rewrite X in H. discriminate.
  - unfold opposite in H. rewrite <- lC_dot in H. unfold lambert. cbv zeta. assert (E : 1 + sin (lat1 * d2r) * sin (lat * d2r) + cos (lat1 * d2r) * cos (lat * d2r) * cos (lon * d2r - lon0 * d2r) = 0) by (unfold lC in H; lra). rewrite E. unfold ndiv. destruct (Req_EM_T 0 0); [reflexivity | contradiction].
Qed.
Print Assumptions C84_lambert_defined.
Lemma k2 lon0 lat1 u v : 0 < 1 + lC lon0 lat1 u v -> lk lon0 lat1 u v * lk lon0 lat1 u v = 2 / (1 + lC lon0 lat1 u v).
Proof. intro P. apply sqrt_sqrt. left. apply Rdiv_lt_0_compat; lra. Qed.
Lemma lambert_partials lon0 lat1 u v : 0 < 1 + lC lon0 lat1 u v ->
  exists El Ep Nl Np Cl Cp kl kp, partials (lX lon0 lat1) (lY lon0 lat1) u v
     (6370997 * (kl * lE lon0 lat1 u v + lk lon0 lat1 u v * El)) (6370997 * (kp * lE lon0 lat1 u v + lk lon0 lat1 u v * Ep)) (6370997 * (kl * lN lon0 lat1 u v + lk lon0 lat1 u v * Nl)) (6370997 * (kp * lN lon0 lat1 u v + lk lon0 lat1 u v * Np)) /\
   El = d2r * (cos (v * d2r) * cos (u * d2r - lon0 * d2r)) /\ Ep = d2r * (- sin (v * d2r) * sin (u * d2r - lon0 * d2r)) /\
   Nl = d2r * (sin (lat1 * d2r) * cos (v * d2r) * sin (u * d2r - lon0 * d2r)) /\ Np = d2r * (cos (lat1 * d2r) * cos (v * d2r) + sin (lat1 * d2r) * sin (v * d2r) * cos (u * d2r - lon0 * d2r)) /\
   Cl = d2r * (- (cos (lat1 * d2r) * cos (v * d2r) * sin (u * d2r - lon0 * d2r))) /\ Cp = d2r * (sin (lat1 * d2r) * cos (v * d2r) - cos (lat1 * d2r) * sin (v * d2r) * cos (u * d2r - lon0 * d2r)) /\
   kl = - (lk lon0 lat1 u v * Cl / (2 * (1 + lC lon0 lat1 u v))) /\ kp = - (lk lon0 lat1 u v * Cp / (2 * (1 + lC lon0 lat1 u v))).
Proof.
  intro P. do 8 eexists. split; [|repeat (split; [reflexivity|]); reflexivity].
  assert (TL : derivable_pt_lim (fun u => u * d2r - lon0 * d2r) u d2r) by (eapply dl_eq; [apply dl_minus; [apply dl_mult; [apply dl_id | apply dl_const] | apply dl_const] | cbv beta; ring]).
  assert (TP : derivable_pt_lim (fun v => v * d2r) v d2r) by (eapply dl_eq; [apply dl_mult; [apply dl_id | apply dl_const] | cbv beta; ring]).
  assert (K : forall C t c', 0 < 1 + C t -> derivable_pt_lim C t c' -> derivable_pt_lim (fun t => sqrt (2 / (1 + C t))) t (- (sqrt (2 / (1 + C t)) * c' / (2 * (1 + C t))))).
  { intros C t c' Q D. pose proof (Rdiv_lt_0_compat 2 _ ltac:(lra) Q) as Q2. pose proof (sqrt_lt_R0 _ Q2) as Q3. eapply dl_eq; [apply dl_sqrt; [exact Q2 | apply dl_div; [apply dl_const | apply dl_plus; [apply dl_const | exact D] | lra]]|]. cbv beta. unfold Rsqr. pose proof (sqrt_sqrt (2 / (1 + C t)) ltac:(lra)) as S. set (k := sqrt (2 / (1 + C t))) in *.
    apply (Rmult_eq_reg_l (2 * k * (1 + C t))); [|apply Rmult_integral_contrapositive_currified; lra]. transitivity (- (2 * c' / (1 + C t))); [field; lra|]. transitivity (- (k * k * c')); [rewrite S; field; lra | field; lra]. }
  assert (CL : derivable_pt_lim (fun u => lC lon0 lat1 u v) u (d2r * (- (cos (lat1 * d2r) * cos (v * d2r) * sin (u * d2r - lon0 * d2r))))).
  { unfold lC. eapply dl_eq; [apply dl_plus; [apply dl_const | apply dl_scale, dl_cos, TL] | cbv beta; ring]. }
  assert (CP : derivable_pt_lim (fun v => lC lon0 lat1 u v) v (d2r * (sin (lat1 * d2r) * cos (v * d2r) - cos (lat1 * d2r) * sin (v * d2r) * cos (u * d2r - lon0 * d2r)))).
  { unfold lC. eapply dl_eq; [apply dl_plus; [apply dl_scale, dl_sin, TP | apply dl_mult; [apply dl_scale, dl_cos, TP | apply dl_const]] | cbv beta; ring]. }
  assert (KL := K (fun t => lC lon0 lat1 t v) u _ P CL). assert (KP := K (fun t => lC lon0 lat1 u t) v _ P CP). cbv beta in KL, KP.
  assert (M : forall f g x l m, derivable_pt_lim f x l -> derivable_pt_lim g x m -> derivable_pt_lim (fun t => 6370997 * (f t * g t)) x (6370997 * (l * g x + f x * m))) by (intros; apply dl_scale, dl_mult; assumption).
  split; [|split; [|split]].
  - apply (M (fun t => lk lon0 lat1 t v) (fun t => lE lon0 lat1 t v)); [exact KL|]. unfold lE. eapply dl_eq; [apply dl_scale, dl_sin, TL | cbv beta; ring].
  - apply (M (fun t => lk lon0 lat1 u t) (fun t => lE lon0 lat1 u t)); [exact KP|]. unfold lE. eapply dl_eq; [apply dl_mult; [apply dl_cos, TP | apply dl_const] | cbv beta; ring].
  - apply (M (fun t => lk lon0 lat1 t v) (fun t => lN lon0 lat1 t v)); [exact KL|]. unfold lN. eapply dl_eq; [apply dl_minus; [apply dl_const | apply dl_scale, dl_cos, TL] | cbv beta; ring].
  - apply (M (fun t => lk lon0 lat1 u t) (fun t => lN lon0 lat1 u t)); [exact KP|]. unfold lN. eapply dl_eq; [apply dl_minus; [apply dl_scale, dl_sin, TP | apply dl_mult; [apply dl_scale, dl_cos, TP | apply dl_const]] | cbv beta; ring].
Qed.
(* equal areas, everywhere but at the opposite point *)
Theorem C84_lambert_area lon0 lat1 : exists X Y, given (lambert lon0 lat1) (fun lon lat => ~ opposite lon0 lat1 lon lat) X Y /\
  forall lon lat, ~ opposite lon0 lat1 lon lat -> area_factor X Y lon lat (6370997 ^ 2 * cos (lat * d2r) * d2r ^ 2).
Proof.
  exists (lX lon0 lat1), (lY lon0 lat1). split; [intros lon lat H; apply lambert_eq, H|]. intros u v H. destruct (lambert_eq lon0 lat1 u v H) as [P _]. destruct (lambert_partials lon0 lat1 u v P) as (El & Ep & Nl & Np & Cl & Cp & kl & kp & D & E1 & E2 & E3 & E4 & E5 & E6 & E7 & E8). do 4 eexists. split; [exact D|]. clear D.
  pose proof (k2 lon0 lat1 u v P) as K2. pose proof (frame_unit lon0 lat1 u v) as FU. set (k := lk lon0 lat1 u v) in *.
  (* the three minors of the frame *)
  pose proof (sc2 (v * d2r)) as A. pose proof (sc2 (lat1 * d2r)) as B. pose proof (sc2 (u * d2r - lon0 * d2r)) as C.
  assert (J1 : El * Np - Ep * Nl = d2r ^ 2 * cos (v * d2r) * lC lon0 lat1 u v).
  { rewrite E1, E2, E3, E4. unfold lC. set (sp := sin (v * d2r)) in *. set (cp := cos (v * d2r)) in *. set (a := sin (lat1 * d2r)) in *. set (b := cos (lat1 * d2r)) in *. set (sl := sin (u * d2r - lon0 * d2r)) in *. set (cl := cos (u * d2r - lon0 * d2r)) in *.
    transitivity (d2r ^ 2 * cp * (b * cp * cl + a * sp * (sl * sl + cl * cl))); [ring | rewrite C; ring]. }
  assert (J2 : Nl * Cp - Np * Cl = d2r ^ 2 * cos (v * d2r) * lE lon0 lat1 u v).
  { rewrite E3, E4, E5, E6. unfold lE. set (sp := sin (v * d2r)) in *. set (cp := cos (v * d2r)) in *. set (a := sin (lat1 * d2r)) in *. set (b := cos (lat1 * d2r)) in *. set (sl := sin (u * d2r - lon0 * d2r)) in *. set (cl := cos (u * d2r - lon0 * d2r)) in *.
    transitivity (d2r ^ 2 * cp * (cp * sl * (a * a + b * b))); [ring | rewrite B; ring]. }
  assert (J3 : Cl * Ep - Cp * El = d2r ^ 2 * cos (v * d2r) * lN lon0 lat1 u v).
  { rewrite E1, E2, E5, E6. unfold lN. set (sp := sin (v * d2r)) in *. set (cp := cos (v * d2r)) in *. set (a := sin (lat1 * d2r)) in *. set (b := cos (lat1 * d2r)) in *. set (sl := sin (u * d2r - lon0 * d2r)) in *. set (cl := cos (u * d2r - lon0 * d2r)) in *.
    transitivity (d2r ^ 2 * cp * (b * sp * (sl * sl + cl * cl) - a * cp * cl)); [ring | rewrite C; ring]. }
  rewrite E7, E8. clear E1 E2 E3 E4 E5 E6 E7 E8 kl kp A B C. set (x := lE lon0 lat1 u v) in *. set (y := lN lon0 lat1 u v) in *. set (c := lC lon0 lat1 u v) in *. set (cp := cos (v * d2r)) in *.
  transitivity (6370997 ^ 2 * (k * k) * ((El * Np - Ep * Nl) + (x * (Nl * Cp - Np * Cl) + y * (Cl * Ep - Cp * El)) / (2 * (1 + c)))); [field; lra|].
  rewrite J1, J2, J3, K2. transitivity (6370997 ^ 2 * cp * d2r ^ 2 * (2 / (1 + c) * (c + (x ^ 2 + y ^ 2) / (2 * (1 + c))))); [field; lra|]. replace (x ^ 2 + y ^ 2) with (1 - c ^ 2) by lra. field. lra.
Qed.
Print Assumptions C84_lambert_area.
(* the distance from the map's origin is the straight distance to the centre *)
Theorem C84_lambert_distance lon0 lat1 lon lat x y : lambert lon0 lat1 lon lat = Some (x, y) -> x ^ 2 + y ^ 2 = 6370997 ^ 2 * dist2 (point lon0 lat1) (point lon lat).
Proof.
  intro E. destruct (Req_dec (dot (point lon0 lat1) (point lon lat)) (-1)) as [H|H]; [apply C84_lambert_defined in H; rewrite E in H; discriminate|]. destruct (lambert_eq lon0 lat1 lon lat H) as [P X]. rewrite E in X. apply (f_equal (fun o => match o with Some p => p | None => (0, 0) end)) in X. pose proof (f_equal fst X) as X1. pose proof (f_equal snd X) as X2. cbn [fst snd] in X1, X2. rewrite X1, X2. unfold lX, lY.
  pose proof (k2 lon0 lat1 lon lat P) as K2. pose proof (frame_unit lon0 lat1 lon lat) as FU. assert (D : dist2 (point lon0 lat1) (point lon lat) = 2 * (1 - lC lon0 lat1 lon lat)).
  { rewrite lC_dot. unfold dist2, dot, point. pose proof (sc2 (lat * d2r)). pose proof (sc2 (lat1 * d2r)). pose proof (sc2 (lon * d2r)). pose proof (sc2 (lon0 * d2r)).
    set (a := sin (lat * d2r)) in *. set (b := cos (lat * d2r)) in *. set (c := sin (lat1 * d2r)) in *. set (d := cos (lat1 * d2r)) in *. set (e := sin (lon * d2r)) in *. set (f := cos (lon * d2r)) in *. set (g := sin (lon0 * d2r)) in *. set (h := cos (lon0 * d2r)) in *.
    transitivity (d * d * (g * g + h * h) + c * c + (b * b * (e * e + f * f) + a * a) - 2 * (d * h * (b * f) + d * g * (b * e) + c * a)); [ring|]. rewrite H2, H3. lra. }
  rewrite D. set (k := lk lon0 lat1 lon lat) in *. set (p := lE lon0 lat1 lon lat) in *. set (q := lN lon0 lat1 lon lat) in *. set (c := lC lon0 lat1 lon lat) in *.
  transitivity (6370997 ^ 2 * ((k * k) * (p ^ 2 + q ^ 2))); [ring|]. rewrite K2. replace (p ^ 2 + q ^ 2) with (1 - c ^ 2) by lra. field. lra.
Qed.
Print Assumptions C84_lambert_distance.
Lemma lambert_some lon0 lat1 lon lat x y : lambert lon0 lat1 lon lat = Some (x, y) -> 0 < 1 + lC lon0 lat1 lon lat /\ x = lX lon0 lat1 lon lat /\ y = lY lon0 lat1 lon lat.
Proof.
  intro E. destruct (Req_dec (dot (point lon0 lat1) (point lon lat)) (-1)) as [H|H]; [apply C84_lambert_defined in H; rewrite E in H; discriminate|]. destruct (lambert_eq lon0 lat1 lon lat H) as [P X]. rewrite E in X. apply (f_equal (fun o => match o with Some p => p | None => (0, 0) end)) in X. pose proof (f_equal fst X) as X1. pose proof (f_equal snd X) as X2. auto.
Qed.
Theorem C84_lambert_origin lon0 lat1 : lambert lon0 lat1 lon0 lat1 = Some (0, 0).
Proof.
  assert (C : lC lon0 lat1 lon0 lat1 = 1). { unfold lC. replace (lon0 * d2r - lon0 * d2r) with 0 by ring. rewrite cos_0. pose proof (sc2 (lat1 * d2r)). lra. }
  destruct (lambert_eq lon0 lat1 lon0 lat1) as [_ ->]; [unfold opposite; rewrite <- lC_dot, C; lra|]. unfold lX, lY, lE, lN. replace (lon0 * d2r - lon0 * d2r) with 0 by ring. rewrite sin_0, cos_0. f_equal. f_equal; ring.
Qed.
Print Assumptions C84_lambert_origin.
(* no two points of the sphere share a point of the map *)
Theorem C84_lambert_injective lon0 lat1 lon lat lon' lat' x y : lambert lon0 lat1 lon lat = Some (x, y) -> lambert lon0 lat1 lon' lat' = Some (x, y) -> point lon lat = point lon' lat'.
Proof.
  intros A B. assert (D : lC lon0 lat1 lon lat = lC lon0 lat1 lon' lat').
  { pose proof (C84_lambert_distance _ _ _ _ _ _ A) as D1. pose proof (C84_lambert_distance _ _ _ _ _ _ B) as D2. rewrite !lC_dot. assert (D : dist2 (point lon0 lat1) (point lon lat) = dist2 (point lon0 lat1) (point lon' lat')) by lra. clear - D.
    assert (N : forall u v, dist2 (point lon0 lat1) (point u v) = 2 - 2 * dot (point lon0 lat1) (point u v)).
    { intros u v. unfold dist2, dot, point. pose proof (sc2 (v * d2r)). pose proof (sc2 (lat1 * d2r)). pose proof (sc2 (u * d2r)). pose proof (sc2 (lon0 * d2r)).
      set (a := sin (v * d2r)) in *. set (b := cos (v * d2r)) in *. set (c := sin (lat1 * d2r)) in *. set (d := cos (lat1 * d2r)) in *. set (e := sin (u * d2r)) in *. set (f := cos (u * d2r)) in *. set (g := sin (lon0 * d2r)) in *. set (h := cos (lon0 * d2r)) in *.
      transitivity (d * d * (g * g + h * h) + c * c + (b * b * (e * e + f * f) + a * a) - 2 * (d * h * (b * f) + d * g * (b * e) + c * a)); [ring|]. rewrite H1, H2. lra. }
    rewrite !N in D. lra. }
  destruct (lambert_some _ _ _ _ _ _ A) as (P & X1 & Y1). destruct (lambert_some _ _ _ _ _ _ B) as (P' & X2 & Y2). unfold lX in X1, X2. unfold lY in Y1, Y2. unfold lk in *. rewrite <- D in X2, Y2. pose proof (Rdiv_lt_0_compat 2 _ ltac:(lra) P) as Q2. pose proof (sqrt_lt_R0 _ Q2) as Q3. set (k := sqrt _) in *.
  assert (E : lE lon0 lat1 lon lat = lE lon0 lat1 lon' lat') by (apply (Rmult_eq_reg_l (6370997 * k)); [lra | nra]). assert (N : lN lon0 lat1 lon lat = lN lon0 lat1 lon' lat') by (apply (Rmult_eq_reg_l (6370997 * k)); [lra | nra]). clear - E N D.
  (* back from the frame *)
  assert (F1 : forall u v, sin (v * d2r) = lC lon0 lat1 u v * sin (lat1 * d2r) + lN lon0 lat1 u v * cos (lat1 * d2r)).
  { intros u v. unfold lC, lN. pose proof (sc2 (lat1 * d2r)) as S. set (a := sin (lat1 * d2r)) in *. set (b := cos (lat1 * d2r)) in *. transitivity (sin (v * d2r) * (a * a + b * b)); [rewrite S; ring | ring]. }
  assert (F2 : forall u v, cos (v * d2r) * cos (u * d2r - lon0 * d2r) = lC lon0 lat1 u v * cos (lat1 * d2r) - lN lon0 lat1 u v * sin (lat1 * d2r)).
  { intros u v. unfold lC, lN. pose proof (sc2 (lat1 * d2r)) as S. set (a := sin (lat1 * d2r)) in *. set (b := cos (lat1 * d2r)) in *. transitivity (cos (v * d2r) * cos (u * d2r - lon0 * d2r) * (a * a + b * b)); [rewrite S; ring | ring]. }
  assert (F3 : forall u v, cos (v * d2r) * cos (u * d2r) = cos (v * d2r) * cos (u * d2r - lon0 * d2r) * cos (lon0 * d2r) - lE lon0 lat1 u v * sin (lon0 * d2r)).
  { intros u v. unfold lE. rewrite cos_minus, sin_minus. pose proof (sc2 (lon0 * d2r)) as S. set (a := sin (lon0 * d2r)) in *. set (b := cos (lon0 * d2r)) in *. transitivity (cos (v * d2r) * cos (u * d2r) * (a * a + b * b)); [rewrite S; ring | ring]. }
  assert (F4 : forall u v, cos (v * d2r) * sin (u * d2r) = cos (v * d2r) * cos (u * d2r - lon0 * d2r) * sin (lon0 * d2r) + lE lon0 lat1 u v * cos (lon0 * d2r)).
  { intros u v. unfold lE. rewrite cos_minus, sin_minus. pose proof (sc2 (lon0 * d2r)) as S. set (a := sin (lon0 * d2r)) in *. set (b := cos (lon0 * d2r)) in *. transitivity (cos (v * d2r) * sin (u * d2r) * (a * a + b * b)); [rewrite S; ring | ring]. }
  unfold point. rewrite (F1 lon lat), (F1 lon' lat'), (F3 lon lat), (F3 lon' lat'), (F4 lon lat), (F4 lon' lat'), (F2 lon lat), (F2 lon' lat'), E, N, D. reflexivity.
Qed.
Print Assumptions C84_lambert_injective.
(* x is positive east of the centre and negative west of it; points mirrored at the central meridian are mirrored on the map *)
Theorem C84_lambert_east lon0 lat1 d lat x y : -90 < lat < 90 -> lambert lon0 lat1 (lon0 + d) lat = Some (x, y) -> (0 < d < 180 -> 0 < x) /\ (-180 < d < 0 -> x < 0) /\ (d = 0 -> x = 0) /\ lambert lon0 lat1 (lon0 - d) lat = Some (- x, y).
Proof.
  intros L A. destruct (lambert_some _ _ _ _ _ _ A) as (P & -> & ->). pose proof (cos_deg_pos lat L) as CP. unfold lX, lY, lk, lE, lN in *. assert (T : (lon0 + d) * d2r - lon0 * d2r = d * d2r) by ring. assert (T' : (lon0 - d) * d2r - lon0 * d2r = - (d * d2r)) by ring.
  assert (CE : lC lon0 lat1 (lon0 - d) lat = lC lon0 lat1 (lon0 + d) lat) by (unfold lC; rewrite T, T', cos_neg; reflexivity).
  pose proof (Rdiv_lt_0_compat 2 _ ltac:(lra) P) as Q2. pose proof (sqrt_lt_R0 _ Q2) as Q3. pose proof PI_RGT_0. split; [|split; [|split]].
  - intro D. rewrite T. pose proof (sin_gt_0 (d * d2r) ltac:(rewrite deg; nra) ltac:(rewrite deg; nra)). apply Rmult_lt_0_compat; [lra|]. apply Rmult_lt_0_compat; [exact Q3 | nra].
  - intro D. rewrite T. pose proof (sin_gt_0 (- (d * d2r)) ltac:(rewrite deg; nra) ltac:(rewrite deg; nra)) as S. rewrite sin_neg in S. assert (0 < sqrt (2 / (1 + lC lon0 lat1 (lon0 + d) lat)) * (cos (lat * d2r) * - sin (d * d2r))) by (apply Rmult_lt_0_compat; [exact Q3 | nra]). lra.
  - intros ->. rewrite T. replace (0 * d2r) with 0 by ring. rewrite sin_0. ring.
  - destruct (lambert_eq lon0 lat1 (lon0 - d) lat) as [_ ->]; [unfold opposite; rewrite <- lC_dot, CE; lra|]. unfold lX, lY, lk, lE, lN. rewrite CE, T, T', sin_neg, cos_neg. f_equal. f_equal; ring.
Qed.
Print Assumptions C84_lambert_east.
(* along the central meridian y is the chord of the angle, positive to the north *)
Theorem C84_lambert_meridian lon0 lat1 lat : -180 < lat - lat1 < 180 -> lambert lon0 lat1 lon0 lat = Some (0, 2 * 6370997 * sin ((lat - lat1) / 2 * d2r)).
Proof.
  intro L. pose proof PI_RGT_0. set (h := (lat - lat1) / 2 * d2r). assert (HC : 0 < cos h) by (apply cos_gt_0; unfold h; rewrite deg; nra).
  assert (T : lon0 * d2r - lon0 * d2r = 0) by ring. assert (A : lat * d2r - lat1 * d2r = h + h) by (unfold h; field).
  assert (C : lC lon0 lat1 lon0 lat = 2 * (cos h * cos h) - 1). { unfold lC. rewrite T, cos_0. transitivity (cos (lat * d2r - lat1 * d2r)); [rewrite cos_minus; ring|]. rewrite A, cos_plus. pose proof (sc2 h). lra. }
  destruct (lambert_eq lon0 lat1 lon0 lat) as [_ ->]; [unfold opposite; rewrite <- lC_dot, C; nra|]. unfold lX, lY, lk, lE, lN. rewrite C, T, sin_0, cos_0. f_equal. f_equal; [ring|].
  assert (K : sqrt (2 / (1 + (2 * (cos h * cos h) - 1))) = / cos h). { replace (2 / (1 + (2 * (cos h * cos h) - 1))) with (/ cos h * / cos h) by (field; repeat split; nra). apply sqrt_square. left. apply Rinv_0_lt_compat, HC. }
  rewrite K. transitivity (6370997 * (/ cos h * sin (lat * d2r - lat1 * d2r))); [rewrite sin_minus; ring|]. rewrite A, sin_plus. field. lra.
Qed.
Print Assumptions C84_lambert_meridian.

(* ---------- Mercator ---------- *)
Lemma merc_e_range : 0 < merc_e < 1.
Proof.
  unfold merc_e. set (r := 6356752314245 / 1000000 / 6378137). assert (0 < r < 1) by (unfold r; split; lra). clearbody r. assert (0 < r * r) by (apply Rmult_lt_0_compat; lra). assert (r * r < 1) by nra. split; [apply sqrt_lt_R0; lra|]. apply Rlt_le_trans with (sqrt 1); [apply sqrt_lt_1; lra | rewrite sqrt_1; lra].
Qed.
Definition mt (v : R) : R := sin (PI / 4 + v * d2r / 2) / cos (PI / 4 + v * d2r / 2).
Lemma half_angles v : -90 < v < 90 -> 0 < sin (PI / 4 + v * d2r / 2) /\ 0 < cos (PI / 4 + v * d2r / 2).
Proof. intro H. pose proof PI_RGT_0. rewrite deg. split; [apply sin_gt_0; nra | apply cos_gt_0; nra]. Qed.
Definition inner (lon lat : R) : Prop := -90 < lat < 90.
Definition mYs (v : R) : R := 6370997 * ln (mt v).
Definition mYe (v : R) : R := 6378137 * (ln (mt v) + merc_e / 2 * ln ((1 - merc_e * sin (v * d2r)) / (1 + merc_e * sin (v * d2r)))).
Lemma mt_pos v : -90 < v < 90 -> 0 < mt v.
Proof. intro H. destruct (half_angles v H). apply Rdiv_lt_0_compat; assumption. Qed.
Lemma merc_sphere_eq lon0 lon lat : -90 < lat < 90 -> mercator lon0 true lon lat = Some (6370997 * (lon * d2r - lon0 * d2r), mYs lat).
Proof. intro H. destruct (half_angles lat H) as [A B]. unfold mercator, ntan. rewrite ndiv_ok by lra. cbn [bind]. fold (mt lat). rewrite nlog_ok by (apply mt_pos, H). reflexivity. Qed.
Lemma merc_ell_eq lon0 lon lat : -90 < lat < 90 -> mercator lon0 false lon lat = Some (6378137 * (lon * d2r - lon0 * d2r), mYe lat).
Proof.
  intro H. destruct (half_angles lat H) as [A B]. pose proof (es_range merc_e merc_e_range _ (sin_in (lat * d2r))). unfold mercator, ntan. rewrite ndiv_ok by lra. cbn [bind]. fold (mt lat). rewrite ndiv_ok by lra. cbn [bind]. pose proof (mt_pos lat H). set (f := (1 - _) / _).
  assert (FP : 0 < Rpower f (merc_e / 2)) by (unfold Rpower; apply exp_pos). rewrite nlog_ok by (apply Rmult_lt_0_compat; assumption). cbn [bind]. rewrite ln_mult by assumption. unfold Rpower. rewrite ln_exp. reflexivity.
Qed.
Lemma lnt_d v : -90 < v < 90 -> derivable_pt_lim (fun v => ln (mt v)) v (d2r / cos (v * d2r)).
Proof.
  intro H. destruct (half_angles v H) as [A B]. pose proof (cos_deg_pos v H) as CP. set (w := PI / 4 + v * d2r / 2) in *.
  assert (T : derivable_pt_lim (fun v => PI / 4 + v * d2r / 2) v (d2r / 2)).
  { apply (dl_ext _ (fun v => PI / 4 + d2r / 2 * v)); [intro t; field|]. eapply dl_eq; [apply dl_plus; [apply dl_const | apply dl_scale, dl_id] | ring]. }
  assert (E : cos (v * d2r) = 2 * sin w * cos w). { rewrite <- sin_2a. replace (2 * w) with (PI / 2 + v * d2r) by (unfold w; field). rewrite sin_plus, sin_PI2, cos_PI2. ring. }
  eapply dl_eq; [apply dl_ln; [apply (mt_pos v H) | unfold mt; apply dl_div; [apply dl_sin, T | apply dl_cos, T | fold w; lra]]|]. unfold mt. cbv beta. fold w. unfold Rsqr. rewrite E. pose proof (sc2 w) as S. set (s := sin w) in *. set (c := cos w) in *.
  transitivity (d2r / 2 * (s * s + c * c) / (s * c)); [field; lra | rewrite S; field; lra].
Qed.
Lemma mYe_d v : -90 < v < 90 -> derivable_pt_lim mYe v (6378137 * d2r * (1 - merc_e ^ 2) / ((1 - (merc_e * sin (v * d2r)) ^ 2) * cos (v * d2r))).
Proof.
  intro H. pose proof (cos_deg_pos v H) as CP. pose proof (es_range merc_e merc_e_range _ (sin_in (v * d2r))) as E. pose proof (f_pos merc_e merc_e_range _ (sin_in (v * d2r))) as F. pose proof (W_pos merc_e merc_e_range _ (sin_in (v * d2r))) as P. unfold W in P. unfold mYe.
  assert (S : derivable_pt_lim (fun v => merc_e * sin (v * d2r)) v (merc_e * (cos (v * d2r) * d2r))) by (eapply dl_eq; [apply dl_scale, dl_sin, dl_mult; [apply dl_id | apply dl_const] | cbv beta; ring]).
  eapply dl_eq; [apply dl_scale, dl_plus; [apply lnt_d, H | apply dl_scale, dl_ln; [exact F | apply dl_div; [apply dl_minus; [apply dl_const | exact S] | apply dl_plus; [apply dl_const | exact S] | lra]]]|]. cbv beta. unfold Rsqr. pose proof (sc2 (v * d2r)) as Q. set (s := sin (v * d2r)) in *. set (c := cos (v * d2r)) in *. set (e := merc_e) in *.
  transitivity (6378137 * d2r * ((1 - (e * s) ^ 2 - e ^ 2 * (c * c)) / ((1 - (e * s) ^ 2) * c))); [field; repeat split; try lra; nra|]. replace (c * c) with (1 - s * s) by lra. field. split; [lra | nra].
Qed.
(* the map is conformal: one degree along the meridian and one along the parallel are enlarged by the same factor *)
Theorem C84_mercator_sphere lon0 : exists X Y, given (mercator lon0 true) inner (fun lon _ => X lon) (fun _ lat => Y lat) /\
  forall lon lat, -90 < lat < 90 -> exists x' y', derivable_pt_lim X lon x' /\ derivable_pt_lim Y lat y' /\ x' = 6370997 * d2r /\ y' / (6370997 * d2r) = x' / (6370997 * cos (lat * d2r) * d2r).
Proof.
  exists (fun lon => 6370997 * (lon * d2r - lon0 * d2r)), mYs. split; [intros lon lat H; apply merc_sphere_eq, H|]. intros lon lat H. exists (6370997 * d2r), (6370997 * (d2r / cos (lat * d2r))). pose proof (cos_deg_pos lat H). pose proof d2r_pos. split; [|split; [|split]].
  - eapply dl_eq; [apply dl_scale, dl_minus; [apply dl_mult; [apply dl_id | apply dl_const] | apply dl_const] | cbv beta; ring].
  - unfold mYs. apply dl_scale, lnt_d, H.
  - reflexivity.
  - field. lra.
Qed.
Print Assumptions C84_mercator_sphere.
Theorem C84_mercator_ellipsoid lon0 : exists X Y, given (mercator lon0 false) inner (fun lon _ => X lon) (fun _ lat => Y lat) /\
  forall lon lat, -90 < lat < 90 -> exists x' y', derivable_pt_lim X lon x' /\ derivable_pt_lim Y lat y' /\ x' = 6378137 * d2r /\
    y' / (meridian 6378137 merc_e lat * d2r) = x' / (prime 6378137 merc_e lat * cos (lat * d2r) * d2r).
Proof.
  exists (fun lon => 6378137 * (lon * d2r - lon0 * d2r)), mYe. split; [intros lon lat H; apply merc_ell_eq, H|]. intros lon lat H. do 2 eexists. pose proof (cos_deg_pos lat H). pose proof d2r_pos. split; [|split; [|split]].
  - eapply dl_eq; [apply dl_scale, dl_minus; [apply dl_mult; [apply dl_id | apply dl_const] | apply dl_const] | cbv beta; reflexivity].
  - apply mYe_d, H.
  - ring.
  - unfold meridian, prime. pose proof (W_pos merc_e merc_e_range _ (sin_in (lat * d2r))) as P. unfold W in P. pose proof (sqrt_lt_R0 _ P). pose proof merc_e_range. set (w := 1 - _) in *. field. repeat split; try lra. nra.
Qed.
Print Assumptions C84_mercator_ellipsoid.
(* north is up, the equator is at 0 and the two hemispheres are mirror images *)
Lemma incr_of (f f' : R -> R) : (forall v, -90 < v < 90 -> derivable_pt_lim f v (f' v)) -> (forall v, -90 < v < 90 -> 0 < f' v) -> forall a b, -90 < a -> b < 90 -> a < b -> f a < f b.
Proof. intros D P a b A B L. destruct (MVT_cor2 f f' a b L) as (c & E & C); [intros c C; apply D; lra|]. pose proof (P c ltac:(lra)). nra. Qed.
Theorem C84_mercator_north lon0 SPHERE lon lat lon' lat' x y x' y' : -90 < lat -> lat < lat' -> lat' < 90 -> mercator lon0 SPHERE lon lat = Some (x, y) -> mercator lon0 SPHERE lon' lat' = Some (x', y') -> y < y'.
Proof.
  intros A L B E E'. pose proof d2r_pos. destruct SPHERE.
  - rewrite merc_sphere_eq in E, E' by lra. injection E as _ <-. injection E' as _ <-. apply (incr_of mYs (fun v => 6370997 * (d2r / cos (v * d2r)))); try lra; intros v V; [unfold mYs; apply dl_scale, lnt_d, V|]. pose proof (cos_deg_pos v V). apply Rmult_lt_0_compat; [lra | apply Rdiv_lt_0_compat; lra].
  - rewrite merc_ell_eq in E, E' by lra. injection E as _ <-. injection E' as _ <-. eapply (incr_of mYe); try lra; intros v V; [apply mYe_d, V|]. cbv beta. pose proof (cos_deg_pos v V). pose proof (W_pos merc_e merc_e_range _ (sin_in (v * d2r))) as P. unfold W in P. pose proof merc_e_range. apply Rdiv_lt_0_compat; [apply Rmult_lt_0_compat; [lra | nra] | apply Rmult_lt_0_compat; lra].
Qed.
Print Assumptions C84_mercator_north.
Lemma mt_neg v : -90 < v < 90 -> ln (mt (- v)) = - ln (mt v).
Proof.
  intro H. destruct (half_angles v H) as [A B]. rewrite <- ln_Rinv by (apply mt_pos, H). f_equal. unfold mt. replace (PI / 4 + - v * d2r / 2) with (PI / 2 - (PI / 4 + v * d2r / 2)) by field. rewrite sin_shift, cos_shift. field. lra.
Qed.
Theorem C84_mercator_mirror lon0 SPHERE lon lat x y : -90 < lat < 90 -> mercator lon0 SPHERE lon lat = Some (x, y) -> mercator lon0 SPHERE lon (- lat) = Some (x, - y).
Proof.
  intros H E. destruct SPHERE.
  - rewrite merc_sphere_eq in * by lra. injection E as <- <-. unfold mYs. rewrite mt_neg by lra. f_equal. f_equal. ring.
  - rewrite merc_ell_eq in * by lra. injection E as <- <-. unfold mYe. rewrite mt_neg by lra. f_equal. f_equal. pose proof (f_pos merc_e merc_e_range _ (sin_in (lat * d2r))) as F. pose proof (es_range merc_e merc_e_range _ (sin_in (lat * d2r))).
    replace (- lat * d2r) with (- (lat * d2r)) by ring. rewrite sin_neg. replace ((1 - merc_e * - sin (lat * d2r)) / (1 + merc_e * - sin (lat * d2r))) with (/ ((1 - merc_e * sin (lat * d2r)) / (1 + merc_e * sin (lat * d2r)))) by (field; lra). rewrite ln_Rinv by exact F. ring.
Qed.
Print Assumptions C84_mercator_mirror.
Theorem C84_mercator_origin lon0 SPHERE : mercator lon0 SPHERE lon0 0 = Some (0, 0).
Proof.
  assert (Z : ln (mt 0) = 0). { pose proof (mt_neg 0 ltac:(lra)) as H. rewrite Ropp_0 in H. lra. }
  destruct SPHERE.
  - rewrite merc_sphere_eq by lra. unfold mYs. rewrite Z. f_equal. f_equal; ring.
  - rewrite merc_ell_eq by lra. unfold mYe. rewrite Z. replace (0 * d2r) with 0 by ring. rewrite sin_0. replace ((1 - merc_e * 0) / (1 + merc_e * 0)) with 1 by field. rewrite ln_1. f_equal. f_equal; ring.
Qed.
Print Assumptions C84_mercator_origin.
Theorem C84_mercator_injective lon0 SPHERE lon lat lon' lat' : -90 < lat < 90 -> -90 < lat' < 90 -> mercator lon0 SPHERE lon lat = mercator lon0 SPHERE lon' lat' -> lon = lon' /\ lat = lat'.
Proof.
  intros H H' E. pose proof d2r_pos.
  assert (Q : exists x y, mercator lon0 SPHERE lon lat = Some (x, y) /\ (exists c, 0 < c /\ x = c * (lon * d2r - lon0 * d2r) /\ exists x' y', mercator lon0 SPHERE lon' lat' = Some (x', y') /\ x' = c * (lon' * d2r - lon0 * d2r))).
  { destruct SPHERE; [rewrite !merc_sphere_eq by lra | rewrite !merc_ell_eq by lra]; do 2 eexists; (split; [reflexivity|]); eexists; (split; [|split; [reflexivity|]; do 2 eexists; split; [reflexivity | reflexivity]]); lra. }
  destruct Q as (x & y & M & c & C & X & x' & y' & M' & X'). split.
  - rewrite M, M' in E. injection E as E1 _. rewrite X, X' in E1. apply Rmult_eq_reg_l in E1; [|lra]. apply (Rmult_eq_reg_r d2r); lra.
  - destruct (Rtotal_order lat lat') as [L|[Z|L]]; [|exact Z|]; exfalso.
    + pose proof (C84_mercator_north lon0 SPHERE lon lat lon' lat' x y x' y' ltac:(lra) L ltac:(lra) M M'). rewrite M, M' in E. injection E as _ E2. lra.
    + pose proof (C84_mercator_north lon0 SPHERE lon' lat' lon lat x' y' x y ltac:(lra) L ltac:(lra) M' M). rewrite M, M' in E. injection E as _ E2. lra.
Qed.
Print Assumptions C84_mercator_injective.

(* ---------- look-up in the HLR grid ---------- *)
Lemma int_part x : IZR (Int_part x) <= x < IZR (Int_part x) + 1.
Proof. pose proof (base_Int_part x). lra. Qed.
(* the cell is one of the grid and contains the projected point *)
Theorem C84_hlr_cell lon lat row col : hlr_index lon lat = Some (row, col) -> (0 <= row < nrows)%Z /\ (0 <= col < ncols)%Z /\
  exists x y, lambert (-100) 45 lon lat = Some (x, y) /\ xmin + 1000 * IZR col <= x < xmin + 1000 * (IZR col + 1) /\ ymax - 1000 * (IZR row + 1) < y <= ymax - 1000 * IZR row.
Proof.
  unfold hlr_index. destruct (lambert (-100) 45 lon lat) as [[x y]|]; [|discriminate]. destruct (Rlt_dec xmin x) as [A|]; [|discriminate]. destruct (Rlt_dec x xmax) as [B|]; [|discriminate]. destruct (Rlt_dec ymin y) as [C|]; [|discriminate]. destruct (Rlt_dec y ymax) as [D|]; [|discriminate]. intro E. injection E as <- <-.
  pose proof (int_part ((ymax - y) / 1000)) as I1. pose proof (int_part ((x - xmin) / 1000)) as I2. set (r := Int_part ((ymax - y) / 1000)) in *. set (c := Int_part ((x - xmin) / 1000)) in *. unfold xmin, xmax, ymin, ymax in *.
  split; [|split].
  - split; [assert (-1 < r)%Z by (apply lt_IZR; lra); lia | unfold nrows; apply lt_IZR; lra].
  - split; [assert (-1 < c)%Z by (apply lt_IZR; lra); lia | unfold ncols; apply lt_IZR; lra].
  - exists x, y. split; [reflexivity|]. split; lra.
Qed.
Print Assumptions C84_hlr_cell.
(* every projected point inside the frame of the grid has a cell; the others have code 0 *)
Theorem C84_hlr_inside grid lon lat x y : lambert (-100) 45 lon lat = Some (x, y) -> (xmin < x < xmax /\ ymin < y < ymax -> exists row col, hlr_index lon lat = Some (row, col) /\ hlr_code grid lon lat = grid row col) /\
  (~ (xmin < x < xmax /\ ymin < y < ymax) -> hlr_code grid lon lat = 0%Z).
Proof.
  intro E. unfold hlr_code, hlr_index. rewrite E. split; intro H.
  - destruct (Rlt_dec xmin x), (Rlt_dec x xmax), (Rlt_dec ymin y), (Rlt_dec y ymax); try (exfalso; lra). eauto.
  - destruct (Rlt_dec xmin x), (Rlt_dec x xmax), (Rlt_dec ymin y), (Rlt_dec y ymax); try reflexivity. exfalso. apply H. lra.
Qed.
Print Assumptions C84_hlr_inside.
(* case: the centre of the projection, 100 W 45 N, lies in row 4324 and column 6175 *)
Example C84_hlr_case : hlr_index (-100) 45 = Some (4324, 6175)%Z.
Proof.
  unfold hlr_index. rewrite C84_lambert_origin. unfold xmin, xmax, ymin, ymax. destruct (Rlt_dec _ _); [|lra]. destruct (Rlt_dec _ _); [|lra]. destruct (Rlt_dec _ _); [|lra]. destruct (Rlt_dec _ _); [|lra]. f_equal. f_equal.
  - pose proof (int_part ((43241904 / 10 - 0) / 1000)) as I. set (rr := Int_part _) in *. assert (4323 < rr)%Z by (apply lt_IZR; lra). assert (rr < 4325)%Z by (apply lt_IZR; lra). lia.
  - pose proof (int_part ((0 - - (61750166 / 10)) / 1000)) as I. set (rr := Int_part _) in *. assert (6174 < rr)%Z by (apply lt_IZR; lra). assert (rr < 6176)%Z by (apply lt_IZR; lra). lia.
Qed.
(* cases: points that are not opposite, and an opposite one *)
Example C84_opposite_case : ~ opposite (-100) 45 (-100) 0 /\ opposite 0 0 180 0.
Proof.
  split; unfold opposite; rewrite <- lC_dot; unfold lC.
  - replace (0 * d2r) with 0 by ring. replace (-100 * d2r - -100 * d2r) with 0 by ring. rewrite sin_0, cos_0. pose proof (cos_deg_pos 45 ltac:(lra)). lra.
  - replace (0 * d2r) with 0 by ring. replace (180 * d2r - 0) with PI by (unfold d2r; field). rewrite sin_0, cos_0, cos_PI. lra.
Qed.
