(** C113: slopes, curvatures, smoothing and long profiles of a landscape. *)

From Coq Require Import Reals String List Arith ZArith Bool Lra Lia.
From Verif Require Import Time_Model Hamil_Model.
Import ListNotations.
Local Open Scope R_scope.

(** ** Specification *)

(** The surface z = f(x, y) on a grid: x grows with the column, y falls with the row. *)
Definition surface (G : geom) (f : R -> R -> R) : grid := fun i j => Some (f (INR j * dx G) (- (INR i * dy G))).
Definition plane (a b c x y : R) : R := a + b * x + c * y.
Definition quadratic (a b c d e f x y : R) : R := a + b * x + c * y + d * x ^ 2 + e * x * y + f * y ^ 2.
Definition good (G : geom) : Prop := dx G <> 0 /\ dy G <> 0.
(** the neighbours a difference needs, n deep *)
Definition has_x (G : geom) (X : xside) (n j : nat) : bool :=
  match X with SideR => Nat.ltb (j + n) (nx G) | SideL => Nat.leb n j end.
Definition has_y (G : geom) (Y : yside) (n i : nat) : bool :=
  match Y with SideB => Nat.ltb (i + n) (ny G) | SideT => Nat.leb n i end.

(** ** Differences *)

Lemma dxR_eq : forall G f i j, (j < nx G)%nat ->
  d_dx_R G f i j = if has_x G SideR 1 j then lift2 (fun a b => (a - b) / dx G) (f i (j + 1)%nat) (f i j) else None.
Proof.
  intros G f i j H. unfold d_dx_R, has_x.
  destruct (Nat.eqb_spec j (nx G - 1)); destruct (Nat.ltb_spec (j + 1) (nx G)); try lia; cbn; auto.
  now rewrite Nat.mod_small by lia.
Qed.
Lemma dxL_eq : forall G f i j, (j < nx G)%nat ->
  d_dx_L G f i j = if has_x G SideL 1 j then lift2 (fun a b => (b - a) / dx G) (f i (j - 1)%nat) (f i j) else None.
Proof.
  intros G f i j H. unfold d_dx_L, has_x.
  destruct (Nat.eqb_spec j 0); destruct (Nat.leb_spec 1 j); try lia; cbn [lift2]; auto.
  replace (j + nx G - 1)%nat with (j - 1 + 1 * nx G)%nat by lia. rewrite Nat.mod_add, Nat.mod_small by lia.
  destruct (f i (j - 1)%nat), (f i j); cbn; auto. f_equal. unfold Rdiv. ring.
Qed.
Lemma dyT_eq : forall G f i j, (i < ny G)%nat ->
  d_dy_T G f i j = if has_y G SideT 1 i then lift2 (fun a b => (a - b) / dy G) (f (i - 1)%nat j) (f i j) else None.
Proof.
  intros G f i j H. unfold d_dy_T, has_y.
  destruct (Nat.eqb_spec i 0); destruct (Nat.leb_spec 1 i); try lia; cbn [lift2]; auto.
  replace (i + ny G - 1)%nat with (i - 1 + 1 * ny G)%nat by lia. now rewrite Nat.mod_add, Nat.mod_small by lia.
Qed.
Lemma dyB_eq : forall G f i j, (i < ny G)%nat ->
  d_dy_B G f i j = if has_y G SideB 1 i then lift2 (fun a b => (b - a) / dy G) (f (i + 1)%nat j) (f i j) else None.
Proof.
  intros G f i j H. unfold d_dy_B, has_y.
  destruct (Nat.eqb_spec i (ny G - 1)); destruct (Nat.ltb_spec (i + 1) (ny G)); try lia; cbn [lift2]; auto.
  rewrite Nat.mod_small by lia.
  destruct (f (i + 1)%nat j), (f i j); cbn; auto. f_equal. unfold Rdiv. ring.
Qed.

(** Each gradient is the difference to the neighbour on its side, eastwards or northwards, over the
    spacing; it is missing exactly at that edge of the grid and where the grid misses a value. *)
Theorem C113_gradients : forall G f i j, (i < ny G)%nat -> (j < nx G)%nat ->
  d_dx_R G f i j = (if Nat.ltb (j + 1) (nx G) then lift2 (fun right here => (right - here) / dx G) (f i (j + 1)%nat) (f i j) else None) /\
  d_dx_L G f i j = (if Nat.leb 1 j then lift2 (fun left here => (here - left) / dx G) (f i (j - 1)%nat) (f i j) else None) /\
  d_dy_T G f i j = (if Nat.leb 1 i then lift2 (fun above here => (above - here) / dy G) (f (i - 1)%nat j) (f i j) else None) /\
  d_dy_B G f i j = (if Nat.ltb (i + 1) (ny G) then lift2 (fun under here => (here - under) / dy G) (f (i + 1)%nat j) (f i j) else None).
Proof.
  intros G f i j Hi Hj. repeat split; [now apply dxR_eq | now apply dxL_eq | now apply dyT_eq | now apply dyB_eq].
Qed.
Print Assumptions C113_gradients.

(** Raising a whole DEM changes no gradient; stretching it stretches them. *)
Theorem C113_shift : forall G X Y f c k i j, (i < ny G)%nat -> (j < nx G)%nat ->
  ddx G X (fun i j => lift1 (fun z => c + k * z) (f i j)) i j = lift1 (fun p => k * p) (ddx G X f i j) /\
  ddy G Y (fun i j => lift1 (fun z => c + k * z) (f i j)) i j = lift1 (fun p => k * p) (ddy G Y f i j).
Proof.
  intros G X Y f c k i j Hi Hj. split.
  - destruct X; cbn [ddx].
    + rewrite !dxR_eq by auto. destruct (has_x _ _ _ _); auto.
      destruct (f i (j + 1)%nat), (f i j); cbn; auto. f_equal. unfold Rdiv. ring.
    + rewrite !dxL_eq by auto. destruct (has_x _ _ _ _); auto.
      destruct (f i (j - 1)%nat), (f i j); cbn; auto. f_equal. unfold Rdiv. ring.
  - destruct Y; cbn [ddy].
    + rewrite !dyT_eq by auto. destruct (has_y _ _ _ _); auto.
      destruct (f (i - 1)%nat j), (f i j); cbn; auto. f_equal. unfold Rdiv. ring.
    + rewrite !dyB_eq by auto. destruct (has_y _ _ _ _); auto.
      destruct (f (i + 1)%nat j), (f i j); cbn; auto. f_equal. unfold Rdiv. ring.
Qed.
Print Assumptions C113_shift.

Lemma plane_x : forall G X a b c i j, good G -> (i < ny G)%nat -> (j < nx G)%nat ->
  ddx G X (surface G (plane a b c)) i j = if has_x G X 1 j then Some b else None.
Proof.
  intros G X a b c i j [Hx Hy] Hi Hj. destruct X; cbn [ddx]; [rewrite dxR_eq | rewrite dxL_eq]; auto;
    destruct (has_x _ _ _ _) eqn:E; auto; unfold surface, plane; cbn [lift2]; f_equal.
  - rewrite plus_INR. cbn [INR]. field. auto.
  - apply Nat.leb_le in E. rewrite minus_INR by lia. cbn [INR]. field. auto.
Qed.
Lemma plane_y : forall G Y a b c i j, good G -> (i < ny G)%nat -> (j < nx G)%nat ->
  ddy G Y (surface G (plane a b c)) i j = if has_y G Y 1 i then Some c else None.
Proof.
  intros G Y a b c i j [Hx Hy] Hi Hj. destruct Y; cbn [ddy]; [rewrite dyT_eq | rewrite dyB_eq]; auto;
    destruct (has_y _ _ _ _) eqn:E; auto; unfold surface, plane; cbn [lift2]; f_equal.
  - apply Nat.leb_le in E. rewrite minus_INR by lia. cbn [INR]. field. auto.
  - rewrite plus_INR. cbn [INR]. field. auto.
Qed.

(** a grid with one value wherever it has its neighbours *)
Lemma ddx_flat : forall G X f v (P : nat -> nat -> bool) i j, (i < ny G)%nat -> (j < nx G)%nat ->
  (forall i j, (i < ny G)%nat -> (j < nx G)%nat -> f i j = if P i j then Some v else None) ->
  ddx G X f i j = if (has_x G X 1 j && P i j && P i (match X with SideR => j + 1 | SideL => j - 1 end)%nat)%bool then Some 0 else None.
Proof.
  intros G X f v P i j Hi Hj H. destruct X; cbn [ddx]; [rewrite dxR_eq | rewrite dxL_eq]; auto;
    destruct (has_x _ _ _ _) eqn:E; auto; cbn [has_x] in E.
  - apply Nat.ltb_lt in E. rewrite !H by (auto; lia). destruct (P i j), (P i (j + 1)%nat); cbn; auto. f_equal. unfold Rdiv. ring.
  - apply Nat.leb_le in E. rewrite !H by (auto; lia). destruct (P i j), (P i (j - 1)%nat); cbn; auto. f_equal. unfold Rdiv. ring.
Qed.
Lemma ddy_flat : forall G Y f v (P : nat -> nat -> bool) i j, (i < ny G)%nat -> (j < nx G)%nat ->
  (forall i j, (i < ny G)%nat -> (j < nx G)%nat -> f i j = if P i j then Some v else None) ->
  ddy G Y f i j = if (has_y G Y 1 i && P i j && P (match Y with SideB => i + 1 | SideT => i - 1 end)%nat j)%bool then Some 0 else None.
Proof.
  intros G Y f v P i j Hi Hj H. destruct Y; cbn [ddy]; [rewrite dyT_eq | rewrite dyB_eq]; auto;
    destruct (has_y _ _ _ _) eqn:E; auto; cbn [has_y] in E.
  - apply Nat.leb_le in E. rewrite !H by (auto; lia). destruct (P i j), (P (i - 1)%nat j); cbn; auto. f_equal. unfold Rdiv. ring.
  - apply Nat.ltb_lt in E. rewrite !H by (auto; lia). destruct (P i j), (P (i + 1)%nat j); cbn; auto. f_equal. unfold Rdiv. ring.
Qed.

Lemma slope_plane : forall G X Y a b c i j, good G -> b <> 0 \/ c <> 0 -> (i < ny G)%nat -> (j < nx G)%nat ->
  slope G X Y (surface G (plane a b c)) i j = if (has_x G X 1 j && has_y G Y 1 i)%bool then Some (sqrt (b ^ 2 + c ^ 2)) else None.
Proof.
  intros G X Y a b c i j g N Hi Hj. unfold slope. rewrite plane_x, plane_y by auto.
  destruct (has_x _ _ _ _), (has_y _ _ _ _); cbn [andb lift2]; auto.
  destruct (Req_EM_T _ _) as [e | e]; auto. exfalso.
  apply sqrt_eq_0 in e; [|nra]. destruct N as [N | N].
  - apply N. nra.
  - apply N. nra.
Qed.

(** On a plane that is not level the four slopes are the slope of the plane, and the divergence and
    the curvatures are 0, everywhere but at the edges the differences need. *)
Theorem C113_plane : forall G X Y gamma a b c i j, good G -> b <> 0 \/ c <> 0 -> (i < ny G)%nat -> (j < nx G)%nat ->
  slope G X Y (surface G (plane a b c)) i j
    = (if (has_x G X 1 j && has_y G Y 1 i)%bool then Some (sqrt (b ^ 2 + c ^ 2)) else None) /\
  divergence G gamma X Y (surface G (plane a b c)) i j
    = (if (has_x G X 2 j && has_y G Y 2 i)%bool then Some 0 else None) /\
  kappa_c G (surface G (plane a b c)) i j = (if (has_x G SideR 2 j && has_y G SideT 2 i)%bool then Some 0 else None) /\
  kappa_p G (surface G (plane a b c)) i j = (if (has_x G SideR 2 j && has_y G SideT 2 i)%bool then Some 0 else None).
Proof.
  intros G X Y gamma a b c i j g N Hi Hj. set (d := surface G (plane a b c)).
  split; [now apply slope_plane|].
  set (P := fun i j => (has_x G X 1 j && has_y G Y 1 i)%bool).
  split.
  - unfold divergence.
    rewrite (ddx_flat G X (div_arg1 G gamma X Y d) (Rpower (sqrt (b ^ 2 + c ^ 2)) (gamma - 1) * b) P) by
      (auto; intros; unfold div_arg1, slope_power, d, P; rewrite slope_plane, plane_x by auto;
       destruct (has_x _ _ _ _), (has_y _ _ _ _); reflexivity).
    rewrite (ddy_flat G Y (div_arg2 G gamma X Y d) (Rpower (sqrt (b ^ 2 + c ^ 2)) (gamma - 1) * c) P) by
      (auto; intros; unfold div_arg2, slope_power, d, P; rewrite slope_plane, plane_y by auto;
       destruct (has_x _ _ _ _), (has_y _ _ _ _); reflexivity).
    assert (E2 : forall A B C : bool, (A && B)%bool = C -> lift2 Rplus (if A then Some 0 else None) (if B then Some 0 else None)
      = if C then Some 0 else None)
      by (intros A B C <-; destruct A, B; cbn; auto; f_equal; ring).
    apply E2. unfold P. apply eq_true_iff_eq. rewrite !andb_true_iff.
    destruct X, Y; cbn [has_x has_y]; rewrite ?Nat.ltb_lt, ?Nat.leb_le; lia.
  - assert (XX : z_xx G d i j = if (has_x G SideR 2 j) then Some 0 else None).
    { unfold z_xx. change (d_dx_R G (d_dx_R G d) i j) with (ddx G SideR (ddx G SideR d) i j).
      rewrite (ddx_flat G SideR _ b (fun _ j => has_x G SideR 1 j)) by (auto; intros; unfold d; apply plane_x; auto).
      replace (has_x G SideR 2 j) with (has_x G SideR 1 j && has_x G SideR 1 j && has_x G SideR 1 (j + 1))%bool; auto.
      apply eq_true_iff_eq. rewrite !andb_true_iff. cbn [has_x]. rewrite !Nat.ltb_lt. lia. }
    assert (XY : z_xy G d i j = if (has_x G SideR 1 j && has_y G SideT 1 i)%bool then Some 0 else None).
    { unfold z_xy. change (d_dy_T G (d_dx_R G d) i j) with (ddy G SideT (ddx G SideR d) i j).
      rewrite (ddy_flat G SideT _ b (fun _ j => has_x G SideR 1 j)) by (auto; intros; unfold d; apply plane_x; auto).
      destruct (has_x G SideR 1 j), (has_y G SideT 1 i); reflexivity. }
    assert (YY : z_yy G d i j = if (has_y G SideT 2 i) then Some 0 else None).
    { unfold z_yy. change (d_dy_T G (d_dy_T G d) i j) with (ddy G SideT (ddy G SideT d) i j).
      rewrite (ddy_flat G SideT _ c (fun i _ => has_y G SideT 1 i)) by (auto; intros; unfold d; apply plane_y; auto).
      replace (has_y G SideT 2 i) with (has_y G SideT 1 i && has_y G SideT 1 i && has_y G SideT 1 (i - 1))%bool; auto.
      apply eq_true_iff_eq. rewrite !andb_true_iff. cbn [has_y]. rewrite !Nat.leb_le. lia. }
    assert (Hx : has_x G SideR 2 j = true -> has_x G SideR 1 j = true) by (cbn [has_x]; rewrite !Nat.ltb_lt; lia).
    assert (Hy : has_y G SideT 2 i = true -> has_y G SideT 1 i = true) by (cbn [has_y]; rewrite !Nat.leb_le; lia).
    unfold kappa_c, kappa_p, curvature. rewrite XX, XY, YY.
    change (d_dx_R G d i j) with (ddx G SideR d i j). change (d_dy_T G d i j) with (ddy G SideT d i j).
    unfold d. rewrite slope_plane, plane_x, plane_y by auto.
    destruct (has_x G SideR 2 j); [rewrite Hx by auto | destruct (has_x G SideR 1 j), (has_y G SideT 1 i); cbn; auto].
    destruct (has_y G SideT 2 i); [rewrite Hy by auto | destruct (has_y G SideT 1 i); cbn; auto].
    cbn. split; f_equal; unfold Rdiv; ring.
Qed.
Print Assumptions C113_plane.

Ltac lets := repeat match goal with H : (_ && _)%bool = true |- _ => apply andb_true_iff in H; destruct H end.

(** The second differences are the second derivatives of every quadratic surface, exactly. *)
Theorem C113_second : forall G a b c d e f i j, good G -> (i < ny G)%nat -> (j < nx G)%nat ->
  let z := surface G (quadratic a b c d e f) in
  ((j + 2 < nx G)%nat -> z_xx G z i j = Some (2 * d)) /\
  ((j + 1 < nx G)%nat -> (1 <= i)%nat -> z_xy G z i j = Some e) /\
  ((2 <= i)%nat -> z_yy G z i j = Some (2 * f)).
Proof.
  intros G a b c d e f i j [Hx Hy] Hi Hj z. repeat split; intros.
  - unfold z_xx. rewrite !dxR_eq by (auto; lia). cbn [has_x].
    rewrite !(proj2 (Nat.ltb_lt _ _)) by lia. unfold z, surface, quadratic. cbn [lift2]. f_equal.
    rewrite !plus_INR. cbn [INR]. field. auto.
  - unfold z_xy. rewrite dyT_eq by auto. rewrite !dxR_eq by (auto; lia). cbn [has_x has_y].
    rewrite !(proj2 (Nat.ltb_lt _ _)), !(proj2 (Nat.leb_le _ _)) by lia. unfold z, surface, quadratic. cbn [lift2]. f_equal.
    rewrite !plus_INR, !minus_INR by lia. cbn [INR]. field. auto.
  - unfold z_yy. rewrite !dyT_eq by (auto; lia). cbn [has_x has_y].
    rewrite !(proj2 (Nat.leb_le _ _)) by lia. unfold z, surface, quadratic. cbn [lift2]. f_equal.
    rewrite !minus_INR by lia. cbn [INR]. field. auto.
Qed.
Print Assumptions C113_second.

Lemma slope_spec : forall G X Y z i j s, slope G X Y z i j = Some s ->
  exists p q, ddx G X z i j = Some p /\ ddy G Y z i j = Some q /\ s = sqrt (p ^ 2 + q ^ 2) /\ 0 < s /\ s ^ 2 = p ^ 2 + q ^ 2.
Proof.
  intros G X Y z i j s H. unfold slope in H. destruct (ddx G X z i j) as [p|], (ddy G Y z i j) as [q|]; cbn [lift2] in H; try discriminate.
  destruct (Req_EM_T _ _) as [e | e]; try discriminate. injection H as <-. exists p, q. repeat split; auto.
  - destruct (sqrt_pos (p ^ 2 + q ^ 2)) as [K | K]; [exact K | now elim e].
  - apply pow2_sqrt. pose proof (pow2_ge_0 p). pose proof (pow2_ge_0 q). lra.
Qed.

(** A slope is positive wherever there is one, and there is none exactly where a gradient is missing
    or both are 0. *)
Theorem C113_slope : forall G X Y z i j,
  (forall s, slope G X Y z i j = Some s -> 0 < s /\ exists p q, ddx G X z i j = Some p /\ ddy G Y z i j = Some q /\ s ^ 2 = p ^ 2 + q ^ 2) /\
  (slope G X Y z i j = None <-> ddx G X z i j = None \/ ddy G Y z i j = None \/ (ddx G X z i j = Some 0 /\ ddy G Y z i j = Some 0)).
Proof.
  intros G X Y z i j. split.
  - intros s H. apply slope_spec in H. destruct H as (p & q & a & b & c & d & e). split; auto. now exists p, q.
  - unfold slope. destruct (ddx G X z i j) as [p|], (ddy G Y z i j) as [q|]; cbn [lift2]; try (split; auto; fail).
    destruct (Req_EM_T _ _) as [e | e]; split; auto; try discriminate.
    + intros _. right; right. pose proof (pow2_ge_0 p) as P2. pose proof (pow2_ge_0 q) as Q2. apply sqrt_eq_0 in e; [|lra]. assert (p = 0 /\ q = 0) as [-> ->] by (split; nra). auto.
    + intros [K | [K | [K L]]]; try discriminate. injection K as ->. injection L as ->. elim e.
      replace (0 ^ 2 + 0 ^ 2) with 0 by ring. apply sqrt_0.
Qed.
Print Assumptions C113_slope.

(** The two curvatures together are the Laplacian: S kc + kp = - (z_xx + z_yy), for every DEM and
    cell where both are defined; they are defined in the same cells. *)
Theorem C113_laplacian : forall G z i j,
  (kappa_c G z i j = None <-> kappa_p G z i j = None) /\
  forall kc kp, kappa_c G z i j = Some kc -> kappa_p G z i j = Some kp ->
  exists s xx yy, slope G SideR SideT z i j = Some s /\ z_xx G z i j = Some xx /\ z_yy G z i j = Some yy /\
    s * kc + kp = - (xx + yy).
Proof.
  intros G z i j. unfold kappa_c, kappa_p, curvature.
  destruct (d_dx_R G z i j) as [zx|] eqn:E1; [|split; [tauto | discriminate]].
  destruct (d_dy_T G z i j) as [zy|] eqn:E2; [|split; [tauto | discriminate]].
  destruct (slope G SideR SideT z i j) as [s|] eqn:E3; [|split; [tauto | discriminate]].
  destruct (z_xx G z i j) as [xx|]; [|split; [tauto | discriminate]].
  destruct (z_xy G z i j) as [xy|]; [|split; [tauto | discriminate]].
  destruct (z_yy G z i j) as [yy|]; [|split; [tauto | discriminate]].
  split. { split; discriminate. }
  intros kc kp H1 H2. injection H1 as <-. injection H2 as <-. exists s, xx, yy. repeat split; auto.
  apply slope_spec in E3. destruct E3 as (p & q & a & b & c & d & e). cbn [ddx ddy] in a, b. rewrite E1 in a. rewrite E2 in b.
  injection a as a. injection b as b. subst p q.
  transitivity (- ((zx ^ 2 + zy ^ 2) * (xx + yy)) / s ^ 2); [field; lra|].
  rewrite <- e. field. lra.
Qed.
Print Assumptions C113_laplacian.

(** ** Masks *)

(** The mask file lists, in increasing order between two -1, exactly the cells where slope and curvatures are
    defined and meet the test; an unknown name ends in an error. *)
Theorem C113_mask : forall G name z l, get_mask G (mask_test name) z = Ok l ->
  exists ks test, l = ((-1)%Z :: map Z.of_nat ks ++ [(-1)%Z])%list /\ mask_test name = Some test /\
    (forall a b, (a < b < List.length ks)%nat -> (nth a ks 0 < nth b ks 0)%nat) /\
    forall k, In k ks <-> exists i j s kc kp, (i < ny G)%nat /\ (j < nx G)%nat /\ k = (i * nx G + j)%nat /\
      slope G SideR SideT z i j = Some s /\ kappa_c G z i j = Some kc /\ kappa_p G z i j = Some kp /\ test kc kp = true.
Proof.
  intros G name z l H. destruct (mask_test name) as [test|]; try discriminate. cbn in H. injection H as <-.
  eexists. exists test. split; [reflexivity|]. split; [reflexivity|]. split.
  - set (f := fun k : nat => _). clearbody f. unfold cells.
    assert (A : forall n start, let l := filter f (seq start n) in (forall k, In k l -> (start <= k)%nat) /\
      forall a b, (a < b < List.length l)%nat -> (nth a l 0 < nth b l 0)%nat).
    { intros n. induction n as [|n IH]; intros start; cbn.
      - split; [tauto | intros; lia].
      - destruct (IH (S start)) as [I1 I2]. destruct (f start); cbn [List.length].
        + split. { intros k [<- | K]; [lia | apply I1 in K; lia]. }
          intros [|a] [|b] L; cbn [nth]; try lia.
          * assert (In (nth b (filter f (seq (S start) n)) 0%nat) (filter f (seq (S start) n))) by (apply nth_In; lia).
            apply I1 in H. lia.
          * apply I2. lia.
        + split; [intros k K; apply I1 in K; lia | auto]. }
    exact (proj2 (A (nx G * ny G)%nat 0%nat)).
  - intros k. rewrite filter_In. unfold cells, at_cell. rewrite in_seq. split.
    + intros [R H]. assert (N : (nx G <> 0)%nat) by (intros N; rewrite N in R; lia).
      destruct (slope _ _ _ _ _ _) as [s|] eqn:E1; try discriminate.
      destruct (kappa_c _ _ _ _) as [kc|] eqn:E2; try discriminate. destruct (kappa_p _ _ _ _) as [kp|] eqn:E3; try discriminate.
      exists (k / nx G)%nat, (k mod nx G)%nat, s, kc, kp. repeat split; auto.
      * apply Nat.div_lt_upper_bound; lia.
      * now apply Nat.mod_upper_bound.
      * rewrite Nat.mul_comm. now apply Nat.div_mod.
    + intros (i & j & s & kc & kp & Hi & Hj & -> & E1 & E2 & E3 & T).
      replace ((i * nx G + j) / nx G)%nat with i by (apply Nat.div_unique with j; nia).
      replace ((i * nx G + j) mod nx G)%nat with j by (apply Nat.mod_unique with i; nia).
      rewrite E1, E2, E3. split; [nia | auto].
Qed.
Print Assumptions C113_mask.

Theorem C113_mask_unknown : forall G name z,
  get_mask G (mask_test name) z = Err UnboundLocalError <->
  ~ In name ["kc_kp_bad1"; "kc_big_neg"; "kp_big_neg"; "kc_big_pos"; "kp_big_pos"; "kp_pos"; "kc_neg"]%string.
Proof.
  intros G name z. unfold mask_test.
  repeat (match goal with |- context [String.eqb ?a ?b] => destruct (String.eqb_spec a b) as [-> | ?] end;
    [split; [discriminate | intros H; elim H; cbn; tauto]|]).
  split; auto. intros _ H. cbn in H. repeat (destruct H as [<- | H]; [tauto|]). auto.
Qed.
Print Assumptions C113_mask_unknown.

Theorem C113_mask_tests : forall kc kp t, mask_test "kc_kp_bad1" = Some t ->
  (t kc kp = false <-> -3/10 <= kc <= 0 /\ -3/10 <= kp <= 0).
Proof.
  intros kc kp t H. cbn in H. injection H as <-. unfold below.
  destruct (Rlt_dec kc (-3/10)), (Rlt_dec 0 kc), (Rlt_dec kp (-3/10)), (Rlt_dec 0 kp); cbn; split; intros; try discriminate; try reflexivity; lra.
Qed.
Print Assumptions C113_mask_tests.
