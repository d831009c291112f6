(** C119: slopes, divergences and curvatures of the quarters of a cell. *)

From Coq Require Import Reals Arith List Lia Lra.
From Verif Require Import Quarter_Model.
Local Open Scope R_scope.

(** ** What is asked *)

(** a surface without gaps *)
Definition dem (z : nat -> nat -> R) : grid := fun i j => Some (z i j).
(** the neighbour on a side, and whether it is in the grid *)
Definition next_x (s : side_x) (j : nat) : nat := match s with Rt => S j | Lf => pred j end.
Definition next_y (s : side_y) (i : nat) : nat := match s with Tp => pred i | Bt => S i end.
Definition has_x (g : geom) (s : side_x) (j : nat) : Prop := match s with Rt => (S j < nx g)%nat | Lf => (0 < j)%nat end.
Definition has_y (g : geom) (s : side_y) (i : nat) : Prop := match s with Tp => (0 < i)%nat | Bt => (S i < ny g)%nat end.
Definition inside (g : geom) (i j : nat) : Prop := (i < ny g)%nat /\ (j < nx g)%nat.
(** x grows with the column, y against the row *)
Definition rise_x (g : geom) (s : side_x) (z : nat -> nat -> R) (i j : nat) : R :=
  match s with Rt => (z i (S j) - z i j) / dx g | Lf => (z i j - z i (pred j)) / dx g end.
Definition rise_y (g : geom) (s : side_y) (z : nat -> nat -> R) (i j : nat) : R :=
  match s with Tp => (z (pred i) j - z i j) / dy g | Bt => (z i j - z (S i) j) / dy g end.
Definition other_x (s : side_x) : side_x := match s with Rt => Lf | Lf => Rt end.
Definition other_y (s : side_y) : side_y := match s with Tp => Bt | Bt => Tp end.
Fixpoint total (n : nat) (f : nat -> R) : R := match n with O => 0 | S k => total k f + f k end.

(** ** Gradients *)

Lemma d_dx_value g s z i j : has_x g s j -> d_dx g s (dem z) i j = Some (rise_x g s z i j).
Proof.
  destruct s; cbn [d_dx has_x rise_x]; intros H.
  - unfold get_d_dx_R. destruct (Nat.eqb_spec (S j) (nx g)); [lia|]. reflexivity.
  - unfold get_d_dx_L. destruct (Nat.eqb_spec j 0); [lia|]. cbn. f_equal. unfold Rdiv. ring.
Qed.
Lemma d_dy_value g s z i j : has_y g s i -> d_dy g s (dem z) i j = Some (rise_y g s z i j).
Proof.
  destruct s; cbn [d_dy has_y rise_y]; intros H.
  - unfold get_d_dy_T. destruct (Nat.eqb_spec i 0); [lia|]. reflexivity.
  - unfold get_d_dy_B. destruct (Nat.eqb_spec (S i) (ny g)); [lia|]. cbn. f_equal. unfold Rdiv. ring.
Qed.
Lemma d_dx_gen g s (f : grid) i j u v : has_x g s j -> f i (next_x s j) = Some u -> f i j = Some v ->
  d_dx g s f i j = Some (match s with Rt => (u - v) / dx g | Lf => (v - u) / dx g end).
Proof.
  destruct s; cbn [d_dx has_x next_x]; intros H U V.
  - unfold get_d_dx_R. destruct (Nat.eqb_spec (S j) (nx g)); [lia|]. now rewrite U, V.
  - unfold get_d_dx_L. destruct (Nat.eqb_spec j 0); [lia|]. rewrite U, V. cbn. f_equal. unfold Rdiv. ring.
Qed.
Lemma d_dy_gen g s (f : grid) i j u v : has_y g s i -> f (next_y s i) j = Some u -> f i j = Some v ->
  d_dy g s f i j = Some (match s with Tp => (u - v) / dy g | Bt => (v - u) / dy g end).
Proof.
  destruct s; cbn [d_dy has_y next_y]; intros H U V.
  - unfold get_d_dy_T. destruct (Nat.eqb_spec i 0); [lia|]. now rewrite U, V.
  - unfold get_d_dy_B. destruct (Nat.eqb_spec (S i) (ny g)); [lia|]. rewrite U, V. cbn. f_equal. unfold Rdiv. ring.
Qed.
Lemma d_dx_some g s (f : grid) i j : (j < nx g)%nat -> d_dx g s f i j <> None <-> has_x g s j /\ f i j <> None /\ f i (next_x s j) <> None.
Proof.
  intros J. destruct s; cbn [d_dx has_x next_x].
  - unfold get_d_dx_R. destruct (Nat.eqb_spec (S j) (nx g)) as [E|E].
    + cbn. split; [easy|lia].
    + destruct (f i (S j)), (f i j); cbn; split; intros; try easy; try (repeat split; try easy; lia).
  - unfold get_d_dx_L. destruct (Nat.eqb_spec j 0) as [E|E].
    + cbn. split; [easy|lia].
    + destruct (f i (pred j)), (f i j); cbn; split; intros; try easy; try (repeat split; try easy; lia).
Qed.
Lemma d_dy_some g s (f : grid) i j : (i < ny g)%nat -> d_dy g s f i j <> None <-> has_y g s i /\ f i j <> None /\ f (next_y s i) j <> None.
Proof.
  intros J. destruct s; cbn [d_dy has_y next_y].
  - unfold get_d_dy_T. destruct (Nat.eqb_spec i 0) as [E|E].
    + cbn. split; [easy|lia].
    + destruct (f (pred i) j), (f i j); cbn; split; intros; try easy; try (repeat split; try easy; lia).
  - unfold get_d_dy_B. destruct (Nat.eqb_spec (S i) (ny g)) as [E|E].
    + cbn. split; [easy|lia].
    + destruct (f (S i) j), (f i j); cbn; split; intros; try easy; try (repeat split; try easy; lia).
Qed.
Lemma d_dx_ext g s (f h : grid) i j : (j < nx g)%nat -> (forall j, (j < nx g)%nat -> f i j = h i j) -> d_dx g s f i j = d_dx g s h i j.
Proof.
  intros J E. destruct s; cbn [d_dx].
  - unfold get_d_dx_R. destruct (Nat.eqb_spec (S j) (nx g)); [reflexivity|]. now rewrite !E by lia.
  - unfold get_d_dx_L. destruct (Nat.eqb_spec j 0); [reflexivity|]. now rewrite !E by lia.
Qed.
Lemma d_dy_ext g s (f h : grid) i j : (i < ny g)%nat -> (forall i, (i < ny g)%nat -> f i j = h i j) -> d_dy g s f i j = d_dy g s h i j.
Proof.
  intros J E. destruct s; cbn [d_dy].
  - unfold get_d_dy_T. destruct (Nat.eqb_spec i 0); [reflexivity|]. now rewrite !E by lia.
  - unfold get_d_dy_B. destruct (Nat.eqb_spec (S i) (ny g)); [reflexivity|]. now rewrite !E by lia.
Qed.
Lemma sqrt_zero a b : sqrt (a ^ 2 + b ^ 2) = 0 <-> a = 0 /\ b = 0.
Proof.
  assert (P : 0 <= a ^ 2 + b ^ 2) by nra. split.
  - intros E. apply sqrt_eq_0 in E; [|exact P]. split; nra.
  - intros [-> ->]. replace (0 ^ 2 + 0 ^ 2) with 0 by ring. apply sqrt_0.
Qed.
Lemma slope_some g sx sy f i j a b : d_dx g sx f i j = Some a -> d_dy g sy f i j = Some b -> a <> 0 \/ b <> 0 ->
  get_qp_slopes g sx sy f i j = Some (sqrt (a ^ 2 + b ^ 2)).
Proof.
  intros A B N. unfold get_qp_slopes. rewrite A, B. cbn [o2]. destruct (Req_EM_T (sqrt (a ^ 2 + b ^ 2)) 0) as [E|E]; [|reflexivity].
  apply sqrt_zero in E. tauto.
Qed.

(** A slope that is given is positive: a level cell is NaN. *)
Theorem C119_slope : forall g sx sy z i j, inside g i j -> has_x g sx j -> has_y g sy i ->
  let a := rise_x g sx z i j in let b := rise_y g sy z i j in
  (a <> 0 \/ b <> 0 -> get_qp_slopes g sx sy (dem z) i j = Some (sqrt (a ^ 2 + b ^ 2)) /\ 0 < sqrt (a ^ 2 + b ^ 2)) /\
  (a = 0 /\ b = 0 -> get_qp_slopes g sx sy (dem z) i j = None).
Proof.
  intros g sx sy z i j _ X Y a b. pose proof (d_dx_value g sx z i j X) as A. pose proof (d_dy_value g sy z i j Y) as B. fold a in A. fold b in B. split.
  - intros N. split; [now apply slope_some|]. apply sqrt_lt_R0. destruct N; nra.
  - intros E. unfold get_qp_slopes. rewrite A, B. cbn [o2]. destruct (Req_EM_T (sqrt (a ^ 2 + b ^ 2)) 0) as [|N]; [reflexivity|]. now apply sqrt_zero in E.
Qed.
Print Assumptions C119_slope.

(** ** Where the divergence is defined *)

Lemma slope_ne g sx sy z i j : inside g i j -> get_qp_slopes g sx sy (dem z) i j <> None <->
  has_x g sx j /\ has_y g sy i /\ (rise_x g sx z i j <> 0 \/ rise_y g sy z i j <> 0).
Proof.
  intros [I J]. split.
  - intros H. assert (X : d_dx g sx (dem z) i j <> None) by (intros E; apply H; unfold get_qp_slopes; now rewrite E).
    assert (Y : d_dy g sy (dem z) i j <> None) by (intros E; apply H; unfold get_qp_slopes; rewrite E; now destruct (d_dx g sx (dem z) i j)).
    apply d_dx_some in X as (X & _); [|exact J]. apply d_dy_some in Y as (Y & _); [|exact I]. split; [exact X|]. split; [exact Y|].
    destruct (Req_dec (rise_x g sx z i j) 0) as [A|A]; [|now left]. destruct (Req_dec (rise_y g sy z i j) 0) as [B|B]; [|now right].
    exfalso. apply H. now apply (C119_slope g sx sy z i j (conj I J) X Y).
  - intros (X & Y & N). destruct (C119_slope g sx sy z i j (conj I J) X Y) as [H _]. destruct (H N) as [-> _]. discriminate.
Qed.
Lemma arg1_ne g gamma sx sy z i j : inside g i j -> div_arg1 g gamma sx sy (dem z) i j <> None <-> get_qp_slopes g sx sy (dem z) i j <> None.
Proof.
  intros I. unfold div_arg1, get_qp_slopes_power. split.
  - intros H E. apply H. now rewrite E.
  - intros H. pose proof H as H0. apply slope_ne in H0 as (X & _ & _); [|exact I]. destruct (get_qp_slopes g sx sy (dem z) i j); [|congruence]. rewrite d_dx_value by exact X. discriminate.
Qed.
Lemma arg2_ne g gamma sx sy z i j : inside g i j -> div_arg2 g gamma sx sy (dem z) i j <> None <-> get_qp_slopes g sx sy (dem z) i j <> None.
Proof.
  intros I. unfold div_arg2, get_qp_slopes_power. split.
  - intros H E. apply H. now rewrite E.
  - intros H. pose proof H as H0. apply slope_ne in H0 as (_ & Y & _); [|exact I]. destruct (get_qp_slopes g sx sy (dem z) i j); [|congruence]. rewrite d_dy_value by exact Y. discriminate.
Qed.
(** The divergence of a quarter is given exactly where two neighbours to its side and two up or down are in the grid, and the surface is not level at
    the cell and at the next one each way. *)
Theorem C119_defined : forall g gamma sx sy z i j, inside g i j ->
  let steep i j := rise_x g sx z i j <> 0 \/ rise_y g sy z i j <> 0 in
  get_qp_divergence g gamma sx sy (dem z) i j <> None <->
  (has_x g sx j /\ has_x g sx (next_x sx j) /\ has_y g sy i /\ has_y g sy (next_y sy i) /\ steep i j /\ steep i (next_x sx j) /\ steep (next_y sy i) j).
Proof.
  intros g gamma sx sy z i j [I J] steep. unfold get_qp_divergence.
  assert (NX : has_x g sx j -> inside g i (next_x sx j)) by (intros H; split; [exact I|]; destruct sx; cbn in *; lia).
  assert (NY : has_y g sy i -> inside g (next_y sy i) j) by (intros H; split; [|exact J]; destruct sy; cbn in *; lia).
  split.
  - intros H. assert (X : d_dx g sx (div_arg1 g gamma sx sy (dem z)) i j <> None) by (intros E; apply H; now rewrite E).
    assert (Y : d_dy g sy (div_arg2 g gamma sx sy (dem z)) i j <> None) by (intros E; apply H; rewrite E; now destruct (d_dx g sx _ i j)).
    apply d_dx_some in X as (X1 & X2 & X3); [|exact J]. apply d_dy_some in Y as (Y1 & Y2 & Y3); [|exact I].
    apply arg1_ne in X2; [|now split]. apply arg1_ne in X3; [|now apply NX]. apply arg2_ne in Y3; [|now apply NY].
    apply slope_ne in X2 as (_ & _ & S1); [|now split]. apply slope_ne in X3 as (X4 & _ & S2); [|now apply NX]. apply slope_ne in Y3 as (_ & Y4 & S3); [|now apply NY]. exact (conj X1 (conj X4 (conj Y1 (conj Y4 (conj S1 (conj S2 S3)))))).
  - intros (X1 & X2 & Y1 & Y2 & S1 & S2 & S3).
    assert (X : d_dx g sx (div_arg1 g gamma sx sy (dem z)) i j <> None).
    { apply d_dx_some; [exact J|]. split; [exact X1|]. split; (apply arg1_ne; [auto; now split|]); apply slope_ne; auto; now split. }
    assert (Y : d_dy g sy (div_arg2 g gamma sx sy (dem z)) i j <> None).
    { apply d_dy_some; [exact I|]. split; [exact Y1|]. split; (apply arg2_ne; [auto; now split|]); apply slope_ne; auto; now split. }
    destruct (d_dx g sx _ i j); [|congruence]. destruct (d_dy g sy _ i j); [|congruence]. discriminate.
Qed.
Print Assumptions C119_defined.

(** ** A plane *)

(** On a plane all quarters see its slope, no divergence and no curvature. *)
Theorem C119_plane : forall g gamma sx sy a b c z i j, 0 < dx g -> 0 < dy g -> inside g i j -> b <> 0 \/ c <> 0 ->
  (forall i j, z i j = a + b * (INR j * dx g) - c * (INR i * dy g)) ->
  has_x g sx j -> has_x g sx (next_x sx j) -> has_y g sy i -> has_y g sy (next_y sy i) ->
  d_dx g sx (dem z) i j = Some b /\ d_dy g sy (dem z) i j = Some c /\ get_qp_slopes g sx sy (dem z) i j = Some (sqrt (b ^ 2 + c ^ 2)) /\
  get_qp_divergence g gamma sx sy (dem z) i j = Some 0 /\
  (sx = Rt -> sy = Tp -> get_kappa_c_RT g (dem z) i j = Some 0 /\ get_kappa_p_RT g (dem z) i j = Some 0).
Proof.
  intros g gamma sx sy a b c z i j DX DY I NZ Z X1 X2 Y1 Y2.
  assert (GX : forall i j, has_x g sx j -> d_dx g sx (dem z) i j = Some b).
  { clear i j I X1 X2 Y1 Y2. intros i j X. rewrite d_dx_value by exact X. f_equal. destruct sx; cbn in *; rewrite !Z.
    - rewrite S_INR. field. lra.
    - destruct j as [|j]; [lia|]. cbn [pred]. rewrite S_INR. field. lra. }
  assert (GY : forall i j, has_y g sy i -> d_dy g sy (dem z) i j = Some c).
  { clear i j I X1 X2 Y1 Y2. intros i j X. rewrite d_dy_value by exact X. f_equal. destruct sy; cbn in *; rewrite !Z.
    - destruct i as [|i]; [lia|]. cbn [pred]. rewrite S_INR. field. lra.
    - rewrite S_INR. field. lra. }
  assert (SL : forall i j, has_x g sx j -> has_y g sy i -> get_qp_slopes g sx sy (dem z) i j = Some (sqrt (b ^ 2 + c ^ 2))).
  { intros k l X Y. apply slope_some; auto. }
  refine (conj (GX i j X1) (conj (GY i j Y1) (conj (SL i j X1 Y1) (conj _ _)))).
  - set (p := Rpower (sqrt (b ^ 2 + c ^ 2)) (gamma - 1)).
    assert (A1 : forall i j, has_x g sx j -> has_y g sy i -> div_arg1 g gamma sx sy (dem z) i j = Some (p * b)).
    { intros k l X Y. unfold div_arg1, get_qp_slopes_power. rewrite SL, GX by auto. reflexivity. }
    assert (A2 : forall i j, has_x g sx j -> has_y g sy i -> div_arg2 g gamma sx sy (dem z) i j = Some (p * c)).
    { intros k l X Y. unfold div_arg2, get_qp_slopes_power. rewrite SL, GY by auto. reflexivity. }
    unfold get_qp_divergence.
    rewrite (d_dx_gen g sx _ i j (p * b) (p * b) X1) by (apply A1; auto). rewrite (d_dy_gen g sy _ i j (p * c) (p * c) Y1) by (apply A2; auto).
    cbn [o2]. f_equal. destruct sx, sy; field; lra.
  - intros -> ->. unfold get_kappa_c_RT, get_kappa_p_RT. rewrite (GX i j X1), (GY i j Y1), (SL i j X1 Y1).
    rewrite (d_dx_gen g Rt (d_dx g Rt (dem z)) i j b b X1) by (apply GX; auto). rewrite (d_dy_gen g Tp (d_dx g Rt (dem z)) i j b b Y1) by (apply GX; auto).
    rewrite (d_dy_gen g Tp (d_dy g Tp (dem z)) i j c c Y1) by (apply GY; auto). cbn [o5 o2].
    assert (P : 0 < sqrt (b ^ 2 + c ^ 2)) by (apply sqrt_lt_R0; destruct NZ; nra). split; f_equal; field; repeat split; try lra.
Qed.
Print Assumptions C119_plane.

(** ** Height and scale *)

Definition lift (c : R) (f : grid) : grid := fun i j => o1 (fun a => a + c) (f i j).
Definition scale (k : R) (f : grid) : grid := fun i j => o1 (fun a => k * a) (f i j).
Lemma d_dx_lift g s c f i j : d_dx g s (lift c f) i j = d_dx g s f i j.
Proof.
  destruct s; cbn [d_dx]; unfold get_d_dx_R, get_d_dx_L, lift.
  - destruct (Nat.eqb (S j) (nx g)); [reflexivity|]. destruct (f i (S j)), (f i j); cbn; try reflexivity. f_equal. unfold Rdiv. ring.
  - destruct (Nat.eqb j 0); [reflexivity|]. destruct (f i (pred j)), (f i j); cbn; try reflexivity. f_equal. unfold Rdiv. ring.
Qed.
Lemma d_dy_lift g s c f i j : d_dy g s (lift c f) i j = d_dy g s f i j.
Proof.
  destruct s; cbn [d_dy]; unfold get_d_dy_T, get_d_dy_B, lift.
  - destruct (Nat.eqb i 0); [reflexivity|]. destruct (f (pred i) j), (f i j); cbn; try reflexivity. f_equal. unfold Rdiv. ring.
  - destruct (Nat.eqb (S i) (ny g)); [reflexivity|]. destruct (f (S i) j), (f i j); cbn; try reflexivity. f_equal. unfold Rdiv. ring.
Qed.
Lemma d_dx_scale g s k f i j : d_dx g s (scale k f) i j = o1 (fun a => k * a) (d_dx g s f i j).
Proof.
  destruct s; cbn [d_dx]; unfold get_d_dx_R, get_d_dx_L, scale.
  - destruct (Nat.eqb (S j) (nx g)); [reflexivity|]. destruct (f i (S j)), (f i j); cbn; try reflexivity. f_equal. unfold Rdiv. ring.
  - destruct (Nat.eqb j 0); [reflexivity|]. destruct (f i (pred j)), (f i j); cbn; try reflexivity. f_equal. unfold Rdiv. ring.
Qed.
Lemma d_dy_scale g s k f i j : d_dy g s (scale k f) i j = o1 (fun a => k * a) (d_dy g s f i j).
Proof.
  destruct s; cbn [d_dy]; unfold get_d_dy_T, get_d_dy_B, scale.
  - destruct (Nat.eqb i 0); [reflexivity|]. destruct (f (pred i) j), (f i j); cbn; try reflexivity. f_equal. unfold Rdiv. ring.
  - destruct (Nat.eqb (S i) (ny g)); [reflexivity|]. destruct (f (S i) j), (f i j); cbn; try reflexivity. f_equal. unfold Rdiv. ring.
Qed.

(** The height above the sea does not matter. *)
Theorem C119_lift : forall g gamma sx sy c f i j, inside g i j ->
  get_qp_slopes g sx sy (lift c f) i j = get_qp_slopes g sx sy f i j /\
  get_qp_divergence g gamma sx sy (lift c f) i j = get_qp_divergence g gamma sx sy f i j /\
  get_kappa_c_RT g (lift c f) i j = get_kappa_c_RT g f i j /\ get_kappa_p_RT g (lift c f) i j = get_kappa_p_RT g f i j.
Proof.
  intros g gamma sx sy c f i j [I J].
  assert (SL : forall sx sy i j, get_qp_slopes g sx sy (lift c f) i j = get_qp_slopes g sx sy f i j) by (intros; unfold get_qp_slopes; now rewrite d_dx_lift, d_dy_lift).
  split; [apply SL|]. split; [|split].
  - unfold get_qp_divergence. f_equal; [apply d_dx_ext|apply d_dy_ext]; auto; intros k K; unfold div_arg1, div_arg2, get_qp_slopes_power; now rewrite SL, ?d_dx_lift, ?d_dy_lift.
  - unfold get_kappa_c_RT. rewrite SL, d_dx_lift, d_dy_lift. f_equal. f_equal; [apply d_dx_ext|apply d_dy_ext|apply d_dy_ext]; auto; intros k K; auto using d_dx_lift, d_dy_lift.
  - unfold get_kappa_p_RT. rewrite SL, d_dx_lift, d_dy_lift. f_equal. f_equal; [apply d_dx_ext|apply d_dy_ext|apply d_dy_ext]; auto; intros k K; auto using d_dx_lift, d_dy_lift.
Qed.
Print Assumptions C119_lift.

Lemma slope_scale g sx sy k f i j : 0 < k -> get_qp_slopes g sx sy (scale k f) i j = o1 (fun s => k * s) (get_qp_slopes g sx sy f i j).
Proof.
  intros K. unfold get_qp_slopes. rewrite d_dx_scale, d_dy_scale. destruct (d_dx g sx f i j) as [a|]; [|reflexivity]. destruct (d_dy g sy f i j) as [b|]; [|reflexivity]. cbn [o1 o2].
  assert (E : sqrt ((k * a) ^ 2 + (k * b) ^ 2) = k * sqrt (a ^ 2 + b ^ 2)).
  { replace ((k * a) ^ 2 + (k * b) ^ 2) with (k ^ 2 * (a ^ 2 + b ^ 2)) by ring. rewrite sqrt_mult by nra. f_equal. rewrite <- Rsqr_pow2. apply sqrt_Rsqr. lra. }
  rewrite E. destruct (Req_EM_T (sqrt (a ^ 2 + b ^ 2)) 0) as [Z|Z].
  - rewrite Z, Rmult_0_r. now destruct (Req_EM_T 0 0).
  - destruct (Req_EM_T (k * sqrt (a ^ 2 + b ^ 2)) 0) as [Y|Y]; [|reflexivity]. exfalso. apply Rmult_integral in Y. destruct Y; [lra|contradiction].
Qed.
Lemma slope_pos g sx sy f i j s : get_qp_slopes g sx sy f i j = Some s -> 0 < s.
Proof.
  unfold get_qp_slopes. destruct (d_dx g sx f i j) as [a|]; [|discriminate]. destruct (d_dy g sy f i j) as [b|]; [|discriminate]. cbn [o2].
  destruct (Req_EM_T (sqrt (a ^ 2 + b ^ 2)) 0) as [|N]; [discriminate|]. intros [= <-]. destruct (sqrt_pos (a ^ 2 + b ^ 2)) as [P|P]; [exact P|]. exfalso. now apply N.
Qed.
(** Heights k times as great: slopes k times, the divergence k^gamma times, the contour curvature the same, the profile curvature k times. *)
Theorem C119_scale : forall g gamma sx sy k f i j, 0 < k -> inside g i j ->
  get_qp_slopes g sx sy (scale k f) i j = o1 (fun s => k * s) (get_qp_slopes g sx sy f i j) /\
  get_qp_divergence g gamma sx sy (scale k f) i j = o1 (fun d => Rpower k gamma * d) (get_qp_divergence g gamma sx sy f i j) /\
  get_kappa_c_RT g (scale k f) i j = get_kappa_c_RT g f i j /\ get_kappa_p_RT g (scale k f) i j = o1 (fun c => k * c) (get_kappa_p_RT g f i j).
Proof.
  intros g gamma sx sy k f i j K [I J]. pose proof (fun sx sy i j => slope_scale g sx sy k f i j K) as SL. split; [apply SL|].
  assert (PW : Rpower k gamma = Rpower k (gamma - 1) * k).
  { replace gamma with ((gamma - 1) + 1) at 1 by ring. rewrite Rpower_plus, Rpower_1 by lra. reflexivity. }
  assert (A1 : forall i j, div_arg1 g gamma sx sy (scale k f) i j = scale (Rpower k gamma) (div_arg1 g gamma sx sy f) i j).
  { intros m n. unfold scale at 2. unfold div_arg1, get_qp_slopes_power. rewrite SL, d_dx_scale. destruct (get_qp_slopes g sx sy f m n) as [s|] eqn:ES; [|reflexivity].
    apply slope_pos in ES. destruct (d_dx g sx f m n) as [a|]; [|reflexivity]. cbn. f_equal. rewrite <- Rpower_mult_distr by lra. rewrite PW. ring. }
  assert (A2 : forall i j, div_arg2 g gamma sx sy (scale k f) i j = scale (Rpower k gamma) (div_arg2 g gamma sx sy f) i j).
  { intros m n. unfold scale at 2. unfold div_arg2, get_qp_slopes_power. rewrite SL, d_dy_scale. destruct (get_qp_slopes g sx sy f m n) as [s|] eqn:ES; [|reflexivity].
    apply slope_pos in ES. destruct (d_dy g sy f m n) as [a|]; [|reflexivity]. cbn. f_equal. rewrite <- Rpower_mult_distr by lra. rewrite PW. ring. }
  assert (XX : d_dx g Rt (d_dx g Rt (scale k f)) i j = o1 (fun a => k * a) (d_dx g Rt (d_dx g Rt f) i j)).
  { rewrite <- d_dx_scale. apply d_dx_ext; auto. intros n N. apply d_dx_scale. }
  assert (XY : d_dy g Tp (d_dx g Rt (scale k f)) i j = o1 (fun a => k * a) (d_dy g Tp (d_dx g Rt f) i j)).
  { rewrite <- d_dy_scale. apply d_dy_ext; auto. intros n N. apply d_dx_scale. }
  assert (YY : d_dy g Tp (d_dy g Tp (scale k f)) i j = o1 (fun a => k * a) (d_dy g Tp (d_dy g Tp f) i j)).
  { rewrite <- d_dy_scale. apply d_dy_ext; auto. intros n N. apply d_dy_scale. }
  split; [|split].
  - unfold get_qp_divergence. rewrite (d_dx_ext g sx _ (scale (Rpower k gamma) (div_arg1 g gamma sx sy f)) i j J) by auto.
    rewrite (d_dy_ext g sy _ (scale (Rpower k gamma) (div_arg2 g gamma sx sy f)) i j I) by auto. rewrite d_dx_scale, d_dy_scale.
    destruct (d_dx g sx (div_arg1 g gamma sx sy f) i j); [|reflexivity]. destruct (d_dy g sy (div_arg2 g gamma sx sy f) i j); [|reflexivity]. cbn. f_equal. ring.
  - unfold get_kappa_c_RT. rewrite SL, XX, XY, YY, d_dx_scale, d_dy_scale. destruct (get_qp_slopes g Rt Tp f i j) as [s|] eqn:ES.
    + apply slope_pos in ES. destruct (d_dx g Rt f i j), (d_dy g Tp f i j), (d_dx g Rt (d_dx g Rt f) i j), (d_dy g Tp (d_dx g Rt f) i j), (d_dy g Tp (d_dy g Tp f) i j); cbn [o1 o2 o5]; try reflexivity.
      f_equal. field. split; lra.
    + destruct (d_dx g Rt f i j), (d_dy g Tp f i j), (d_dx g Rt (d_dx g Rt f) i j), (d_dy g Tp (d_dx g Rt f) i j), (d_dy g Tp (d_dy g Tp f) i j); reflexivity.
  - unfold get_kappa_p_RT. rewrite SL, XX, XY, YY, d_dx_scale, d_dy_scale. destruct (get_qp_slopes g Rt Tp f i j) as [s|] eqn:ES.
    + apply slope_pos in ES. destruct (d_dx g Rt f i j), (d_dy g Tp f i j), (d_dx g Rt (d_dx g Rt f) i j), (d_dy g Tp (d_dx g Rt f) i j), (d_dy g Tp (d_dy g Tp f) i j); cbn [o1 o2 o5]; try reflexivity.
      f_equal. field. split; lra.
    + destruct (d_dx g Rt f i j), (d_dy g Tp f i j), (d_dx g Rt (d_dx g Rt f) i j), (d_dy g Tp (d_dx g Rt f) i j), (d_dy g Tp (d_dy g Tp f) i j); reflexivity.
Qed.
Print Assumptions C119_scale.

(** ** The quarters among themselves *)

(** A left quarter sees what the right quarter of the cell to the left does, a bottom quarter what the top quarter below does. *)
Theorem C119_shared : forall g f i j,
  ((S j < nx g)%nat -> d_dx g Lf f i (S j) = d_dx g Rt f i j) /\ ((S i < ny g)%nat -> d_dy g Tp f (S i) j = d_dy g Bt f i j).
Proof.
  intros g f i j. split; intros H; cbn [d_dx d_dy]; unfold get_d_dx_L, get_d_dx_R, get_d_dy_T, get_d_dy_B.
  - destruct (Nat.eqb_spec (S j) (nx g)); [lia|]. cbn [Nat.eqb pred]. destruct (f i j), (f i (S j)); cbn; try reflexivity. f_equal. unfold Rdiv. ring.
  - destruct (Nat.eqb_spec (S i) (ny g)); [lia|]. cbn [Nat.eqb pred]. destruct (f i j), (f (S i) j); cbn; try reflexivity. f_equal. unfold Rdiv. ring.
Qed.
Print Assumptions C119_shared.

(** the surface seen in a mirror *)
Definition mirror_x (g : geom) (f : grid) : grid := fun i j => f i (nx g - 1 - j)%nat.
Definition mirror_y (g : geom) (f : grid) : grid := fun i j => f (ny g - 1 - i)%nat j.
Lemma d_dx_mirror g s f i j : (j < nx g)%nat -> d_dx g s (mirror_x g f) i j = o1 Ropp (d_dx g (other_x s) f i (nx g - 1 - j)%nat).
Proof.
  intros J. destruct s; cbn [d_dx other_x]; unfold get_d_dx_L, get_d_dx_R, mirror_x.
  - destruct (Nat.eqb_spec (S j) (nx g)), (Nat.eqb_spec (nx g - 1 - j) 0); try lia; [reflexivity|]. replace (nx g - 1 - S j)%nat with (pred (nx g - 1 - j)) by lia.
    destruct (f i (pred (nx g - 1 - j))), (f i (nx g - 1 - j)%nat); cbn; try reflexivity. f_equal. unfold Rdiv. ring.
  - destruct (Nat.eqb_spec j 0), (Nat.eqb_spec (S (nx g - 1 - j)) (nx g)); try lia; [reflexivity|]. replace (nx g - 1 - pred j)%nat with (S (nx g - 1 - j)) by lia.
    destruct (f i (S (nx g - 1 - j))), (f i (nx g - 1 - j)%nat); cbn; try reflexivity. f_equal. unfold Rdiv. ring.
Qed.
Lemma d_dy_mirror g s f i j : (i < ny g)%nat -> d_dy g s (mirror_y g f) i j = o1 Ropp (d_dy g (other_y s) f (ny g - 1 - i)%nat j).
Proof.
  intros J. destruct s; cbn [d_dy other_y]; unfold get_d_dy_T, get_d_dy_B, mirror_y.
  - destruct (Nat.eqb_spec i 0), (Nat.eqb_spec (S (ny g - 1 - i)) (ny g)); try lia; [reflexivity|]. replace (ny g - 1 - pred i)%nat with (S (ny g - 1 - i)) by lia.
    destruct (f (S (ny g - 1 - i)) j), (f (ny g - 1 - i)%nat j); cbn; try reflexivity. f_equal. unfold Rdiv. ring.
  - destruct (Nat.eqb_spec (S i) (ny g)), (Nat.eqb_spec (ny g - 1 - i) 0); try lia; [reflexivity|]. replace (ny g - 1 - S i)%nat with (pred (ny g - 1 - i)) by lia.
    destruct (f (pred (ny g - 1 - i)) j), (f (ny g - 1 - i)%nat j); cbn; try reflexivity. f_equal. unfold Rdiv. ring.
Qed.
Lemma d_dy_mirror_x g s f i j : d_dy g s (mirror_x g f) i j = d_dy g s f i (nx g - 1 - j)%nat.
Proof. now destruct s. Qed.
Lemma d_dx_mirror_y g s f i j : d_dx g s (mirror_y g f) i j = d_dx g s f (ny g - 1 - i)%nat j.
Proof. now destruct s. Qed.
Lemma d_dx_neg g s f i j : d_dx g s (fun i j => o1 Ropp (f i j)) i j = o1 Ropp (d_dx g s f i j).
Proof.
  destruct s; cbn [d_dx]; unfold get_d_dx_R, get_d_dx_L.
  - destruct (Nat.eqb (S j) (nx g)); [reflexivity|]. destruct (f i (S j)), (f i j); cbn; try reflexivity. f_equal. unfold Rdiv. ring.
  - destruct (Nat.eqb j 0); [reflexivity|]. destruct (f i (pred j)), (f i j); cbn; try reflexivity. f_equal. unfold Rdiv. ring.
Qed.
Lemma d_dy_neg g s f i j : d_dy g s (fun i j => o1 Ropp (f i j)) i j = o1 Ropp (d_dy g s f i j).
Proof.
  destruct s; cbn [d_dy]; unfold get_d_dy_T, get_d_dy_B.
  - destruct (Nat.eqb i 0); [reflexivity|]. destruct (f (pred i) j), (f i j); cbn; try reflexivity. f_equal. unfold Rdiv. ring.
  - destruct (Nat.eqb (S i) (ny g)); [reflexivity|]. destruct (f (S i) j), (f i j); cbn; try reflexivity. f_equal. unfold Rdiv. ring.
Qed.
Lemma neg_neg x : o1 Ropp (o1 Ropp x) = x.
Proof. destruct x; cbn; [f_equal; ring|reflexivity]. Qed.
(** The quarters of the mirror image are the opposite ones of the surface: none of the four is favoured. *)
Theorem C119_mirror : forall g gamma sx sy f i j, inside g i j ->
  get_qp_slopes g sx sy (mirror_x g f) i j = get_qp_slopes g (other_x sx) sy f i (nx g - 1 - j)%nat /\
  get_qp_divergence g gamma sx sy (mirror_x g f) i j = get_qp_divergence g gamma (other_x sx) sy f i (nx g - 1 - j)%nat /\
  get_qp_slopes g sx sy (mirror_y g f) i j = get_qp_slopes g sx (other_y sy) f (ny g - 1 - i)%nat j /\
  get_qp_divergence g gamma sx sy (mirror_y g f) i j = get_qp_divergence g gamma sx (other_y sy) f (ny g - 1 - i)%nat j.
Proof.
  intros g gamma sx sy f i j [I J].
  assert (SX : forall i j, (j < nx g)%nat -> get_qp_slopes g sx sy (mirror_x g f) i j = get_qp_slopes g (other_x sx) sy f i (nx g - 1 - j)%nat).
  { intros m n N. unfold get_qp_slopes. rewrite d_dx_mirror, d_dy_mirror_x by exact N. destruct (d_dx g (other_x sx) f m _) as [a|]; [|reflexivity]. cbn [o1]. destruct (d_dy g sy f m _) as [b|]; [|reflexivity].
    cbn [o2]. now replace ((- a) ^ 2) with (a ^ 2) by ring. }
  assert (SY : forall i j, (i < ny g)%nat -> get_qp_slopes g sx sy (mirror_y g f) i j = get_qp_slopes g sx (other_y sy) f (ny g - 1 - i)%nat j).
  { intros m n N. unfold get_qp_slopes. rewrite d_dy_mirror, d_dx_mirror_y by exact N. destruct (d_dx g sx f _ n) as [a|]; [|reflexivity]. destruct (d_dy g (other_y sy) f _ n) as [b|]; [|reflexivity].
    cbn [o1 o2]. now replace ((- b) ^ 2) with (b ^ 2) by ring. }
  refine (conj (SX i j J) (conj _ (conj (SY i j I) _))).
  - unfold get_qp_divergence. f_equal.
    + rewrite (d_dx_ext g sx _ (fun i j => o1 Ropp (mirror_x g (div_arg1 g gamma (other_x sx) sy f) i j)) i j J).
      * rewrite (d_dx_neg g sx (mirror_x g (div_arg1 g gamma (other_x sx) sy f))), d_dx_mirror by exact J. apply neg_neg.
      * intros n N. unfold mirror_x at 2. unfold div_arg1, get_qp_slopes_power. rewrite SX, d_dx_mirror by exact N.
        destruct (get_qp_slopes g (other_x sx) sy f i _); [|reflexivity]. destruct (d_dx g (other_x sx) f i _); [|reflexivity]. cbn. f_equal. ring.
    + rewrite (d_dy_ext g sy _ (mirror_x g (div_arg2 g gamma (other_x sx) sy f)) i j I); [apply d_dy_mirror_x|].
      intros m M. unfold mirror_x at 2. unfold div_arg2, get_qp_slopes_power. now rewrite SX, d_dy_mirror_x by exact J.
  - unfold get_qp_divergence. f_equal.
    + rewrite (d_dx_ext g sx _ (mirror_y g (div_arg1 g gamma sx (other_y sy) f)) i j J); [apply d_dx_mirror_y|].
      intros n N. unfold mirror_y at 2. unfold div_arg1, get_qp_slopes_power. now rewrite SY, d_dx_mirror_y by exact I.
    + rewrite (d_dy_ext g sy _ (fun i j => o1 Ropp (mirror_y g (div_arg2 g gamma sx (other_y sy) f) i j)) i j I).
      * rewrite (d_dy_neg g sy (mirror_y g (div_arg2 g gamma sx (other_y sy) f))), d_dy_mirror by exact I. apply neg_neg.
      * intros m M. unfold mirror_y at 2. unfold div_arg2, get_qp_slopes_power. rewrite SY, d_dy_mirror by exact M.
        destruct (get_qp_slopes g sx (other_y sy) f _ j); [|reflexivity]. destruct (d_dy g (other_y sy) f _ j); [|reflexivity]. cbn. f_equal. ring.
Qed.
Print Assumptions C119_mirror.

(** ** What flows out of a block of cells *)

Lemma total_ext n f h : (forall k, (k < n)%nat -> f k = h k) -> total n f = total n h.
Proof. induction n as [|n IH]; intros H; [reflexivity|]. cbn [total]. rewrite IH by (intros; apply H; lia). now rewrite H by lia. Qed.
Lemma total_plus n f h : total n (fun k => f k + h k) = total n f + total n h.
Proof. induction n as [|n IH]; cbn [total]; [ring|]. rewrite IH. ring. Qed.
Lemma total_up n (f : nat -> R) d : total n (fun k => (f (S k) - f k) / d) = (f n - f O) / d.
Proof. induction n as [|n IH]; cbn [total]; [unfold Rdiv; ring|]. rewrite IH. unfold Rdiv. ring. Qed.
Lemma total_swap m n (f : nat -> nat -> R) : total m (fun i => total n (fun j => f i j)) = total n (fun j => total m (fun i => f i j)).
Proof.
  induction m as [|m IH]; cbn [total].
  - induction n as [|n IHn]; cbn [total]; [reflexivity|]. rewrite <- IHn. ring.
  - rewrite IH. now rewrite <- total_plus.
Qed.
(** The divergences of the right-top quarters of a block of m rows and n columns add up to what passes its four sides. *)
Theorem C119_flux : forall g gamma f (F1 F2 D : nat -> nat -> R) i0 j0 m n, (0 < i0)%nat -> (i0 + m <= ny g)%nat -> (j0 + n < nx g)%nat ->
  (forall i j, (i < m)%nat -> (j <= n)%nat -> div_arg1 g gamma Rt Tp f (i0 + i)%nat (j0 + j)%nat = Some (F1 i j)) ->
  (forall i j, (i <= m)%nat -> (j < n)%nat -> div_arg2 g gamma Rt Tp f (i0 + i - 1)%nat (j0 + j)%nat = Some (F2 i j)) ->
  (forall i j, (i < m)%nat -> (j < n)%nat -> get_qp_divergence g gamma Rt Tp f (i0 + i)%nat (j0 + j)%nat = Some (D i j)) ->
  total m (fun i => total n (fun j => D i j)) = total m (fun i => (F1 i n - F1 i O) / dx g) - total n (fun j => (F2 m j - F2 O j) / dy g).
Proof.
  intros g gamma f F1 F2 D i0 j0 m n I0 M N H1 H2 HD.
  assert (E : forall i j, (i < m)%nat -> (j < n)%nat -> D i j = (F1 i (S j) - F1 i j) / dx g + - ((F2 (S i) j - F2 i j) / dy g)).
  { intros i j I J. specialize (HD i j I J). unfold get_qp_divergence in HD.
    rewrite (d_dx_gen g Rt (div_arg1 g gamma Rt Tp f) (i0 + i) (j0 + j) (F1 i (S j)) (F1 i j)) in HD; [|cbn; lia|cbn [next_x]; rewrite plus_n_Sm; apply H1; lia|apply H1; lia].
    rewrite (d_dy_gen g Tp (div_arg2 g gamma Rt Tp f) (i0 + i) (j0 + j) (F2 i j) (F2 (S i) j)) in HD; [|cbn; lia| |].
    - cbn [o2] in HD. injection HD as <-. unfold Rdiv. ring.
    - cbn [next_y]. replace (pred (i0 + i)) with (i0 + i - 1)%nat by lia. apply H2; lia.
    - replace (i0 + i)%nat with (i0 + S i - 1)%nat by lia. apply H2; lia. }
  transitivity (total m (fun i => total n (fun j => (F1 i (S j) - F1 i j) / dx g) + total n (fun j => - ((F2 (S i) j - F2 i j) / dy g)))).
  - apply total_ext. intros i I. rewrite <- total_plus. apply total_ext. intros j J. now apply E.
  - rewrite total_plus. assert (P1 : total m (fun i => total n (fun j => (F1 i (S j) - F1 i j) / dx g)) = total m (fun i => (F1 i n - F1 i O) / dx g)).
    { apply total_ext. intros i _. exact (total_up n (F1 i) (dx g)). }
    assert (P2 : total m (fun i => total n (fun j => - ((F2 (S i) j - F2 i j) / dy g))) = - total n (fun j => (F2 m j - F2 O j) / dy g)).
    { rewrite total_swap. transitivity (total n (fun j => - ((F2 m j - F2 O j) / dy g))).
      - apply total_ext. intros j _. rewrite <- (total_up m (fun i => F2 i j) (dy g)). clear. induction m as [|m IH]; cbn [total]; [ring|]. rewrite IH. ring.
      - clear. induction n as [|n IH]; cbn [total]; [ring|]. rewrite IH. ring. }
    rewrite P1, P2. ring.
Qed.
Print Assumptions C119_flux.

(** ** Surfaces that only rise to the side *)

(** No contour curvature; the profile curvature is minus the second difference. *)
Theorem C119_cylinder : forall g f i j, 0 < dx g -> inside g i j -> (2 <= i)%nat -> (S (S j) < nx g)%nat -> f (S j) <> f j ->
  let z (i j : nat) := f j : R in
  get_kappa_c_RT g (dem z) i j = Some 0 /\ get_kappa_p_RT g (dem z) i j = Some (- ((f (S (S j)) - 2 * f (S j) + f j) / dx g ^ 2)).
Proof.
  intros g f i j DX [I J] I2 J2 N z. assert (ZX : forall i j, (S j < nx g)%nat -> d_dx g Rt (dem z) i j = Some ((f (S j) - f j) / dx g)) by (intros; now rewrite d_dx_value).
  assert (ZY : forall i j, (0 < i)%nat -> d_dy g Tp (dem z) i j = Some 0) by (intros; rewrite d_dy_value by (cbn; lia); cbn [rise_y]; unfold z; f_equal; unfold Rdiv; ring).
  set (a := (f (S j) - f j) / dx g) in *. assert (A : a <> 0).
  { unfold a. intros E. apply N. apply (Rmult_eq_compat_r (dx g)) in E. unfold Rdiv in E. rewrite Rmult_assoc, Rinv_l, Rmult_1_r, Rmult_0_l in E by lra. lra. }
  unfold get_kappa_c_RT, get_kappa_p_RT. rewrite (slope_some g Rt Tp (dem z) i j a 0) by (try (apply ZX; lia); try (apply ZY; lia); now left).
  rewrite (ZX i j) by lia. rewrite (ZY i j) by lia. fold a.
  rewrite (d_dx_gen g Rt (d_dx g Rt (dem z)) i j ((f (S (S j)) - f (S j)) / dx g) a) by (try (cbn; lia); apply ZX; cbn; lia).
  rewrite (d_dy_gen g Tp (d_dx g Rt (dem z)) i j a a) by (try (cbn; lia); apply ZX; lia).
  rewrite (d_dy_gen g Tp (d_dy g Tp (dem z)) i j 0 0) by (try (cbn; lia); apply ZY; cbn; lia). cbn [o5 o2].
  assert (P : 0 < sqrt (a ^ 2 + 0 ^ 2)) by (apply sqrt_lt_R0; nra). assert (Q : sqrt (a ^ 2 + 0 ^ 2) ^ 2 = a ^ 2).
  { replace (sqrt (a ^ 2 + 0 ^ 2) ^ 2) with (sqrt (a ^ 2 + 0 ^ 2) * sqrt (a ^ 2 + 0 ^ 2)) by ring. rewrite sqrt_sqrt by nra. ring. }
  split; f_equal.
  - unfold Rdiv. ring.
  - rewrite Q. set (x := ((f (S (S j)) - f (S j)) / dx g - a) / dx g).
    transitivity (a ^ 2 * x * (-1 / a ^ 2)); [unfold Rdiv; ring|]. transitivity (- x); [field; exact A|]. unfold x, a. field. lra.
Qed.
Print Assumptions C119_cylinder.

(** ** The test surface *)

(** C119: on a surface of second degree the mixed differences are exact, and the curvatures are those of the
    textbook, with the one-sided slopes p and q. *)
Theorem C119_quadric : forall g a b c d e k z i j, 0 < dx g -> 0 < dy g -> inside g i j -> (2 <= i)%nat -> (S (S j) < nx g)%nat ->
  (forall i j, let x := INR j * dx g in let y := - (INR i * dy g) in
     z i j = a / 2 * x ^ 2 + b * x * y + c / 2 * y ^ 2 + d * x + e * y + k) ->
  let p := rise_x g Rt z i j in let q := rise_y g Tp z i j in p <> 0 \/ q <> 0 ->
  get_kappa_c_RT g (dem z) i j = Some (- (q ^ 2 * a - 2 * p * q * b + p ^ 2 * c) / sqrt (p ^ 2 + q ^ 2) ^ 3)
  /\ get_kappa_p_RT g (dem z) i j = Some (- (p ^ 2 * a + 2 * p * q * b + q ^ 2 * c) / (p ^ 2 + q ^ 2)).
Proof.
  intros g a b c d e k z i j DX DY [I J] I2 J2 Z p q N.
  assert (ZX : forall i j, (S j < nx g)%nat -> d_dx g Rt (dem z) i j = Some (rise_x g Rt z i j)) by (intros; now apply d_dx_value).
  assert (ZY : forall i j, (0 < i)%nat -> d_dy g Tp (dem z) i j = Some (rise_y g Tp z i j)) by (intros; now apply d_dy_value).
  assert (XX : d_dx g Rt (d_dx g Rt (dem z)) i j = Some a).
  { rewrite (d_dx_gen g Rt (d_dx g Rt (dem z)) i j (rise_x g Rt z i (S j)) p); [|cbn; lia|apply ZX; lia|apply ZX; lia].
    f_equal. unfold p. cbn [rise_x]. rewrite !Z. cbv zeta. rewrite !S_INR. field. lra. }
  destruct i as [|[|i]]; [lia|lia|].
  assert (XY : d_dy g Tp (d_dx g Rt (dem z)) (S (S i)) j = Some b).
  { rewrite (d_dy_gen g Tp (d_dx g Rt (dem z)) (S (S i)) j (rise_x g Rt z (S i) j) p); [|cbn; lia|apply ZX; lia|apply ZX; lia].
    f_equal. unfold p. cbn [rise_x]. rewrite !Z. cbv zeta. rewrite !S_INR. field. lra. }
  assert (YY : d_dy g Tp (d_dy g Tp (dem z)) (S (S i)) j = Some c).
  { rewrite (d_dy_gen g Tp (d_dy g Tp (dem z)) (S (S i)) j (rise_y g Tp z (S i) j) q); [|cbn; lia|apply ZY; lia|apply ZY; lia].
    f_equal. unfold q. cbn [rise_y pred]. rewrite !Z. cbv zeta. rewrite !S_INR. field. lra. }
  assert (PQ : 0 < p ^ 2 + q ^ 2) by (destruct N; nra).
  assert (SP : 0 < sqrt (p ^ 2 + q ^ 2)) by now apply sqrt_lt_R0.
  assert (SS : sqrt (p ^ 2 + q ^ 2) ^ 2 = p ^ 2 + q ^ 2) by (rewrite pow2_sqrt by lra; reflexivity).
  unfold get_kappa_c_RT, get_kappa_p_RT. rewrite XX, XY, YY.
  rewrite (slope_some g Rt Tp (dem z) (S (S i)) j p q) by (try (apply ZX; lia); try (apply ZY; lia); exact N).
  rewrite (ZX (S (S i)) j) by lia. rewrite (ZY (S (S i)) j) by lia. fold p q. cbn [o5 o2]. split; f_equal.
  - field. lra.
  - rewrite SS. field. lra.
Qed.
Print Assumptions C119_quadric.

(** Its grid points are all off the centre, so it has a height everywhere, and it is symmetric. *)
Theorem C119_test_surface : forall i j, (i < 200)%nat -> (j < 200)%nat ->
  snd get_pde_solution i j <> None /\ snd get_pde_solution i j = snd get_pde_solution i (199 - j)%nat /\ snd get_pde_solution i j = snd get_pde_solution (199 - i)%nat j.
Proof.
  assert (M : forall j, (j < 200)%nat -> linspace (-5) 5 200 (199 - j) = - linspace (-5) 5 200 j).
  { intros j J. unfold linspace. change (200 - 1)%nat with 199%nat. rewrite minus_INR by lia. replace (INR 199) with 199 by (rewrite INR_IZR_INZ; reflexivity). field. }
  assert (Z : forall j, linspace (-5) 5 200 j <> 0).
  { intros j E. unfold linspace in E. change (200 - 1)%nat with 199%nat in E. replace (INR 199) with 199 in E by (rewrite INR_IZR_INZ; reflexivity).
    assert (X : 2 * INR j = 199) by lra. rewrite INR_IZR_INZ, <- mult_IZR in X. apply eq_IZR in X. lia. }
  intros i j I J. unfold get_pde_solution. cbn [snd]. unfold radial_log. split; [|split].
  - destruct (Rlt_dec 0 _) as [H|H]; [discriminate|]. exfalso. apply H. specialize (Z j). nra.
  - rewrite (M j J). now replace ((- linspace (-5) 5 200 j) ^ 2) with (linspace (-5) 5 200 j ^ 2) by ring.
  - rewrite (M i I). now replace ((- linspace (-5) 5 200 i) ^ 2) with (linspace (-5) 5 200 i ^ 2) by ring.
Qed.
Print Assumptions C119_test_surface.

(** Refuted: its cell size is the distance of its points.  Gradients on it are 200/199 times as great as they should be. *)
Theorem C119_spacing_refuted : forall b i j, (S j < 200)%nat -> b <> 0 ->
  d_dx (fst get_pde_solution) Rt (dem (fun _ j => b * linspace (-5) 5 200 j)) i j = Some (b * (200 / 199)) /\ b * (200 / 199) <> b
  /\ d_dy (fst get_pde_solution) Tp (dem (fun i _ => - (b * linspace (-5) 5 200 i))) (S i) j = Some (b * (200 / 199)).
Proof.
  intros b i j J B. split; [|split; [intros E; apply B; lra|]].
  2:{ rewrite d_dy_value by (cbn; lia). cbn [rise_y get_pde_solution fst pde_geom dy pred]. f_equal. unfold linspace.
      change (200 - 1)%nat with 199%nat. rewrite (S_INR i). replace (INR 199) with 199 by (rewrite INR_IZR_INZ; reflexivity).  field. }
  rewrite d_dx_value by exact J. cbn [rise_x get_pde_solution fst pde_geom dx]. f_equal. unfold linspace. change (200 - 1)%nat with 199%nat.
  rewrite S_INR. replace (INR 199) with 199 by (rewrite INR_IZR_INZ; reflexivity). field.
Qed.
Print Assumptions C119_spacing_refuted.

Example C119_case :
  let g := {| nx := 5; ny := 5; dx := 10; dy := 10 |} in
  let z (i j : nat) := 100 + 3 * (INR j * 10) - 4 * (INR i * 10) in
  (inside g 3%nat 1%nat /\ has_x g Rt 1 /\ has_x g Rt (next_x Rt 1) /\ has_y g Tp 3 /\ has_y g Tp (next_y Tp 3)) /\
  get_qp_slopes g Rt Tp (dem z) 3%nat 1%nat = Some 5 /\ get_qp_divergence g (-7/10) Rt Tp (dem z) 3%nat 1%nat = Some 0 /\ get_qp_divergence g (-7/10) Rt Tp (dem z) 3%nat 4%nat = None /\
  get_kappa_p_RT g (dem (fun _ j => INR j ^ 2)) 2%nat 1%nat = Some (- (2 / 100)).
Proof.
  intros g z. assert (H : inside g 3%nat 1%nat /\ has_x g Rt 1 /\ has_x g Rt (next_x Rt 1) /\ has_y g Tp 3 /\ has_y g Tp (next_y Tp 3)) by (unfold inside; cbn; lia).
  split; [exact H|]. destruct H as (I & X1 & X2 & Y1 & Y2).
  destruct (C119_plane g (-7/10) Rt Tp 100 3 4 z 3%nat 1%nat) as (_ & _ & S & D & _); auto; try (cbn; lra); try (left; lra).
  split; [rewrite S; f_equal; replace (3 ^ 2 + 4 ^ 2) with (5 * 5) by ring; apply sqrt_square; lra|]. split; [exact D|]. split.
  - destruct (get_qp_divergence g (-7/10) Rt Tp (dem z) 3%nat 4%nat) eqn:E; [|reflexivity]. exfalso. assert (N : get_qp_divergence g (-7/10) Rt Tp (dem z) 3%nat 4%nat <> None) by (rewrite E; discriminate).
    apply C119_defined in N; [|unfold inside; cbn; lia]. destruct N as (N & _). cbn in N. lia.
  - destruct (C119_cylinder g (fun j => INR j ^ 2) 2%nat 1%nat) as [_ K]; try (cbn; lra); try (unfold inside; cbn; lia). cbv zeta in K. rewrite K. f_equal. cbn. field.
Qed.
