(** C107: totals and volumes of water in double precision. *)

From Coq Require Import ZArith Reals Lia Lra List Permutation.
From Flocq Require Import Core Relative Plus_error.
From Verif Require Import Clock_Model Clock_Props Vol64_Model.
Import ListNotations.
Local Open Scope R_scope.
Local Existing Instance prec53.

(** half a unit in the last place of 1 *)
Definition u : R := bpow radix2 (-53).
(** the relative error that n roundings can make *)
Definition err (n : nat) : R := (1 + u) ^ n - 1.
(** exact sums *)
Fixpoint rsum (l : list R) : R := match l with [] => 0 | x :: r => x + rsum r end.
Definition asum (l : list R) : R := rsum (map Rabs l).
Definition rsumf {A} (f : A -> R) (l : list A) : R := rsum (map f l).

Lemma u_pos : 0 < u. Proof. apply bpow_gt_0. Qed.
Lemma u_small : u < 1. Proof. unfold u. change 1 with (bpow radix2 0). apply bpow_lt. lia. Qed.
Lemma u_ro_u : u_ro radix2 53 = u.
Proof.
  unfold u, u_ro, bpow. cbn [Z.add Z.opp Z.pos_sub].
  replace (Z.pow_pos radix2 53) with (2 * Z.pow_pos radix2 52)%Z by reflexivity. rewrite mult_IZR, Rinv_mult. reflexivity.
Qed.
Lemma pow_ge1 n : 1 <= (1 + u) ^ n. Proof. apply pow_R1_Rle. pose proof u_pos. lra. Qed.
Lemma err_pos n : 0 <= err n. Proof. unfold err. pose proof (pow_ge1 n). lra. Qed.
Lemma err_mono n m : (n <= m)%nat -> err n <= err m.
Proof. intros H. unfold err. apply Rplus_le_compat_r. apply Rle_pow; [pose proof u_pos; lra|exact H]. Qed.

Lemma dbl_rnd x : is_double (rnd x).
Proof. apply generic_format_round; [exact valid_fmt|apply valid_rnd_N]. Qed.
Lemma dbl_0 : is_double 0. Proof. apply generic_format_0. Qed.
Lemma dbl_opp x : is_double x -> is_double (- x). Proof. apply generic_format_opp. Qed.

Lemma add_err x y : is_double x -> is_double y -> Rabs (rnd (x + y) - (x + y)) <= u * Rabs (x + y).
Proof.
  intros X Y. destruct (FLT_plus_error_N_ex radix2 (-1074) 53 (fun z => negb (Z.even z)) x y X Y) as [eps [B E]].
  change (rnd (x + y)) with (round radix2 (FLT_exp (-1074) 53) (Znearest (fun z => negb (Z.even z))) (x + y)). rewrite E.
  replace ((x + y) * (1 + eps) - (x + y)) with (eps * (x + y)) by ring. rewrite Rabs_mult. apply Rmult_le_compat_r; [apply Rabs_pos|].
  eapply Rle_trans; [exact B|]. rewrite <- u_ro_u. apply u_rod1pu_ro_le_u_ro.
Qed.

(** close: a computed number against the exact one, after m roundings of terms of total size a *)
Definition close (m : nat) (c x a : R) : Prop := Rabs (c - x) <= err m * a /\ Rabs x <= a.
Lemma close_refl m x : close m x x (Rabs x).
Proof.
  split; [|lra]. replace (x - x) with 0 by ring. rewrite Rabs_R0. apply Rmult_le_pos; [apply err_pos|apply Rabs_pos].
Qed.
Lemma close_mono m n c x a : (m <= n)%nat -> close m c x a -> close n c x a.
Proof.
  intros H [A B]. split; [|exact B]. eapply Rle_trans; [exact A|]. apply Rmult_le_compat_r; [pose proof (Rabs_pos x); lra|now apply err_mono].
Qed.
Lemma close_add m c d x y a b : is_double c -> is_double d -> close m c x a -> close m d y b ->
  close (S m) (rnd (c + d)) (x + y) (a + b).
Proof.
  intros C D [H1 H2] [H3 H4]. pose proof (add_err c d C D) as E. split; [|eapply Rle_trans; [apply Rabs_triang|lra]].
  assert (T : Rabs (c + d - (x + y)) <= err m * (a + b)).
  { replace (c + d - (x + y)) with ((c - x) + (d - y)) by ring. eapply Rle_trans; [apply Rabs_triang|]. lra. }
  assert (SS : Rabs (c + d) <= (1 + err m) * (a + b)).
  { replace (c + d) with ((c + d - (x + y)) + (x + y)) by ring. eapply Rle_trans; [apply Rabs_triang|].
    assert (Rabs (x + y) <= a + b) by (eapply Rle_trans; [apply Rabs_triang|lra]). lra. }
  replace (rnd (c + d) - (x + y)) with ((rnd (c + d) - (c + d)) + (c + d - (x + y))) by ring.
  eapply Rle_trans; [apply Rabs_triang|]. pose proof u_pos.
  assert (u * Rabs (c + d) <= u * ((1 + err m) * (a + b))) by (apply Rmult_le_compat_l; lra).
  replace (err (S m) * (a + b)) with (u * ((1 + err m) * (a + b)) + err m * (a + b)) by (unfold err; cbn [pow]; ring). lra.
Qed.

(** ** Totals *)

Lemma rsum_app a b : rsum (a ++ b) = rsum a + rsum b.
Proof. induction a as [|x a IH]; cbn; [ring|rewrite IH; ring]. Qed.
Lemma asum_app a b : asum (a ++ b) = asum a + asum b.
Proof. unfold asum. rewrite map_app. apply rsum_app. Qed.
Lemma rsum_perm a b : Permutation a b -> rsum a = rsum b.
Proof. induction 1; cbn; lra. Qed.

Lemma fsum_double t : Forall is_double (leaves t) -> is_double (fsum t).
Proof. destruct t; cbn; intros H; [now inversion H|apply dbl_rnd]. Qed.
Lemma fsum_close t : Forall is_double (leaves t) -> close (depth t) (fsum t) (rsum (leaves t)) (asum (leaves t)).
Proof.
  induction t as [x|a IHa b IHb]; cbn [leaves depth fsum]; intros H.
  - unfold asum. cbn. rewrite !Rplus_0_r. apply close_refl.
  - apply Forall_app in H. destruct H as [A B]. rewrite rsum_app, asum_app. apply close_add.
    + now apply fsum_double.
    + now apply fsum_double.
    + eapply close_mono; [|apply IHa, A]. lia.
    + eapply close_mono; [|apply IHb, B]. lia.
Qed.

Definition all_leaves (ts : list tree) : list R := flat_map leaves ts.

Lemma integral_close h ts : forall m c x a, is_double c -> close m c x a -> (h <= m)%nat -> Forall is_double (all_leaves ts) ->
  (forall t, In t ts -> (depth t <= h)%nat) ->
  close (length ts + m) (integral c ts) (x + rsum (all_leaves ts)) (a + asum (all_leaves ts)).
Proof.
  induction ts as [|t ts IH]; intros m c x a C K H D L.
  - unfold asum. cbn. rewrite !Rplus_0_r. exact K.
  - cbn [integral all_leaves flat_map] in *. apply Forall_app in D. destruct D as [D1 D2].
    replace (x + rsum (leaves t ++ flat_map leaves ts)) with ((x + rsum (leaves t)) + rsum (all_leaves ts)) by (rewrite rsum_app; unfold all_leaves; ring).
    replace (a + asum (leaves t ++ flat_map leaves ts)) with ((a + asum (leaves t)) + asum (all_leaves ts)) by (rewrite asum_app; unfold all_leaves; ring).
    replace (length (t :: ts) + m)%nat with (length ts + S m)%nat by (cbn; lia).
    apply IH; [apply dbl_rnd| |lia|exact D2|intros; apply L; now right].
    unfold fadd. apply close_add; [exact C|now apply fsum_double|exact K|].
    eapply close_mono; [|now apply fsum_close]. specialize (L t (or_introl eq_refl)). lia.
Qed.

(** [C107_integral] Whatever the order in which the cells are added, the total after k updates is the exact sum of the volumes added up to
    (1 + 2^-53)^(h + k) - 1 of the sum of their sizes, h the depth of the orders. *)
Theorem C107_integral : forall vol ts h, is_double vol -> Forall is_double (all_leaves ts) -> (forall t, In t ts -> (depth t <= h)%nat) ->
  Rabs (integral vol ts - (vol + rsum (all_leaves ts))) <= err (length ts + h) * (Rabs vol + asum (all_leaves ts)).
Proof. intros vol ts h V D L. apply (integral_close h); auto using close_refl. Qed.
Print Assumptions C107_integral.

(** ** The volume of a cell *)

Definition normal (x : R) : Prop := x = 0 \/ bpow radix2 (-1021) <= Rabs x.

Lemma mul_err x : x = 0 \/ bpow radix2 (-1022) <= Rabs x -> exists eps, Rabs eps <= u /\ rnd x = x * (1 + eps).
Proof.
  intros [-> | H].
  - exists 0. rewrite Rabs_R0. split; [left; apply u_pos|]. unfold rnd. rewrite round_0 by apply valid_rnd_N. ring.
  - destruct (relative_error_N_FLT_ex radix2 (-1074) 53 ltac:(lia) (fun z => negb (Z.even z)) x H) as [eps [A B]].
    exists eps. split; [|exact B]. eapply Rle_trans; [exact A|]. rewrite <- u_ro_u. unfold u_ro. apply Rle_refl.
Qed.
Lemma rabs1 e : Rabs e <= u -> 1 - u <= 1 + e <= 1 + u.
Proof. intros H. apply Rabs_le_inv in H. lra. Qed.

Lemma volume_close r da dt : normal (r * da) -> normal (r * da * dt) -> close 2 (volume r da dt) (r * da * dt) (Rabs (r * da * dt)).
Proof.
  intros N1 N2. pose proof u_pos. pose proof u_small.
  assert (B : bpow radix2 (-1021) = 2 * bpow radix2 (-1022)) by (change (-1021)%Z with (1 + -1022)%Z; rewrite bpow_plus; reflexivity).
  pose proof (bpow_gt_0 radix2 (-1022)) as P.
  destruct (mul_err (r * da)) as (e1 & A1 & E1); [destruct N1; [now left|right; lra]|].
  unfold volume, fmul. rewrite E1.
  assert (U : u <= / 2) by (unfold u; change (/ 2) with (bpow radix2 (-1)); apply bpow_le; lia).
  destruct (mul_err (r * da * (1 + e1) * dt)) as (e2 & A2 & E2).
  { destruct N2 as [N2|N2].
    - left. replace (r * da * (1 + e1) * dt) with (r * da * dt * (1 + e1)) by ring. rewrite N2. ring.
    - right. replace (r * da * (1 + e1) * dt) with (r * da * dt * (1 + e1)) by ring. rewrite Rabs_mult.
      pose proof (rabs1 e1 A1). rewrite (Rabs_pos_eq (1 + e1)) by lra.
      apply Rle_trans with (bpow radix2 (-1021) * / 2); [lra|]. apply Rmult_le_compat; lra. }
  rewrite E2. split; [|lra]. replace (r * da * (1 + e1) * dt * (1 + e2) - r * da * dt) with (r * da * dt * ((1 + e1) * (1 + e2) - 1)) by ring.
  rewrite Rabs_mult, Rmult_comm. apply Rmult_le_compat_r; [apply Rabs_pos|]. unfold err. cbn [pow].
  replace ((1 + e1) * (1 + e2) - 1) with (e1 + e2 + e1 * e2) by ring.
  eapply Rle_trans; [apply Rabs_triang|]. eapply Rle_trans; [apply Rplus_le_compat_r, Rabs_triang|]. rewrite Rabs_mult.
  assert (Rabs e1 * Rabs e2 <= u * u) by (apply Rmult_le_compat; try apply Rabs_pos; assumption). lra.
Qed.

(** the cells of one update: rate and area of each *)
Definition exact_volume (dt : R) (cells : list (R * R)) : R := rsumf (fun c => fst c * snd c * dt) cells.
Definition size_volume (dt : R) (cells : list (R * R)) : R := rsumf (fun c => Rabs (fst c * snd c * dt)) cells.

Lemma sums_close dt cells : (forall c, In c cells -> normal (fst c * snd c) /\ normal (fst c * snd c * dt)) ->
  let l := map (fun c => volume (fst c) (snd c) dt) cells in
  Rabs (rsum l - exact_volume dt cells) <= err 2 * size_volume dt cells /\ asum l <= (1 + err 2) * size_volume dt cells.
Proof.
  cbv zeta. unfold exact_volume, size_volume, asum, rsumf. induction cells as [|c cells IH]; intros N.
  - cbn. rewrite Rminus_0_r, Rabs_R0. lra.
  - destruct (IH ltac:(intros; apply N; now right)) as [A B]. clear IH.
    destruct (N c (or_introl eq_refl)) as [N1 N2]. destruct (volume_close _ _ _ N1 N2) as [C _]. cbn [map rsum]. split.
    + replace (volume (fst c) (snd c) dt + rsum (map (fun c => volume (fst c) (snd c) dt) cells) - (fst c * snd c * dt + rsum (map (fun c => fst c * snd c * dt) cells)))
        with ((volume (fst c) (snd c) dt - fst c * snd c * dt) + (rsum (map (fun c => volume (fst c) (snd c) dt) cells) - rsum (map (fun c => fst c * snd c * dt) cells))) by ring.
      eapply Rle_trans; [apply Rabs_triang|]. lra.
    + assert (Rabs (volume (fst c) (snd c) dt) <= (1 + err 2) * Rabs (fst c * snd c * dt)); [|lra].
      replace (volume (fst c) (snd c) dt) with ((volume (fst c) (snd c) dt - fst c * snd c * dt) + fst c * snd c * dt) by ring.
      eapply Rle_trans; [apply Rabs_triang|]. lra.
Qed.

(** [C107_rain] The reported total of rain (or runoff) is the exact integral of the rates over cells and time up to
    (1 + 2^-53)^(h + k + 2) - 1 of the integral of their sizes, if no product is too small for a normal double. *)
Theorem C107_rain : forall dt h (updates : list (list (R * R) * tree)),
  (forall cells t, In (cells, t) updates -> Permutation (leaves t) (map (fun c => volume (fst c) (snd c) dt) cells) /\ (depth t <= h)%nat /\
     forall c, In c cells -> normal (fst c * snd c) /\ normal (fst c * snd c * dt)) ->
  Rabs (integral 0 (map snd updates) - rsumf (fun p => exact_volume dt (fst p)) updates)
    <= err (length updates + h + 2) * rsumf (fun p => size_volume dt (fst p)) updates.
Proof.
  intros dt h ups H.
  assert (D : Forall is_double (all_leaves (map snd ups))).
  { apply Forall_forall. intros x I. unfold all_leaves in I. apply in_flat_map in I. destruct I as (t & I & J). apply in_map_iff in I.
    destruct I as ([cells t'] & <- & I). cbn in J. destruct (H _ _ I) as (P & _). apply (Permutation_in _ P) in J. apply in_map_iff in J.
    destruct J as (c & <- & _). apply dbl_rnd. }
  pose proof (C107_integral 0 (map snd ups) h dbl_0 D) as K. rewrite map_length, Rabs_R0, !Rplus_0_l in K.
  specialize (K ltac:(intros t I; apply in_map_iff in I; destruct I as ([cells t'] & <- & I); apply (H _ _ I))).
  assert (G : Rabs (rsum (all_leaves (map snd ups)) - rsumf (fun p => exact_volume dt (fst p)) ups) <= err 2 * rsumf (fun p => size_volume dt (fst p)) ups /\
              asum (all_leaves (map snd ups)) <= (1 + err 2) * rsumf (fun p => size_volume dt (fst p)) ups).
  { clear K D. unfold rsumf. induction ups as [|[cells t] ups IH].
    - cbn. rewrite Rminus_0_r, Rabs_R0. unfold asum. cbn. lra.
    - destruct (IH ltac:(intros; apply H; now right)) as [A B]. destruct (H _ _ (or_introl eq_refl)) as (P & _ & N).
      destruct (sums_close dt cells N) as [C E]. cbn [map all_leaves flat_map rsum fst snd] in *. rewrite rsum_app, asum_app.
      rewrite (rsum_perm _ _ P). unfold asum at 1. rewrite (rsum_perm _ _ (Permutation_map Rabs P)).
      fold (asum (map (fun c => volume (fst c) (snd c) dt) cells)). fold (all_leaves (map snd ups)). split.
      + match goal with |- Rabs (?a + ?b - (?c + ?d)) <= _ => replace (a + b - (c + d)) with ((a - c) + (b - d)) by ring end.
        eapply Rle_trans; [apply Rabs_triang|]. lra.
      + lra. }
  destruct G as [G1 G2]. set (X := rsumf (fun p => exact_volume dt (fst p)) ups) in *. set (S := rsumf (fun p => size_volume dt (fst p)) ups) in *.
  set (L := rsum (all_leaves (map snd ups))) in *. set (A := asum (all_leaves (map snd ups))) in *. set (m := (length ups + h)%nat) in *.
  replace (integral 0 (map snd ups) - X) with ((integral 0 (map snd ups) - L) + (L - X)) by ring.
  eapply Rle_trans; [apply Rabs_triang|].
  assert (err m * A <= err m * ((1 + err 2) * S)) by (apply Rmult_le_compat_l; [apply err_pos|exact G2]).
  replace (err (m + 2) * S) with (err m * ((1 + err 2) * S) + err 2 * S) by (unfold err; rewrite pow_add; ring). lra.
Qed.
Print Assumptions C107_rain.

(** [C107_uniform] With a rate that is one number, the total grows by the number of cells times the volume of one, up to two roundings. *)
Theorem C107_uniform : forall vol v n, is_double vol -> normal (v * INR n) ->
  Rabs (integral_uniform vol v n - (vol + v * INR n)) <= err 2 * (Rabs vol + Rabs (v * INR n)).
Proof.
  intros vol v n V N. unfold integral_uniform, fadd. apply close_add; [exact V|apply dbl_rnd|apply close_refl|].
  destruct (mul_err (v * INR n)) as (e & A & E).
  { destruct N as [N|N]; [now left|right]. eapply Rle_trans; [|exact N]. apply bpow_le. lia. }
  unfold fmul. rewrite E. split; [|lra]. replace (v * INR n * (1 + e) - v * INR n) with (e * (v * INR n)) by ring. rewrite Rabs_mult.
  apply Rmult_le_compat_r; [apply Rabs_pos|]. unfold err. cbn [pow]. lra.
Qed.
Print Assumptions C107_uniform.

(** [C107_grows] If no volume is negative, the total never falls. *)
Theorem C107_grows : forall vol ts, is_double vol -> (forall x, In x (all_leaves ts) -> 0 <= x) -> vol <= integral vol ts.
Proof.
  intros vol ts. revert vol. induction ts as [|t ts IH]; intros vol V H; [apply Rle_refl|].
  cbn [integral all_leaves flat_map] in *.
  assert (P : forall t, (forall x, In x (leaves t) -> 0 <= x) -> 0 <= fsum t).
  { clear. induction t as [x|a IHa b IHb]; cbn; intros H; [apply H; now left|].
    unfold fadd. rewrite <- (rnd_double 0 dbl_0). apply round_le; [exact valid_fmt|apply valid_rnd_N|].
    assert (0 <= fsum a) by (apply IHa; intros; apply H, in_or_app; now left).
    assert (0 <= fsum b) by (apply IHb; intros; apply H, in_or_app; now right). lra. }
  eapply Rle_trans; [|apply IH; [apply dbl_rnd|intros; apply H, in_or_app; now right]].
  unfold fadd. rewrite <- (rnd_double vol V) at 1. apply round_le; [exact valid_fmt|apply valid_rnd_N|].
  assert (0 <= fsum t) by (apply P; intros; apply H, in_or_app; now left). lra.
Qed.
Print Assumptions C107_grows.

(** [C107_exact] Volumes that are whole multiples of a power of two add up exactly in every order, as long as their sizes add up to at most
    2^53 of it. *)
Theorem C107_exact : forall e ts, (-1074 <= e)%Z -> (forall x, In x (all_leaves ts) -> exists k, x = IZR k * bpow radix2 e) ->
  asum (all_leaves ts) <= bpow radix2 (53 + e) -> integral 0 ts = rsum (all_leaves ts).
Proof.
  intros e ts E M B. pose proof (bpow_gt_0 radix2 e) as P.
  assert (ABS : forall l, 0 <= asum l) by (unfold asum; induction l as [|x l IH]; cbn; [lra|pose proof (Rabs_pos x); lra]).
  assert (LE : forall l, Rabs (rsum l) <= asum l).
  { unfold asum; induction l as [|x l IH]; cbn; [rewrite Rabs_R0; lra|]. eapply Rle_trans; [apply Rabs_triang|]. lra. }
  assert (MUL : forall l, (forall x, In x l -> exists k, x = IZR k * bpow radix2 e) -> exists k, rsum l = IZR k * bpow radix2 e).
  { induction l as [|x l IH]; intros H; [exists 0%Z; cbn; ring|]. destruct (H x (or_introl eq_refl)) as [k ->].
    destruct IH as [k' K]; [intros; apply H; now right|]. exists (k + k')%Z. cbn. rewrite K, plus_IZR. ring. }
  assert (DBL : forall l, (forall x, In x l -> exists k, x = IZR k * bpow radix2 e) -> asum l <= bpow radix2 (53 + e) -> rnd (rsum l) = rsum l).
  { intros l H A. destruct (MUL l H) as [k K]. rewrite K. apply rnd_double, double_le; [|exact E].
    pose proof (LE l) as Q. rewrite K, Rabs_mult, (Rabs_pos_eq (bpow radix2 e)) in Q by lra. rewrite bpow_plus in A.
    assert (Rabs (IZR k) <= bpow radix2 53) by (apply Rmult_le_reg_r with (bpow radix2 e); lra).
    rewrite <- abs_IZR in H0. apply le_IZR. exact H0. }
  assert (SUM : forall t, (forall x, In x (leaves t) -> exists k, x = IZR k * bpow radix2 e) -> asum (leaves t) <= bpow radix2 (53 + e) -> fsum t = rsum (leaves t)).
  { induction t as [x|a IHa b IHb]; cbn [leaves fsum]; intros H A; [cbn; ring|].
    pose proof (ABS (leaves a)). pose proof (ABS (leaves b)). rewrite asum_app in A.
    rewrite IHa, IHb; try lra; try (intros; apply H, in_or_app; tauto).
    unfold fadd. rewrite <- rsum_app. apply DBL; [exact H|]. rewrite asum_app. exact A. }
  assert (G : forall ts l, (forall x, In x (l ++ all_leaves ts) -> exists k, x = IZR k * bpow radix2 e) -> asum (l ++ all_leaves ts) <= bpow radix2 (53 + e) ->
    integral (rsum l) ts = rsum (l ++ all_leaves ts)).
  { clear M B ts. induction ts as [|t ts IH]; intros l M B; [cbn; now rewrite app_nil_r|].
    cbn [integral all_leaves flat_map] in *. rewrite app_assoc in *. fold (all_leaves ts) in *.
    rewrite !asum_app in B. pose proof (ABS l). pose proof (ABS (leaves t)). pose proof (ABS (all_leaves ts)).
    rewrite SUM; [|intros; apply M, in_or_app; left; apply in_or_app; now right|lra].
    unfold fadd. rewrite <- rsum_app. rewrite DBL; [apply IH; [exact M|rewrite !asum_app; exact B]| |rewrite asum_app; lra].
    intros; apply M, in_or_app; now left. }
  exact (G ts [] M B).
Qed.
Print Assumptions C107_exact.

(** [C107_stagnates_refuted] The total follows what is added: not once it is large.  From 2^53, one cubic metre per update changes nothing, however
    many updates there are. *)
Theorem C107_stagnates_refuted : forall k, integral (bpow radix2 53) (repeat (Leaf 1) k) = bpow radix2 53.
Proof.
  assert (R : rnd (bpow radix2 53 + 1) = bpow radix2 53).
  { assert (V : val (bint (2 ^ 53)) = bpow radix2 53).
    { rewrite bint_ok by (vm_compute; reflexivity). rewrite rnd_IZR by (vm_compute; discriminate). reflexivity. }
    assert (O : val (bint 1) = 1) by (rewrite bint_ok by reflexivity; apply rnd_IZR; vm_compute; discriminate).
    rewrite <- V at 1. rewrite <- O. change (rnd (val (bint (2 ^ 53)) + val (bint 1))) with (fadd (val (bint (2 ^ 53))) (val (bint 1))).
    rewrite <- badd_ok by (vm_compute; reflexivity). rewrite <- V. rewrite <- !BinarySingleNaN.SF2R_B2SF. f_equal. }
  induction k as [|k IH]; cbn [repeat integral fsum]; [reflexivity|]. unfold fadd. rewrite R. exact IH.
Qed.
Print Assumptions C107_stagnates_refuted.

(** ** One cell and the whole network *)

Definition err_cell := err 10.

Lemma fold_close l : forall m c x a, is_double c -> close m c x a -> Forall is_double l ->
  close (length l + m) (fold_left fadd l c) (x + rsum l) (a + asum l) /\ is_double (fold_left fadd l c).
Proof.
  induction l as [|y l IH]; intros m c x a C K D.
  - unfold asum. cbn. rewrite !Rplus_0_r. now split.
  - inversion D as [|? ? D1 D2]; subst. cbn [fold_left].
    replace (x + rsum (y :: l)) with ((x + y) + rsum l) by (cbn; ring).
    replace (a + asum (y :: l)) with ((a + Rabs y) + asum l) by (unfold asum; cbn; ring).
    replace (length (y :: l) + m)%nat with (length l + S m)%nat by (cbn; lia).
    apply IH; [apply dbl_rnd| |exact D2]. unfold fadd. apply close_add; [exact C|exact D1|exact K|apply close_mono with 0%nat; [lia|apply close_refl]].
Qed.

(** what a cell would hold with exact additions *)
Definition cell_exact (v rate da dt : R) (tributaries : list R) (q : R) : R :=
  v + volume rate da dt + rsumf (fun p => fmul dt p) tributaries - fmul dt q.
Definition cell_size (v rate da dt : R) (tributaries : list R) (q : R) : R :=
  Rabs v + Rabs (volume rate da dt) + rsumf (fun p => Rabs (fmul dt p)) tributaries + Rabs (fmul dt q).

Lemma fmul_comm x y : fmul x y = fmul y x. Proof. unfold fmul. now rewrite Rmult_comm. Qed.

(** [C107_cell] The new volume of a cell is never negative, and it is what it would be with exact additions, or zero if that is negative, up to
    (1 + 2^-53)^10 - 1 of the sizes of all the terms. *)
Theorem C107_cell : forall v rate da dt tributaries q, is_double v -> (length tributaries <= 8)%nat ->
  0 <= cell_update v rate da dt tributaries q /\
  Rabs (cell_update v rate da dt tributaries q - Rmax (cell_exact v rate da dt tributaries q) 0)
    <= err 10 * cell_size v rate da dt tributaries q.
Proof.
  intros v r da dt tr q V L. split; [apply Rmax_r|]. unfold cell_update.
  set (w := volume r da dt). assert (W : is_double w) by apply dbl_rnd.
  assert (C1 : close 1 (fadd v w) (v + w) (Rabs v + Rabs w)).
  { unfold fadd. apply close_add; [exact V|exact W|apply close_refl|apply close_refl]. }
  assert (D : Forall is_double (map (fun p => fmul dt p) tr)) by (apply Forall_forall; intros x I; apply in_map_iff in I; destruct I as (p & <- & _); apply dbl_rnd).
  destruct (fold_close _ _ _ _ _ (dbl_rnd _) C1 D) as [C2 D2]. rewrite map_length in C2.
  set (f := fold_left fadd (map (fun p => fmul dt p) tr) (fadd v w)) in *.
  assert (D3 : is_double (- fmul q dt)) by (apply dbl_opp, dbl_rnd).
  assert (C3 : close 10 (rnd (f + - fmul q dt)) (v + w + rsum (map (fun p => fmul dt p) tr) + - fmul q dt) (Rabs v + Rabs w + asum (map (fun p => fmul dt p) tr) + Rabs (- fmul q dt))).
  { apply close_add; [exact D2|exact D3|apply close_mono with (length tr + 1)%nat; [lia|exact C2]|apply close_refl]. }
  destruct C3 as [C3 _]. unfold Rminus at 1. unfold cell_exact, cell_size. fold w. rewrite (fmul_comm dt q).
  unfold rsumf. unfold asum in C3. rewrite map_map, Rabs_Ropp in C3.
  eapply Rle_trans; [|exact C3]. unfold Rminus at 2. set (A := rnd _). set (B := v + w + _ + _).
  unfold Rmax. destruct (Rle_dec A 0), (Rle_dec B 0); unfold Rabs; repeat destruct Rcase_abs; lra.
Qed.
Print Assumptions C107_cell.

(** The network: cell i flows to the cell [to i]; the tributaries of each cell are listed in some order. *)
Definition network (n : nat) (to : nat -> option nat) (tr : nat -> list nat) : Prop :=
  forall i, (i < n)%nat -> NoDup (tr i) /\ (length (tr i) <= 8)%nat /\ forall j, In j (tr i) <-> (j < n)%nat /\ to j = Some i.
Definition cells (n : nat) : list nat := seq 0 n.
Definition leaves_grid (n : nat) (to : nat -> option nat) (j : nat) : bool := match to j with Some i => negb (Nat.ltb i n) | None => true end.

Lemma rsumf_plus {A} (f g : A -> R) l : rsumf (fun x => f x + g x) l = rsumf f l + rsumf g l.
Proof. unfold rsumf. induction l as [|x l IH]; cbn; [ring|rewrite IH; ring]. Qed.
Lemma rsumf_ext {A} (f g : A -> R) l : (forall x, In x l -> f x = g x) -> rsumf f l = rsumf g l.
Proof.
  unfold rsumf. induction l as [|x l IH]; cbn; intros H; [reflexivity|]. rewrite (H x) by now left. rewrite IH; [reflexivity|]. intros; apply H; now right.
Qed.
Lemma rsumf_le {A} (f g : A -> R) l : (forall x, In x l -> f x <= g x) -> rsumf f l <= rsumf g l.
Proof.
  unfold rsumf. induction l as [|x l IH]; cbn; intros H; [lra|]. apply Rplus_le_compat; [apply H; now left|]. apply IH. intros; apply H; now right.
Qed.
Lemma rsumf_scal {A} c (f : A -> R) l : rsumf (fun x => c * f x) l = c * rsumf f l.
Proof. unfold rsumf. induction l as [|x l IH]; cbn; [ring|rewrite IH; ring]. Qed.
Lemma rsumf_0 {A} (l : list A) : rsumf (fun _ => 0) l = 0.
Proof. unfold rsumf. induction l as [|x l IH]; cbn; [reflexivity|lra]. Qed.
Lemma rsumf_swap {A B} (f : A -> B -> R) l m : rsumf (fun x => rsumf (f x) m) l = rsumf (fun y => rsumf (fun x => f x y) l) m.
Proof.
  induction l as [|x l IH]; [change (0 = rsumf (fun _ : B => 0) m); now rewrite rsumf_0|].
  change (rsumf (f x) m + rsumf (fun x => rsumf (f x) m) l = rsumf (fun y => f x y + rsumf (fun x => f x y) l) m). now rewrite IH, rsumf_plus.
Qed.
Lemma rsumf_filter {A} (p : A -> bool) f l : rsumf f (filter p l) = rsumf (fun x => if p x then f x else 0) l.
Proof. unfold rsumf. induction l as [|x l IH]; cbn; [reflexivity|]. destruct (p x); cbn; rewrite IH; ring. Qed.
Lemma rsumf_one n i (c : R) : rsumf (fun k => if Nat.eqb k i then c else 0) (seq 0 n) = if Nat.ltb i n then c else 0.
Proof.
  induction n as [|n IH]; [reflexivity|]. rewrite seq_S. unfold rsumf in *. rewrite map_app, rsum_app, IH. cbn [map rsum Nat.add].
  destruct (Nat.eqb_spec n i) as [->|N].
  - rewrite Nat.ltb_irrefl. replace (Nat.ltb i (S i)) with true by (symmetry; apply Nat.ltb_lt; lia). ring.
  - destruct (Nat.ltb_spec i n), (Nat.ltb_spec i (S n)); try lia; ring.
Qed.

(** each discharge is taken from one cell and given to one *)
Lemma exchange n to tr (w : nat -> R) : network n to tr ->
  rsumf (fun i => rsumf w (tr i)) (cells n) = rsumf w (cells n) - rsumf w (filter (leaves_grid n to) (cells n)).
Proof.
  intros N.
  assert (E : rsumf (fun i => rsumf w (tr i)) (cells n) = rsumf (fun i => rsumf (fun j => match to j with Some k => if Nat.eqb i k then w j else 0 | None => 0 end) (cells n)) (cells n)).
  { apply rsumf_ext. intros i I. apply in_seq in I. destruct (N i ltac:(lia)) as (D & _ & M).
    assert (P : Permutation (tr i) (filter (fun j => match to j with Some k => Nat.eqb i k | None => false end) (cells n))).
    { apply NoDup_Permutation; [exact D|apply NoDup_filter, seq_NoDup|]. intros j. rewrite M, filter_In. unfold cells. rewrite in_seq. split.
      - intros [A B]. rewrite B, Nat.eqb_refl. split; [lia|reflexivity].
      - intros [A B]. split; [lia|]. destruct (to j); [|discriminate]. apply Nat.eqb_eq in B. now subst. }
    unfold rsumf at 1. rewrite (rsum_perm _ _ (Permutation_map w P)). fold (rsumf w (filter (fun j => match to j with Some k => Nat.eqb i k | None => false end) (cells n))).
    rewrite rsumf_filter. apply rsumf_ext. intros j _. now destruct (to j). }
  rewrite E, rsumf_swap, rsumf_filter.
  assert (F : rsumf w (cells n) = rsumf (fun j => if leaves_grid n to j then w j else 0) (cells n) +
    rsumf (fun j => rsumf (fun i => match to j with Some k => if Nat.eqb i k then w j else 0 | None => 0 end) (cells n)) (cells n)).
  { rewrite <- rsumf_plus. apply rsumf_ext. intros j J. unfold leaves_grid. destruct (to j) as [k|].
    - unfold cells at 1. rewrite rsumf_one. destruct (Nat.ltb k n); cbn; ring.
    - rewrite rsumf_0. ring. }
  lra.
Qed.

(** [C107_network] For every network of cells, volumes, runoffs and discharges: the volume of water after an update is the volume before plus the
    runoff minus the discharges that leave the grid, up to (1 + 2^-53)^10 - 1 of the sizes of all volumes moved (each discharge counted at both
    ends), plus the water made up in the cells whose discharge exceeds what they have. *)
Theorem C107_network : forall n to tr (v rate da q : nat -> R) dt, network n to tr -> (forall i, is_double (v i)) ->
  let new i := cell_update (v i) (rate i) (da i) dt (map q (tr i)) (q i) in
  let made_up i := Rmax 0 (- cell_exact (v i) (rate i) (da i) dt (map q (tr i)) (q i)) in
  Rabs (rsumf new (cells n) - (rsumf v (cells n) + rsumf (fun i => volume (rate i) (da i) dt) (cells n)
          - rsumf (fun i => fmul dt (q i)) (filter (leaves_grid n to) (cells n)) + rsumf made_up (cells n)))
    <= err 10 * (rsumf (fun i => Rabs (v i)) (cells n) + rsumf (fun i => Rabs (volume (rate i) (da i) dt)) (cells n)
          + 2 * rsumf (fun i => Rabs (fmul dt (q i))) (cells n)).
Proof.
  intros n to tr v rate da q dt N D new made_up.
  set (ex i := cell_exact (v i) (rate i) (da i) dt (map q (tr i)) (q i)).
  set (sz i := cell_size (v i) (rate i) (da i) dt (map q (tr i)) (q i)).
  assert (A : rsumf (fun i => Rmax (ex i) 0) (cells n) = rsumf v (cells n) + rsumf (fun i => volume (rate i) (da i) dt) (cells n)
          - rsumf (fun i => fmul dt (q i)) (filter (leaves_grid n to) (cells n)) + rsumf made_up (cells n)).
  { assert (M : rsumf (fun i => Rmax (ex i) 0) (cells n) = rsumf ex (cells n) + rsumf made_up (cells n)).
    { rewrite <- rsumf_plus. apply rsumf_ext. intros i _. unfold made_up. fold (ex i). unfold Rmax.
      destruct (Rle_dec (ex i) 0), (Rle_dec 0 (- ex i)); lra. }
    rewrite M. f_equal. unfold ex, cell_exact.
    rewrite (rsumf_ext _ (fun i => (v i + volume (rate i) (da i) dt) + (rsumf (fun j => fmul dt (q j)) (tr i) + - 1 * fmul dt (q i))));
      [|intros i _; unfold rsumf; rewrite map_map; ring].
    rewrite !rsumf_plus, rsumf_scal, (exchange n to tr _ N). ring. }
  rewrite <- A.
  assert (B : rsumf sz (cells n) <= rsumf (fun i => Rabs (v i)) (cells n) + rsumf (fun i => Rabs (volume (rate i) (da i) dt)) (cells n)
          + 2 * rsumf (fun i => Rabs (fmul dt (q i))) (cells n)).
  { unfold sz, cell_size.
    rewrite (rsumf_ext _ (fun i => (Rabs (v i) + Rabs (volume (rate i) (da i) dt)) + (rsumf (fun j => Rabs (fmul dt (q j))) (tr i) + Rabs (fmul dt (q i)))));
      [|intros i _; unfold rsumf; rewrite map_map; ring].
    rewrite !rsumf_plus, (exchange n to tr _ N).
    assert (0 <= rsumf (fun j => Rabs (fmul dt (q j))) (filter (leaves_grid n to) (cells n))).
    { rewrite <- (rsumf_0 (filter (leaves_grid n to) (cells n))). apply rsumf_le. intros; apply Rabs_pos. }
    lra. }
  assert (C : Rabs (rsumf new (cells n) - rsumf (fun i => Rmax (ex i) 0) (cells n)) <= err 10 * rsumf sz (cells n)).
  { assert (K : forall l, (forall i, In i l -> (i < n)%nat) -> Rabs (rsumf new l - rsumf (fun i => Rmax (ex i) 0) l) <= err 10 * rsumf sz l).
    { induction l as [|i l IH]; intros H.
      - unfold rsumf. cbn. rewrite Rminus_0_r, Rabs_R0. lra.
      - specialize (IH ltac:(intros; apply H; now right)). destruct (N i ltac:(apply H; now left)) as (_ & L & _).
        destruct (C107_cell (v i) (rate i) (da i) dt (map q (tr i)) (q i) (D i) ltac:(now rewrite map_length)) as [_ E].
        change (rsumf new (i :: l)) with (new i + rsumf new l). change (rsumf sz (i :: l)) with (sz i + rsumf sz l).
        change (rsumf (fun i => Rmax (ex i) 0) (i :: l)) with (Rmax (ex i) 0 + rsumf (fun i => Rmax (ex i) 0) l).
        match goal with |- Rabs (?a + ?b - (?c + ?d)) <= _ => replace (a + b - (c + d)) with ((a - c) + (b - d)) by ring end.
        eapply Rle_trans; [apply Rabs_triang|]. fold (new i) (ex i) (sz i) in E. lra. }
    apply K. intros i I. apply in_seq in I. lia. }
  eapply Rle_trans; [exact C|]. apply Rmult_le_compat_l; [apply err_pos|exact B].
Qed.
Print Assumptions C107_network.

(** [C107_small] The factor: 10 roundings are less than 2^-49 (about 1.8e-15). *)
Theorem C107_small : err 10 <= bpow radix2 (-49).
Proof.
  unfold err. assert (U : 0 < u <= / 1000000) by (split; [apply u_pos|unfold u, bpow; cbn; lra]).
  assert (bpow radix2 (-49) = 16 * u) as -> by (unfold u; change (-49)%Z with (4 + -53)%Z; rewrite bpow_plus; reflexivity).
  assert (K : forall n, INR n <= 100 -> (1 + u) ^ n <= 1 + 3 / 2 * INR n * u).
  { induction n as [|n IH]; intros H; [cbn; lra|]. rewrite S_INR in *. cbn [pow]. pose proof (pos_INR n). specialize (IH ltac:(lra)).
    apply Rle_trans with ((1 + u) * (1 + 3 / 2 * INR n * u)); [apply Rmult_le_compat_l; lra|].
    assert (INR n * u <= 100 * / 1000000) by (apply Rmult_le_compat; lra).
    assert (u * (INR n * u) <= u * (100 * / 1000000)) by (apply Rmult_le_compat_l; lra). lra. }
  specialize (K 10%nat). cbn [INR] in K. specialize (K ltac:(lra)). lra.
Qed.
Print Assumptions C107_small.

(** An example: two cells, the first flows to the second, which flows out of the grid. *)
Example C107_case : network 2 (fun j => match j with O => Some 1%nat | _ => None end) (fun i => match i with 1%nat => [0%nat] | _ => [] end) /\
  cell_update 10 0 1 1 [] 4 = 6 /\ cell_update 5 0 1 1 [4] 2 = 7.
Proof.
  split.
  - intros i I. destruct i as [|[|i]]; [| |lia].
    + split; [constructor|]. split; [cbn; lia|]. intros j. cbn. split; [tauto|]. intros [_ H]. destruct j; discriminate.
    + split; [repeat constructor; cbn; tauto|]. split; [cbn; lia|]. intros j. cbn. split.
      * intros [<-|[]]. split; [lia|reflexivity].
      * intros [_ H]. destruct j; [now left|discriminate].
  - unfold cell_update, volume, fmul, fadd. cbn [map fold_left]. unfold fadd. rewrite !Rmult_0_l, !Rmult_1_l, !Rmult_1_r.
    rewrite !(rnd_double 0 dbl_0), !Rplus_0_r.
    rewrite (rnd_IZR 10), (rnd_IZR 4), (rnd_IZR 5), (rnd_IZR 2) by (vm_compute; discriminate).
    rewrite <- (plus_IZR 5 4), (rnd_IZR (5 + 4)) by (vm_compute; discriminate).
    rewrite <- (minus_IZR 10 4), <- (minus_IZR (5 + 4) 2), !rnd_IZR by (vm_compute; discriminate).
    cbn. split; unfold Rmax; destruct Rle_dec; lra.
Qed.
