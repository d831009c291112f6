(** C110: the water in the snowpack in double precision. *)

From Coq Require Import ZArith Reals Lia Lra List Bool.
From Flocq Require Import Core Plus_error.
From Flocq Require Import BinarySingleNaN.
From Verif Require Import Clock_Model Clock_Props Vol64_Props Interp64_Model Interp64_Props Snow64_Model.
Import ListNotations.
Local Open Scope R_scope.
Local Existing Instance prec53.

(** ** What is asked *)

(** snowfall minus melt of the steps, exactly *)
Fixpoint net (dt h : R) (ws : list (R * R)) : R :=
  match ws with [] => 0 | w :: r => fst w * dt - enforce_max_meltrate (snd w) h dt * dt + net dt (step dt h w) r end.
(** no product or quotient underflows, snowfall is not negative, and the snowpack stays below M *)
Fixpoint fair (M dt h : R) (ws : list (R * R)) : Prop :=
  match ws with
  | [] => True
  | w :: r => 0 <= fst w /\ normal (fst w * dt) /\ normal (h / dt) /\ normal (enforce_max_meltrate (snd w) h dt * dt) /\
              fadd h (fmul (fst w) dt) <= M /\ fair M dt (step dt h w) r
  end.

Lemma dbl_max x y : is_double x -> is_double y -> is_double (Rmax x y).
Proof. unfold Rmax. destruct (Rle_dec x y); auto. Qed.
Lemma step_double dt h w : is_double (step dt h w).
Proof. apply dbl_max; [apply dbl_rnd|apply dbl_0]. Qed.
Lemma step_nonneg dt h w : 0 <= step dt h w.
Proof. apply Rmax_r. Qed.

Lemma normal_err x : normal x -> exists e, Rabs e <= u /\ rnd x = x * (1 + e).
Proof.
  intros [->|H]; apply mul_err; [now left|right]. eapply Rle_trans; [|exact H]. apply bpow_le. lia.
Qed.

(** The melt rate is between zero and the rate computed; the snowpack is never negative; melt takes
    at most 1 + 3 x 2^-53 of what was there. *)
Theorem C110_limit : forall dt h w, 0 < dt -> 0 <= h -> normal (h / dt) -> normal (enforce_max_meltrate (snd w) h dt * dt) ->
  0 <= enforce_max_meltrate (snd w) h dt <= Rmax (snd w) 0 /\ 0 <= step dt h w /\ fmul (enforce_max_meltrate (snd w) h dt) dt <= h * (1 + 3 * u).
Proof.
  intros dt h w T H N1 N2. set (m := enforce_max_meltrate (snd w) h dt) in *.
  assert (m0 : 0 <= m) by apply Rmax_r. pose proof u_pos. pose proof u_tiny.
  assert (B : m <= fdiv h dt). { unfold m, enforce_max_meltrate. apply Rmax_lub; [apply Rmin_r|]. apply rnd_pos. apply Rmult_le_pos; [exact H|]. left. now apply Rinv_0_lt_compat. }
  refine (conj (conj m0 _) (conj (step_nonneg _ _ _) _)).
  - unfold m, enforce_max_meltrate. apply Rmax_lub; [|apply Rmax_r]. eapply Rle_trans; [apply Rmin_l|apply Rmax_l].
  - destruct (normal_err _ N1) as (e1 & A1 & E1). destruct (normal_err _ N2) as (e2 & A2 & E2). unfold fmul. rewrite E2.
    apply rabs1 in A1. apply rabs1 in A2. unfold fdiv in B. rewrite E1 in B.
    assert (Q : m * dt <= h * (1 + u)).
    { apply Rle_trans with (h / dt * (1 + e1) * dt); [apply Rmult_le_compat_r; lra|]. replace (h / dt * (1 + e1) * dt) with (h * (1 + e1)) by (field; lra). apply Rmult_le_compat_l; lra. }
    apply Rle_trans with (h * (1 + u) * (1 + u)); [apply Rmult_le_compat; try lra; apply Rmult_le_pos; lra|]. rewrite Rmult_assoc. apply Rmult_le_compat_l; [exact H|nra].
Qed.
Print Assumptions C110_limit.

Lemma step_error M dt h w : is_double h -> 0 <= h -> 0 < dt ->
  0 <= fst w -> normal (fst w * dt) -> normal (h / dt) -> normal (enforce_max_meltrate (snd w) h dt * dt) -> fadd h (fmul (fst w) dt) <= M ->
  Rabs (step dt h w - (h + (fst w * dt - enforce_max_meltrate (snd w) h dt * dt))) <= 7 * u * M.
Proof.
  intros D H T P N0 N1 N2 B. destruct (C110_limit dt h w T H N1 N2) as ((L0 & _) & _ & L). set (m := enforce_max_meltrate (snd w) h dt) in *.
  pose proof u_pos as U0. pose proof u_tiny as U1. set (p := fst w * dt) in *. assert (P0 : 0 <= p) by (apply Rmult_le_pos; lra).
  destruct (normal_err _ N0) as (e1 & A1 & E1). destruct (normal_err _ N2) as (e2 & A2 & E2).
  set (p' := fmul (fst w) dt) in *. set (m' := fmul m dt) in *.
  assert (F1 : p' = p * (1 + e1)) by exact E1. assert (F2 : m' = m * dt * (1 + e2)) by exact E2. pose proof (rabs1 _ A1) as B1. pose proof (rabs1 _ A2) as B2.
  assert (P1 : 0 <= p') by (rewrite F1; apply Rmult_le_pos; lra).
  assert (Dp : is_double p') by apply dbl_rnd. assert (Dm : is_double m') by apply dbl_rnd.
  pose proof (add_err h p' D Dp) as E3. fold (fadd h p') in E3. set (h1 := fadd h p') in *. assert (D1 : is_double h1) by apply dbl_rnd.
  assert (H1 : h <= h1). { rewrite <- (rnd_id h D) at 1. apply rnd_mono. lra. }
  rewrite (Rabs_pos_eq (h + p')) in E3 by lra. apply Rabs_le_inv in E3.
  assert (UX : u * (h + p') <= (h + p') / 1000) by (apply Rle_trans with (/ 1000 * (h + p')); [apply Rmult_le_compat_r; lra|lra]).
  assert (K : h + p' <= 1002 / 1000 * M) by lra. assert (M0 : 0 <= M) by lra.
  assert (Kp : p <= 1004 / 1000 * M). { assert (p * (999 / 1000) <= p') by (rewrite F1; apply Rmult_le_compat_l; lra). lra. }
  destruct (sub_err h1 m' D1 Dm) as (e4 & A4 & E4). set (h2 := fsub h1 m') in *.
  assert (m0 : 0 <= m * dt) by (apply Rmult_le_pos; lra).
  assert (UM : 0 <= u * M) by (apply Rmult_le_pos; lra). assert (UM2 : u * M <= M / 1000) by (apply Rle_trans with (/ 1000 * M); [apply Rmult_le_compat_r; lra|lra]).
  assert (UH : h * u <= M * u) by (apply Rmult_le_compat_r; lra).
  assert (Km : m * dt <= 1005 / 1000 * M). { assert (m * dt * (999 / 1000) <= m') by (rewrite F2; apply Rmult_le_compat_l; lra). lra. }
  assert (X1 : Rabs (p' - p) <= u * (1004 / 1000 * M)).
  { rewrite F1. replace (p * (1 + e1) - p) with (e1 * p) by ring. rewrite Rabs_mult, (Rabs_pos_eq p) by exact P0. apply Rmult_le_compat; try lra. apply Rabs_pos. }
  assert (X2 : Rabs (h1 - (h + p')) <= u * (1002 / 1000 * M)) by (assert (u * (h + p') <= u * (1002 / 1000 * M)) by (apply Rmult_le_compat_l; lra); apply Rabs_le; lra).
  assert (X3 : Rabs (m * dt - m') <= u * (1005 / 1000 * M)).
  { rewrite F2. replace (m * dt - m * dt * (1 + e2)) with (- (e2 * (m * dt))) by ring. rewrite Rabs_Ropp, Rabs_mult, (Rabs_pos_eq (m * dt)) by exact m0. apply Rmult_le_compat; try lra. apply Rabs_pos. }
  assert (m1 : 0 <= m') by (rewrite F2; apply Rmult_le_pos; lra).
  assert (X4 : Rabs (step dt h w - (h1 - m')) <= 3 * u * M).
  { unfold step, update_swe. fold m. fold p'. fold h1. fold m'. fold h2. unfold Rmax. destruct (Rle_dec h2 0) as [Z|Z].
    - assert (Q : h1 - m' <= 0).
      { destruct (Rle_dec (h1 - m') 0) as [Y|Y]; [exact Y|exfalso]. apply rabs1 in A4. rewrite E4 in Z. assert (0 < (h1 - m') * (1 + e4)) by (apply Rmult_lt_0_compat; lra). lra. }
      replace (0 - (h1 - m')) with (m' - h1) by ring. rewrite Rabs_pos_eq by lra. lra.
    - rewrite E4. replace ((h1 - m') * (1 + e4) - (h1 - m')) with (e4 * (h1 - m')) by ring. rewrite Rabs_mult.
      assert (Rabs (h1 - m') <= M).
      { apply Rabs_le. apply rabs1 in A4. rewrite E4 in Z. split; [|lra]. destruct (Rle_dec 0 (h1 - m')); [lra|]. exfalso. apply Z. assert (0 <= (- (h1 - m')) * (1 + e4)) by (apply Rmult_le_pos; lra). lra. }
      apply Rle_trans with (u * M); [apply Rmult_le_compat; try apply Rabs_pos; assumption|lra]. }
  replace (step dt h w - (h + (p - m * dt))) with ((step dt h w - (h1 - m')) + ((h1 - (h + p')) + ((p' - p) + (m * dt - m')))) by ring.
  eapply Rle_trans; [apply Rabs_triang|]. eapply Rle_trans; [apply Rplus_le_compat_l, Rabs_triang|]. eapply Rle_trans; [apply Rplus_le_compat_l, Rplus_le_compat_l, Rabs_triang|]. lra.
Qed.

(** After n updates the snowpack is what was there, plus the snowfall, minus the melt that was
    passed on, up to 7 n x 2^-53 of the largest snowpack M. *)
Theorem C110_balance : forall M dt ws h, is_double h -> 0 <= h -> 0 < dt -> fair M dt h ws ->
  Rabs (run dt h ws - (h + net dt h ws)) <= 7 * INR (length ws) * u * M.
Proof.
  intros M dt ws. induction ws as [|w ws IH]; intros h D H T F; cbn [run fold_left net length].
  - replace (h - (h + 0)) with 0 by ring. rewrite Rabs_R0. cbn. lra.
  - destruct F as (F1 & F2 & F3 & F4 & F5 & F6). fold (run dt (step dt h w) ws).
    specialize (IH (step dt h w) (step_double _ _ _) (step_nonneg _ _ _) T F6). pose proof (step_error M dt h w D H T F1 F2 F3 F4 F5) as E.
    rewrite S_INR. set (s := step dt h w) in *. set (d := fst w * dt - enforce_max_meltrate (snd w) h dt * dt) in *.
    replace (run dt s ws - (h + (d + net dt s ws))) with ((run dt s ws - (s + net dt s ws)) + (s - (h + d))) by ring.
    eapply Rle_trans; [apply Rabs_triang|]. lra.
Qed.
Print Assumptions C110_balance.

Lemma no_snowfall h : is_double h -> forall dt, fadd h (fmul 0 dt) = h.
Proof. intros D dt. unfold fadd, fmul. rewrite Rmult_0_l, rnd_0, Rplus_0_r. now apply rnd_id. Qed.

(** When all of the snow is asked for, at most 3 x 2^-53 of it is left. *)
Theorem C110_all : forall dt h sm, is_double h -> 0 < h -> 0 < dt -> normal (h / dt) -> normal (fdiv h dt * dt) -> fdiv h dt <= sm ->
  0 <= step dt h (0, sm) <= 3 * u * h.
Proof.
  intros dt h sm D H T N1 N2 S. split; [apply step_nonneg|]. unfold step, update_swe. cbn [fst snd]. rewrite no_snowfall by exact D.
  assert (Q0 : 0 <= fdiv h dt) by (apply rnd_pos; apply Rmult_le_pos; [lra|left; now apply Rinv_0_lt_compat]).
  assert (E : enforce_max_meltrate sm h dt = fdiv h dt) by (unfold enforce_max_meltrate; rewrite Rmin_right by exact S; now apply Rmax_left). rewrite E.
  pose proof u_pos. pose proof u_tiny. destruct (normal_err _ N1) as (e1 & A1 & E1). destruct (normal_err _ N2) as (e2 & A2 & E2). apply rabs1 in A1. apply rabs1 in A2.
  assert (F : fmul (fdiv h dt) dt = h * ((1 + e1) * (1 + e2))). { unfold fmul. rewrite E2. unfold fdiv. rewrite E1. field. lra. }
  set (m := fmul (fdiv h dt) dt) in *. destruct (sub_err h m D (dbl_rnd _)) as (e3 & A3 & E3). apply rabs1 in A3. rewrite E3.
  apply Rmax_lub; [|nra]. rewrite F. replace (h - h * ((1 + e1) * (1 + e2))) with (h * (1 - (1 + e1) * (1 + e2))) by ring. rewrite Rmult_assoc. replace (3 * u * h) with (h * (3 * u)) by ring.
  apply Rmult_le_compat_l; [lra|]. assert (L : (1 - u) * (1 - u) <= (1 + e1) * (1 + e2)) by (apply Rmult_le_compat; lra). nra.
Qed.
Print Assumptions C110_all.

(** ** What is not so *)

Definition bfull (dt h : bin) : bin := bsub h (bmul (bdiv h dt) dt).
Definition bfin (dt h : bin) : bool := fin h && fin (bdiv h dt) && fin (bmul (bdiv h dt) dt) && fin (bfull dt h).
Definition good (h : bin) : bool := bfin (bint 49) h && Bltb (bint 0) (bfull (bint 49) h) && Bleb (bdiv h (bint 49)) (bint 1) && Bleb (bint 0) (bdiv h (bint 49)).
Lemma ble x y : fin x = true -> fin y = true -> Bleb x y = true -> val x <= val y.
Proof. intros X Y H. rewrite Bleb_correct in H by assumption. revert H. case Rle_bool_spec; [tauto|discriminate]. Qed.
Lemma v49 : val (bint 49) = 49. Proof. apply bint_val; vm_compute; congruence. Qed.

(** one step of 49 s, computed *)
Lemma bfull_ok h : good h = true -> step 49 (val h) (0, 1) = val (bfull (bint 49) h) /\ 0 < val (bfull (bint 49) h).
Proof.
  unfold good, bfin. rewrite !andb_true_iff. intros ((((((F1 & F2) & F3) & F4) & P) & Q) & R0).
  assert (N : val (bint 49) <> 0) by (rewrite v49; lra).
  assert (Z : 0 < val (bfull (bint 49) h)) by (rewrite <- (bint_val 0) by (vm_compute; congruence); apply blt; [vm_compute; reflexivity|exact F4|exact P]).
  split; [|exact Z]. unfold step, update_swe, enforce_max_meltrate. cbn [fst snd]. rewrite no_snowfall by apply bin_double.
  assert (E : fdiv (val h) 49 = val (bdiv h (bint 49))) by (rewrite bdiv_ok by assumption; now rewrite v49). rewrite E.
  assert (I1 : val (bdiv h (bint 49)) <= 1) by (rewrite <- (bint_val 1) by (vm_compute; congruence); apply ble; [exact F2|vm_compute; reflexivity|exact Q]).
  assert (I0 : 0 <= val (bdiv h (bint 49))) by (rewrite <- (bint_val 0) by (vm_compute; congruence); apply ble; [vm_compute; reflexivity|exact F2|exact R0]).
  rewrite Rmin_right by exact I1. rewrite (Rmax_left (val (bdiv h (bint 49))) 0) by exact I0.
  assert (E2 : fmul (val (bdiv h (bint 49))) 49 = val (bmul (bdiv h (bint 49)) (bint 49))) by (rewrite bmul_ok; [now rewrite v49|exact F2|vm_compute; reflexivity|exact F3]).
  rewrite E2, <- bsub_ok by assumption. apply Rmax_left. fold (bfull (bint 49) h). lra.
Qed.

Fixpoint series (n : nat) (h : bin) : bin := match n with O => h | S k => series k (bfull (bint 49) h) end.
Fixpoint all_good (n : nat) (h : bin) : bool := match n with O => true | S k => good h && all_good k (bfull (bint 49) h) end.
Lemma series_ok : forall n h, all_good n h = true -> run 49 (val h) (repeat (0, 1) n) = val (series n h).
Proof.
  induction n as [|n IH]; intros h G; [reflexivity|]. cbn [all_good] in G. apply andb_prop in G as [G1 G2]. cbn [repeat run fold_left series].
  fold (run 49 (step 49 (val h) (0, 1)) (repeat (0, 1) n)). rewrite (proj1 (bfull_ok h G1)). now apply IH.
Qed.
Lemma series_pos : forall n h, all_good n h = true -> 0 < val h -> forall m, (m <= n)%nat -> 0 < run 49 (val h) (repeat (0, 1) m).
Proof.
  induction n as [|n IH]; intros h G H [|m] L; try exact H; [lia|]. cbn [all_good] in G. apply andb_prop in G as [G1 G2].
  destruct (bfull_ok h G1) as [E P]. cbn [repeat run fold_left]. fold (run 49 (step 49 (val h) (0, 1)) (repeat (0, 1) m)). rewrite E. apply IH; [exact G2|exact P|lia].
Qed.

Lemma run_app dt h a b : run dt h (a ++ b) = run dt (run dt h a) b.
Proof. apply fold_left_app. Qed.
Definition last := series 21 (bint 1).
Lemma stuck n : series n last = last.
Proof.
  assert (E : bfull (bint 49) last = last) by (apply B2SF_inj; vm_compute; reflexivity).
  induction n as [|n IH]; [reflexivity|]. cbn [series]. now rewrite E.
Qed.
Lemma stuck_good : forall n, all_good n last = true.
Proof.
  assert (E : bfull (bint 49) last = last) by (apply B2SF_inj; vm_compute; reflexivity).
  induction n as [|n IH]; [reflexivity|]. cbn [all_good]. rewrite E, IH. vm_compute. reflexivity.
Qed.
(** In steps of 49 s, a snowpack of 1 m for which melt is asked at 1 m/s never disappears. *)
Theorem C110_never_refuted : forall n, 0 < run 49 1 (repeat (0, 1) n).
Proof.
  intro n. assert (V : val (bint 1) = 1) by (apply bint_val; vm_compute; congruence).
  assert (W : run 49 1 (repeat (0, 1) n) = run 49 (val (bint 1)) (repeat (0, 1) n)) by now rewrite V. rewrite W.
  assert (P1 : 0 < val (bint 1)) by (rewrite V; lra).
  assert (G : all_good 21 (bint 1) = true) by (vm_compute; reflexivity).
  destruct (le_lt_dec n 21) as [L|L]; [now apply (series_pos 21)|].
  pose proof (series_ok 21 _ G) as E. pose proof (series_pos 21 _ G P1 21 (le_n 21)) as Q. rewrite E in Q.
  pose proof (series_pos (n - 21) _ (stuck_good (n - 21)) Q (n - 21) (le_n _)) as K.
  replace n with (21 + (n - 21))%nat by lia. rewrite repeat_app, run_app, E. exact K.
Qed.
Print Assumptions C110_never_refuted.

(** Melt asked for at any rate that exhausts the snowpack leaves some of 0.11 m in a step of an hour;
    in a step of 300 s the melt passed on exceeds the 0.1 m that were there. *)
Theorem C110_residual_refuted : forall sm, fdiv (rnd (11 / 100)) 3600 <= sm -> 0 < step 3600 (rnd (11 / 100)) (0, sm).
Proof.
  intros sm. rewrite <- (dec_ok 11 100) by (vm_compute; congruence || reflexivity). set (h := dec 11 100). intro S.
  assert (V : val (bint 3600) = 3600) by (apply bint_val; vm_compute; congruence).
  assert (E : fdiv (val h) 3600 = val (bdiv h (bint 3600))) by (rewrite bdiv_ok; [now rewrite V|rewrite V; lra|vm_compute; reflexivity..]).
  unfold step, update_swe, enforce_max_meltrate. cbn [fst snd]. rewrite no_snowfall by apply bin_double. rewrite Rmin_right by exact S. rewrite E.
  rewrite (Rmax_left (val (bdiv h (bint 3600))) 0) by (rewrite <- (bint_val 0) by (vm_compute; congruence); apply ble; vm_compute; reflexivity).
  assert (E2 : fmul (val (bdiv h (bint 3600))) 3600 = val (bmul (bdiv h (bint 3600)) (bint 3600))) by (rewrite bmul_ok; [now rewrite V|vm_compute; reflexivity..]).
  rewrite E2, <- bsub_ok by (vm_compute; reflexivity). eapply Rlt_le_trans; [|apply Rmax_l].
  rewrite <- (bint_val 0) by (vm_compute; congruence). apply blt; vm_compute; reflexivity.
Qed.
Print Assumptions C110_residual_refuted.

Theorem C110_excess_refuted : forall sm, fdiv (rnd (1 / 10)) 300 <= sm -> rnd (1 / 10) < fmul (enforce_max_meltrate sm (rnd (1 / 10)) 300) 300.
Proof.
  intros sm. rewrite <- (dec_ok 1 10) by (vm_compute; congruence || reflexivity). set (h := dec 1 10). intro S.
  assert (V : val (bint 300) = 300) by (apply bint_val; vm_compute; congruence).
  assert (E : fdiv (val h) 300 = val (bdiv h (bint 300))) by (rewrite bdiv_ok; [now rewrite V|rewrite V; lra|vm_compute; reflexivity..]).
  unfold enforce_max_meltrate. rewrite Rmin_right by exact S. rewrite E.
  rewrite (Rmax_left (val (bdiv h (bint 300))) 0) by (rewrite <- (bint_val 0) by (vm_compute; congruence); apply ble; vm_compute; reflexivity).
  assert (E2 : fmul (val (bdiv h (bint 300))) 300 = val (bmul (bdiv h (bint 300)) (bint 300))) by (rewrite bmul_ok; [now rewrite V|vm_compute; reflexivity..]).
  rewrite E2. apply blt; vm_compute; reflexivity.
Qed.
Print Assumptions C110_excess_refuted.

(** 4 m of snow: in one step 2 m fall and 1 m melts; in the next all 5 m are asked for and melt. *)
Example C110_case :
  is_double 4 /\ fair 8 1 4 [(2, 1); (0, 8)] /\ enforce_max_meltrate 8 5 1 = 5 /\ step 1 4 (2, 1) = 5 /\ run 1 4 [(2, 1); (0, 8)] = 0 /\ net 1 4 [(2, 1); (0, 8)] = -4.
Proof.
  assert (R : forall z, (Z.abs z <= 2 ^ 53)%Z -> rnd (IZR z) = IZR z) by (intros; now apply rnd_IZR).
  assert (N : forall x, 1 <= x -> normal x).
  { intros x H. right. rewrite Rabs_pos_eq by lra. eapply Rle_trans; [|exact H]. change 1 with (bpow radix2 0). apply bpow_le. lia. }
  assert (L : forall h, rnd h = h -> fdiv h 1 = h) by (intros h E; unfold fdiv; now replace (h / 1) with h by field).
  assert (M : forall h, rnd h = h -> fmul h 1 = h) by (intros h E; unfold fmul; now rewrite Rmult_1_r).
  assert (E1 : enforce_max_meltrate 1 4 1 = 1) by (unfold enforce_max_meltrate; rewrite L by (apply (R 4%Z); lia); rewrite Rmin_left by lra; apply Rmax_left; lra).
  assert (E2 : enforce_max_meltrate 8 5 1 = 5) by (unfold enforce_max_meltrate; rewrite L by (apply (R 5%Z); lia); rewrite Rmin_right by lra; apply Rmax_left; lra).
  assert (A : fadd 4 (fmul 2 1) = 6) by (rewrite M by (apply (R 2%Z); lia); unfold fadd; replace (4 + 2) with 6 by ring; apply (R 6%Z); lia).
  assert (B : fadd 5 (fmul 0 1) = 5) by (rewrite M by apply rnd_0; unfold fadd; rewrite Rplus_0_r; apply (R 5%Z); lia).
  assert (S1 : step 1 4 (2, 1) = 5).
  { unfold step, update_swe. cbn [fst snd]. rewrite E1, A, (M 1) by (apply (R 1%Z); lia). unfold fsub. replace (6 - 1) with 5 by ring. rewrite (R 5%Z) by lia. apply Rmax_left. lra. }
  assert (S2 : step 1 5 (0, 8) = 0).
  { unfold step, update_swe. cbn [fst snd]. rewrite E2, B, (M 5) by (apply (R 5%Z); lia). unfold fsub. replace (5 - 5) with 0 by ring. rewrite rnd_0. apply Rmax_left. lra. }
  refine (conj _ (conj _ (conj E2 (conj S1 (conj _ _))))).
  - rewrite <- (R 4%Z) by lia. apply dbl_rnd.
  - cbn [fair fst snd]. rewrite S1, E1, E2, A, B. refine (conj _ (conj _ (conj _ (conj _ (conj _ (conj _ (conj _ (conj _ (conj _ (conj _ I)))))))))); try lra; try (apply N; lra).
    left. ring.
  - cbn [run fold_left]. now rewrite S1, S2.
  - cbn [net fst snd]. rewrite S1, E1, E2. ring.
Qed.
