(* C69: calibration. *)
From Coq Require Import Reals Lra Lia List Bool Arith.
From Verif Require Import ChanR_Model ChanR_Proofs Prep_Model Prep_Spec Tca_Props Depth_Proofs Calib_Model Calib_Spec.
Import ListNotations.
Local Open Scope R_scope.

(* ---------- powers ---------- *)
Lemma powr_1 x : 0 <= x -> powr x 1 = x.
Proof. intros H. unfold powr. destruct (Rle_dec x 0); [lra|]. apply Rpower_1. lra. Qed.
Lemma powr_inv x q : 0 < q -> 0 <= x -> powr (powr x q) (1 / q) = x.
Proof.
  intros Hq Hx. unfold powr at 2. destruct (Rle_dec x 0); [replace x with 0 by lra; apply powr_0|].
  rewrite powr_Rpower by apply Rpower_pos. rewrite Rpower_mult. replace (q * (1 / q)) with 1 by (field; lra). apply Rpower_1. lra.
Qed.
Lemma powr_inv' x q : 0 < q -> 0 <= x -> powr (powr x (1 / q)) q = x.
Proof.
  intros Hq Hx. unfold powr at 2. destruct (Rle_dec x 0); [replace x with 0 by lra; apply powr_0|].
  rewrite powr_Rpower by apply Rpower_pos. rewrite Rpower_mult. replace (1 / q * q) with 1 by (field; lra). apply Rpower_1. lra.
Qed.
Lemma powr_mult x y q : 0 <= x -> 0 <= y -> powr (x * y) q = powr x q * powr y q.
Proof.
  intros Hx Hy. destruct (Req_dec x 0) as [->|Nx]; [rewrite Rmult_0_l, !powr_0; ring|].
  destruct (Req_dec y 0) as [->|Ny]; [rewrite Rmult_0_r, !powr_0; ring|].
  rewrite !powr_Rpower by (try apply Rmult_lt_0_compat; lra). symmetry. apply Rpower_mult_distr; lra.
Qed.
Lemma powr_zero x q : powr x q = 0 <-> x <= 0.
Proof.
  unfold powr. destruct (Rle_dec x 0); [tauto|]. pose proof (Rpower_pos x q). split; intros; lra.
Qed.
Lemma powr_lt x y q : 0 < q -> 0 <= x < y -> powr x q < powr y q.
Proof.
  intros Hq [Hx H]. destruct (Req_dec x 0) as [->|N]; [rewrite powr_0; apply powr_pos; lra|].
  rewrite !powr_Rpower by lra. unfold Rpower. apply exp_increasing. apply Rmult_lt_compat_l; [exact Hq|]. apply ln_increasing; lra.
Qed.
(* tangents of x^q *)
Lemma powr_tangent q m u : 1 <= q -> 0 < m -> 0 <= u -> powr m q + q * Rpower m (q - 1) * (u - m) <= powr u q.
Proof.
  intros Hq Hm Hu. assert (E : Rpower m q = Rpower m (q - 1) * m).
  { rewrite <- (Rpower_1 m Hm) at 3. rewrite <- Rpower_plus. f_equal. ring. }
  rewrite (powr_Rpower m) by exact Hm. pose proof (Rpower_pos m (q - 1)) as P.
  destruct (Req_dec u 0) as [->|N].
  - rewrite powr_0, E. assert (0 <= (q - 1) * (Rpower m (q - 1) * m)) by (apply Rmult_le_pos; [lra|apply Rmult_le_pos; lra]). lra.
  - rewrite powr_Rpower by lra. set (f := fun x => Rpower x q). set (f' := fun x => q * Rpower x (q - 1)).
    assert (D : forall x, 0 < x -> derivable_pt_lim f x (f' x)) by (intros x Hx; apply derivable_pt_lim_power; exact Hx).
    assert (M : forall a b, 0 < a <= b -> f' a <= f' b) by (intros a b H; unfold f'; apply Rmult_le_compat_l; [lra|apply Rpower_mono; lra]).
    change (f m + f' m * (u - m) <= f u).
    destruct (Rtotal_order m u) as [L|[<-|L]]; [|lra|].
    + destruct (MVT_cor2 f f' m u L) as (x & Ex & Hx); [intros x Hx; apply D; lra|].
      assert (f' m * (u - m) <= f' x * (u - m)) by (apply Rmult_le_compat_r; [lra|apply M; lra]). lra.
    + destruct (MVT_cor2 f f' u m L) as (x & Ex & Hx); [intros x Hx; apply D; lra|].
      assert (f' x * (m - u) <= f' m * (m - u)) by (apply Rmult_le_compat_r; [lra|apply M; lra]). lra.
Qed.
Lemma powr_convex q a b u v : 1 <= q -> 0 <= a -> 0 <= b -> a + b = 1 -> 0 <= u -> 0 <= v ->
  powr (a * u + b * v) q <= a * powr u q + b * powr v q.
Proof.
  intros Hq Ha Hb Hs Hu Hv. set (m := a * u + b * v). assert (Hm : 0 <= m) by (unfold m; assert (0 <= a * u) by (apply Rmult_le_pos; lra); assert (0 <= b * v) by (apply Rmult_le_pos; lra); lra).
  destruct (Req_dec m 0) as [E|N].
  - rewrite E, powr_0. pose proof (powr_nonneg u q). pose proof (powr_nonneg v q).
    assert (0 <= a * powr u q) by (apply Rmult_le_pos; lra). assert (0 <= b * powr v q) by (apply Rmult_le_pos; lra). lra.
  - pose proof (powr_tangent q m u Hq ltac:(lra) Hu) as T1. pose proof (powr_tangent q m v Hq ltac:(lra) Hv) as T2.
    set (s := q * Rpower m (q - 1)) in *.
    apply (Rmult_le_compat_l a) in T1; [|exact Ha]. apply (Rmult_le_compat_l b) in T2; [|exact Hb].
    assert (X : a * (powr m q + s * (u - m)) + b * (powr m q + s * (v - m)) = (a + b) * powr m q + s * (m - (a + b) * m)) by (unfold m; ring).
    rewrite Hs in X. lra.
Qed.

(* ---------- the norm ---------- *)
(* sum of |x|^q over a list *)
Definition S_ (q : R) (l : list R) : R := rsum (map (fun x => powr (Rabs x) q) l).
Lemma rsum_nonneg l : (forall x, In x l -> 0 <= x) -> 0 <= rsum l.
Proof.
  induction l as [|x l IH]; intros H; cbn [rsum fold_right]; [lra|]. fold (rsum l).
  assert (0 <= x) by (apply H; left; reflexivity). assert (0 <= rsum l) by (apply IH; intros; apply H; right; assumption). lra.
Qed.
Lemma S_nonneg q l : 0 <= S_ q l.
Proof. apply rsum_nonneg. intros x Hx. apply in_map_iff in Hx as (y & <- & _). apply powr_nonneg. Qed.
Lemma S_cons q x l : S_ q (x :: l) = powr (Rabs x) q + S_ q l. Proof. reflexivity. Qed.
Lemma S_zero q l : S_ q l = 0 -> forall x, In x l -> x = 0.
Proof.
  induction l as [|y l IH]; intros E x Hx; [destruct Hx|]. rewrite S_cons in E. pose proof (S_nonneg q l). pose proof (powr_nonneg (Rabs y) q).
  destruct Hx as [<-|Hx]; [|apply IH; [lra|exact Hx]].
  assert (P : powr (Rabs y) q = 0) by lra. apply powr_zero in P. pose proof (Rabs_pos y). destruct (Req_dec y 0) as [|N]; [assumption|].
  pose proof (Rabs_pos_lt y N). lra.
Qed.
Lemma S_zeros q l : (forall x, In x l -> x = 0) -> S_ q l = 0.
Proof.
  induction l as [|y l IH]; intros H; [reflexivity|]. rewrite S_cons, IH by (intros; apply H; right; assumption).
  rewrite (H y) by (left; reflexivity). rewrite Rabs_R0, powr_0. ring.
Qed.
Definition N_ (q : R) (l : list R) : R := powr (S_ q l) (1 / q).
Lemma S_N q l : 0 < q -> S_ q l = powr (N_ q l) q.
Proof. intros H. unfold N_. rewrite powr_inv'; [reflexivity|exact H|apply S_nonneg]. Qed.

Definition plus2 (a b : list R) : list R := map (fun x => fst x + snd x) (combine a b).
Lemma minkowski q : 1 <= q -> forall a b, length a = length b -> N_ q (plus2 a b) <= N_ q a + N_ q b.
Proof.
  intros Hq a b HL. assert (Q0 : 0 < q) by lra.
  pose proof (powr_nonneg (S_ q a) (1/q)) as NA. pose proof (powr_nonneg (S_ q b) (1/q)) as NB. fold (N_ q a) in NA. fold (N_ q b) in NB.
  assert (Z : forall c d, length c = length d -> N_ q c = 0 -> S_ q (plus2 c d) = S_ q d /\ S_ q (plus2 d c) = S_ q d).
  { intros c d LCD E. assert (S_ q c = 0) by (rewrite (S_N q c Q0), E; apply powr_0). pose proof (S_zero q c H) as C. clear H E.
    revert d LCD C. induction c as [|x c IH]; intros [|y d] LCD C; try discriminate; [auto|].
    unfold plus2. cbn [combine map fst snd]. fold (plus2 c d). fold (plus2 d c). rewrite !S_cons.
    destruct (IH d ltac:(cbn in LCD; lia) ltac:(intros; apply C; right; assumption)) as [-> ->]. rewrite (C x) by (left; reflexivity).
    rewrite Rplus_0_l, Rplus_0_r. auto. }
  destruct (Req_dec (N_ q a) 0) as [Ea|Na].
  { destruct (Z a b HL Ea) as [E _]. unfold N_ at 1. rewrite E. fold (N_ q b). lra. }
  destruct (Req_dec (N_ q b) 0) as [Eb|Nb].
  { destruct (Z b a ltac:(lia) Eb) as [_ E]. unfold N_ at 1. rewrite E. fold (N_ q a). lra. }
  set (A := N_ q a) in *. set (B := N_ q b) in *. set (T := A + B). assert (PT : 0 < T) by (unfold T; lra).
  assert (K : S_ q (plus2 a b) <= powr T q * (A / T * (S_ q a / powr A q) + B / T * (S_ q b / powr B q))).
  { assert (PA : 0 < powr A q) by (apply powr_pos; lra). assert (PB : 0 < powr B q) by (apply powr_pos; lra).
    clearbody A B. clear Z. revert b HL. induction a as [|x a IH]; intros [|y b] HL; try discriminate.
    - unfold S_, plus2, rsum. cbn. right. field. repeat split; lra.
    - unfold plus2. cbn [combine map fst snd]. fold (plus2 a b). rewrite !S_cons. specialize (IH b ltac:(cbn in HL; lia)).
      assert (powr (Rabs (x + y)) q <= powr T q * (A / T * (powr (Rabs x) q / powr A q) + B / T * (powr (Rabs y) q / powr B q))).
      { eapply Rle_trans; [apply powr_mono; [lra|apply (Rabs_triang x y)]|].
        replace (Rabs x + Rabs y) with (T * (A / T * (Rabs x / A) + B / T * (Rabs y / B))) by (field; repeat split; lra).
        assert (U : forall z C, 0 < C -> 0 <= Rabs z / C) by (intros z C HC; apply Rmult_le_pos; [apply Rabs_pos|left; apply Rinv_0_lt_compat; exact HC]).
        assert (V : forall z C, 0 < C -> powr (Rabs z) q / powr C q = powr (Rabs z / C) q).
        { intros z C HC. replace (Rabs z) with (C * (Rabs z / C)) at 1 by (field; lra). rewrite powr_mult by (try apply U; lra).
          field. apply Rgt_not_eq, powr_pos. exact HC. }
        rewrite powr_mult; [|lra|].
        - apply Rmult_le_compat_l; [apply powr_nonneg|]. rewrite !V by lra. apply powr_convex; try assumption; try (apply U; lra).
          + left. apply quot_pos; lra.
          + left. apply quot_pos; lra.
          + unfold T. field. unfold T in PT. lra.
        - apply Rplus_le_le_0_compat; (apply Rmult_le_pos; [left; apply quot_pos; lra|apply U; lra]). }
      replace (powr T q * (A / T * ((powr (Rabs x) q + S_ q a) / powr A q) + B / T * ((powr (Rabs y) q + S_ q b) / powr B q)))
        with (powr T q * (A / T * (powr (Rabs x) q / powr A q) + B / T * (powr (Rabs y) q / powr B q)) +
              powr T q * (A / T * (S_ q a / powr A q) + B / T * (S_ q b / powr B q))) by (field; repeat split; lra).
      lra. }
  rewrite (S_N q a Q0), (S_N q b Q0) in K. fold A in K. fold B in K.
  assert (PA : 0 < powr A q) by (apply powr_pos; lra). assert (PB : 0 < powr B q) by (apply powr_pos; lra).
  replace (powr T q * (A / T * (powr A q / powr A q) + B / T * (powr B q / powr B q))) with (powr T q) in K by (unfold T; unfold T in PT; field; repeat split; lra).
  unfold N_ at 1. eapply Rle_trans; [apply powr_mono; [left; apply quot_pos; lra|exact K]|]. rewrite powr_inv by lra. unfold T. lra.
Qed.

Definition diffs (a b : list R) : list R := map (fun x => fst x - snd x) (combine a b).
Lemma Lp_N obs sim p : Lp_norm obs sim p = N_ p (diffs obs sim).
Proof. unfold Lp_norm, N_, S_, diffs. rewrite map_map. reflexivity. Qed.

(* the spec form: the p-th root of the sum of |obs_k - sim_k|^p *)
Lemma rsum_app a b : rsum (a ++ b) = rsum a + rsum b.
Proof. induction a as [|x a IH]; cbn [app rsum fold_right]; [fold (rsum b); lra|]. fold (rsum (a ++ b)) (rsum a). rewrite IH. ring. Qed.
Lemma rsum_sum_to : forall l, rsum l = sum_to (length l) (fun k => nth k l 0).
Proof.
  intros l. induction l as [|x l IH] using rev_ind; [reflexivity|]. rewrite rsum_app, app_length. cbn [length]. rewrite Nat.add_1_r. cbn [sum_to].
  rewrite app_nth2, Nat.sub_diag by lia. cbn [nth rsum fold_right]. rewrite IH, Rplus_0_r. f_equal.
  assert (X : forall n (f g : nat -> R), (forall k, (k < n)%nat -> f k = g k) -> sum_to n f = sum_to n g).
  { clear. induction n; intros f g H; [reflexivity|]. cbn. rewrite (IHn f g), (H n) by (try lia; intros; apply H; lia). reflexivity. }
  apply X. intros k Hk. rewrite app_nth1 by exact Hk. reflexivity.
Qed.
Lemma abs_power_eq x p : abs_power x p = powr (Rabs x) p.
Proof.
  unfold abs_power. destruct (Req_EM_T x 0) as [->|N]; [rewrite Rabs_R0, powr_0; reflexivity|]. rewrite powr_Rpower; [reflexivity|]. apply Rabs_pos_lt. exact N.
Qed.
Theorem C69_cost_formula : forall obs sim p, 0 < p ->
  let n := Nat.min (length obs) (length sim) in
  0 <= compute_cost obs sim p /\
  abs_power (compute_cost obs sim p) p = sum_to n (fun k => abs_power (nth k obs 0 - nth k sim 0) p).
Proof.
  intros obs sim p Hp n.
  assert (E : compute_cost obs sim p = N_ p (diffs obs sim)).
  { unfold compute_cost. rewrite !Lp_N.
    assert (X : forall (a b : list R) m, length b = m -> combine (firstn m a) b = combine a b).
    { clear. induction a as [|x a IH]; intros [|y b] m H; subst m; cbn [length firstn combine]; try reflexivity.
      f_equal. apply IH. reflexivity. }
    assert (Y : forall (a b : list R) m, length a = m -> combine a (firstn m b) = combine a b).
    { clear. induction a as [|x a IH]; intros [|y b] m H; subst m; cbn [length firstn combine]; try reflexivity.
      f_equal. apply IH. reflexivity. }
    destruct (length obs =? length sim); [reflexivity|]. unfold diffs. destruct (length obs <? length sim).
    - rewrite Y by reflexivity. reflexivity.
    - rewrite X by reflexivity. reflexivity. }
  rewrite E. assert (P : 0 <= N_ p (diffs obs sim)) by apply powr_nonneg. split; [exact P|].
  rewrite abs_power_eq, Rabs_pos_eq by exact P. rewrite <- S_N by exact Hp. unfold S_. rewrite rsum_sum_to, map_length.
  unfold diffs at 1. rewrite map_length, combine_length. fold n.
  assert (X : forall m (f g : nat -> R), (forall k, (k < m)%nat -> f k = g k) -> sum_to m f = sum_to m g).
  { clear. induction m; intros f g H; [reflexivity|]. cbn. rewrite (IHm f g), (H m) by (try lia; intros; apply H; lia). reflexivity. }
  apply X. intros k Hk. rewrite abs_power_eq. unfold diffs. rewrite map_map.
  assert (k < length (combine obs sim))%nat by (rewrite combine_length; exact Hk).
  rewrite nth_indep with (d' := (fun x => powr (Rabs (fst x - snd x)) p) (0, 0)) by (rewrite map_length; exact H).
  rewrite (map_nth (fun x => powr (Rabs (fst x - snd x)) p)). 
  assert (Z : forall (a b : list R) j, (j < length (combine a b))%nat -> nth j (combine a b) (0, 0) = (nth j a 0, nth j b 0)).
  { clear. induction a as [|x a IH]; intros [|y b] [|j] H; cbn in *; try lia; try reflexivity. apply IH. lia. }
  rewrite Z by exact H. reflexivity.
Qed.
Print Assumptions C69_cost_formula.

Lemma combine_same {X : Type} (a : list X) u v : In (u, v) (combine a a) -> u = v.
Proof. induction a as [|w a IH]; cbn; [intros []|]. intros [H|H]; [congruence|exact (IH H)]. Qed.
(* for p >= 1 the cost is a distance between series of the same length *)
Theorem C69_cost_is_a_distance : forall p a b c, 1 <= p -> length a = length b -> length b = length c ->
  0 <= compute_cost a b p /\ (compute_cost a b p = 0 <-> a = b) /\ compute_cost a b p = compute_cost b a p /\
  compute_cost a c p <= compute_cost a b p + compute_cost b c p.
Proof.
  intros p a b c Hp L1 L2. unfold compute_cost. rewrite L1, L2, !Nat.eqb_refl. rewrite !Lp_N.
  split; [apply powr_nonneg|]. split; [|split].
  - split; intros E.
    + assert (S0 : S_ p (diffs a b) = 0) by (rewrite S_N by lra; rewrite E; apply powr_0).
      pose proof (S_zero p _ S0) as Z. clear S0 E. revert b L1 L2 Z. induction a as [|x a IH]; intros [|y b] L1 L2 Z; try discriminate; [reflexivity|].
      unfold diffs in Z. cbn [combine map fst snd] in Z. fold (diffs a b) in Z.
      assert (x - y = 0) by (apply Z; left; reflexivity). f_equal; [lra|].
      assert (length a = length b) by (cbn in L1; lia). clear IH L2. 
      revert b Z L1 H0. induction a as [|x' a IH]; intros [|y' b] Z L1 HL; try discriminate; [reflexivity|].
      unfold diffs in Z. cbn [combine map fst snd] in Z. fold (diffs a b) in Z.
      assert (x' - y' = 0) by (apply Z; right; left; reflexivity). f_equal; [lra|]. apply IH; [|cbn in *; lia|cbn in *; lia].
      intros z [Hz|Hz]; apply Z; [left; exact Hz|right; right; exact Hz].
    + subst b. unfold N_. rewrite S_zeros; [apply powr_0|]. intros x Hx. unfold diffs in Hx. apply in_map_iff in Hx as ([u v] & <- & Huv).
      apply combine_same in Huv.
      subst. cbn. ring.
  - unfold N_. f_equal. unfold S_. f_equal. unfold diffs. rewrite !map_map. clear L2. revert b L1.
    induction a as [|x a IH]; intros [|y b] L1; try discriminate; [reflexivity|]. cbn [combine map fst snd]. f_equal; [|apply IH; cbn in L1; lia].
    rewrite Rabs_minus_sym. reflexivity.
  - replace (diffs a c) with (plus2 (diffs a b) (diffs b c)).
    + apply minkowski; [exact Hp|]. unfold diffs. rewrite !map_length, !combine_length. lia.
    + revert b c L1 L2. induction a as [|x a IH]; intros [|y b] [|z c] L1 L2; try discriminate; [reflexivity|].
      unfold diffs, plus2. cbn [combine map fst snd]. f_equal; [ring|]. apply IH; cbn in *; lia.
Qed.
Print Assumptions C69_cost_is_a_distance.

(* with p = 1/2 it is not: the triangle inequality fails *)
Theorem C69_distance_below_one_refuted :
  exists a b c : list R, compute_cost a b (1/2) + compute_cost b c (1/2) < compute_cost a c (1/2).
Proof.
  exists [1; 0], [0; 0], [0; 1]. unfold compute_cost. cbn [length Nat.eqb]. rewrite !Lp_N. unfold N_, S_, diffs, rsum. cbn [combine map fst snd fold_right].
  replace (1 - 0) with 1 by ring. replace (0 - 0) with 0 by ring. replace (0 - 1) with (-1) by ring.
  rewrite Rabs_R0, Rabs_R1, powr_0. replace (Rabs (-1)) with 1 by (rewrite Rabs_left by lra; lra).
  assert (P1 : forall x, powr 1 x = 1) by (intros x; rewrite powr_Rpower by lra; unfold Rpower; rewrite ln_1, Rmult_0_r; apply exp_0).
  rewrite !P1. rewrite !Rplus_0_r, !Rplus_0_l, !P1. replace (1 / (1/2)) with (INR 2) by (cbn; lra).
  rewrite powr_Rpower by lra. rewrite Rpower_pow by lra. cbn. lra.
Qed.
Print Assumptions C69_distance_below_one_refuted.

(* a shorter simulation never costs more: only the common part counts *)
Theorem C69_shorter_is_cheaper : forall obs sim k p, 0 < p -> compute_cost obs (firstn k sim) p <= compute_cost obs sim p.
Proof.
  intros obs sim k p Hp. pose proof (C69_cost_formula obs sim p Hp) as [P1 E1]. pose proof (C69_cost_formula obs (firstn k sim) p Hp) as [P2 E2].
  assert (L : abs_power (compute_cost obs (firstn k sim) p) p <= abs_power (compute_cost obs sim p) p).
  { rewrite E1, E2. 
    set (f := fun j => abs_power (nth j obs 0 - nth j sim 0) p).
    assert (X : forall m (g h : nat -> R), (forall j, (j < m)%nat -> g j = h j) -> sum_to m g = sum_to m h).
    { clear. induction m; intros g h H; [reflexivity|]. cbn. rewrite (IHm g h), (H m) by (try lia; intros; apply H; lia). reflexivity. }
    rewrite (X _ _ f).
    - assert (Y : forall m d, sum_to m f <= sum_to (m + d) f).
      { intros m d. induction d as [|d IHd]; [rewrite Nat.add_0_r; lra|]. rewrite Nat.add_succ_r. cbn [sum_to].
        assert (0 <= f (m + d)%nat) by (unfold f; rewrite abs_power_eq; apply powr_nonneg). lra. }
      set (m := Nat.min (length obs) (length (firstn k sim))).
      assert (length (firstn k sim) <= length sim)%nat by (rewrite firstn_length; lia).
      replace (Nat.min (length obs) (length sim)) with (m + (Nat.min (length obs) (length sim) - m))%nat by (unfold m; lia). apply Y.
    - intros j Hj. unfold f. do 2 f_equal. assert (j < k /\ j < length sim)%nat as [H1 H2] by (rewrite firstn_length in Hj; lia).
      rewrite <- (firstn_skipn k sim) at 2. rewrite app_nth1 by (rewrite firstn_length; lia). reflexivity. }
  rewrite !abs_power_eq, !Rabs_pos_eq in L by assumption. destruct (Rle_dec (compute_cost obs (firstn k sim) p) (compute_cost obs sim p)) as [|N]; [assumption|].
  pose proof (powr_lt (compute_cost obs sim p) (compute_cost obs (firstn k sim) p) p Hp ltac:(lra)). lra.
Qed.
Print Assumptions C69_shorter_is_cheaper.
(* so that a run which writes nothing fits every observation perfectly *)
Theorem C69_empty_run_refuted : forall obs p, 0 < p -> compute_cost obs [] p = 0.
Proof.
  intros obs p Hp. destruct (C69_cost_formula obs [] p Hp) as [P E]. cbn [length] in E. rewrite Nat.min_0_r in E. cbn [sum_to] in E.
  rewrite abs_power_eq, Rabs_pos_eq in E by exact P. apply powr_zero in E. lra.
Qed.
Print Assumptions C69_empty_run_refuted.
