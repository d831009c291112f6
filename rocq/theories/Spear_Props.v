(* C69, the Spearman cost: what it measures, and which run it chooses. *)
From Coq Require Import Reals List Bool Arith Lra Lia Permutation.
From Verif Require Import Calib_Model Calib_Spec Calib_Props Spear_Model Spear_Spec Spear_Proofs.
Import ListNotations.
Local Open Scope R_scope.

(* the two series are compared up to the length of the shorter one *)
Theorem C69_spearman_cut : forall obs sim m, m = Nat.min (length obs) (length sim) ->
  spearman_cost obs sim = spearman_metric (firstn m obs) (firstn m sim).
Proof. intros obs sim m ->. unfold spearman_cost. destruct (Nat.eqb_spec (length obs) (length sim)) as [E|N].
  - rewrite E, Nat.min_id, firstn_all. rewrite <- E, firstn_all. reflexivity.
  - destruct (Nat.ltb_spec (length obs) (length sim)).
    + rewrite Nat.min_l, firstn_all by lia. reflexivity.
    + rewrite Nat.min_r, firstn_all by lia. reflexivity. Qed.
Print Assumptions C69_spearman_cut.

(* always between 0 and 1 *)
Theorem C69_spearman_range : forall x y d, length x = length y -> spearman_metric x y = Some d -> 0 <= d <= 1.
Proof. intros x y d L. unfold spearman_metric, spearmanr. destruct (corrcoef _ _) as [c|] eqn:C; [|discriminate].
  intros E. injection E as <-. destruct (corr_bounds _ _ (ranks_L x y L) c C) as [B _]. lra. Qed.
Print Assumptions C69_spearman_range.

(* NaN exactly when one of the series is constant *)
Theorem C69_spearman_defined : forall x y, spearman_metric x y = None <-> constant x \/ constant y.
Proof. intros x y. unfold spearman_metric, spearmanr, corrcoef.
  rewrite <- (const_ranks x), <- (const_ranks y), <- !const_sxx.
  destruct (Req_EM_T _ 0) as [E|N]; (split; [intros H|intros H]); try discriminate; auto.
  - apply Rmult_integral. exact E.
  - exfalso. apply N. destruct H as [->| ->]; ring. Qed.
Print Assumptions C69_spearman_defined.

(* 0 exactly for series in the same order, 1 exactly for series in opposite order *)
Theorem C69_spearman_zero : forall x y, length x = length y ->
  (spearman_metric x y = Some 0 <-> same_order x y /\ ~ constant x).
Proof. intros x y L. assert (H := spearman_ends x y L 1 (or_introl eq_refl)). destruct (Req_EM_T 1 1); [|congruence].
  replace ((1 - 1) / 2) with 0 in H by field. exact H. Qed.
Print Assumptions C69_spearman_zero.
Theorem C69_spearman_one : forall x y, length x = length y ->
  (spearman_metric x y = Some 1 <-> opposite_order x y /\ ~ constant x).
Proof. intros x y L. assert (H := spearman_ends x y L (-1) (or_intror eq_refl)). destruct (Req_EM_T (-1) 1); [lra|].
  replace ((1 - -1) / 2) with 1 in H by field. exact H. Qed.
Print Assumptions C69_spearman_one.

Lemma map_pos (f : R -> R) l i c : at_pos (map f l) i c -> exists a, at_pos l i a /\ c = f a.
Proof. unfold at_pos. rewrite nth_error_map. destruct (nth_error l i); cbn; [|discriminate]. intros E. injection E as <-. eauto. Qed.
Lemma inc_iff f : strictly_increasing f -> forall a b, a < b <-> f a < f b.
Proof. intros F a b. split; [apply F|]. intros O. destruct (Rlt_dec a b); [assumption|].
  destruct (Req_EM_T a b) as [->|]; [lra|]. assert (K := F b a). lra. Qed.
Lemma dec_iff f : strictly_decreasing f -> forall a b, a < b <-> f b < f a.
Proof. intros F a b. split; [apply F|]. intros O. destruct (Rlt_dec a b); [assumption|].
  destruct (Req_EM_T a b) as [->|]; [lra|]. assert (K := F b a). lra. Qed.

(* The comment at 1231-1232 says that an increasing function of x has d=1 and a decreasing one d=0; it is the
   other way round. *)
Theorem C69_spearman_increasing : forall f x, strictly_increasing f -> ~ constant x -> spearman_metric x (map f x) = Some 0.
Proof. intros f x F N. apply C69_spearman_zero; [rewrite map_length; reflexivity|]. split; [|exact N].
  intros i j a b c d A B C D. apply map_pos in C, D. destruct C as (a' & A' & ->), D as (b' & B' & ->).
  unfold at_pos in *. replace a' with a by congruence. replace b' with b by congruence. apply inc_iff, F. Qed.
Print Assumptions C69_spearman_increasing.
Theorem C69_spearman_decreasing : forall f x, strictly_decreasing f -> ~ constant x -> spearman_metric x (map f x) = Some 1.
Proof. intros f x F N. apply C69_spearman_one; [rewrite map_length; reflexivity|]. split; [|exact N].
  intros i j a b c d A B C D. apply map_pos in C, D. destruct C as (a' & A' & ->), D as (b' & B' & ->).
  unfold at_pos in *. replace a' with a by congruence. replace b' with b by congruence. apply dec_iff, F. Qed.
Print Assumptions C69_spearman_decreasing.
Theorem C69_spearman_comment_refuted :
  ~ (forall f x, strictly_increasing f -> ~ constant x -> spearman_metric x (map f x) = Some 1).
Proof. intros H. specialize (H (fun v => v) [0; 1]).
  assert (F : strictly_increasing (fun v => v)) by (intros a b; auto).
  assert (N : ~ constant [0; 1]) by (intros C; specialize (C 0 1 (or_introl eq_refl) (or_intror (or_introl eq_refl))); lra).
  rewrite (C69_spearman_increasing _ _ F N) in H. specialize (H F N). injection H as H. lra. Qed.
Print Assumptions C69_spearman_comment_refuted.

(* blind to the size of the values: any increasing change of the simulated values leaves the cost as it is *)
Theorem C69_spearman_scale_blind : forall f x y, strictly_increasing f -> length x = length y ->
  spearman_metric x (map f y) = spearman_metric x y.
Proof. intros f x y F L. unfold spearman_metric, spearmanr. replace (ranks (map f y)) with (ranks y); [reflexivity|].
  unfold ranks. rewrite map_map. apply map_ext. intros v.
  assert (C : forall (g : R -> bool) l, length (filter g (map f l)) = length (filter (fun u => g (f u)) l)).
  { clear. intros g l. induction l as [|u l IH]; [reflexivity|]. cbn. destruct (g (f u)); cbn; rewrite IH; reflexivity. }
  assert (E1 : lower (map f y) (f v) = lower y v).
  { unfold lower. rewrite C. f_equal. apply filter_ext. intros u. assert (I := inc_iff f F u v).
    destruct (Rlt_dec u v), (Rlt_dec (f u) (f v)); tauto. }
  assert (E2 : equal (map f y) (f v) = equal y v).
  { unfold equal. rewrite C. f_equal. apply filter_ext. intros u. assert (I := inc_iff f F u v). assert (J := inc_iff f F v u).
    destruct (Req_EM_T u v) as [E0|N], (Req_EM_T (f u) (f v)) as [E|M]; try reflexivity; [congruence|].
    exfalso. rewrite E in *. destruct (Rlt_dec u v); [|assert (v < u) by lra]; assert (f v < f v) by tauto; lra. }
  rewrite E1, E2. reflexivity. Qed.
Print Assumptions C69_spearman_scale_blind.

Theorem C69_spearman_symmetric : forall x y, length x = length y -> spearman_metric x y = spearman_metric y x.
Proof. intros x y L. unfold spearman_metric, spearmanr, corrcoef.
  rewrite (Rmult_comm (sxy (ranks y) (ranks y))). replace (sxy (ranks y) (ranks x)) with (sxy (ranks x) (ranks y)); [reflexivity|].
  unfold sxy. f_equal.
  assert (H : forall (a b : list R) m k, map (fun p => (fst p - m) * (snd p - k)) (combine a b) = map (fun p => (fst p - k) * (snd p - m)) (combine b a)).
  { clear. intros a. induction a as [|u a IH]; intros [|v b] m k; try reflexivity. cbn. rewrite (IH b m k). f_equal. ring. }
  apply H. Qed.
Print Assumptions C69_spearman_symmetric.

(* ---------- the textbook formula for series without ties ---------- *)
Lemma filter_perm {X} (g : X -> bool) l k : Permutation l k -> length (filter g l) = length (filter g k).
Proof. induction 1; cbn; try (destruct (g x); cbn; congruence); try (destruct (g x), (g y); cbn; congruence); congruence. Qed.
Lemma lower_seq n s k : (s <= k <= s + n)%nat -> lower (map INR (seq s n)) (INR k) = (k - s)%nat.
Proof. unfold lower. revert s. induction n as [|n IH]; intros s H; [cbn; lia|]. cbn.
  destruct (Rlt_dec (INR s) (INR k)) as [O|O].
  - apply INR_lt in O. cbn. rewrite IH by lia. lia.
  - assert (~ (s < k)%nat) by (intros G; apply O, lt_INR, G). assert (s = k) by lia. subst.
    clear IH. assert (Z : forall m t, (k <= t)%nat -> length (filter (fun y => if Rlt_dec y (INR k) then true else false) (map INR (seq t m))) = 0%nat).
    { induction m as [|m IHm]; intros t T; [reflexivity|]. cbn. destruct (Rlt_dec (INR t) (INR k)) as [B|]; [apply INR_lt in B; lia|].
      apply IHm. lia. }
    rewrite Z by lia. lia. Qed.
Lemma equal_seq n s k : (s <= k < s + n)%nat -> equal (map INR (seq s n)) (INR k) = 1%nat.
Proof. unfold equal. revert s. induction n as [|n IH]; intros s H; [lia|]. cbn.
  destruct (Req_EM_T (INR s) (INR k)) as [E|N].
  - apply INR_eq in E. subst. cbn. f_equal.
    assert (Z : forall m t, (k < t)%nat -> length (filter (fun y => if Req_EM_T y (INR k) then true else false) (map INR (seq t m))) = 0%nat).
    { induction m as [|m IHm]; intros t T; [reflexivity|]. cbn. destruct (Req_EM_T (INR t) (INR k)) as [B|]; [apply INR_eq in B; lia|].
      apply IHm. lia. }
    apply Z. lia.
  - apply IH. assert (s <> k) by congruence. lia. Qed.
Lemma ranking_ranks x r : ranking x r -> ranks x = map INR r.
Proof. intros [P O]. assert (L : length r = length x) by (rewrite (Permutation_length P), seq_length; reflexivity).
  assert (S : same_order (map INR r) x).
  { intros i j a b c d A B C D. unfold at_pos in A, B. rewrite nth_error_map in A, B.
    destruct (nth_error r i) as [p|] eqn:EP; [|discriminate]. destruct (nth_error r j) as [q|] eqn:EQ; [|discriminate].
    injection A as <-. injection B as <-. rewrite (O i j c d p q C D EP EQ). split; [apply INR_lt|apply lt_INR]. }
  assert (K := same_rk (map INR r) x ltac:(rewrite map_length; exact L) S).
  assert (V : forall p, In p r -> rk (map INR r) (INR p) = INR p).
  { intros p Ip. assert (B : (1 <= p < 1 + length x)%nat) by (apply in_seq, (Permutation_in _ P Ip)).
    assert (PM : Permutation (map INR r) (map INR (seq 1 (length x)))) by (apply Permutation_map, P).
    unfold rk. replace (lower (map INR r) (INR p)) with (p - 1)%nat; [replace (equal (map INR r) (INR p)) with 1%nat|].
    - rewrite minus_INR by lia. cbn. lra.
    - unfold equal. rewrite (filter_perm _ _ _ PM). symmetry. apply equal_seq. lia.
    - unfold lower. rewrite (filter_perm _ _ _ PM). symmetry. apply lower_seq. lia. }
  change (ranks x) with (map (rk x) x). clear P O S.
  assert (G : forall (r : list nat) (x : list R) f g, length r = length x -> (forall p, In p (combine (map INR r) x) -> f (snd p) = g (fst p)) ->
    (forall p, In p r -> g (INR p) = INR p) -> map f x = map INR r).
  { clear. induction r as [|p r IH]; intros [|v x] f g L E I; cbn in L; try discriminate; [reflexivity|]. cbn. f_equal.
    - transitivity (g (INR p)); [exact (E (INR p, v) (or_introl eq_refl))|]. apply I. left; reflexivity.
    - apply (IH x f g); [lia| |]; intros; [apply E|apply I]; right; assumption. }
  apply (G r x (rk x) (rk (map INR r)) L K V). Qed.

Lemma nth_map_in {X Y : Type} (f : X -> Y) l k d d' : (k < length l)%nat -> nth k (map f l) d = f (nth k l d').
Proof. revert k. induction l as [|x l IH]; intros [|k] H; cbn in *; try lia; [reflexivity|]. apply IH. lia. Qed.
Lemma rsum_perm l k : Permutation l k -> rsum l = rsum k.
Proof. induction 1; cbn; try (change (fold_right Rplus 0 ?l) with (rsum l)); unfold rsum in *; lra. Qed.
Lemma sum_seq n : rsum (map INR (seq 1 n)) = INR n * (INR n + 1) / 2.
Proof. induction n as [|n IH]; [cbn; lra|]. rewrite seq_S, map_app. unfold rsum. rewrite fold_right_app. cbn [map fold_right].
  assert (A : forall l z, fold_right Rplus z l = rsum l + z) by (induction l as [|u l IHl]; intros z; cbn; [unfold rsum; cbn; lra|rewrite IHl; unfold rsum; cbn; lra]).
  rewrite A, IH. replace (1 + n)%nat with (S n) by lia. rewrite !S_INR. field. Qed.
Lemma sum_sq n : sm (fun v => v * v) (map INR (seq 1 n)) = INR n * (INR n + 1) * (2 * INR n + 1) / 6.
Proof. unfold sm. induction n as [|n IH]; [cbn; lra|]. rewrite seq_S, !map_app. unfold rsum. rewrite fold_right_app. cbn [map fold_right].
  assert (A : forall l z, fold_right Rplus z l = rsum l + z) by (induction l as [|u l IHl]; intros z; cbn; [unfold rsum; cbn; lra|rewrite IHl; unfold rsum; cbn; lra]).
  rewrite A, IH. replace (1 + n)%nat with (S n) by lia. rewrite !S_INR. field. Qed.
Lemma sm_const {X} c (l : list X) : sm (fun _ => c) l = c * INR (length l).
Proof. induction l as [|x l IH]; [cbn; ring|]. rewrite sm_cons, IH. cbn [length]. rewrite S_INR. ring. Qed.

Theorem C69_spearman_formula : forall x y rx ry n, length x = n -> length y = n -> (2 <= n)%nat ->
  ranking x rx -> ranking y ry ->
  spearman_metric x y = Some (3 * sum_to n (fun k => (INR (nth k rx 0%nat) - INR (nth k ry 0%nat)) ^ 2) / (INR n * (INR n ^ 2 - 1))).
Proof. intros x y rx ry n LX LY N RX RY. unfold spearman_metric, spearmanr. rewrite (ranking_ranks x rx RX), (ranking_ranks y ry RY).
  destruct RX as [PX _], RY as [PY _]. rewrite LX in PX. rewrite LY in PY.
  assert (LRX : length rx = n) by (rewrite (Permutation_length PX), seq_length; reflexivity).
  assert (LRY : length ry = n) by (rewrite (Permutation_length PY), seq_length; reflexivity).
  assert (QX : Permutation (map INR rx) (map INR (seq 1 n))) by (apply Permutation_map, PX).
  assert (QY : Permutation (map INR ry) (map INR (seq 1 n))) by (apply Permutation_map, PY).
  set (a := map INR rx) in *. set (b := map INR ry) in *.
  assert (LA : length a = n) by (unfold a; rewrite map_length; exact LRX).
  assert (LB : length b = n) by (unfold b; rewrite map_length; exact LRY).
  assert (LAB : length a = length b) by congruence.
  assert (N2 : 2 <= INR n) by (apply (le_INR 2 n), N).
  assert (MA : mean a = (INR n + 1) / 2) by (unfold mean; rewrite (rsum_perm _ _ QX), sum_seq, LA; field; lra).
  assert (MB : mean b = (INR n + 1) / 2) by (unfold mean; rewrite (rsum_perm _ _ QY), sum_seq, LB; field; lra).
  assert (SA : sm (fun v => v * v) a = INR n * (INR n + 1) * (2 * INR n + 1) / 6)
    by (rewrite <- sum_sq; apply rsum_perm, Permutation_map, QX).
  assert (SB : sm (fun v => v * v) b = INR n * (INR n + 1) * (2 * INR n + 1) / 6)
    by (rewrite <- sum_sq; apply rsum_perm, Permutation_map, QY).
  assert (S1A : sm (fun v => v) a = INR n * (INR n + 1) / 2) by (unfold sm; rewrite map_id, (rsum_perm _ _ QX); apply sum_seq).
  assert (S1B : sm (fun v => v) b = INR n * (INR n + 1) / 2) by (unfold sm; rewrite map_id, (rsum_perm _ _ QY); apply sum_seq).
  assert (XX : forall c, mean c = (INR n + 1) / 2 -> sm (fun v => v * v) c = INR n * (INR n + 1) * (2 * INR n + 1) / 6 ->
     sm (fun v => v) c = INR n * (INR n + 1) / 2 -> length c = n -> sxy c c = INR n * (INR n ^ 2 - 1) / 12).
  { intros c M S2 S1 LC. unfold sxy. rewrite combine_self, M. cbn [fst snd].
    rewrite (sm_ext _ (fun v => 1 * (1 * (v * v) + (- (INR n + 1)) * v) + ((INR n + 1) / 2 * ((INR n + 1) / 2)) * 1)) by (intros; field).
    rewrite (sm_lin 1 ((INR n + 1) / 2 * ((INR n + 1) / 2)) (fun v => 1 * (v * v) + (- (INR n + 1)) * v) (fun _ => 1)).
    rewrite (sm_lin 1 (- (INR n + 1)) (fun v => v * v) (fun v => v)), S2, S1, sm_const, LC. field. }
  set (D := sm (fun p : R * R => (fst p - snd p) * (fst p - snd p)) (combine a b)).
  assert (ED : D = sum_to n (fun k => (INR (nth k rx 0%nat) - INR (nth k ry 0%nat)) ^ 2)).
  { unfold D, sm. rewrite Calib_Props.rsum_sum_to. rewrite map_length, combine_length, LA, LB, Nat.min_id.
    assert (G : forall m, (m <= n)%nat -> sum_to m (fun k => nth k (map (fun p : R * R => (fst p - snd p) * (fst p - snd p)) (combine a b)) 0)
        = sum_to m (fun k => (INR (nth k rx 0%nat) - INR (nth k ry 0%nat)) ^ 2)).
    { induction m as [|m IHm]; intros M; [reflexivity|]. cbn [sum_to]. rewrite IHm by lia. f_equal.
      rewrite (nth_map_in _ _ _ _ (INR 0, INR 0)) by (rewrite combine_length, LA, LB, Nat.min_id; lia).
      rewrite combine_nth by exact LAB. cbn [fst snd]. unfold a, b. rewrite !map_nth. ring. }
    apply G. lia. }
  assert (XY : sxy a b = INR n * (INR n ^ 2 - 1) / 12 - D / 2).
  { assert (AA := XX a MA SA S1A LA). assert (BB := XX b MB SB S1B LB).
    assert (E : D = sxy a a - 2 * sxy a b + sxy b b).
    { transitivity (1 * 1 * sxy a a + 2 * 1 * (-1) * sxy a b + (-1) * (-1) * sxy b b); [|ring].
      rewrite <- (sq_sum a b LAB 1 (-1)). apply sm_ext. intros p _. rewrite MA, MB. ring. }
    lra. }
  rewrite ED in XY. unfold corrcoef. rewrite (XX a MA SA S1A LA), (XX b MB SB S1B LB), XY.
  set (V := INR n * (INR n ^ 2 - 1) / 12). set (T := sum_to n _).
  assert (VP : 0 < V) by (unfold V; apply Rmult_lt_0_compat; [apply Rmult_lt_0_compat; nra|lra]).
  destruct (Req_EM_T (V * V) 0) as [Z|_]; [nra|]. f_equal. change (V * V) with (Rsqr V). rewrite sqrt_Rsqr by lra.
  replace (INR n * (INR n ^ 2 - 1)) with (12 * V) by (unfold V; field). field. lra. Qed.
Print Assumptions C69_spearman_formula.

Lemma ranking3 a b c p q r : Permutation [p; q; r] (seq 1 3) ->
  (a < b <-> (p < q)%nat) -> (a < c <-> (p < r)%nat) -> (b < a <-> (q < p)%nat) -> (b < c <-> (q < r)%nat) ->
  (c < a <-> (r < p)%nat) -> (c < b <-> (r < q)%nat) -> ranking [a; b; c] [p; q; r].
Proof. intros P. intros. split; [exact P|]. unfold at_pos. intros i j u v s t.
    destruct i as [|[|[|i]]]; cbn; [..|destruct i; discriminate]; destruct j as [|[|[|j]]]; cbn; [..|destruct j; discriminate| | | |destruct j; discriminate| | | |destruct j; discriminate];
    intros E1 E2 E3 E4; injection E1 as <-; injection E2 as <-; injection E3 as <-; injection E4 as <-; try assumption;
    split; intros; (lra || lia). Qed.
Example C69_spearman_formula_case : spearman_metric [2; 7; 5] [10; 1; 4] = Some 1 /\ spearman_metric [2; 7; 5] [1; 4; 10] = Some (1 / 4)
  /\ spearman_metric [2; 7; 5] [3; 3; 3] = None.
Proof.
  assert (P1 : Permutation [1; 3; 2]%nat (seq 1 3)) by (cbn; constructor; constructor).
  assert (P2 : Permutation [3; 1; 2]%nat (seq 1 3)) by (cbn; eapply perm_trans; [apply perm_swap|constructor; constructor]).
  assert (P3 : Permutation [1; 2; 3]%nat (seq 1 3)) by (cbn; reflexivity).
  assert (R1 : ranking [2; 7; 5] [1; 3; 2]%nat) by (apply ranking3; [exact P1|..]; split; intros; (lra || lia)).
  assert (R2 : ranking [10; 1; 4] [3; 1; 2]%nat) by (apply ranking3; [exact P2|..]; split; intros; (lra || lia)).
  assert (R3 : ranking [1; 4; 10] [1; 2; 3]%nat) by (apply ranking3; [exact P3|..]; split; intros; (lra || lia)).
  repeat split.
  - rewrite (C69_spearman_formula [2; 7; 5] [10; 1; 4] _ _ 3%nat eq_refl eq_refl ltac:(lia) R1 R2). f_equal. cbn. field.
  - rewrite (C69_spearman_formula [2; 7; 5] [1; 4; 10] _ _ 3%nat eq_refl eq_refl ltac:(lia) R1 R3). f_equal. cbn. field.
  - apply C69_spearman_defined. right. intros a b A B. cbn in A, B. intuition congruence. Qed.
(* "distance metric" (1227): the triangle inequality fails, and different series can be at distance 0 *)
Theorem C69_spearman_triangle_refuted :
  ~ (forall x y z d e f, spearman_metric x y = Some d -> spearman_metric y z = Some e -> spearman_metric x z = Some f -> f <= d + e).
Proof. intros H.
  assert (P1 : Permutation [1; 2; 3]%nat (seq 1 3)) by (cbn; reflexivity).
  assert (P2 : Permutation [2; 1; 3]%nat (seq 1 3)) by (cbn; constructor).
  assert (P3 : Permutation [3; 1; 2]%nat (seq 1 3)) by (cbn; eapply perm_trans; [apply perm_swap|constructor; constructor]).
  assert (R1 : ranking [1; 2; 3] [1; 2; 3]%nat) by (apply ranking3; [exact P1|..]; split; intros; (lra || lia)).
  assert (R2 : ranking [2; 1; 3] [2; 1; 3]%nat) by (apply ranking3; [exact P2|..]; split; intros; (lra || lia)).
  assert (R3 : ranking [3; 1; 2] [3; 1; 2]%nat) by (apply ranking3; [exact P3|..]; split; intros; (lra || lia)).
  assert (K := H _ _ _ _ _ _ (C69_spearman_formula [1; 2; 3] [2; 1; 3] _ _ 3%nat eq_refl eq_refl ltac:(lia) R1 R2)
    (C69_spearman_formula [2; 1; 3] [3; 1; 2] _ _ 3%nat eq_refl eq_refl ltac:(lia) R2 R3)
    (C69_spearman_formula [1; 2; 3] [3; 1; 2] _ _ 3%nat eq_refl eq_refl ltac:(lia) R1 R3)).
  cbn in K. lra. Qed.
Print Assumptions C69_spearman_triangle_refuted.

(* ---------- the choice of the best run ---------- *)
Lemma choose_spec l : forall k m b,
  (forall j d, nth_error l j = Some (Some d) -> m <= d) /\ choose k m b l = b \/
  exists i c, choose k m b l = Some (k + i)%nat /\ nth_error l i = Some (Some c) /\ c < m /\
    forall j d, nth_error l j = Some (Some d) -> c <= d /\ ((j < i)%nat -> c < d).
Proof. induction l as [|[v|] l IH]; intros k m b; cbn.
  - left. split; [|reflexivity]. intros [|j] d E; discriminate.
  - destruct (Rlt_dec v m) as [Q|Q].
    + destruct (IH (S k) v (Some k)) as [(A & B)|(i & c & A & B & C & D)].
      * right. exists O%nat, v. rewrite B, Nat.add_0_r. repeat split; try assumption; try lia.
        destruct j as [|j]; cbn in H; [injection H as <-; lra|apply (A j), H].
      * right. exists (S i), c. rewrite A. repeat split; [f_equal; lia|assumption|lra| |].
        -- destruct j as [|j]; cbn in H; [injection H as <-; lra|apply (D j), H].
        -- intros J. destruct j as [|j]; cbn in H; [injection H as <-; lra|apply (D j d H); lia].
    + destruct (IH (S k) m b) as [(A & B)|(i & c & A & B & C & D)].
      * left. split; [|assumption]. intros [|j] d E; cbn in E; [injection E as <-; lra|apply (A j), E].
      * right. exists (S i), c. rewrite A. repeat split; [f_equal; lia|assumption|lra| |].
        -- destruct j as [|j]; cbn in H; [injection H as <-; lra|apply (D j), H].
        -- intros J. destruct j as [|j]; cbn in H; [injection H as <-; lra|apply (D j d H); lia].
  - destruct (IH (S k) m b) as [(A & B)|(i & c & A & B & C & D)].
    + left. split; [|assumption]. intros [|j] d E; cbn in E; [discriminate|apply (A j), E].
    + right. exists (S i), c. rewrite A. repeat split; [f_equal; lia|assumption|lra| |].
      * destruct j as [|j]; cbn in H; [discriminate|apply (D j), H].
      * intros J. destruct j as [|j]; cbn in H; [discriminate|apply (D j d H); lia]. Qed.

(* among runs compared by the Spearman cost the first with the least cost is chosen; runs with an undefined cost
   never are, and when all are undefined the calibration stops without a result *)
Theorem C69_spearman_best : forall x sims, (forall s, In s sims -> length x = length s) ->
  match best_run (map (spearman_metric x) sims) with
  | Some i => exists s c, nth_error sims i = Some s /\ spearman_metric x s = Some c /\
      forall j t d, nth_error sims j = Some t -> spearman_metric x t = Some d -> c <= d /\ ((j < i)%nat -> c < d)
  | None => forall t, In t sims -> constant x \/ constant t
  end.
Proof. intros x sims L. unfold best_run. destruct (choose_spec (map (spearman_metric x) sims) 0 1000000 None) as [(A & ->)|(i & c & -> & B & C & D)].
  - intros t T. apply C69_spearman_defined. destruct (spearman_metric x t) as [d|] eqn:E; [|reflexivity]. exfalso.
    apply In_nth_error in T as (j & J). assert (K := A j d). rewrite nth_error_map, J in K. cbn in K. rewrite E in K. specialize (K eq_refl).
    assert (R := C69_spearman_range x t d (L t (nth_error_In _ _ J)) E). lra.
  - cbn [Nat.add]. rewrite nth_error_map in B. destruct (nth_error sims i) as [s|] eqn:E; [|discriminate]. cbn in B. injection B as B.
    exists s, c. split; [reflexivity|]. split; [assumption|]. intros j t d J T. apply (D j d). rewrite nth_error_map, J. cbn. congruence. Qed.
Print Assumptions C69_spearman_best.
Example C69_spearman_best_case : best_run (map (spearman_metric [2; 7; 5]) [[3; 3; 3]; [10; 1; 4]; [1; 4; 10]]) = Some 2%nat.
Proof. destruct C69_spearman_formula_case as (A & B & C). cbn [map]. rewrite A, B, C. unfold best_run. cbn.
  destruct (Rlt_dec 1 1000000); [|lra]. destruct (Rlt_dec (1 / 4) 1); [reflexivity|lra]. Qed.
(* a simulation ten times too large, or with any offset, costs nothing: the measure cannot calibrate magnitudes *)
Theorem C69_spearman_magnitude_refuted :
  ~ (forall x y, length x = length y -> spearman_metric x y = Some 0 -> x = y).
Proof. intros H. assert (N : ~ constant [0; 1]) by (intros C; specialize (C 0 1 (or_introl eq_refl) (or_intror (or_introl eq_refl))); lra).
  assert (F : strictly_increasing (fun v => 10 * v + 3)) by (intros a b; lra).
  assert (K := H [0; 1] (map (fun v => 10 * v + 3) [0; 1]) eq_refl (C69_spearman_increasing _ _ F N)). cbn in K. injection K as K. lra. Qed.
Print Assumptions C69_spearman_magnitude_refuted.
