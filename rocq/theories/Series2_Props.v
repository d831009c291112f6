(** C116, continued: rain rates from accumulated rain. *)

From Coq Require Import ZArith Reals Lra Lia List Bool Arith.
From Flocq Require Import Core.
From Verif Require Import Time_Model Time_Proofs Calib_Model Calib_Spec Calib_Props CalibRun_Props Series_Model.
Import ListNotations.
Local Open Scope R_scope.

(** ** What is asked *)

Definition ith (l : list R) (k : nat) : R := nth k l 0.
(** the depth of rain of rates held from each time to the next *)
Definition depth (times rs : list R) : R :=
  fold_right Rplus 0 (map (fun k => ith rs k * (ith times (S k) - ith times k)) (seq 0 (length times - 1))).

Lemma steps_length l : length (steps l) = length l. Proof. unfold steps. now rewrite map_length, seq_length. Qed.
Lemma rates_length times accum : length accum = length times -> length (rates times accum) = length times.
Proof. intros L. unfold rates. rewrite map_length, combine_length, !steps_length, L. apply Nat.min_id. Qed.
Lemma steps_at l k : (S k < length l)%nat -> nth k (steps l) 0 = ith l (S k) - ith l k.
Proof.
  intros H. unfold steps. match goal with |- nth _ (map ?g _) _ = _ => set (f := g) end. rewrite (nth_indep _ 0 (f 0%nat)) by (rewrite map_length, seq_length; lia).
  rewrite map_nth, seq_nth by lia. unfold f. cbn [Nat.add]. replace (Nat.eqb k (length l - 1)) with false by (symmetry; apply Nat.eqb_neq; lia). reflexivity.
Qed.
Lemma steps_last l : (2 <= length l)%nat -> nth (length l - 1) (steps l) 0 = ith l (length l - 1) - ith l (length l - 2).
Proof.
  intros H. unfold steps. match goal with |- nth _ (map ?g _) _ = _ => set (f := g) end. rewrite (nth_indep _ 0 (f 0%nat)) by (rewrite map_length, seq_length; lia).
  rewrite map_nth, seq_nth by lia. unfold f. cbn [Nat.add]. now rewrite Nat.eqb_refl.
Qed.
Lemma rate_at times accum k : length accum = length times -> (k < length times)%nat ->
  ith (rates times accum) k = nth k (steps accum) 0 * (254 / 10) / nth k (steps times) 0.
Proof.
  intros L H. unfold ith, rates. set (f := fun p : R * R => fst p * (254 / 10) / snd p).
  rewrite (nth_indep _ 0 (f (0, 0))) by (rewrite map_length, combine_length, !steps_length; lia). rewrite map_nth.
  rewrite combine_nth by (rewrite !steps_length; exact L). reflexivity.
Qed.

(** Each rate is the rain (25.4 mm per inch) up to the next time over the time to it; the last rate is the one before it. *)
Theorem C116_rates : forall times accum, length accum = length times -> (2 <= length times)%nat ->
  length (rates times accum) = length times /\
  (forall k, (S k < length times)%nat -> ith (rates times accum) k = 254 / 10 * (ith accum (S k) - ith accum k) / (ith times (S k) - ith times k)) /\
  ith (rates times accum) (length times - 1) = ith (rates times accum) (length times - 2).
Proof.
  intros times accum L N. split; [now apply rates_length|]. split.
  - intros k H. rewrite rate_at, !steps_at by lia. unfold Rdiv. ring.
  - rewrite !rate_at by lia. rewrite (steps_last times) by exact N. rewrite (steps_at times (length times - 2)) by lia. rewrite <- L.
    rewrite (steps_last accum) by lia. rewrite (steps_at accum (length accum - 2)) by lia.
    replace (S (length accum - 2)) with (length accum - 1)%nat by lia. reflexivity.
Qed.
Print Assumptions C116_rates.

Lemma telescope (f : nat -> R) n : fold_right Rplus 0 (map (fun k => f (S k) - f k) (seq 0 n)) = f n - f 0%nat.
Proof.
  assert (G : forall m i, fold_right Rplus 0 (map (fun k => f (S k) - f k) (seq i m)) = f (i + m)%nat - f i).
  { induction m as [|m IH]; intros i; cbn [seq map fold_right]; [rewrite Nat.add_0_r; ring|]. rewrite IH. replace (S i + m)%nat with (i + S m)%nat by lia. ring. }
  apply (G n 0%nat).
Qed.
Lemma inc_step times k : increasing times -> (S k < length times)%nat -> ith times k < ith times (S k).
Proof. intros I H. apply (I k (S k)); [lia|apply nth_at; lia|apply nth_at; lia]. Qed.

(** Held from each time to the next, the rates give exactly the rain accumulated. *)
Theorem C116_depth : forall times accum, length accum = length times -> (2 <= length times)%nat -> increasing times ->
  depth times (rates times accum) = 254 / 10 * (ith accum (length times - 1) - ith accum 0).
Proof.
  intros times accum L N I. unfold depth. destruct (C116_rates times accum L N) as (_ & R & _).
  replace (254 / 10 * (ith accum (length times - 1) - ith accum 0)) with (254 / 10 * ith accum (length times - 1) - 254 / 10 * ith accum 0%nat) by ring.
  rewrite <- (telescope (fun k => 254 / 10 * ith accum k)). f_equal. apply map_ext_in. intros k K. apply in_seq in K.
  rewrite R by lia. pose proof (inc_step times k I ltac:(lia)). field. lra.
Qed.
Print Assumptions C116_depth.

(** An accumulation that never falls has no negative rate. *)
Theorem C116_rates_nonneg : forall times accum k, length accum = length times -> (2 <= length times)%nat -> increasing times ->
  (forall j, (S j < length times)%nat -> ith accum j <= ith accum (S j)) -> 0 <= ith (rates times accum) k.
Proof.
  intros times accum k L N I A. destruct (C116_rates times accum L N) as (RL & R & LAST).
  assert (G : forall k, (S k < length times)%nat -> 0 <= ith (rates times accum) k).
  { intros j J. rewrite R by exact J. pose proof (inc_step times j I J). pose proof (A j J). unfold Rdiv.
    apply Rmult_le_pos; [lra|left; apply Rinv_0_lt_compat; lra]. }
  destruct (le_lt_dec (length times) k) as [K|K]; [unfold ith; rewrite nth_overflow by lia; lra|].
  destruct (Nat.eq_dec k (length times - 1)) as [->|E]; [rewrite LAST|]; apply G; lia.
Qed.
Print Assumptions C116_rates_nonneg.

(** ** One rate for each minute *)

Lemma minutes_length times : length (minutes times) = length times. Proof. apply map_length. Qed.
Lemma minute_at times k : (k < length times)%nat -> nth k (minutes times) 0%Z = wrap16 (Ztrunc (60 * ith times k)).
Proof.
  intros H. unfold minutes. set (f := fun t => wrap16 (Ztrunc (60 * t))). rewrite (nth_indep _ 0%Z (f 0)) by (rewrite map_length; exact H). now rewrite map_nth.
Qed.
Definition zinc (l : list Z) : Prop := forall i j, (i < j < length l)%nat -> (nth i l 0 < nth j l 0)%Z.
Lemma zinc_cons x l : zinc (x :: l) -> zinc l.
Proof. intros H i j J. apply (H (S i) (S j)). cbn [length]. lia. Qed.
Lemma fold_min l : forall x, (forall y, In y l -> (x <= y)%Z) -> fold_left Z.min l x = x.
Proof.
  induction l as [|y l IH]; intros x H; cbn [fold_left]; [reflexivity|]. rewrite Z.min_l by (apply H; now left). apply IH. intros z Z. apply H. now right.
Qed.
Lemma last_default (l : list Z) : forall a x y, last (a :: l) x = last (a :: l) y.
Proof. induction l as [|b l IH]; intros a x y; [reflexivity|]. change (last (b :: l) x = last (b :: l) y). apply IH. Qed.
Lemma last_in (l : list Z) a x : last (a :: l) x = last l a.
Proof. destruct l as [|b l]; [reflexivity|]. change (last (b :: l) x = last (b :: l) a). apply last_default. Qed.
Lemma fold_max l : forall x, zinc (x :: l) -> fold_left Z.max l x = last l x.
Proof.
  induction l as [|y l IH]; intros x H; cbn [fold_left]; [reflexivity|].
  assert (x < y)%Z by (apply (H 0%nat 1%nat); cbn; lia). rewrite Z.max_r by lia. rewrite IH by (now apply zinc_cons in H). symmetry. apply last_in.
Qed.
Lemma last_nth (l : list Z) : forall x, last l x = nth (length l) (x :: l) 0%Z.
Proof. induction l as [|y l IH]; intros x; [reflexivity|]. rewrite last_in, IH. reflexivity. Qed.
Lemma zmin_first l : zinc l -> l <> [] -> zmin l = nth 0 l 0%Z.
Proof.
  intros H N. destruct l as [|x l]; [congruence|]. cbn [zmin nth]. apply fold_min. intros y Y. apply (In_nth _ _ 0%Z) in Y as (k & K & <-).
  apply Z.lt_le_incl. apply (H 0%nat (S k)). cbn. lia.
Qed.
Lemma zmax_last l : zinc l -> l <> [] -> zmax l = nth (length l - 1) l 0%Z.
Proof.
  intros H N. destruct l as [|x l]; [congruence|]. cbn [zmax]. rewrite fold_max by exact H. rewrite last_nth. cbn [length]. now rewrite Nat.sub_succ, Nat.sub_0_r.
Qed.

(** The new times are all the minutes from the first to the last. *)
Theorem C116_minutes : forall m, m <> [] -> zinc m -> (nth (length m - 1) m 0 - nth 0 m 0 <= 32766)%Z ->
  let a := nth 0 m 0%Z in let b := nth (length m - 1) m 0%Z in
  Z.of_nat (length (new_times m)) = (b - a + 1)%Z /\ (forall k, (k < length (new_times m))%nat -> nth k (new_times m) 0%Z = (a + Z.of_nat k)%Z).
Proof.
  intros m N I S a b. assert (AB : (a <= b)%Z).
  { unfold a, b. destruct (Nat.eq_dec (length m - 1) 0) as [->|E]; [lia|]. apply Z.lt_le_incl, I. lia. }
  unfold new_times. rewrite zmin_first, zmax_last by assumption. fold a b. fold a b in S. rewrite (wrap16_small (b - a)) by lia. rewrite wrap16_small by lia.
  rewrite map_length, seq_length. split; [lia|]. intros k K.
  set (f := fun k => (Z.of_nat k + a)%Z). rewrite (nth_indep _ 0%Z (f 0%nat)) by (rewrite map_length, seq_length; lia). rewrite map_nth, seq_nth by exact K. unfold f. cbn [Nat.add]. lia.
Qed.
Print Assumptions C116_minutes.

Lemma inc_map m : zinc m -> increasing (map IZR m).
Proof.
  intros H i j x y L A B. pose proof (at_len _ _ _ B) as LB. rewrite map_length in LB. apply (at_nth _ _ _ 0) in A. apply (at_nth _ _ _ 0) in B.
  change 0 with (IZR 0) in A, B. rewrite map_nth in A, B. subst. apply IZR_lt. apply H. lia.
Qed.
(** At the minute of an observation the rate is that of the observation; every rate is between two neighbouring ones. *)
Theorem C116_per_minute : forall times accum, length accum = length times -> (2 <= length times)%nat -> zinc (minutes times) ->
  (nth (length times - 1) (minutes times) 0 - nth 0 (minutes times) 0 <= 32766)%Z ->
  let out := compute_rain_rates times accum in
  (forall k, (k < length times)%nat -> ith out (Z.to_nat (nth k (minutes times) 0 - nth 0 (minutes times) 0)%Z) = ith (rates times accum) k) /\
  (forall j, (j < length out)%nat -> exists k, (S k < length times)%nat /\
     Rmin (ith (rates times accum) k) (ith (rates times accum) (S k)) <= ith out j <= Rmax (ith (rates times accum) k) (ith (rates times accum) (S k))).
Proof.
  intros times accum L N I S out. set (m := minutes times) in *. set (r := rates times accum).
  assert (ML : length m = length times) by apply minutes_length. assert (RL : length r = length times) by now apply rates_length.
  assert (MN : m <> []) by (intros E; rewrite E in ML; cbn in ML; lia).
  rewrite <- ML in S. destruct (C116_minutes m MN I S) as [T1 T2]. set (a := nth 0 m 0%Z) in *. set (b := nth (length m - 1) m 0%Z) in *.
  assert (OL : length out = length (new_times m)) by (unfold out, compute_rain_rates; now rewrite map_length).
  assert (OA : forall j, (j < length (new_times m))%nat -> ith out j = interp (map IZR m) r (IZR (a + Z.of_nat j))).
  { intros j J. unfold ith, out, compute_rain_rates. fold m r. set (g := fun t => interp (map IZR m) r (IZR t)).
    rewrite (nth_indep _ 0 (g 0%Z)) by (rewrite map_length; exact J). rewrite map_nth, T2 by exact J. reflexivity. }
  assert (LM : (2 <= length (map IZR m))%nat) by (rewrite map_length; lia). assert (LR : length r = length (map IZR m)) by (rewrite map_length; lia).
  assert (AT : forall k, (k < length times)%nat -> at_pos (map IZR m) k (IZR (nth k m 0%Z))).
  { intros k K. unfold at_pos. erewrite map_nth_error; [reflexivity|]. apply nth_error_nth'. lia. }
  split.
  - intros k K. assert (B : (a <= nth k m 0 <= b)%Z).
    { unfold a, b. split; [destruct k; [lia|apply Z.lt_le_incl, I; lia]|]. destruct (Nat.eq_dec k (length m - 1)) as [->|E]; [lia|apply Z.lt_le_incl, I; lia]. }
    rewrite OA by lia. replace (a + Z.of_nat (Z.to_nat (nth k m 0 - a)%Z))%Z with (nth k m 0%Z) by lia.
    apply (C69_resampled_at_observation (map IZR m) r k); auto; [now apply inc_map|apply nth_at; lia].
  - intros j J. rewrite OL in J. rewrite OA by exact J.
    destruct (C69_resampled_between (map IZR m) r (IZR (a + Z.of_nat j)) (IZR a) (IZR b)) as (k & y0 & y1 & Y0 & Y1 & B); auto.
    + now apply inc_map.
    + apply (AT 0%nat). lia.
    + rewrite map_length. unfold b. apply AT. lia.
    + split; apply IZR_le; lia.
    + exists k. pose proof (at_len _ _ _ Y1). split; [lia|]. apply (at_nth _ _ _ 0) in Y0. apply (at_nth _ _ _ 0) in Y1. unfold ith. now rewrite Y0, Y1.
Qed.
Print Assumptions C116_per_minute.

(** ** Refuted *)

Lemma trunc_int z x : x = IZR z -> wrap16 (Ztrunc x) = wrap16 z.
Proof. intros ->. now rewrite Ztrunc_IZR. Qed.
(** The rates of the minutes do not give the rain accumulated, as the rates are joined by lines instead of being held:
    an inch (25.4 mm) in two minutes, and none in the next two, is 19.05 mm. *)
Theorem C116_per_minute_depth_refuted :
  exists times accum, increasing times /\ 254 / 10 * (ith accum (length times - 1) - ith accum 0) = 254 / 10 /\
    compute_rain_rates times accum = [762; 381; 0; 0; 0] /\ fold_right Rplus 0 (compute_rain_rates times accum) / 60 = 1905 / 100.
Proof.
  exists [0; 2 / 60; 4 / 60], [0; 1; 1].
  assert (E : compute_rain_rates [0; 2 / 60; 4 / 60] [0; 1; 1] = [762; 381; 0; 0; 0]).
  { assert (M : minutes [0; 2 / 60; 4 / 60] = [0; 2; 4]%Z).
    { unfold minutes. cbn [map]. rewrite (trunc_int 0), (trunc_int 2), (trunc_int 4) by field. reflexivity. }
    assert (R : rates [0; 2 / 60; 4 / 60] [0; 1; 1] = [762; 0; 0]).
    { unfold rates, steps. cbn. repeat (f_equal; try field). }
    unfold compute_rain_rates. rewrite M, R.
    assert (N : new_times [0; 2; 4]%Z = [0; 1; 2; 3; 4]%Z) by reflexivity. rewrite N. cbn [map].
    unfold interp. cbn [searchsorted map].
    repeat (match goal with |- context [Rle_dec ?a ?b] => destruct (Rle_dec a b) end; try (exfalso; lra)). cbn. repeat (f_equal; try lra). }
  split; [|split; [|split]].
  - intros i j x y L A B. unfold at_pos in *.
    destruct i as [|[|[|i]]], j as [|[|[|j]]]; cbn in A, B; try lia; try discriminate; try (destruct i; discriminate); try (destruct j; discriminate);
      injection A as <-; injection B as <-; lra.
  - unfold ith. cbn. lra.
  - exact E.
  - rewrite E. cbn. lra.
Qed.
Print Assumptions C116_per_minute_depth_refuted.
(** Times beyond 546 hours do not fit in the minutes (16 bits): 547 hours are minute -32716. *)
Theorem C116_long_refuted : minutes [0; 547] = [0; -32716]%Z.
Proof. unfold minutes. cbn [map]. rewrite (trunc_int 0), (trunc_int 32820) by field. reflexivity. Qed.
Print Assumptions C116_long_refuted.

(** Two inches in the first hour and one in the next two: the theorems hold of it, and give 50.8, then 12.7 mm per hour. *)
Example C116_case : let times := [0; 1; 3] in let accum := [0; 2; 3] in
  increasing times /\ zinc (minutes times) /\ (nth 2 (minutes times) 0 - nth 0 (minutes times) 0 <= 32766)%Z /\
  rates times accum = [508 / 10; 127 / 10; 127 / 10] /\
  ith (compute_rain_rates times accum) 60 = 127 / 10 /\ length (compute_rain_rates times accum) = 181%nat.
Proof.
  intros times accum.
  assert (M : minutes times = [0; 60; 180]%Z).
  { unfold minutes, times. cbn [map]. rewrite (trunc_int 0), (trunc_int 60), (trunc_int 180) by field. reflexivity. }
  assert (R : rates times accum = [508 / 10; 127 / 10; 127 / 10]) by (unfold rates, steps, times, accum; cbn; repeat (f_equal; try field)).
  assert (Z : zinc (minutes times)) by (rewrite M; intros [|[|[|i]]] [|[|[|j]]] L; cbn in *; lia).
  assert (B : (nth 2 (minutes times) 0 - nth 0 (minutes times) 0 <= 32766)%Z) by (rewrite M; cbn; lia).
  destruct (C116_per_minute times accum eq_refl ltac:(cbn; lia) Z B) as [P _]. specialize (P 1%nat ltac:(cbn; lia)). rewrite M, R in P. cbn [nth] in P.
  refine (conj _ (conj Z (conj B (conj R (conj _ _))))).
  - intros i j x y L A C. unfold at_pos, times in *.
    destruct i as [|[|[|i]]], j as [|[|[|j]]]; cbn in A, C; try lia; try discriminate; try (destruct i; discriminate); try (destruct j; discriminate);
      injection A as <-; injection C as <-; lra.
  - exact P.
  - unfold compute_rain_rates. rewrite M. reflexivity.
Qed.
