(** C117: the time step grids of the landscape model, and the groups of cells of like time step. *)

From Coq Require Import ZArith Reals Lra Lia List Bool Arith Permutation.
From Flocq Require Import Core.
From Verif Require Import Tgroup_Model.
Import ListNotations.
Local Open Scope R_scope.

(** ** Minima and maxima *)

Lemma gmin_le N g k : (k < N)%nat -> gmin N g <= g k.
Proof.
  intros H. unfold gmin. assert (I : In (g k) (map g (seq 0 N))) by (apply in_map, in_seq; lia).
  induction (map g (seq 0 N)) as [|a l IH]; [destruct I|]. cbn [fold_right]. destruct I as [->|I]; [apply Rmin_l|].
  eapply Rle_trans; [apply Rmin_r|]. now apply IH.
Qed.
Lemma gmax_ge N g k : (k < N)%nat -> g k <= gmax N g.
Proof.
  intros H. unfold gmax. assert (I : In (g k) (map g (seq 0 N))) by (apply in_map, in_seq; lia).
  induction (map g (seq 0 N)) as [|a l IH]; [destruct I|]. cbn [fold_right]. destruct I as [->|I]; [apply Rmax_l|].
  eapply Rle_trans; [|apply Rmax_r]. now apply IH.
Qed.
Lemma gmin_in N g : (0 < N)%nat -> exists k, (k < N)%nat /\ gmin N g = g k.
Proof.
  intros H. assert (G : forall l, (forall j, In j l -> (j < N)%nat) -> exists k, (k < N)%nat /\ fold_right Rmin (g 0%nat) (map g l) = g k).
  { induction l as [|a l IH]; intros L; cbn [map fold_right]; [now exists 0%nat|]. destruct IH as (k & K & E); [intros j J; apply L; now right|]. rewrite E.
    unfold Rmin. destruct (Rle_dec (g a) (g k)); [exists a|exists k]; split; auto. apply L. now left. }
  apply G. intros j J. apply in_seq in J. lia.
Qed.
Lemma gmax_in N g : (0 < N)%nat -> exists k, (k < N)%nat /\ gmax N g = g k.
Proof.
  intros H. assert (G : forall l, (forall j, In j l -> (j < N)%nat) -> exists k, (k < N)%nat /\ fold_right Rmax (g 0%nat) (map g l) = g k).
  { induction l as [|a l IH]; intros L; cbn [map fold_right]; [now exists 0%nat|]. destruct IH as (k & K & E); [intros j J; apply L; now right|]. rewrite E.
    unfold Rmax. destruct (Rle_dec (g a) (g k)); [exists k|exists a]; split; auto. apply L. now left. }
  apply G. intros j J. apply in_seq in J. lia.
Qed.

(** ** Rise to the lowest cell upstream *)

(** k flows to p: its flow code is that of a direction, and p is the cell of that direction *)
Definition flows_to (N : nat) (code : nat -> Z) (dirs : list (Z * Z)) (k p : nat) : Prop :=
  (k < N)%nat /\ exists d, In d dirs /\ code k = fst d /\ (Z.of_nat p = Z.of_nat k + snd d)%Z.
(** no cell flows to a cell before the first *)
Definition inside (N : nat) (code : nat -> Z) (dirs : list (Z * Z)) : Prop :=
  forall k d, (k < N)%nat -> In d dirs -> code k = fst d -> (0 <= Z.of_nat k + snd d)%Z.
Definition upstream (N : nat) (code : nat -> Z) (dirs : list (Z * Z)) := map (fun d => flows N code (fst d) (snd d)) dirs.

Lemma put_all l : NoDup (map fst l) -> forall g q,
  (forall v, In (q, v) l -> fold_left (fun h (pv : nat * R) => put h (fst pv) (snd pv)) l g q = v) /\
  (~ In q (map fst l) -> fold_left (fun h (pv : nat * R) => put h (fst pv) (snd pv)) l g q = g q).
Proof.
  induction l as [|[p w] l IH]; intros ND g q; cbn [map fold_left fst snd] in *; [split; [intros v []|reflexivity]|].
  inversion_clear ND as [|? ? NI ND']. destruct (IH ND' (put g p w) q) as [I1 I2]. split.
  - intros v [E|I]; [|now apply I1]. injection E as -> ->. rewrite I2 by exact NI. unfold put. now rewrite Nat.eqb_refl.
  - intros H. rewrite I2 by (intros X; apply H; now right). unfold put. destruct (Nat.eqb_spec q p) as [->|]; [exfalso; apply H; now left|reflexivity].
Qed.
Lemma minimum_spec dem g kp p : NoDup (map snd kp) ->
  (forall k, In (k, p) kp -> minimum_at dem g kp p = Rmin (g p) (dem k - dem p)) /\ (~ In p (map snd kp) -> minimum_at dem g kp p = g p).
Proof.
  intros ND. unfold minimum_at. set (f := fun x : nat * nat => (snd x, Rmin (g (snd x)) (dem (fst x) - dem (snd x)))).
  assert (E : map fst (map f kp) = map snd kp) by (rewrite map_map; reflexivity).
  destruct (put_all (map f kp) ltac:(now rewrite E) g p) as [A B]. split.
  - intros k K. apply A. apply (in_map f) in K. exact K.
  - intros H. apply B. now rewrite E.
Qed.
Lemma flows_in N code c inc k p : In (k, p) (flows N code c inc) <-> (k < N)%nat /\ code k = c /\ p = Z.to_nat (Z.of_nat k + inc).
Proof.
  unfold flows. rewrite in_map_iff. split.
  - intros (j & E & J). injection E as -> <-. apply filter_In in J as [J1 J2]. apply in_seq in J1. apply Z.eqb_eq in J2. repeat split; auto; lia.
  - intros (K & C & ->). exists k. split; [reflexivity|]. apply filter_In. split; [apply in_seq; lia|now apply Z.eqb_eq].
Qed.
Lemma flows_nodup N code c inc : (forall k, (k < N)%nat -> code k = c -> (0 <= Z.of_nat k + inc)%Z) -> NoDup (map snd (flows N code c inc)).
Proof.
  intros H. unfold flows. rewrite map_map. cbn [snd].
  assert (G : forall l, NoDup l -> (forall k, In k l -> (0 <= Z.of_nat k + inc)%Z) -> NoDup (map (fun k => Z.to_nat (Z.of_nat k + inc)) l)).
  { induction l as [|a l IH]; intros ND P; cbn [map]; [constructor|]. inversion_clear ND as [|? ? NI ND']. constructor.
    - intros I. apply in_map_iff in I as (b & E & B). assert (a = b); [|congruence]. pose proof (P a (or_introl eq_refl)). pose proof (P b (or_intror B)). lia.
    - apply IH; auto. intros k K. apply P. now right. }
  apply G; [apply NoDup_filter, seq_NoDup|]. intros k K. apply filter_In in K as [K1 K2]. apply in_seq in K1. apply H; [lia|now apply Z.eqb_eq].
Qed.

(** The rise of a cell is the least of the heights of the cells that flow to it above it, or 9999 if it is less. *)
Theorem C117_rise : forall N code dirs dem p, inside N code dirs ->
  let m := min_dz_up dem (upstream N code dirs) p in
  m <= 9999 /\ (forall k, flows_to N code dirs k p -> m <= dem k - dem p) /\
  (m = 9999 \/ exists k, flows_to N code dirs k p /\ m = dem k - dem p).
Proof.
  intros N code dirs dem p H m. unfold m, min_dz_up, upstream. clear m.
  assert (G : forall ds g, incl ds dirs -> let m := fold_left (minimum_at dem) (map (fun d => flows N code (fst d) (snd d)) ds) g p in
    m <= g p /\ (forall k, flows_to N code ds k p -> m <= dem k - dem p) /\ (m = g p \/ exists k, flows_to N code ds k p /\ m = dem k - dem p)).
  { induction ds as [|d ds IH]; intros g I; cbn [map fold_left]; [refine (conj _ (conj _ _)); [lra|intros k (_ & d & [] & _)|now left]|].
    set (g1 := minimum_at dem g (flows N code (fst d) (snd d))).
    assert (ID : In d dirs) by (apply I; now left).
    assert (ND : NoDup (map snd (flows N code (fst d) (snd d)))) by (apply flows_nodup; intros k K C; now apply (H k d)).
    destruct (minimum_spec dem g _ p ND) as [S1 S2]. fold g1 in S1, S2.
    destruct (IH g1 ltac:(intros x X; apply I; now right)) as (A & B & C).
    assert (L : g1 p <= g p).
    { destruct (in_dec Nat.eq_dec p (map snd (flows N code (fst d) (snd d)))) as [J|J]; [|rewrite S2 by exact J; lra].
      apply in_map_iff in J as ((k & q) & E & J). cbn in E. subst q. rewrite (S1 k J). apply Rmin_l. }
    assert (KID : forall k, (k < N)%nat -> code k = fst d -> (Z.of_nat p = Z.of_nat k + snd d)%Z -> In (k, p) (flows N code (fst d) (snd d))).
    { intros k K E P. apply flows_in. repeat split; auto. lia. }
    refine (conj _ (conj _ _)); [lra| |].
    - intros k (K & e & [<-|E] & C1 & C2); [|apply B; split; eauto]. rewrite (S1 k (KID k K C1 C2)) in A. pose proof (Rmin_r (g p) (dem k - dem p)). lra.
    - destruct C as [C|(k & (K & e & E1 & E2) & C)]; [|right; exists k; split; [split; [exact K|exists e; split; [now right|exact E2]]|exact C]].
      destruct (in_dec Nat.eq_dec p (map snd (flows N code (fst d) (snd d)))) as [J|J]; [|left; rewrite C; now apply S2].
      apply in_map_iff in J as ((k & q) & E & J). cbn in E. subst q. pose proof (S1 k J) as E. unfold Rmin in E. destruct (Rle_dec (g p) (dem k - dem p)); [left; now rewrite C|].
      right. exists k. apply flows_in in J as (K & C1 & C2). split; [|now rewrite C]. split; [exact K|]. exists d. split; [now left|]. split; [exact C1|].
      pose proof (H k d K ID C1). lia. }
  apply (G dirs (fun _ => 9999)). apply incl_refl.
Qed.
Print Assumptions C117_rise.

(** A cell that rises, and that is below all cells that flow to it, does not get above any of them in its time step. *)
Theorem C117_no_overshoot : forall N code dirs dem dz_dt p k, inside N code dirs -> (p < N)%nat ->
  0 < dz_dt p -> (forall j, flows_to N code dirs j p -> dem p < dem j) -> flows_to N code dirs k p -> dem k - dem p < 9999 ->
  let '(dt, _, _) := update_dt_grid_method2 N (min_dz_up dem (upstream N code dirs)) dz_dt in 0 < dt p /\ dem p + dt p * dz_dt p <= dem k.
Proof.
  intros N code dirs dem dz p k I P D U K S. unfold update_dt_grid_method2. destruct (C117_rise N code dirs dem p I) as (R1 & R2 & R3).
  set (m := min_dz_up dem (upstream N code dirs)) in *. pose proof (R2 k K) as RK.
  assert (M : 0 < m p) by (destruct R3 as [E|(j & J & E)]; [rewrite E; lra|pose proof (U j J); lra]).
  assert (B : bad m dz p = false). { unfold bad. destruct (Req_EM_T (m p) 9999); [lra|]. destruct (Rle_dec (dz p) 0); [lra|reflexivity]. }
  rewrite B. assert (Q : 0 < 1 * m p / dz p) by (apply Rdiv_lt_0_compat; lra). destruct (Req_EM_T (1 * m p / dz p) 0); [lra|]. split; [exact Q|].
  replace (1 * m p / dz p * dz p) with (m p) by (field; lra). lra.
Qed.
Print Assumptions C117_no_overshoot.

(** The time steps are positive, not above the maximum, and not below the minimum, which one of them is, when no cell is below its parent. *)
Theorem C117_step_range : forall N m dz_dt, (0 < N)%nat -> (forall k, (k < N)%nat -> 0 <= m k) ->
  let '(dt, lo, hi) := update_dt_grid_method2 N m dz_dt in
  0 < lo /\ (forall k, (k < N)%nat -> lo <= dt k <= hi) /\ (exists k, (k < N)%nat /\ dt k = lo).
Proof.
  intros N m dz NP M. unfold update_dt_grid_method2. cbv zeta. set (d := fun k => if bad m dz k then 0 else 1 * m k / dz k).
  assert (D0 : forall k, (k < N)%nat -> 0 <= d k).
  { intros k K. unfold d, bad. destruct (Req_EM_T (m k) 9999); [lra|]. destruct (Rle_dec (dz k) 0); [lra|]. pose proof (M k K).
    apply Rmult_le_pos; [lra|left; apply Rinv_0_lt_compat; lra]. }
  set (hi := if Req_EM_T (gmax N d) 0 then 1 else gmax N d).
  assert (HP : 0 < hi). { unfold hi. destruct (Req_EM_T (gmax N d) 0); [lra|]. pose proof (gmax_ge N d 0 NP). pose proof (D0 0%nat NP). lra. }
  assert (HD : forall k, (k < N)%nat -> d k <= hi).
  { intros k K. pose proof (gmax_ge N d k K). unfold hi. destruct (Req_EM_T (gmax N d) 0); lra. }
  set (d' := fun k => if Req_EM_T (d k) 0 then hi else d k).
  assert (DP : forall k, (k < N)%nat -> 0 < d' k <= hi).
  { intros k K. pose proof (D0 k K). pose proof (HD k K). unfold d'. destruct (Req_EM_T (d k) 0); lra. }
  change (0 < gmin N d' /\ (forall k, (k < N)%nat -> gmin N d' <= d' k <= hi) /\ (exists k, (k < N)%nat /\ d' k = gmin N d')).
  destruct (gmin_in N d' NP) as (k & K & E). refine (conj _ (conj _ _)).
  - rewrite E. now apply DP.
  - intros j J. split; [now apply gmin_le|now apply DP].
  - exists k. auto.
Qed.
Print Assumptions C117_step_range.

(** Refuted: a cell as high as a cell that flows to it can not rise without overshoot, but gets the largest time step of all. *)
Theorem C117_level_refuted :
  (forall N m dz_dt p, m p = 0 -> let '(dt, _, hi) := update_dt_grid_method2 N m dz_dt in dt p = hi) /\
  exists N code dirs dem dz_dt p k, inside N code dirs /\ flows_to N code dirs k p /\ dem p = dem k /\ 0 < dz_dt p /\
    let '(dt, _, _) := update_dt_grid_method2 N (min_dz_up dem (upstream N code dirs)) dz_dt in dem k < dem p + dt p * dz_dt p.
Proof.
  assert (L : forall N m dz_dt p, m p = 0 -> let '(dt, _, hi) := update_dt_grid_method2 N m dz_dt in dt p = hi).
  { intros N m dz p M. unfold update_dt_grid_method2. cbv zeta. set (d := fun k => if bad m dz k then 0 else 1 * m k / dz k).
    assert (E : d p = 0) by (unfold d; rewrite M; destruct (bad m dz p); [reflexivity|unfold Rdiv; ring]).
    change ((if Req_EM_T (d p) 0 then if Req_EM_T (gmax N d) 0 then 1 else gmax N d else d p) = if Req_EM_T (gmax N d) 0 then 1 else gmax N d).
    destruct (Req_EM_T (d p) 0); [reflexivity|contradiction]. }
  split; [exact L|].
  set (code := fun k : nat => if Nat.eqb k 0 then 0%Z else 16%Z). set (dirs := [(16, -1)]%Z).
  exists 2%nat, code, dirs, (fun _ => 5), (fun _ => 1), 0%nat, 1%nat.
  assert (I : inside 2 code dirs). { intros k d K [<-|[]] C. cbn in *. destruct k as [|[|k]]; cbn in *; [discriminate C|lia|lia]. }
  assert (F : flows_to 2 code dirs 1 0) by (split; [lia|exists (16, -1)%Z; split; [now left|split; [reflexivity|reflexivity]]]).
  split; [exact I|]. split; [exact F|]. split; [reflexivity|]. split; [exact Rlt_0_1|].
  set (m := min_dz_up (fun _ => 5) (upstream 2 code dirs)).
  assert (M : forall p, m p = 0 \/ m p = 9999).
  { intros p. destruct (C117_rise 2 code dirs (fun _ => 5) p I) as (_ & _ & [E|(k & _ & E)]); [now right|left]. unfold m. rewrite E. cbv beta. lra. }
  assert (M0 : m 0%nat = 0). { destruct (C117_rise 2 code dirs (fun _ => 5) 0%nat I) as (_ & B & _). specialize (B 1%nat F). fold m in B. cbv beta in B. destruct (M 0%nat); lra. }
  pose proof (L 2%nat m (fun _ => 1) 0%nat M0) as E.
  pose proof (C117_step_range 2 m (fun _ => 1) ltac:(lia) ltac:(intros k _; destruct (M k); lra)) as R.
  destruct (update_dt_grid_method2 2 m (fun _ => 1)) as [[dt lo] hi]. destruct R as (R1 & R2 & _). specialize (R2 0%nat ltac:(lia)). cbv beta. lra.
Qed.
Print Assumptions C117_level_refuted.

(** ** Steps from the differences to the parent *)

Lemma step_spec fac far parent dem Qs da k : 0 < da k ->
  (dem (parent k) < dem k -> Qs (parent k) < Qs k ->
     step_of fac far parent dem Qs da k * ((Qs k - Qs (parent k)) / da k) = fac * (dem k - dem (parent k))) /\
  (dem k <= dem (parent k) \/ Qs k <= Qs (parent k) -> step_of fac far parent dem Qs da k = far).
Proof.
  intros A. unfold step_of, del. split.
  - intros Z Q. rewrite !Rmax_left by lra. destruct (Rlt_dec 0 (Qs k - Qs (parent k))); [|lra]. destruct (Rlt_dec 0 (dem k - dem (parent k))); [|lra]. field. lra.
  - intros H. destruct (Rlt_dec 0 (Rmax (Qs k - Qs (parent k)) 0)) as [L1|]; [|reflexivity]. destruct (Rlt_dec 0 (Rmax (dem k - dem (parent k)) 0)) as [L2|]; [|reflexivity].
    exfalso. destruct H as [H|H]; [rewrite Rmax_right in L2 by lra|rewrite Rmax_right in L1 by lra]; lra.
Qed.
Lemma checked_spec N g g' lo hi : checked N g = Some (g', lo, hi) ->
  g' = g /\ 1 / 100 <= lo /\ (forall k, (k < N)%nat -> lo <= g k <= hi).
Proof.
  unfold checked. destruct (Rlt_dec (gmin N g) (1 / 100)); [discriminate|]. intros E. injection E as <- <- <-.
  refine (conj eq_refl (conj _ _)); [lra|]. intros k K. split; [now apply gmin_le|now apply gmax_ge].
Qed.
Lemma checked_none N g : (0 < N)%nat -> checked N g = None <-> exists k, (k < N)%nat /\ g k < 1 / 100.
Proof.
  intros NP. unfold checked. split.
  - destruct (Rlt_dec (gmin N g) (1 / 100)); [|discriminate]. intros _. destruct (gmin_in N g NP) as (k & K & E). exists k. split; [exact K|lra].
  - intros (k & K & L). pose proof (gmin_le N g k K). destruct (Rlt_dec (gmin N g) (1 / 100)); [reflexivity|lra].
Qed.

(** In its time step, a cell above its parent changes by three tenths of the height between them, at the rate at which more
    sediment leaves it than its parent; the other cells have a billion years.  The program ends if a step is below 0.01. *)
Theorem C117_fraction : forall N parent dem Qs da, (0 < N)%nat -> (forall k, (k < N)%nat -> 0 < da k) ->
  (forall dt lo hi, update_dt_grid_method1 N parent dem Qs da = Some (dt, lo, hi) ->
    1 / 100 <= lo /\ forall k, (k < N)%nat -> lo <= dt k <= hi /\
      (dem (parent k) < dem k -> Qs (parent k) < Qs k -> dt k * ((Qs k - Qs (parent k)) / da k) = 3 / 10 * (dem k - dem (parent k))) /\
      (dem k <= dem (parent k) \/ Qs k <= Qs (parent k) -> dt k = 1000000000)) /\
  (update_dt_grid_method1 N parent dem Qs da = None <->
    exists k, (k < N)%nat /\ dem (parent k) < dem k /\ Qs (parent k) < Qs k /\ 3 / 10 * (dem k - dem (parent k)) * da k < 1 / 100 * (Qs k - Qs (parent k))).
Proof.
  intros N parent dem Qs da NP A. unfold update_dt_grid_method1. split.
  - intros dt lo hi E. apply checked_spec in E as (-> & L & R). split; [exact L|]. intros k K. split; [now apply R|]. apply step_spec. now apply A.
  - rewrite checked_none by exact NP. split; intros (k & K & H); exists k; (split; [exact K|]); destruct (step_spec (3 / 10) 1000000000 parent dem Qs da k (A k K)) as [S1 S2].
    + destruct (Rlt_dec (dem (parent k)) (dem k)) as [Z|Z]; [|rewrite S2 in H by lra; lra]. destruct (Rlt_dec (Qs (parent k)) (Qs k)) as [Q|Q]; [|rewrite S2 in H by lra; lra].
      split; [exact Z|]. split; [exact Q|]. specialize (S1 Z Q). pose proof (A k K) as AK. set (s := step_of _ _ _ _ _ _ _) in *.
      assert (E : 3 / 10 * (dem k - dem (parent k)) * da k = s * (Qs k - Qs (parent k))) by (rewrite <- S1; field; lra). rewrite E. apply Rmult_lt_compat_r; lra.
    + destruct H as (Z & Q & H). specialize (S1 Z Q). pose proof (A k K) as AK. set (s := step_of _ _ _ _ _ _ _) in *.
      assert (E : 3 / 10 * (dem k - dem (parent k)) * da k = s * (Qs k - Qs (parent k))) by (rewrite <- S1; field; lra). rewrite E in H. apply Rmult_lt_reg_r in H; lra.
Qed.
Print Assumptions C117_fraction.

(** The same with a list of cells: four tenths; all others have 10000 years. *)
Theorem C117_fraction_local : forall N IDs parent dem Qs da dt lo hi, (forall k, (k < N)%nat -> 0 < da k) ->
  update_dt_grid_local1 N IDs parent dem Qs da = Some (dt, lo, hi) ->
  1 / 100 <= lo /\ forall k, (k < N)%nat -> lo <= dt k <= hi /\
    (In k IDs -> dem (parent k) < dem k -> Qs (parent k) < Qs k -> dt k * ((Qs k - Qs (parent k)) / da k) = 4 / 10 * (dem k - dem (parent k))) /\
    (~ In k IDs \/ dem k <= dem (parent k) \/ Qs k <= Qs (parent k) -> dt k = 10000).
Proof.
  intros N IDs parent dem Qs da dt lo hi A E. apply checked_spec in E as (-> & L & R). split; [exact L|]. intros k K. split; [now apply R|].
  destruct (step_spec (4 / 10) 10000 parent dem Qs da k (A k K)) as [S1 S2]. destruct (existsb (Nat.eqb k) IDs) eqn:X.
  - split; [intros _; exact S1|]. intros [H|H]; [|now apply S2]. apply existsb_exists in X as (j & J & E). apply Nat.eqb_eq in E. subst j. contradiction.
  - split; [|reflexivity]. intros I. assert (existsb (Nat.eqb k) IDs = true); [|congruence]. apply existsb_exists. exists k. split; [exact I|apply Nat.eqb_refl].
Qed.
Print Assumptions C117_fraction_local.

(** ** Groups *)

Lemma ln_4 : 0 < ln 4. Proof. rewrite <- ln_1. apply ln_increasing; lra. Qed.
Lemma ln_4_pow j : ln (4 ^ j) = INR j * ln 4.
Proof.
  induction j as [|j IH]; [cbn; rewrite ln_1; ring|]. rewrite S_INR. cbn [pow]. rewrite ln_mult; [rewrite IH; ring|lra|apply pow_lt; lra].
Qed.
Lemma n_cell_spec lo dt : 0 < lo -> lo <= dt -> exists j, n_cell lo dt = (1 + Z.of_nat j)%Z /\ 4 ^ j * lo <= dt < 4 ^ S j * lo.
Proof.
  intros P L. unfold n_cell. set (x := dt / lo). pose proof ln_4 as L4.
  assert (X : 1 <= x) by (unfold x; apply (Rmult_le_reg_r lo); [exact P|]; unfold Rdiv; rewrite Rmult_assoc, Rinv_l; lra).
  assert (LX : 0 <= ln x). { rewrite <- ln_1. destruct X as [X|X]; [left; apply ln_increasing; lra|rewrite X; lra]. }
  set (a := Zfloor (ln x / ln 4)). pose proof (Zfloor_lb (ln x / ln 4)) as A1. pose proof (Zfloor_ub (ln x / ln 4)) as A2. fold a in A1, A2.
  assert (A0 : (0 <= a)%Z). { apply Zfloor_lub. apply Rmult_le_pos; [exact LX|left; now apply Rinv_0_lt_compat]. }
  exists (Z.to_nat a). split; [lia|]. assert (IA : INR (Z.to_nat a) = IZR a) by (rewrite INR_IZR_INZ; f_equal; lia).
  assert (E : dt = x * lo) by (unfold x; field; lra).
  assert (B1 : IZR a * ln 4 <= ln x). { apply (Rmult_le_compat_r (ln 4)) in A1; [|lra]. unfold Rdiv in A1. rewrite Rmult_assoc, Rinv_l in A1 by lra. lra. }
  assert (B2 : ln x < (IZR a + 1) * ln 4). { apply (Rmult_lt_compat_r (ln 4)) in A2; [|lra]. unfold Rdiv in A2. rewrite Rmult_assoc, Rinv_l in A2 by lra. lra. }
  split; rewrite E.
  - apply Rmult_le_compat_r; [lra|]. destruct (Rle_dec (4 ^ Z.to_nat a) x) as [H|H]; [exact H|]. exfalso. apply Rnot_le_lt in H. apply ln_increasing in H; [|lra]. rewrite ln_4_pow, IA in H. lra.
  - apply Rmult_lt_compat_r; [lra|]. destruct (Rlt_dec x (4 ^ S (Z.to_nat a))) as [H|H]; [exact H|]. exfalso. apply Rnot_lt_le in H.
    assert (ln (4 ^ S (Z.to_nat a)) <= ln x). { destruct H as [H|H]; [left; apply ln_increasing; [apply pow_lt; lra|exact H]|rewrite H; lra]. }
    rewrite ln_4_pow, S_INR, IA in H0. lra.
Qed.

(** A cell is in group 1 + j if its time step is from 4^j to 4^(j+1) times the least one. *)
Theorem C117_group_of_cell : forall N dt k, (k < N)%nat -> (forall i, (i < N)%nat -> 0 < dt i) ->
  exists j lo, (exists i, (i < N)%nat /\ dt i = lo) /\ (forall i, (i < N)%nat -> lo <= dt i) /\
    n_grid N dt k = (1 + Z.of_nat j)%Z /\ 4 ^ j * lo <= dt k < 4 ^ S j * lo.
Proof.
  intros N dt k K P. destruct (gmin_in N dt ltac:(lia)) as (i & I & E). pose proof (gmin_le N dt k K) as L.
  destruct (n_cell_spec (gmin N dt) (dt k)) as (j & J & B); [rewrite E; now apply P|exact L|]. exists j, (gmin N dt).
  refine (conj _ (conj _ (conj J B))); [now exists i|]. intros h H. now apply gmin_le.
Qed.
Print Assumptions C117_group_of_cell.

Lemma n_top_ge N n k : (k < N)%nat -> (n k <= n_top N n)%Z.
Proof.
  intros H. unfold n_top. assert (I : In (n k) (map n (seq 0 N))) by (apply in_map, in_seq; lia).
  induction (map n (seq 0 N)) as [|a l IH]; [destruct I|]. cbn [fold_right]. destruct I as [->|I]; [apply Z.le_max_l|].
  eapply Z.le_trans; [|apply Z.le_max_r]. now apply IH.
Qed.
Lemma turns N n i : fold_left (add_group N n) (seq 1 i) (Groups [] [0%nat] [0%nat]) =
  Groups (flat_map (group N n) (seq 1 i)) (0%nat :: map (fun j => length (flat_map (group N n) (seq 1 j))) (seq 0 i)) (0%nat :: map (fun j => length (group N n j)) (seq 1 i)).
Proof.
  induction i as [|i IH]; [reflexivity|]. rewrite !seq_S, fold_left_app, IH. cbn [fold_left]. unfold add_group. cbn [IDs starts counts].
  rewrite flat_map_app, !map_app. cbn [flat_map map app Nat.add]. now rewrite app_nil_r.
Qed.
Lemma groups_all N n i : (forall k, (k < N)%nat -> (1 <= n k <= Z.of_nat i)%Z) -> Permutation (flat_map (group N n) (seq 1 i)) (seq 0 N).
Proof.
  intros H. apply NoDup_Permutation; [|apply seq_NoDup|].
  - generalize 1%nat as s. induction i as [|i IH]; intros s; cbn [seq flat_map]; [constructor|].
    assert (G : forall m s, NoDup (flat_map (group N n) (seq s m))).
    { clear. induction m as [|m IH]; intros s; cbn [seq flat_map]; [constructor|].
      assert (A : forall l1 l2 : list nat, NoDup l1 -> NoDup l2 -> (forall x, In x l1 -> ~ In x l2) -> NoDup (l1 ++ l2)).
      { clear. induction l1 as [|a l1 IH]; intros l2 N1 N2 D; cbn; [exact N2|]. inversion_clear N1. constructor.
        - rewrite in_app_iff. intros [I|I]; [contradiction|]. apply (D a); [now left|exact I].
        - apply IH; auto. intros x X. apply D. now right. }
      apply A; [apply NoDup_filter, seq_NoDup|apply IH|]. intros x X Y. apply filter_In in X as [_ X]. apply Z.eqb_eq in X.
      apply in_flat_map in Y as (j & J & Y). apply in_seq in J. apply filter_In in Y as [_ Y]. apply Z.eqb_eq in Y. lia. }
    apply (G (S i) s).
  - intros k. rewrite in_flat_map. split.
    + intros (j & _ & J). apply filter_In in J. tauto.
    + intros K. pose proof K as K'. apply in_seq in K'. pose proof (H k ltac:(lia)). exists (Z.to_nat (n k)). split; [apply in_seq; lia|].
      apply filter_In. split; [exact K|]. apply Z.eqb_eq. lia.
Qed.

(** The groups hold every cell exactly once (the error is never reported), and the slice of each is its cells in their order. *)
Theorem C117_groups : forall N n, (forall k, (k < N)%nat -> (1 <= n k)%Z) ->
  let s := update_n_grid N n in
  Permutation (IDs s) (seq 0 N) /\ n_error N s = false /\
  (forall i, (1 <= Z.of_nat i <= n_top N n)%Z ->
     firstn (nth i (counts s) 0%nat) (skipn (nth i (starts s) 0%nat) (IDs s)) = filter (fun k => (n k =? Z.of_nat i)%Z) (seq 0 N)).
Proof.
  intros N n H s. unfold s, update_n_grid. set (t := Z.to_nat (n_top N n)). rewrite turns. cbn [IDs starts counts].
  assert (P : Permutation (flat_map (group N n) (seq 1 t)) (seq 0 N)).
  { apply groups_all. intros k K. pose proof (H k K). pose proof (n_top_ge N n k K). unfold t. lia. }
  split; [exact P|]. split.
  - unfold n_error. cbn [IDs]. rewrite (Permutation_length P), seq_length, Nat.eqb_refl. reflexivity.
  - intros i I. destruct i as [|i]; [lia|]. assert (It : (i < t)%nat) by (unfold t; lia). cbn [nth].
    rewrite (nth_indep _ 0%nat (length (group N n 0))) by (rewrite map_length, seq_length; exact It).
    rewrite (map_nth (fun j => length (group N n j))), seq_nth by exact It.
    rewrite (nth_indep (map _ (seq 0 t)) 0%nat (length (flat_map (group N n) (seq 1 0)))) by (rewrite map_length, seq_length; exact It).
    rewrite (map_nth (fun j => length (flat_map (group N n) (seq 1 j)))), seq_nth by exact It. cbn [Nat.add].
    replace t with (i + S (t - S i))%nat at 1 by lia. rewrite seq_app, flat_map_app. cbn [Nat.add seq flat_map].
    rewrite skipn_app, skipn_all2, Nat.sub_diag by lia. cbn [skipn app]. rewrite firstn_app, Nat.sub_diag. cbn [firstn]. rewrite app_nil_r. apply firstn_all.
Qed.
Print Assumptions C117_groups.

(** Stepping each cell with its group takes no more steps than stepping all with the first, and not fewer than one per cell. *)
Theorem C117_work : forall N n, (0 < N)%nat -> (forall k, (k < N)%nat -> (1 <= n k)%Z) ->
  INR N <= IZR (T_local N n) <= T_global N n.
Proof.
  intros N n NP H. unfold T_global, T_local, update_n_grid. set (top := n_top N n). set (t := Z.to_nat top). rewrite turns. cbn [counts].
  assert (TP : (1 <= top)%Z) by (pose proof (H 0%nat NP); pose proof (n_top_ge N n 0 NP); unfold top; lia).
  assert (LEN : Z.of_nat N = fold_right Z.add 0%Z (map (fun i => Z.of_nat (length (group N n i))) (seq 1 t))).
  { assert (P : Permutation (flat_map (group N n) (seq 1 t)) (seq 0 N)) by (apply groups_all; intros k K; pose proof (H k K); pose proof (n_top_ge N n k K); unfold t, top; lia).
    apply Permutation_length in P. rewrite seq_length in P. transitivity (Z.of_nat (length (flat_map (group N n) (seq 1 t)))); [now rewrite P|].
    clear. generalize (seq 1 t) as l. induction l as [|a l IH]; cbn [flat_map map fold_right length]; [reflexivity|].
    rewrite app_length, Nat2Z.inj_add, IH. reflexivity. }
  set (sum := fold_right Z.add 0%Z (map _ (seq 1 t))).
  assert (E : sum = fold_right Z.add 0%Z (map (fun i => Z.of_nat (length (group N n i)) * 4 ^ (top - Z.of_nat i))%Z (seq 1 t))).
  { unfold sum. f_equal. apply map_ext_in. intros i I. apply in_seq in I. destruct i as [|i]; [lia|]. cbn [nth].
    rewrite (nth_indep _ 0%nat (length (group N n 0))) by (rewrite map_length, seq_length; lia).
    rewrite (map_nth (fun j => length (group N n j))), seq_nth by lia. cbn [Nat.add]. lia. }
  assert (G : forall l, (forall i, In i l -> (1 <= Z.of_nat i <= top)%Z) ->
    (fold_right Z.add 0 (map (fun i => Z.of_nat (length (group N n i))) l) <= fold_right Z.add 0 (map (fun i => Z.of_nat (length (group N n i)) * 4 ^ (top - Z.of_nat i)) l)
     <= fold_right Z.add 0 (map (fun i => Z.of_nat (length (group N n i))) l) * 4 ^ (top - 1))%Z).
  { induction l as [|a l IH]; intros L; cbn [map fold_right]; [lia|]. specialize (IH ltac:(intros i I; apply L; now right)). pose proof (L a (or_introl eq_refl)) as La.
    assert (1 <= 4 ^ (top - Z.of_nat a))%Z by (pose proof (Z.pow_pos_nonneg 4 (top - Z.of_nat a)); lia).
    assert (4 ^ (top - Z.of_nat a) <= 4 ^ (top - 1))%Z by (apply Z.pow_le_mono_r; lia). nia. }
  specialize (G (seq 1 t) ltac:(intros i I; apply in_seq in I; unfold t in I; lia)). rewrite <- E, <- LEN in G.
  rewrite INR_IZR_INZ, <- mult_IZR. split; apply IZR_le; lia.
Qed.
Print Assumptions C117_work.

(** Three cells in a row, the first the outlet, with steps of 1, 5 and 20 years: three groups of one; 21 steps instead of 48.  And a rise:
    two metres to the next cell, so a rate of half a metre per year gives four years. *)
Example C117_case :
  let code := fun k : nat => if Nat.eqb k 0 then 0%Z else 16%Z in let dirs := [(16, -1)]%Z in let dem := fun k : nat => 2 * INR k in
  let n := fun k : nat => Z.of_nat (S k) in
  inside 3 code dirs /\ flows_to 3 code dirs 1 0 /\ min_dz_up dem (upstream 3 code dirs) 0%nat = 2 /\
  update_n_grid 3 n = Groups [0; 1; 2]%nat [0; 0; 1; 2]%nat [0; 1; 1; 1]%nat /\ T_local 3 n = 21%Z /\ T_global 3 n = 48.
Proof.
  intros code dirs dem n.
  assert (I : inside 3 code dirs). { intros k d K [<-|[]] C. cbn [snd fst] in *. destruct k as [|k]; [discriminate C|lia]. }
  assert (F : flows_to 3 code dirs 1 0) by (split; [lia|exists (16, -1)%Z; split; [now left|split; reflexivity]]).
  refine (conj I (conj F (conj _ (conj eq_refl (conj eq_refl _))))).
  - destruct (C117_rise 3 code dirs dem 0 I) as (_ & B & [E|(k & (K & d & [<-|[]] & C1 & C2) & E)]).
    + specialize (B 1%nat F). rewrite E in B. unfold dem in B. cbn in B. lra.
    + cbn in C2. assert (k = 1%nat) by lia. subst k. rewrite E. unfold dem. cbn. lra.
  - unfold T_global. cbn. lra.
Qed.
