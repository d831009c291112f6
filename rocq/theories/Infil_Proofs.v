From Coq Require Import ZArith QArith Qminmax Reals List Bool Lia Lqa Qfield.
From Verif Require Import Base Field Snow_Model Snow_Spec Snow_Proofs Infil_Model Infil_Spec.
Import ListNotations.
Local Open Scope Q_scope.

Section Grid.
Variables (n nx : nat) (da : field) (dt : Q).
Hypothesis Hdt : 0 <= dt.

Lemma fat_P_total x i : (i < n)%nat -> fat (P_total n x) i = supply x i.
Proof. intros Hi. unfold P_total. rewrite fat_lift2 by exact Hi. reflexivity. Qed.
Lemma fat_capacity x I i : (i < n)%nat -> fat (ga_capacity n x I) i = green_ampt x i (fat I i).
Proof. intros Hi. unfold ga_capacity, green_ampt. rewrite !fat_lift2 by exact Hi. reflexivity. Qed.

Lemma size1_at f i : size1 n f = true -> (i < n)%nat -> fat f 0 = fat f i.
Proof.
  unfold size1. destruct f as [q|l]; cbn [is_scalar orb]; [reflexivity|]. intros E Hi. apply Nat.eqb_eq in E.
  replace i with 0%nat by lia. reflexivity.
Qed.

Lemma fat_low_rain Pt Ks I i : (i < n)%nat ->
  fat (check_low_rainrate n Pt Ks I) i = if Qltb (fat Pt i) (fat Ks i) then fat Pt i else fat I i.
Proof.
  intros Hi. unfold check_low_rainrate. destruct (size1 n Pt && size1 n Ks) eqn:E.
  - apply andb_true_iff in E. destruct E as [E1 E2]. rewrite (size1_at _ i E1 Hi), (size1_at _ i E2 Hi).
    destruct (Qltb _ _); reflexivity.
  - cbn [fat]. rewrite get_tab by exact Hi. reflexivity.
Qed.

Lemma fat_stop I h z i : (i < n)%nat -> fat (water_table_stop n nx I h z) i = fat I i \/
  (fat (water_table_stop n nx I h z) i = 0 /\ fat z i <= fat h i).
Proof.
  intros Hi. unfold water_table_stop. destruct (size1 n I); [left; reflexivity|].
  destruct (is_scalar h && is_scalar z) eqn:E.
  - cbn [fat]. rewrite get_tab by exact Hi. apply andb_true_iff in E. destruct E, h, z; try discriminate. cbn [fat] in *.
    destruct (Qle_bool q0 q) eqn:F; cbn [andb]; [|left; reflexivity]. apply Qle_bool_iff in F.
    destruct (Nat.ltb i nx); [right; auto|left; reflexivity].
  - cbn [fat]. rewrite get_tab by exact Hi. destruct (Qle_bool (fat z i) (fat h i)) eqn:F; [right|left; reflexivity].
    apply Qle_bool_iff in F. split; [reflexivity|exact F].
Qed.

Record step_spec (s : infil) (x : infil_in) (s' : infil) (i : nat) : Prop := {
  st_fc : fat (fc s') i = green_ampt x i (fat (Icum s) i);
  st_v0 : fat (v0 s') i = Qmin (green_ampt x i (fat (Icum s) i)) (supply x i);
  st_IN : fat (IN s') i = (if Qltb (supply x i) (fat (iKs x) i) then supply x i else fat (v0 s') i) \/
          fat (IN s') i = 0 /\ saturated x i;
  st_Rg : fat (Rg s') i = fat (IN s') i;
  st_I : fat (Icum s') i = fat (Icum s) i + fat (IN s') i * dt }.

Lemma ga_step s x s' : ga_update n nx da dt s x = Some s' ->
  (forall i, (i < n)%nat -> step_spec s x s' i) /\
  vol_IN s' == vol_IN s + qsum n (fun i => fat (IN s') i * fat da i * dt) /\
  vol_v0 s' == vol_v0 s + qsum n (fun i => fat (v0 s') i * fat da i * dt) /\
  vol_Rg s' == vol_Rg s + qsum n (fun i => fat (Rg s') i * fat da i * dt).
Proof.
  unfold ga_update, infil_step. intros H. bindinv H. inversion H; subst; clear H. cbn [vol_IN vol_v0 vol_Rg IN v0 Rg].
  split; [|rewrite !volume_eq; auto using Qeq_refl].
  intros i Hi. split; cbn [fc IN v0 Rg Icum].
  - apply fat_capacity. exact Hi.
  - rewrite fat_lift2 by exact Hi. rewrite fat_capacity, fat_P_total by exact Hi. reflexivity.
  - unfold adjust_infil_rate. destruct (fat_stop (check_low_rainrate n (P_total n x) (iKs x)
      (lift2 n Qmin (ga_capacity n x (Icum s)) (P_total n x))) (ih x) (iz x) i Hi) as [E1|[E1 E2]].
    + left. rewrite E1, fat_low_rain, fat_P_total by exact Hi. reflexivity.
    + right. split; [exact E1|exact E2].
  - reflexivity.
  - rewrite (fat_store _ _ _ _ i E Hi). rewrite fat_lift2 by exact Hi. reflexivity.
Qed.

Lemma capacity_ge_Ks x i I : soil_ok x i -> 0 < I -> fat (iKs x) i <= green_ampt x i I.
Proof.
  intros (H1 & H2 & H3 & H4 & H5) HI. unfold green_ampt.
  assert (0 <= fat (iG x) i * (fat (iKs x) i - fat (iKi x) i) * (fat (iqs x) i - fat (iqi x) i) / I).
  { apply Qle_shift_div_l; [exact HI|]. setoid_replace (0 * I) with 0 by ring.
    apply Qmult_le_0_compat; [apply Qmult_le_0_compat|]; lra. }
  lra.
Qed.

Lemma ga_step_bounds s x s' i : ga_update n nx da dt s x = Some s' -> (i < n)%nat -> soil_ok x i -> 0 < fat (Icum s) i ->
  0 <= fat (IN s') i /\ fat (IN s') i <= supply x i /\ fat (IN s') i <= green_ampt x i (fat (Icum s) i) /\
  fat (IN s') i <= fat (v0 s') i /\
  fat (iKs x) i <= green_ampt x i (fat (Icum s) i) /\
  fat (Icum s') i == fat (Icum s) i + fat (IN s') i * dt /\ fat (Icum s) i <= fat (Icum s') i /\
  (~ saturated x i -> fat (IN s') i == Qmin (green_ampt x i (fat (Icum s) i)) (supply x i)).
Proof.
  intros H Hi Hok HI. destruct (proj1 (ga_step s x s' H) i Hi) as [E1 E2 E3 _ E5].
  pose proof (capacity_ge_Ks x i _ Hok HI) as Hc. destruct Hok as (K0 & _ & _ & _ & HP).
  assert (B : 0 <= fat (IN s') i /\ fat (IN s') i <= supply x i /\ fat (IN s') i <= green_ampt x i (fat (Icum s) i) /\
              fat (IN s') i <= fat (v0 s') i /\
              (~ saturated x i -> fat (IN s') i == Qmin (green_ampt x i (fat (Icum s) i)) (supply x i))).
  { destruct E3 as [E3|[E3 E4]].
    - rewrite E3, E2. destruct (Qltb (supply x i) (fat (iKs x) i)) eqn:F.
      + apply Qltb_lt in F. qcase; repeat split; try lra; intros _; lra.
      + apply Qltb_ge in F. qcase; repeat split; try lra; intros _; lra.
    - rewrite E3, E2. qcase; repeat split; try lra; intros F; destruct (F E4). }
  destruct B as (B1 & B2 & B3 & B4 & B5). repeat (split; [assumption|]).
  assert (0 <= fat (IN s') i * dt) by (apply Qmult_le_0_compat; assumption).
  rewrite E5. split; [reflexivity|]. split; [lra|exact B5].
Qed.

Lemma ga_trace_bounds i (Hi : (i < n)%nat) xs : forall s l, ga_trace n nx da dt s xs = Some l ->
  Forall (fun x => soil_ok x i) xs -> 0 < fat (Icum s) i ->
  length l = length xs /\
  fat (Icum s) i <= fat (Icum (final s l)) i /\
  fat (Icum (final s l)) i == fat (Icum s) i + depth_at dt i (map IN l) /\
  depth_at dt i (map IN l) <= qsuml (fun x => supply x i * dt) xs /\
  forall k x, nth_error xs k = Some x -> exists s0 s', nth_error (s :: l) k = Some s0 /\ nth_error l k = Some s' /\
    fat (Icum s) i <= fat (Icum s0) i /\
    0 <= fat (IN s') i /\ fat (IN s') i <= supply x i /\ fat (IN s') i <= green_ampt x i (fat (Icum s0) i) /\
    fat (iKs x) i <= green_ampt x i (fat (Icum s0) i) /\ fat (fc s') i == green_ampt x i (fat (Icum s0) i) /\
    fat (Icum s0) i <= fat (Icum s') i /\
    (~ saturated x i -> fat (IN s') i == Qmin (green_ampt x i (fat (Icum s0) i)) (supply x i)).
Proof.
  induction xs as [|x xs IH]; intros s l H Hx HI; cbn [ga_trace] in H.
  - inversion H; subst. unfold final, depth_at. cbn [last map length]. rewrite !qsuml_nil.
    split; [reflexivity|]. split; [lra|]. split; [lra|]. split; [lra|]. intros [|k] x E; discriminate E.
  - bindinv H. inversion H; subst; clear H. rename a into s'. apply Forall_cons_iff in Hx. destruct Hx as [Hx Hxs].
    destruct (ga_step_bounds s x s' i E Hi Hx HI) as (B1 & B2 & B3 & B4 & B5 & B6 & B7 & B8).
    assert (HI' : 0 < fat (Icum s') i) by lra.
    destruct (IH s' _ E0 Hxs HI') as (L & I1 & I2 & I3 & I4). rewrite final_cons.
    assert (HM : fat (IN s') i * dt <= supply x i * dt) by (apply Qmult_le_compat_r; assumption).
    split; [cbn; congruence|]. split; [lra|]. unfold depth_at in *. cbn [map]. rewrite !qsuml_cons.
    split; [lra|]. split; [lra|]. intros [|k] y Ek.
    + cbn in Ek. inversion Ek; subst y. exists s, s'. cbn [nth_error]. split; [reflexivity|]. split; [reflexivity|].
      destruct (proj1 (ga_step s x s' E) i Hi) as [F1 _ _ _ _].
      split; [lra|]. repeat (split; [try assumption; rewrite F1; reflexivity|]). exact B8.
    + destruct (I4 k y Ek) as (s0 & s1 & J1 & J2 & J3 & J4). exists s0, s1. split; [exact J1|]. split; [exact J2|].
      split; [lra|exact J4].
Qed.

Lemma ga_trace_volumes xs : forall s l, ga_trace n nx da dt s xs = Some l ->
  vol_IN (final s l) - vol_IN s == qsum n (fun i => depth_at dt i (map IN l) * fat da i) /\
  vol_Rg (final s l) - vol_Rg s == vol_IN (final s l) - vol_IN s /\
  vol_v0 (final s l) - vol_v0 s == qsum n (fun i => depth_at dt i (map v0 l) * fat da i).
Proof.
  induction xs as [|x xs IH]; intros s l H; cbn [ga_trace] in H.
  - inversion H; subst. unfold final, depth_at. cbn [last map].
    split; [|split]; rewrite ?qsum_zero; try lra; intros; rewrite qsuml_nil; ring.
  - bindinv H. inversion H; subst; clear H. destruct (ga_step s x a E) as (S0 & S1 & S2 & S3).
    destruct (IH a _ E0) as (I1 & I2 & I3). rewrite final_cons. unfold depth_at in *. cbn [map].
    assert (R : qsum n (fun i => fat (Rg a) i * fat da i * dt) == qsum n (fun i => fat (IN a) i * fat da i * dt)).
    { apply qsum_ext. intros i Hi. rewrite (st_Rg _ _ _ _ (S0 i Hi)). reflexivity. }
    split; [|split].
    + transitivity (qsum n (fun i => fat (IN a) i * fat da i * dt) + (vol_IN (final a a0) - vol_IN a)); [lra|].
      rewrite I1, <- qsum_plus. apply qsum_ext. intros i Hi. rewrite qsuml_cons. ring.
    + lra.
    + transitivity (qsum n (fun i => fat (v0 a) i * fat da i * dt) + (vol_v0 (final a a0) - vol_v0 a)); [lra|].
      rewrite I3, <- qsum_plus. apply qsum_ext. intros i Hi. rewrite qsuml_cons. ring.
Qed.

(* shapes *)
Lemma ga_shape s x : (is_scalar (Icum s) = true -> all_scalars x = true) ->
  exists s', ga_update n nx da dt s x = Some s' /\ is_scalar (Icum s') = is_scalar (Icum s).
Proof.
  intros H. unfold ga_update, infil_step.
  match goal with |- exists s', bind (store n (Icum s) ?v) _ = _ /\ _ => destruct (store_ok n (Icum s) v) as (I' & E) end.
  { intros Es. specialize (H Es). unfold all_scalars in H. rewrite !andb_true_iff in H.
    destruct H as (((((((A1 & A2) & A3) & A4) & A5) & A6) & A7) & A8). rewrite is_scalar_lift2, Es. cbn [andb].
    destruct x as [P S h z Ks Ki qs qi G]. cbn [iP iSM ih iKs iKi iqs iqi iG] in *.
    destruct P, S, Ks, Ki, qs, qi, G, (Icum s); try discriminate.
    unfold adjust_infil_rate, P_total, ga_capacity. cbn [lift2 iP iSM ih iKs iKi iqs iqi iG].
    unfold check_low_rainrate, water_table_stop, size1. cbn [is_scalar orb andb fat].
    destruct (Qltb _ _); reflexivity. }
  rewrite E. cbn [bind]. eexists. split; [reflexivity|]. cbn [Icum]. exact (proj2 (shaped_store _ _ _ _ E)).
Qed.
Lemma ga_trace_total xs : forall s, (is_scalar (Icum s) = true -> Forall (fun x => all_scalars x = true) xs) ->
  exists l, ga_trace n nx da dt s xs = Some l.
Proof.
  induction xs as [|x xs IH]; intros s H; [exists []; reflexivity|]. destruct (ga_shape s x) as (s' & E & Es).
  { intros Hs. exact (Forall_inv (H Hs)). }
  destruct (IH s') as (l & El). { rewrite Es. intros Hs. exact (Forall_inv_tail (H Hs)). }
  exists (s' :: l). cbn [ga_trace]. rewrite E. cbn [bind]. rewrite El. reflexivity.
Qed.

(* water table *)
Lemma ga_stop s x s' i : ga_update n nx da dt s x = Some s' -> (i < n)%nat -> (1 < n)%nat ->
  is_scalar (iP x) && is_scalar (iSM x) = false \/ is_scalar (iKs x) = false ->
  is_scalar (ih x) && is_scalar (iz x) = false -> saturated x i -> fat (IN s') i == 0.
Proof.
  unfold ga_update, infil_step. intros H Hi Hn Hs Hz Hsat. bindinv H. inversion H; subst; clear H. cbn [IN].
  unfold adjust_infil_rate, water_table_stop. rewrite Hz.
  match goal with |- context [size1 n (check_low_rainrate n ?a ?b ?c)] =>
    assert (F : size1 n (check_low_rainrate n a b c) = false) end.
  { assert (N1 : Nat.eqb n 1 = false) by (apply Nat.eqb_neq; lia).
    unfold check_low_rainrate, size1. rewrite N1, !orb_false_r.
    assert (G : is_scalar (P_total n x) && is_scalar (iKs x) = false).
    { unfold P_total. rewrite is_scalar_lift2. destruct Hs as [Hs|Hs]; rewrite Hs; [reflexivity|apply andb_false_r]. }
    rewrite G. reflexivity. }
  rewrite F. cbn [fat]. rewrite get_tab by exact Hi. unfold saturated in Hsat. apply Qle_bool_iff in Hsat.
  rewrite Hsat. reflexivity.
Qed.
End Grid.
