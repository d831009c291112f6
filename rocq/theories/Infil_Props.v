(* Theorems about the infiltration components (C24-C26, C50). *)
From Coq Require Import ZArith QArith Qminmax Reals Qreals List Bool Lia Lqa.
From Verif Require Import Base Field Snow_Model Snow_Spec Snow_Proofs Infil_Model Infil_Spec Infil_Proofs InfilR_Proofs.
Import ListNotations.
Local Open Scope Q_scope.

(* C24.  Green-Ampt, every history, every cell with soil parameters in range: the rate is non-negative, never
   exceeds the supply (rain + snowmelt) nor the capacity, the capacity is at least Ks, cumulative depth never
   decreases; and unless the water table is at the surface the rate is exactly min(capacity, supply). *)
Theorem C24_infiltration_bounded : forall n nx da dt, 0 <= dt -> forall i, (i < n)%nat -> forall xs s l,
  ga_trace n nx da dt s xs = Some l -> Forall (fun x => soil_ok x i) xs -> 0 < fat (Icum s) i ->
  length l = length xs /\
  forall k x, nth_error xs k = Some x -> exists s0 s', nth_error (s :: l) k = Some s0 /\ nth_error l k = Some s' /\
    fat (Icum s) i <= fat (Icum s0) i /\
    0 <= fat (IN s') i /\ fat (IN s') i <= supply x i /\ fat (IN s') i <= green_ampt x i (fat (Icum s0) i) /\
    fat (iKs x) i <= green_ampt x i (fat (Icum s0) i) /\ fat (fc s') i == green_ampt x i (fat (Icum s0) i) /\
    fat (Icum s0) i <= fat (Icum s') i /\
    (~ saturated x i -> fat (IN s') i == Qmin (green_ampt x i (fat (Icum s0) i)) (supply x i)).
Proof.
  intros n nx da dt Hdt i Hi xs s l H Hx HI.
  destruct (ga_trace_bounds n nx da dt Hdt i Hi xs s l H Hx HI) as (A & _ & _ & _ & B). split; assumption.
Qed.
Print Assumptions C24_infiltration_bounded.

(* C24.  Cumulative infiltration depth is the sum of the rates times dt and never exceeds what was supplied. *)
Theorem C24_cumulative_infiltration : forall n nx da dt, 0 <= dt -> forall i, (i < n)%nat -> forall xs s l,
  ga_trace n nx da dt s xs = Some l -> Forall (fun x => soil_ok x i) xs -> 0 < fat (Icum s) i ->
  fat (Icum (final s l)) i == fat (Icum s) i + depth_at dt i (map IN l) /\
  fat (Icum s) i <= fat (Icum (final s l)) i /\
  depth_at dt i (map IN l) <= qsuml (fun x => supply x i * dt) xs.
Proof.
  intros n nx da dt Hdt i Hi xs s l H Hx HI.
  destruct (ga_trace_bounds n nx da dt Hdt i Hi xs s l H Hx HI) as (_ & A & B & C & _). split; [exact B|]. split; assumption.
Qed.
Print Assumptions C24_cumulative_infiltration.

(* C24.  The reported volumes: infiltration and groundwater recharge are both the integral of the rate over
   cells and time. *)
Theorem C24_infiltration_volumes : forall n nx da dt s xs l, ga_trace n nx da dt s xs = Some l ->
  vol_IN (final s l) == vol_IN s + qsum n (fun i => depth_at dt i (map IN l) * fat da i) /\
  vol_Rg (final s l) - vol_Rg s == vol_IN (final s l) - vol_IN s /\
  vol_v0 (final s l) == vol_v0 s + qsum n (fun i => depth_at dt i (map v0 l) * fat da i).
Proof.
  intros n nx da dt s xs l H. destruct (ga_trace_volumes n nx da dt xs s l H) as (A & B & C).
  split; [lra|]. split; [exact B|lra].
Qed.
Print Assumptions C24_infiltration_volumes.

(* C24.  No update raises, from the initial state that initialize() builds from the shapes of the inputs, as
   long as inputs that were scalars stay scalars. *)
Theorem C24_no_shape_error : forall n nx da dt x0 xs,
  (all_scalars x0 = true -> Forall (fun x => all_scalars x = true) xs) ->
  exists l, ga_trace n nx da dt (infil_init n (all_scalars x0)) xs = Some l.
Proof.
  intros n nx da dt x0 xs H. apply ga_trace_total. intros E. apply H. destruct (all_scalars x0); [reflexivity|discriminate E].
Qed.
Print Assumptions C24_no_shape_error.

Definition soil (Ks h : field) (P : field) : infil_in :=
  mkInfilIn P (Scalar 0) h (Grid [10; 20]) Ks (Scalar (1#10)) (Scalar (4#10)) (Scalar (1#10)) (Scalar (2#10)).
Example C24_demo :
  let s0 := infil_init 2 false in
  let xs := [soil (Scalar 1) (Grid [0; 20]) (Grid [3; 3]); soil (Grid [1; 1]) (Grid [0; 5]) (Grid [2; 1#2])] in
  exists l, ga_trace 2 2 (Scalar 100) (1#10) s0 xs = Some l /\
  map (fun s => map (fun i => Qred (fat (IN s) i)) [0; 1]%nat) l = [[3; 0]; [354001#300001; 1#2]] /\
  Forall (fun x => soil_ok x 0 /\ soil_ok x 1) xs /\ 0 < fat (Icum s0) 0 /\ 0 < fat (Icum s0) 1.
Proof.
  eexists. split; [vm_compute; reflexivity|]. split; [vm_compute; reflexivity|].
  split; [|split; vm_compute; reflexivity].
  repeat constructor; vm_compute; congruence.
Qed.

(* C24.  vol_v0, the integral of the unadjusted surface flux, is not the infiltrated volume. *)
Theorem C24_v0_is_infiltration_refuted :
  ~ (forall n nx da dt s xs l, ga_trace n nx da dt s xs = Some l -> Forall (fun x => forall i, (i < n)%nat -> soil_ok x i) xs ->
       (forall i, (i < n)%nat -> 0 < fat (Icum s) i) -> vol_v0 s == vol_IN s -> vol_v0 (final s l) == vol_IN (final s l)).
Proof.
  intros H. specialize (H 2%nat 2%nat (Scalar 100) (1#10) (infil_init 2 false)
    [soil (Grid [1; 1]) (Grid [0; 20]) (Grid [3; 3])] _ eq_refl).
  assert (X : ~ vol_v0 (final (infil_init 2 false) match ga_trace 2 2 (Scalar 100) (1#10) (infil_init 2 false)
              [soil (Grid [1; 1]) (Grid [0; 20]) (Grid [3; 3])] with Some l => l | None => [] end) ==
            vol_IN (final (infil_init 2 false) match ga_trace 2 2 (Scalar 100) (1#10) (infil_init 2 false)
              [soil (Grid [1; 1]) (Grid [0; 20]) (Grid [3; 3])] with Some l => l | None => [] end)) by (vm_compute; congruence).
  apply X. apply H.
  - constructor; [|constructor]. intros [|[|i]] Hi; try lia; vm_compute; repeat split; congruence.
  - intros [|[|i]] Hi; try lia; vm_compute; reflexivity.
  - vm_compute. reflexivity.
Qed.
Print Assumptions C24_v0_is_infiltration_refuted.

(* C25.  Where the water table is at or above the surface nothing infiltrates - proved when there is more than one
   pixel, the supply or Ks is a grid, and the water table or the surface is a grid. *)
Theorem C25_no_infiltration_where_saturated_partial : forall n nx da dt s x s' i,
  ga_update n nx da dt s x = Some s' -> (i < n)%nat -> (1 < n)%nat ->
  is_scalar (iP x) && is_scalar (iSM x) = false \/ is_scalar (iKs x) = false ->
  is_scalar (ih x) && is_scalar (iz x) = false ->
  saturated x i -> fat (IN s') i == 0.
Proof. exact ga_stop. Qed.
Print Assumptions C25_no_infiltration_where_saturated_partial.
Example C25_demo : exists s', ga_update 2 2 (Scalar 100) (1#10) (infil_init 2 false) (soil (Scalar 1) (Grid [0; 20]) (Grid [3; 3])) = Some s' /\
  saturated (soil (Scalar 1) (Grid [0; 20]) (Grid [3; 3])) 1 /\ ~ fat (IN s') 0 == 0 /\ fat (IN s') 1 == 0.
Proof. eexists. split; [vm_compute; reflexivity|]. vm_compute. repeat split; congruence. Qed.
(* The statement without these conditions is false, even for grids of water table and surface elevations: with
   uniform rain that is lighter than a uniform Ks the check is skipped. *)
Theorem C25_no_infiltration_where_saturated_refuted :
  ~ (forall n nx da dt x s', (1 < n)%nat -> is_scalar (ih x) = false -> is_scalar (iz x) = false ->
       (forall i, (i < n)%nat -> soil_ok x i) ->
       ga_update n nx da dt (infil_init n (all_scalars x)) x = Some s' ->
       forall i, (i < n)%nat -> saturated x i -> fat (IN s') i == 0).
Proof.
  intros H. pose (x := soil (Scalar 1) (Grid [0; 20]) (Scalar (1#2))).
  assert (U : exists s', ga_update 2 2 (Scalar 100) (1#10) (infil_init 2 (all_scalars x)) x = Some s' /\ ~ fat (IN s') 1 == 0).
  { eexists. split; [vm_compute; reflexivity|]. vm_compute. congruence. }
  destruct U as (s' & U & N). apply N. apply (H 2%nat 2%nat (Scalar 100) (1#10) x s'); try reflexivity; try lia; try exact U.
  - intros [|[|i]] Hi; try lia; vm_compute; repeat split; congruence.
  - vm_compute. congruence.
Qed.
Print Assumptions C25_no_infiltration_where_saturated_refuted.

(* C50.  A disabled groundwater component provides h_table = 0 (satzone_base.py 179).  One would expect
   infiltration then to be min(capacity, supply) everywhere.  That holds at cells above elevation 0 ... *)
Theorem C50_disabled_groundwater_above_sea_level_partial : forall n nx da dt, 0 <= dt -> forall s x s' i,
  ga_update n nx da dt s x = Some s' -> (i < n)%nat -> soil_ok x i -> 0 < fat (Icum s) i ->
  ih x = Scalar 0 -> 0 < fat (iz x) i ->
  fat (IN s') i == Qmin (green_ampt x i (fat (Icum s) i)) (supply x i).
Proof.
  intros n nx da dt Hdt s x s' i H Hi Hok HI Hh Hz.
  apply (ga_step_bounds n nx da dt Hdt s x s' i H Hi Hok HI). unfold saturated. rewrite Hh. cbn [fat]. lra.
Qed.
Print Assumptions C50_disabled_groundwater_above_sea_level_partial.
(* ... but not at or below it. *)
Theorem C50_disabled_groundwater_refuted :
  ~ (forall n nx da dt x s', 0 <= dt -> (forall i, (i < n)%nat -> soil_ok x i) -> ih x = Scalar 0 ->
       ga_update n nx da dt (infil_init n (all_scalars x)) x = Some s' ->
       forall i, (i < n)%nat -> fat (IN s') i == Qmin (green_ampt x i (1 # 1000000)) (supply x i)).
Proof.
  intros H. pose (x := mkInfilIn (Grid [1#2; 1#2]) (Scalar 0) (Scalar 0) (Grid [10; -(2)]) (Scalar 1) (Scalar (1#10))
                   (Scalar (4#10)) (Scalar (1#10)) (Scalar (2#10))).
  assert (U : exists s', ga_update 2 2 (Scalar 100) (1#10) (infil_init 2 (all_scalars x)) x = Some s' /\
                         ~ fat (IN s') 1 == Qmin (green_ampt x 1 (1 # 1000000)) (supply x 1)).
  { eexists. split; [vm_compute; reflexivity|]. vm_compute. congruence. }
  destruct U as (s' & U & N). apply N. apply (H 2%nat 2%nat (Scalar 100) (1#10) x s'); try reflexivity; try lia; try exact U; try lra.
  intros [|[|i]] Hi; try lia; vm_compute; repeat split; congruence.
Qed.
Print Assumptions C50_disabled_groundwater_refuted.
Example C50_demo : exists s', ga_update 2 2 (Scalar 100) (1#10) (infil_init 2 false) (soil (Scalar 1) (Scalar 0) (Grid [3; 3])) = Some s' /\
  fat (IN s') 0 == 3 /\ fat (IN s') 1 == 3.
Proof. eexists. split; [vm_compute; reflexivity|]. vm_compute. auto. Qed.

(* C26.  Green-Ampt and Smith-Parlange capacities strictly decrease with cumulative depth, stay above Ks, are
   unbounded for small depths and tend to Ks for large ones; Smith-Parlange stays below Green-Ampt. *)
Local Open Scope R_scope.
Theorem C26_capacity_decreases_to_Ks : forall Ks Ki qs qi G gam, Ki < Ks -> qi < qs -> 0 < G -> 0 < gam ->
  (forall I J, 0 < I -> I < J ->
     sp_capacity Ks Ki qs qi G gam J < sp_capacity Ks Ki qs qi G gam I /\
     ga_capacityR Ks Ki qs qi G J < ga_capacityR Ks Ki qs qi G I) /\
  (forall I, 0 < I -> Ks < sp_capacity Ks Ki qs qi G gam I /\
     sp_capacity Ks Ki qs qi G gam I < ga_capacityR Ks Ki qs qi G I) /\
  (forall M, exists I0, 0 < I0 /\ forall I, 0 < I <= I0 ->
     M < sp_capacity Ks Ki qs qi G gam I /\ M < ga_capacityR Ks Ki qs qi G I) /\
  (forall eps, 0 < eps -> exists I0, 0 < I0 /\ forall I, I0 <= I ->
     sp_capacity Ks Ki qs qi G gam I < Ks + eps /\ ga_capacityR Ks Ki qs qi G I < Ks + eps).
Proof.
  intros Ks Ki qs qi G gam HK Hq HG Hg. split; [|split; [|split]].
  - intros I J HI HJ. split; [apply sp_decreasing|apply ga_decreasing]; assumption.
  - intros I HI. split; [apply sp_above_Ks|apply sp_le_ga]; assumption.
  - intros M. destruct (sp_unbounded Ks Ki qs qi G gam HK Hq HG Hg M) as (I0 & H0 & H). exists I0. split; [exact H0|].
    intros I HI. specialize (H I HI). split; [exact H|]. eapply Rlt_trans; [exact H|]. apply sp_le_ga; try eassumption. apply HI.
  - intros eps He. destruct (ga_limit Ks Ki qs qi G HK Hq HG eps He) as (I0 & H0 & H). exists I0. split; [exact H0|].
    intros I HI. specialize (H I HI). split; [|exact H].
    eapply Rlt_trans; [apply sp_le_ga; try eassumption|exact H]. eapply Rlt_le_trans; eassumption.
Qed.
Print Assumptions C26_capacity_decreases_to_Ks.
(* The rational model of Green-Ampt used above computes the same function. *)
Theorem C26_same_green_ampt : forall x i I, (0 < I)%Q ->
  Q2R (green_ampt x i I) = ga_capacityR (Q2R (fat (iKs x) i)) (Q2R (fat (iKi x) i)) (Q2R (fat (iqs x) i)) (Q2R (fat (iqi x) i))
                                        (Q2R (fat (iG x) i)) (Q2R I).
Proof.
  intros x i I HI. unfold green_ampt, ga_capacityR. rewrite Q2R_plus, Q2R_div, !Q2R_mult, !Q2R_minus; [reflexivity|].
  intros E. rewrite E in HI. discriminate HI.
Qed.
Print Assumptions C26_same_green_ampt.
(* Beven's exponential-K capacity (f < 0) is positive, strictly decreasing, and tends to 0 (not to Ks). *)
Theorem C26_beven_capacity : forall K0 qs qi f C, 0 < K0 -> qi < qs -> f < 0 -> 0 <= C ->
  (forall I J, 0 < I -> I < J -> beven_capacity K0 qs qi f C J < beven_capacity K0 qs qi f C I) /\
  (forall I, 0 < I -> 0 < beven_capacity K0 qs qi f C I) /\
  (forall eps, 0 < eps -> exists I0, 0 < I0 /\ forall I, I0 <= I -> beven_capacity K0 qs qi f C I < eps).
Proof.
  intros K0 qs qi f C HK Hq Hf HC. split; [|split].
  - intros I J. apply beven_decreasing; assumption.
  - intros I. apply beven_positive; assumption.
  - intros eps. apply beven_vanishes; assumption.
Qed.
Print Assumptions C26_beven_capacity.
(* Histories of the Smith-Parlange and Beven components at a cell: rates between 0 and the supply, no
   infiltration where saturated, otherwise min(capacity, supply) (or all the supply when below Ks); cumulative
   depth is the sum of the rates and no more than the supply. *)
Theorem C26_histories_with_any_capacity : forall cap Ks dt, 0 <= dt -> (forall I, 0 < I -> 0 <= cap I) ->
  forall xs I, 0 < I -> Forall (fun x => 0 <= cP x) xs ->
  let l := cell_trace cap Ks dt I xs in
  length l = length xs /\
  snd (last l (0, I)) = I + dt * rsum (map fst l) /\
  rsum (map fst l) <= rsum (map cP xs) /\
  forall k x, nth_error xs k = Some x -> exists r I' I0,
    nth_error l k = Some (r, I') /\ nth_error ((0, I) :: l) k = Some I0 /\ I <= snd I0 <= I' /\
    0 <= r <= cP x /\ (cz x <= ch x -> r = 0) /\
    (ch x < cz x -> (cP x < Ks /\ r = cP x) \/ (Ks <= cP x /\ r = Rmin (cap (snd I0)) (cP x))).
Proof. exact cell_history. Qed.
Print Assumptions C26_histories_with_any_capacity.
(* In the Beven component the check for light rain overrides the capacity: infiltration can exceed it. *)
Theorem C26_beven_rate_within_capacity_refuted :
  ~ (forall K0 qs qi f C I P h z, 0 < K0 -> qi < qs -> f < 0 -> 0 <= C -> 0 < I -> 0 <= P ->
       cell_rate (beven_capacity K0 qs qi f C I) P K0 h z <= beven_capacity K0 qs qi f C I).
Proof.
  intros H. destruct (beven_vanishes 1 1 0 (-1) 0 ltac:(Lra.lra) ltac:(Lra.lra) ltac:(Lra.lra) ltac:(Lra.lra) (1/2) ltac:(Lra.lra)) as (I0 & H0 & H1).
  specialize (H1 I0 (Rle_refl _)).
  specialize (H 1 1 0 (-1) 0 I0 (1/2) 0 1 ltac:(Lra.lra) ltac:(Lra.lra) ltac:(Lra.lra) ltac:(Lra.lra) H0 ltac:(Lra.lra)).
  unfold cell_rate in H. destruct (Rle_dec 1 0); [Lra.lra|]. destruct (Rlt_dec (1/2) 1); Lra.lra.
Qed.
Print Assumptions C26_beven_rate_within_capacity_refuted.
Example C26_demo : forall gam, 0 < gam -> 1 < sp_capacity 1 (1/10) (4/10) (1/10) (2/10) gam (1/1000).
Proof. intros gam Hg. apply sp_above_Ks; Lra.lra. Qed.
