(* C66: flow lengths, widths, slopes and aspects of a D8 flow grid. *)
From Coq Require Import ZArith QArith Qminmax List Bool Lia Lqa Reals.
From Verif Require Import Base D8_Model D8_Spec D8_Props Geo_Model Geo_Spec.
Import ListNotations.
Local Open Scope Q_scope.

Lemma code_cases c : is_code c -> c = 1%Z \/ c = 2%Z \/ c = 4%Z \/ c = 8%Z \/ c = 16%Z \/ c = 32%Z \/ c = 64%Z \/ c = 128%Z.
Proof.
  unfold is_code, offset. intros H.
  destruct (Z.eq_dec c 1); [tauto|]. destruct (Z.eq_dec c 2); [tauto|]. destruct (Z.eq_dec c 4); [tauto|]. destruct (Z.eq_dec c 8); [tauto|].
  destruct (Z.eq_dec c 16); [tauto|]. destruct (Z.eq_dec c 32); [tauto|]. destruct (Z.eq_dec c 64); [tauto|]. destruct (Z.eq_dec c 128); [tauto|].
  exfalso. apply H. destruct c as [|p|p]; try reflexivity.
  repeat (destruct p as [p|p|]; try reflexivity; try congruence).
Qed.
Ltac codes H := destruct (code_cases _ H) as [E|[E|[E|[E|[E|[E|[E|E]]]]]]]; rewrite E in *.

(* The flow length is the distance to the centre of the neighbour that the code points to. *)
Theorem C66_flow_length : forall G dxr dyr ddr d old i dr dc, (i < ncells G)%nat ->
  ddr (row G i) * ddr (row G i) == dxr (row G i) * dxr (row G i) + dyr (row G i) * dyr (row G i) ->
  0 < dxr (row G i) -> 0 < dyr (row G i) -> 0 < ddr (row G i) ->
  offset (get 0%Z d i) = Some (dr, dc) ->
  let ds := get 0 (flow_length G dxr dyr ddr d old) i in
  0 < ds /\ ds * ds == dist2 (dxr (row G i)) (dyr (row G i)) dr dc.
Proof.
  intros G dxr dyr ddr d old i dr dc Hi Hd Px Py Pd Ho ds. unfold ds, flow_length. rewrite get_tab by exact Hi.
  assert (H : is_code (get 0%Z d i)) by (unfold is_code; rewrite Ho; discriminate).
  codes H; cbn in Ho; injection Ho as <- <-; cbn [mem existsb Z.eqb Pos.eqb orb];
    (split; [assumption|]); unfold dist2; cbn [inject_Z]; try rewrite Hd; ring_simplify; try reflexivity; lra.
Qed.
(* In particular, away from the sides, the distance to the cell that receives the flow. *)
Lemma interior_target G i c j : geom_ok G -> (i < ncells G)%nat -> ~ on_LR G i -> ~ on_TB G i -> target G i c = Some j ->
  offset c = Some (row G j - row G i, col G j - col G i)%Z.
Proof.
  intros (Hx & Hy & _) Hi Hl Ht. unfold target, on_LR, on_TB, row, col in *.
  destruct (offset c) as [[dr dc]|] eqn:E; [|discriminate]. intros J. injection J as <-.
  assert (B : (-1 <= dr <= 1 /\ -1 <= dc <= 1)%Z).
  { unfold offset in E. destruct c as [|p|p]; try discriminate.
    repeat (destruct p as [p|p|]; try discriminate; try (injection E as <- <-; lia)). }
  assert (Hn : (0 <= Z.of_nat i < nx G * ny G)%Z) by (unfold ncells in Hi; lia).
  assert (M : (0 <= Z.of_nat i mod nx G < nx G)%Z) by (apply Z.mod_pos_bound; exact Hx).
  assert (D : (0 <= Z.of_nat i / nx G < ny G)%Z).
  { split; [apply Z.div_pos; lia|]. apply Z.div_lt_upper_bound; lia. }
  set (r := (Z.of_nat i / nx G)%Z) in *. set (k := (Z.of_nat i mod nx G)%Z) in *.
  assert ((r + dr) mod ny G = r + dr)%Z as -> by (apply Z.mod_small; lia).
  assert ((k + dc) mod nx G = k + dc)%Z as -> by (apply Z.mod_small; lia).
  assert (P : (0 <= (r + dr) * nx G + (k + dc))%Z) by nia.
  rewrite Z2Nat.id by exact P.
  assert (Q1 : (((r + dr) * nx G + (k + dc)) / nx G = r + dr)%Z).
  { rewrite Z.div_add_l by lia. rewrite (Z.div_small (k + dc)) by lia. lia. }
  assert (Q2 : (((r + dr) * nx G + (k + dc)) mod nx G = k + dc)%Z).
  { rewrite Z.add_comm, Z.mod_add by lia. apply Z.mod_small. lia. }
  rewrite Q1, Q2. f_equal. f_equal; lia.
Qed.
Theorem C66_distance_to_receiver : forall G dxr dyr ddr d old i j, geom_ok G -> (i < ncells G)%nat ->
  ddr (row G i) * ddr (row G i) == dxr (row G i) * dxr (row G i) + dyr (row G i) * dyr (row G i) ->
  0 < dxr (row G i) -> 0 < dyr (row G i) -> 0 < ddr (row G i) ->
  ~ on_LR G i -> ~ on_TB G i -> next G d i = Some j ->
  let ds := get 0 (flow_length G dxr dyr ddr d old) i in
  0 < ds /\ ds * ds == dist2 (dxr (row G i)) (dyr (row G i)) (row G j - row G i) (col G j - col G i).
Proof.
  intros G dxr dyr ddr d old i j HG Hi Hd Px Py Pd Hl Ht Hn. unfold next in Hn.
  apply C66_flow_length; try assumption. apply interior_target; assumption.
Qed.
(* The flow width is the side of the pixel that the flow crosses, or its diagonal; with METHOD2 half the side, or
   a quarter of the sum of both.  Straight flow covers the pixel's area, diagonal flow (without METHOD2) the
   squared diagonal. *)
Theorem C66_flow_width : forall G dxr dyr ddr d old old' i dr dc, (i < ncells G)%nat ->
  ddr (row G i) * ddr (row G i) == dxr (row G i) * dxr (row G i) + dyr (row G i) * dyr (row G i) ->
  offset (get 0%Z d i) = Some (dr, dc) ->
  let x := dxr (row G i) in let y := dyr (row G i) in
  let ds := get 0 (flow_length G dxr dyr ddr d old) i in
  let dw := get 0 (flow_width G dxr dyr ddr false d old') i in
  let dw2 := get 0 (flow_width G dxr dyr ddr true d old') i in
  (dr = 0%Z -> dw == y /\ dw2 == y / 2) /\ (dc = 0%Z -> dw == x /\ dw2 == x / 2) /\
  (dr <> 0%Z -> dc <> 0%Z -> dw = ddr (row G i) /\ dw2 == (x + y) / 4) /\
  (dr = 0%Z \/ dc = 0%Z -> ds * dw == x * y) /\ (dr <> 0%Z -> dc <> 0%Z -> ds * dw == x * x + y * y).
Proof.
  intros G dxr dyr ddr d old old' i dr dc Hi Hd Ho. cbv zeta. unfold flow_length, flow_width. rewrite !get_tab by exact Hi.
  assert (H : is_code (get 0%Z d i)) by (unfold is_code; rewrite Ho; discriminate).
  codes H; cbn in Ho; injection Ho as <- <-; cbn [mem existsb Z.eqb Pos.eqb orb];
    (split; [|split; [|split; [|split]]]); intros; try discriminate; try congruence;
    try (split; [try reflexivity|]; reflexivity);
    try (split; reflexivity); try exact Hd; try ring; try (destruct H0; discriminate).
Qed.
(* Pixels without a flow direction get their width as both. *)
Theorem C66_no_flow : forall G dxr dyr ddr M d old old' i, (i < ncells G)%nat -> get 0%Z d i = 0%Z ->
  get 0 (flow_length G dxr dyr ddr d old) i = dxr (row G i) /\ get 0 (flow_width G dxr dyr ddr M d old') i = dxr (row G i).
Proof. intros G dxr dyr ddr M d old old' i Hi H. unfold flow_length, flow_width. rewrite !get_tab, H by exact Hi. split; reflexivity. Qed.

(* Slopes of a computed flow grid exist, are never negative, are the drop to the receiver over the distance, and
   are zero exactly where there is no flow or no drop. *)
Theorem C66_slopes : forall G O dem dxr dyr ddr old d, geom_ok G ->
  update_flow_grid G O dem = Some d ->
  (forall r, 0 < dxr r /\ 0 < dyr r /\ 0 < ddr r) ->
  let ds := flow_length G dxr dyr ddr d old in
  exists S, update_slope_grid G dem d (update_parent_ID_grid G O d) ds = Some S /\ length S = ncells G /\
  forall i, (i < ncells G)%nat ->
    (get 0%Z d i = 0%Z -> get None S i = Some 0) /\
    (forall j, next G d i = Some j -> exists z zj s,
       elev dem i = Some z /\ elev dem j = Some zj /\ get None S i = Some s /\
       s == (z - zj) / get 0 ds i /\ 0 <= s /\ (0 < s <-> zj < z)).
Proof.
  intros G O dem dxr dyr ddr old d HG Hd P ds.
  destruct (C06_flow_codes_valid_downhill_steepest G O dem HG) as (d' & E & Hc & H1 & H2 & _).
  rewrite Hd in E. injection E as <-.
  destruct (C09_parent_IDs G O d HG H2) as (_ & Hp & _).
  unfold update_slope_grid.
  destruct (forallb (fun i => negb (get 0%Z d i <=? 0)%Z) (seq 0 (ncells G))) eqn:F.
  { exfalso. rewrite forallb_forall in F.
    destruct (C07_flow_grid_acyclic G O dem d HG Hd) as [_ W].
    assert (N : (0 < ncells G)%nat) by (destruct HG as (A & B & _); unfold ncells; nia).
    destruct (W 0%nat N) as (m & j & _ & Wj & Z).
    assert (J : forall m i j, (i < ncells G)%nat -> walk G d m i = Some j -> (j < ncells G)%nat).
    { clear - H1 HG Hc. induction m as [|m IH]; intros i j Hi Hw; cbn in Hw; [injection Hw as <-; exact Hi|].
      destruct (next G d i) as [k|] eqn:Ek; [|discriminate].
      apply (IH k j); [|exact Hw].
      destruct (Z.eq_dec (get 0%Z d i) 0) as [Z0|Z0]; [unfold next, target in Ek; rewrite Z0 in Ek; discriminate|].
      destruct (H1 i Hi Z0) as (j' & _ & _ & En & Hj & _). congruence. }
    specialize (F j). rewrite Z in F. cbn in F. apply diff_false_true, F. apply in_seq. split; [lia|]. apply (J m 0%nat j N Wj). }
  eexists. split; [reflexivity|]. split; [apply tab_length|]. intros i Hi. rewrite get_tab by exact Hi. split.
  - intros Z. rewrite Z. reflexivity.
  - intros j Hj.
    assert (C : is_code (get 0%Z d i)).
    { unfold next, target in Hj. unfold is_code. destruct (offset (get 0%Z d i)); [discriminate|discriminate]. }
    assert (NZ : get 0%Z d i <> 0%Z) by (intros Z; rewrite Z in C; apply C; reflexivity).
    destruct (H1 i Hi NZ) as (j' & z & zj & En & Hj' & Ez & _ & Ezj & Le & _). rewrite Hj in En. injection En as <-.
    exists z, zj, ((z - zj) / get 0 ds i). split; [exact Ez|]. split; [exact Ezj|].
    assert (L : (get 0%Z d i <=? 0)%Z = false).
    { clear - C. destruct (code_cases _ C) as [E|[E|[E|[E|[E|[E|[E|E]]]]]]]; rewrite E; reflexivity. }
    rewrite L. unfold slope_at. destruct (Hp i Hi) as [Hp1 _]. rewrite (Hp1 j Hj), Nat2Z.id, Ez, Ezj.
    split; [reflexivity|]. split; [reflexivity|].
    assert (Pd : 0 < get 0 ds i).
    { unfold ds, flow_length. rewrite get_tab by exact Hi. destruct (P (row G i)) as (P1 & P2 & P3).
      clear - C P1 P2 P3. codes C; cbn [mem existsb Z.eqb Pos.eqb orb]; assumption. }
    split.
    + apply Qle_shift_div_l; [exact Pd|]. lra.
    + split; intros K.
      * apply Qnot_le_lt. intros N. assert ((z - zj) / get 0 ds i <= 0) by (apply Qle_shift_div_r; [exact Pd|lra]). lra.
      * apply Qlt_shift_div_l; [exact Pd|]. lra.
Qed.
(* With equal rows no neighbour is reached by a steeper slope. *)
Theorem C66_steepest : forall G O dem old d, geom_ok G -> update_flow_grid G O dem = Some d ->
  let ds := flow_length G (fun _ => dx G) (fun _ => dy G) (fun _ => dd G) d old in
  exists S, update_slope_grid G dem d (update_parent_ID_grid G O d) ds = Some S /\
  forall i c j' z z' s, (i < ncells G)%nat -> get 0%Z d i <> 0%Z -> target G i c = Some j' ->
    elev dem i = Some z -> elev dem j' = Some z' -> get None S i = Some s -> (z - z') / step_length G c <= s.
Proof.
  intros G O dem old d HG Hd ds.
  destruct (C66_slopes G O dem (fun _ => dx G) (fun _ => dy G) (fun _ => dd G) old d HG Hd) as (S & ES & _ & HS).
  { intros _. destruct HG as (_ & _ & A & B & C). auto. }
  exists S. split; [exact ES|]. intros i c j' z z' s Hi NZ Ht Ez Ez' Es.
  destruct (C06_flow_codes_valid_downhill_steepest G O dem HG) as (d' & E & _ & H1 & _). rewrite Hd in E. injection E as <-.
  destruct (H1 i Hi NZ) as (j & z0 & zj & En & _ & Ez0 & _ & Ezj & _ & St).
  destruct (HS i Hi) as [_ K]. destruct (K j En) as (z1 & zj1 & s1 & A1 & A2 & A3 & A4 & _).
  rewrite A3 in Es. injection Es as <-. rewrite Ez0 in Ez. injection Ez as <-. rewrite Ez0 in A1. injection A1 as <-.
  rewrite Ezj in A2. injection A2 as <-.
  destruct (St c j' Ht) as (z2 & E2 & L). rewrite Ez' in E2. injection E2 as <-.
  rewrite A4. eapply Qle_trans; [exact L|]. apply Qle_lteq. right.
  assert (Cd : is_code (get 0%Z d i)) by (unfold next, target in En; unfold is_code; destruct (offset (get 0%Z d i)); [discriminate|discriminate]).
  unfold flow_length. rewrite get_tab by exact Hi.
  clear - Cd. codes Cd; reflexivity.
Qed.
(* On fixed-angle grids the flow directions are chosen with the sizes of the first row, so that another neighbour
   can be steeper by the sizes of the pixel's own row. *)
Theorem C66_steepest_by_row_refuted :
  ~ (forall G O dem old d dxr dyr ddr, geom_ok G -> update_flow_grid G O dem = Some d ->
     dxr 0%Z = dx G -> dyr 0%Z = dy G -> ddr 0%Z = dd G -> (forall r, 0 < dxr r /\ 0 < dyr r /\ 0 < ddr r) ->
     let ds := flow_length G dxr dyr ddr d old in
     forall S i j' z z' s, update_slope_grid G dem d (update_parent_ID_grid G O d) ds = Some S ->
       (i < ncells G)%nat -> get 0%Z d i <> 0%Z -> target G i 2 = Some j' ->
       elev dem i = Some z -> elev dem j' = Some z' -> get None S i = Some s -> (z - z') / dxr (row G i) <= s).
Proof.
  intros H.
  pose (G := mkGeom 3 4 1 1 (3#2)). pose (O := mkOpts true true false false (-(9999#1))).
  pose (dem := map (fun z => Some (z#2)) [30; 30; 30;  30; 30; 30;  30; 20; 18;  30; 17; 30]%Z).
  destruct (update_flow_grid G O dem) as [d|] eqn:E; [|vm_compute in E; discriminate E].
  pose (dxr := fun r : Z => if (r =? 0)%Z then 1 else 1#2).
  assert (K := H G O dem (repeat 0 12) d dxr (fun _ => 1) (fun _ => 3#2)).
  vm_compute in E. injection E as <-.
  specialize (K ltac:(repeat split; reflexivity) ltac:(vm_compute; reflexivity) eq_refl eq_refl eq_refl).
  assert (P : forall r, 0 < dxr r /\ 0 < 1 /\ 0 < 3#2) by (intros r; unfold dxr; destruct (r =? 0)%Z; repeat split; reflexivity).
  specialize (K P). cbv zeta in K.
  match type of K with forall S i j' z z' s, ?u = Some S -> _ => destruct u as [S|] eqn:ES; [|vm_compute in ES; discriminate ES] end.
  specialize (K S 7%nat 8%nat (20#2) (18#2)). 
  assert (Es : get None S 7 = Some (6#4)) by (vm_compute in ES; injection ES as <-; vm_compute; reflexivity).
  specialize (K (6#4) eq_refl ltac:(vm_compute; lia) ltac:(vm_compute; discriminate) eq_refl eq_refl eq_refl Es).
  vm_compute in K. apply K. reflexivity.
Qed.
(* The aspect is the direction of flow, counter-clockwise from east, in [0, 2 pi). *)
Theorem C66_aspect : forall c dr dc, offset c = Some (dr, dc) ->
  (0 <= aspect_of c < 2 * PI /\ exists r, 0 < r /\ IZR dc = r * cos (aspect_of c) /\ - IZR dr = r * sin (aspect_of c))%R.
Proof.
  intros c dr dc H. assert (C : is_code c) by (unfold is_code; rewrite H; discriminate). pose proof PI_RGT_0 as P.
  assert (A : forall k, (2 * PI / 8 * k = k * (PI / 4))%R) by (intros; field).
  assert (q2 : (0 < sqrt 2)%R) by (apply sqrt_lt_R0; Lra.lra).
  assert (q2s : (sqrt 2 * sqrt 2 = 2)%R) by (apply sqrt_sqrt; Lra.lra).
  codes C; cbn in H; injection H as <- <-; unfold aspect_of; (split; [Lra.lra|]).
  - exists (sqrt 2). split; [exact q2|]. rewrite A, Rmult_1_l, cos_PI4, sin_PI4. split; field; Lra.lra.
  - exists 1%R. rewrite Rmult_0_r, cos_0, sin_0. split; [Lra.lra|]. split; Lra.lra.
  - exists (sqrt 2). split; [exact q2|]. replace (2 * PI / 8 * 7)%R with (- (PI / 4) + 2 * INR 1 * PI)%R by (cbn; field).
    rewrite cos_period, sin_period, cos_neg, sin_neg, cos_PI4, sin_PI4. split; field; Lra.lra.
  - exists 1%R. replace (2 * PI / 8 * 6)%R with (3 * (PI / 2))%R by field. rewrite cos_3PI2, sin_3PI2. split; [Lra.lra|]. split; Lra.lra.
  - exists (sqrt 2). split; [exact q2|]. replace (2 * PI / 8 * 5)%R with (PI / 4 + PI)%R by field.
    rewrite neg_cos, neg_sin, cos_PI4, sin_PI4. split; field; Lra.lra.
  - exists 1%R. replace (2 * PI / 8 * 4)%R with PI by field. rewrite cos_PI, sin_PI. split; [Lra.lra|]. split; Lra.lra.
  - exists (sqrt 2). split; [exact q2|]. replace (2 * PI / 8 * 3)%R with (PI - PI / 4)%R by field.
    rewrite sin_PI_x. rewrite Rtrigo_facts.cos_pi_minus, cos_PI4, sin_PI4. split; field; Lra.lra.
  - exists 1%R. replace (2 * PI / 8 * 2)%R with (PI / 2)%R by field. rewrite cos_PI2, sin_PI2. split; [Lra.lra|]. split; Lra.lra.
Qed.
Example C66_demo : let G := mkGeom 3 3 3 4 5 in let O := mkOpts true true false false (-(9999#1)) in
  let dem := map (fun z => Some (inject_Z z)) [9; 9; 9;  9; 8; 9;  9; 9; 3]%Z in
  geom_ok G /\ update_flow_grid G O dem = Some [0; 0; 0; 0; 4; 0; 0; 0; 0]%Z /\
  flow_length G (fun _ => 3) (fun _ => 4) (fun _ => 5) [0; 0; 0; 0; 4; 0; 0; 0; 0]%Z (repeat 0 9) = [3; 3; 3; 3; 5; 3; 3; 3; 3] /\
  (forall i, i = 4%nat -> ~ on_LR G i /\ ~ on_TB G i) /\ 5 * 5 == dist2 3 4 1 1.
Proof.
  cbv zeta. split; [repeat split; reflexivity|]. split; [vm_compute; reflexivity|]. split; [vm_compute; reflexivity|]. split.
  - intros i ->. split; intros [H|H]; vm_compute in H; discriminate H.
  - reflexivity.
Qed.
Print Assumptions C66_flow_length.
Print Assumptions C66_distance_to_receiver.
Print Assumptions C66_flow_width.
Print Assumptions C66_no_flow.
Print Assumptions C66_slopes.
Print Assumptions C66_steepest.
Print Assumptions C66_steepest_by_row_refuted.
Print Assumptions C66_aspect.
