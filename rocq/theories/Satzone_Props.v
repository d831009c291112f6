(* Groundwater: properties C29, C30, C53, C54, C55. *)
From Coq Require Import ZArith QArith Qminmax Qabs List Bool Lia Lqa.
From Verif Require Import Base Field D8_Spec Chan_Model Chan_Spec Chan_Proofs Satzone_Model Satzone_Spec Satzone_Proofs.
Import ListNotations.
Local Open Scope Q_scope.

(* C29.  Any number of withdrawals that the storage of the layers can cover: the stored water changes by exactly the
   sum of the dzw, and the water table by the change of the wetted thickness.  Partial: dzw <= 0. *)
Theorem C29_falling_table_conserves_water_partial ls ys h dzws :
  layers_ok ls -> bounded ls ys -> Forall (fun d => d <= 0) dzws -> - qsuml (fun d => d) dzws <= stored ls ys ->
  let s' := wt_run ls (ys, h) dzws in
  stored ls (fst s') == stored ls ys + qsuml (fun d => d) dzws /\ snd s' - h == wetted (fst s') - wetted ys.
Proof.
  intros Ho Hb Hd Hs. apply (wt_run_fall ls dzws (ys, h)); [apply okl_of; exact Ho|apply bnd_iff; exact Hb|exact Hd|exact Hs].
Qed.
Print Assumptions C29_falling_table_conserves_water_partial.
(* A withdrawal that exceeds the storage empties the layers, and the rest lowers the table below them through the
   porosity of the lowest layer. *)
Theorem C29_drained_layers ls ys h dzw :
  layers_ok ls -> bounded ls ys -> dzw <= 0 -> stored ls ys < - dzw ->
  let s' := update_water_table ls ys h dzw in
  stored ls (fst s') == 0 /\ (h - snd s' - wetted ys) * qs (last ls lay0) == - dzw - stored ls ys.
Proof.
  intros Ho Hb Hd Hs. destruct (uwt_drain ls ys h dzw) as (y' & h' & E & B & F & Eh);
    [apply okl_of; exact Ho|apply bnd_iff; exact Hb|exact Hd|exact Hs|]. cbv zeta. rewrite E. cbn [fst snd]. split.
  - unfold stored. apply qsum_zero. intros k Hk.
    assert (get 0 y' k == 0); [|rewrite H; ring]. pose proof (bnd_length _ _ B) as L.
    unfold get. unfold empty in F. rewrite Forall_forall in F. apply F. apply nth_In. rewrite L. exact Hk.
  - rewrite Eh. assert (0 < qs (last ls lay0)).
    { destruct Ho as [H0 H1]. destruct ls as [|l t]; [cbn in H0; lia|].
      assert (In (last (l :: t) lay0) (l :: t)) as Hin.
      { destruct (exists_last (l := l :: t)) as (a & b & ->); [discriminate|]. rewrite last_last. apply in_or_app. right. left. reflexivity. }
      destruct (In_nth _ _ lay0 Hin) as (k & Hk & <-). apply (H1 k Hk). }
    field. lra.
Qed.
Print Assumptions C29_drained_layers.
(* What the code does for a rising table: however small the gain, all layers become full. *)
Theorem C29_any_gain_fills_the_layers ls ys h dzw :
  layers_ok ls -> bounded ls ys -> 0 < dzw ->
  let s' := update_water_table ls ys h dzw in
  (forall k, (k < length ls)%nat -> get 0 (fst s') k == th (get lay0 ls k)) /\
  snd s' == h + (thickness ls - wetted ys) + dzw.
Proof.
  intros Ho Hb Hd. destruct (uwt_rise ls ys h dzw) as (y' & h' & E & F & B & Eh);
    [apply okl_of; exact Ho|apply bnd_iff; exact Hb|exact Hd|]. cbv zeta. rewrite E. cbn [fst snd]. split; [|exact Eh].
  intros k Hk. apply (Forall2_get _ lay0) in F. apply F. exact Hk.
Qed.
Print Assumptions C29_any_gain_fills_the_layers.
(* So the full statement is false of the code: a gain is not conserved. *)
Theorem C29_rising_table_conserves_water_refuted :
  ~ (forall ls ys h dzw, layers_ok ls -> bounded ls ys -> 0 <= dzw -> dzw <= stored ls (map th ls) - stored ls ys ->
       stored ls (fst (update_water_table ls ys h dzw)) == stored ls ys + dzw).
Proof.
  intros H. specialize (H [mkLayer 10 (2#5) 1] [4] 4 1).
  assert (A : layers_ok [mkLayer 10 (2#5) 1]).
  { split; [cbn; lia|]. intros [|k] Hk; [|cbn in Hk; lia]. cbn. lra. }
  assert (B : bounded [mkLayer 10 (2#5) 1] [4]).
  { split; [reflexivity|]. intros [|k] Hk; [|cbn in Hk; lia]. cbn. lra. }
  specialize (H A B ltac:(vm_compute; discriminate) ltac:(vm_compute; discriminate)). vm_compute in H. discriminate H.
Qed.
Print Assumptions C29_rising_table_conserves_water_refuted.

(* Lateral flow: over the grid, the water gained by all cells is the recharge minus what leaves through the cells
   without a downstream neighbour. *)
Theorem C29_lateral_flow_conserves_water G O d8 da dt Rg Qg :
  geom_ok G -> (forall i, (i < D8_Model.ncells G)%nat -> closed_side G O i -> get 0%Z d8 i = 0%Z) ->
  (forall i, (i < D8_Model.ncells G)%nat -> 0 < da i) ->
  qsum (D8_Model.ncells G) (fun i => get 0 (update_dzw G d8 (D8_Model.update_parent_ID_grid G O d8) da dt Rg Qg) i * da i) ==
  dt * qsum (D8_Model.ncells G) (fun i => fat Rg i * da i)
  - dt * qsum (D8_Model.ncells G) (fun i => if has_parent G d8 i then 0 else get 0 Qg i).
Proof. intros HG Hc Ha. apply dzw_total; assumption. Qed.
Print Assumptions C29_lateral_flow_conserves_water.

Definition L2 : list layer := [mkLayer 2 (1#4) 1; mkLayer 3 (1#2) 1].
Example C29_demo : layers_ok L2 /\ bounded L2 [1; 3] /\ stored L2 [1; 3] == 7#4 /\
  let s' := wt_run L2 ([1; 3], 7) [-(1#8); -(1#4)] in stored L2 (fst s') == 11#8 /\ Qred (snd s') = 23#4 /\
  map Qred (fst s') = [0; 11#4].
Proof.
  split; [|split; [|vm_compute; repeat split; reflexivity]].
  - split; [cbn; lia|]. intros [|[|k]] Hk; [cbn; lra..|cbn in Hk; lia].
  - split; [reflexivity|]. intros [|[|k]] Hk; [cbn; lra..|cbn in Hk; lia].
Qed.

(* C30.  At every cell, at the start and after any number of updates with any recharge: 0 <= y_k <= th_k, and no layer
   holds water above a layer that is not full. *)
Theorem C30_wetted_thicknesses_bounded G d8 pid lays da ds dw dt h0 elev0 Rgs i :
  (forall j, (j < D8_Model.ncells G)%nat -> layers_ok (lays j)) -> (i < D8_Model.ncells G)%nat ->
  let ys := get [] (y (gw_run G d8 pid lays da ds dw dt (gw_init G lays h0 elev0) Rgs)) i in
  bounded (lays i) ys /\ no_perched (lays i) ys.
Proof.
  intros Hl Hi ys.
  assert (Ho : forall j, (j < D8_Model.ncells G)%nat -> okl (lays j)) by (intros j Hj; apply okl_of; apply Hl; exact Hj).
  destruct (ginv_run G d8 pid lays da ds dw dt Ho Rgs _ (ginv_init G lays Ho h0 elev0) i Hi) as [B P].
  split; [apply bnd_iff; exact B|]. apply packed_iff; [apply bnd_length; exact B|exact P].
Qed.
Print Assumptions C30_wetted_thicknesses_bounded.
(* The initial wetted thickness is the part of the layers below the water table. *)
Theorem C30_initial_thickness_matches_table ls h elev0 : layers_ok ls ->
  wetted (init_y h elev0 ls) == Qmin (Qmax (h - (elev0 - thickness ls)) 0) (thickness ls).
Proof. intros Ho. apply init_wetted. apply okl_of. exact Ho. Qed.
Print Assumptions C30_initial_thickness_matches_table.

Definition G3 : D8_Model.geom := D8_Model.mkGeom 3 3 1 1 (3#2).
Definition O3 : D8_Model.opts := D8_Model.mkOpts true true false false (-(9999#1)).
Definition d3 : list Z := [0; 0; 0;  0; 2; 0;  0; 0; 0]%Z.
Definition p3 := D8_Model.update_parent_ID_grid G3 O3 d3.
Notation one := (fun _ : nat => 1).
Notation run3 h0 e Rgs := (gw_run G3 d3 p3 (fun _ => L2) one one one 1 (gw_init G3 (fun _ => L2) h0 e) Rgs).
Example C30_demo : layers_ok L2 /\
  map (map Qred) (y (run3 (Grid [1;2;3;4;6;7;8;9;12]) (repeat 10 9) [])) =
    [[0; 0]; [0; 0]; [0; 0]; [0; 0]; [0; 1]; [0; 2]; [0; 3]; [1; 3]; [2; 3]] /\
  map (map Qred) (y (run3 (Grid [1;2;3;4;6;7;8;9;12]) (repeat 10 9) [Scalar (-(1#10))])) =
    [[0; 0]; [0; 0]; [0; 0]; [0; 0]; [2; 3]; [0; 0]; [0; 0]; [0; 0]; [0; 0]].
Proof.
  split; [split; [cbn; lia|]; intros [|[|k]] Hk; [cbn; lra..|cbn in Hk; lia]|]. split; vm_compute; reflexivity.
Qed.

(* C53.  The water table lies at the top of the wetted layers.  Partial: at the start, for a table within the layers, and
   as long as the table only falls and the layers can supply the water. *)
Theorem C53_table_at_top_of_wetted_layers_partial ls h elev0 dzws :
  layers_ok ls -> elev0 - thickness ls <= h -> h <= elev0 ->
  Forall (fun d => d <= 0) dzws -> - qsuml (fun d => d) dzws <= stored ls (init_y h elev0 ls) ->
  let s' := wt_run ls (init_y h elev0 ls, h) dzws in
  snd s' == elev0 - thickness ls + wetted (fst s').
Proof.
  intros Ho H1 H2 Hd Hs s'. pose proof (okl_of _ Ho) as Ho'.
  destruct (wt_run_fall ls dzws (init_y h elev0 ls, h) Ho' (init_bnd h elev0 ls Ho') Hd Hs) as [_ E]. cbn [fst snd] in E. fold s' in E.
  rewrite (init_wetted h elev0 ls Ho') in E. pose proof (thickness_nonneg ls Ho').
  rewrite Q.min_l in E; rewrite Q.max_l in * by lra; lra.
Qed.
Print Assumptions C53_table_at_top_of_wetted_layers_partial.
(* After water has risen above the layers the two disagree for good, even when the table is far below the surface. *)
Theorem C53_table_at_top_of_wetted_layers_refuted :
  ~ (forall ls h elev0 dzws, layers_ok ls -> elev0 - thickness ls <= h -> h <= elev0 ->
       let s' := wt_run ls (init_y h elev0 ls, h) dzws in
       get 0 (fst s') 0 < th (get lay0 ls 0) -> snd s' == elev0 - thickness ls + wetted (fst s')).
Proof.
  intros H. specialize (H L2 8 10 [1; -(1#4)]).
  assert (A : layers_ok L2) by (split; [cbn; lia|]; intros [|[|k]] Hk; [cbn; lra..|cbn in Hk; lia]).
  specialize (H A ltac:(vm_compute; discriminate) ltac:(vm_compute; discriminate) ltac:(vm_compute; reflexivity)).
  vm_compute in H. discriminate H.
Qed.
Print Assumptions C53_table_at_top_of_wetted_layers_refuted.
Example C53_demo : 10 - thickness L2 <= 9 /\ 9 <= 10 /\ - qsuml (fun d => d) [-(1#8); -(1#4)] <= stored L2 (init_y 9 10 L2) /\
  wetted (fst (wt_run L2 (init_y 9 10 L2, 9) [-(1#8); -(1#4)])) == 11#4.
Proof. split; [vm_compute; discriminate|]. split; [vm_compute; discriminate|]. split; [vm_compute; discriminate|vm_compute; reflexivity]. Qed.

(* C54.  Groundwater outflow of a cell is the Darcy flow for the current water table: sum over layers of
   Ks x slope x width x wetted thickness.  Partial: as long as the cell's outflow has not been negative. *)
Definition darcy (pid : list Z) (lays : nat -> list layer) (ds dw : nat -> Q) (s : gw) (i : nat) : Q :=
  qsum (length (lays i)) (fun k =>
    Ks (get lay0 (lays i) k) * ((get 0 (h_table s) i - get 0 (h_table s) (Z.to_nat (get 0%Z pid i))) / ds i) * dw i
    * get 0 (get [] (y s) i) k).
Theorem C54_outflow_is_darcy_flow_partial G d8 pid lays da ds dw dt h0 elev0 Rgs Rg i :
  (forall j, (j < D8_Model.ncells G)%nat -> layers_ok (lays j)) -> (i < D8_Model.ncells G)%nat ->
  let s := gw_run G d8 pid lays da ds dw dt (gw_init G lays h0 elev0) Rgs in
  0 <= get 0 (Q_gw s) i ->
  get 0 (Q_gw (gw_update G d8 pid lays da ds dw dt s Rg)) i == darcy pid lays ds dw s i.
Proof.
  intros Hl Hi s Hq.
  assert (Ho : forall j, (j < D8_Model.ncells G)%nat -> okl (lays j)) by (intros j Hj; apply okl_of; apply Hl; exact Hj).
  change (Q_gw (gw_update G d8 pid lays da ds dw dt s Rg)) with (update_Q_gw G pid lays ds dw s).
  rewrite (Q_gw_spec G pid lays ds dw s i); [|apply ginv_run; [exact Ho|apply ginv_init; exact Ho]|exact Hi].
  rewrite Q.min_r by exact Hq. unfold darcy, Sh. ring.
Qed.
Print Assumptions C54_outflow_is_darcy_flow_partial.
(* A negative outflow (table lower than downstream) is carried over and added to all later ones. *)
Theorem C54_outflow_is_darcy_flow_refuted :
  ~ (forall G d8 pid lays da ds dw dt h0 elev0 Rgs Rg i,
       (forall j, (j < D8_Model.ncells G)%nat -> layers_ok (lays j)) -> (i < D8_Model.ncells G)%nat ->
       let s := gw_run G d8 pid lays da ds dw dt (gw_init G lays h0 elev0) Rgs in
       get 0 (Q_gw (gw_update G d8 pid lays da ds dw dt s Rg)) i == darcy pid lays ds dw s i).
Proof.
  intros H. specialize (H G3 d3 p3 (fun _ => L2) one one one 1 (Grid [6;6;6;6;6;7;6;6;6]) (repeat 10 9)
    [Scalar 0] (Scalar 0) 4%nat).
  assert (A : layers_ok L2) by (split; [cbn; lia|]; intros [|[|k]] Hk; [cbn; lra..|cbn in Hk; lia]).
  specialize (H (fun _ _ => A) ltac:(vm_compute; lia)). vm_compute in H. discriminate H.
Qed.
Print Assumptions C54_outflow_is_darcy_flow_refuted.
Example C54_demo : 0 <= get 0 (Q_gw (run3 (Grid [6;6;6;6;7;6;6;6;6]) (repeat 10 9) [Scalar 0])) 4 /\
  ~ get 0 (Q_gw (run3 (Grid [6;6;6;6;7;6;6;6;6]) (repeat 10 9) [Scalar 0])) 4 == 0.
Proof. split; vm_compute; discriminate. Qed.

(* C55.  Seepage.  The rate is never negative, the reported seepage volume never decreases, and water seeps only where
   the table rose; then the rate is the rise per time.  Partial: "above the land surface" is replaced by "above the
   bottom of the lowest layer". *)
Theorem C55_seepage_from_rising_table_partial G d8 pid lays da ds dw dt h0 elev0 Rgs Rg i :
  0 < dt -> (forall j, (j < D8_Model.ncells G)%nat -> 0 <= da j) -> (i < D8_Model.ncells G)%nat ->
  let s := gw_run G d8 pid lays da ds dw dt (gw_init G lays h0 elev0) Rgs in
  let s' := gw_update G d8 pid lays da ds dw dt s Rg in
  0 <= get 0 (GWr s') i /\ vol_GW s <= vol_GW s' /\
  (0 < get 0 (GWr s') i ->
     get 0 elev0 i - thickness (lays i) < get 0 (h_table s') i /\
     get 0 (GWr s') i * dt == get 0 (h_table s') i - get 0 (h_last s) i).
Proof.
  intros Ht Ha Hi s s'. split; [|split].
  - unfold s', gw_update. cbn [GWr]. apply seep_nonneg. exact Hi.
  - apply (run_volume G d8 pid lays da ds dw dt [Rg] s); [exact Ha|lra].
  - intros Hp. unfold s', gw_update in Hp |- *. cbn [GWr h_table] in Hp |- *.
    destruct (seep_pos G d8 dt _ _ _ i Ht Hi Hp) as [H1 H2]. split; [|exact H2].
    unfold s in H1. rewrite elev_run in H1. unfold gw_init in H1. cbn [elev] in H1.
    rewrite get_tab, elev_after in H1 by exact Hi. exact H1.
Qed.
Print Assumptions C55_seepage_from_rising_table_partial.
(* initialize() lowers the component's copy of the land surface to the bottom of the layers, so water also seeps where
   the table is below the land surface. *)
Theorem C55_no_seepage_below_land_surface_refuted :
  ~ (forall G d8 pid lays da ds dw dt h0 elev0 Rgs i,
       (forall j, (j < D8_Model.ncells G)%nat -> layers_ok (lays j)) -> (i < D8_Model.ncells G)%nat -> 0 < dt ->
       let s := gw_run G d8 pid lays da ds dw dt (gw_init G lays h0 elev0) Rgs in
       0 < get 0 (GWr s) i -> get 0 elev0 i < get 0 (h_table s) i).
Proof.
  intros H. specialize (H G3 d3 p3 (fun _ => L2) one one one 1 (Scalar 1) (repeat 10 9) [Scalar (1#10)] 4%nat).
  assert (A : layers_ok L2) by (split; [cbn; lia|]; intros [|[|k]] Hk; [cbn; lra..|cbn in Hk; lia]).
  specialize (H (fun _ _ => A) ltac:(vm_compute; lia) ltac:(reflexivity) ltac:(vm_compute; reflexivity)). vm_compute in H. discriminate H.
Qed.
Print Assumptions C55_no_seepage_below_land_surface_refuted.
Example C55_demo : 0 < get 0 (GWr (run3 (Scalar 6) (repeat 10 9) [Scalar (1#10)])) 4 /\
  0 < vol_GW (run3 (Scalar 6) (repeat 10 9) [Scalar (1#10)]).
Proof. split; vm_compute; reflexivity. Qed.
