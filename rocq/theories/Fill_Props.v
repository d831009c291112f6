(* Theorems about pit filling (C02, C03, C04). *)
From Coq Require Import ZArith QArith Qminmax List Lia Lqa.
From Verif Require Import Base Fill_Model Fill_Spec Fill_Main.
Import ListNotations.
Local Open Scope Q_scope.

(* C02.  For every grid shape and every DEM (None = NaN or infinite, read as -9999), fill_pits terminates
   with a DEM of the same size; no elevation is lowered, every new elevation already occurs in the DEM, and
   the start pixels keep their elevation.  The only other outcome is the ValueError that get_start_pixels
   raises when its preallocated ID array is too short. *)
Theorem C02_fill_pits_never_lowers_and_terminates : forall nx ny nodata dem0,
  (1 <= nx)%nat -> (1 <= ny)%nat -> length dem0 = (nx * ny)%nat ->
  let dem := elevations dem0 in
  get_start_pixels nx ny dem <> None ->
  exists IDs dem', get_start_pixels nx ny dem = Some IDs /\
    fill_pits nx ny nodata dem0 = Some (Done dem') /\ length dem' = (nx * ny)%nat /\
    (forall c, (c < nx * ny)%nat -> get 0 dem c <= get 0 dem' c /\
               exists j, (j < nx * ny)%nat /\ get 0 dem' c == get 0 dem j) /\
    (forall c, In c IDs -> get 0 dem' c = get 0 dem c).
Proof. intros nx ny nodata dem0 Hx Hy. exact (fill_safe nx ny Hx Hy nodata dem0). Qed.
Print Assumptions C02_fill_pits_never_lowers_and_terminates.

(* The ValueError needs more than 500*(nx+ny) start pixels: nodata-free DEMs never raise it. *)
Theorem C02_nodata_free_never_fails : forall nx ny z,
  (1 <= nx)%nat -> (1 <= ny)%nat -> length z = (nx * ny)%nat ->
  (forall i, (i < nx * ny)%nat -> START_NODATA < get 0 z i) ->
  exists IDs, get_start_pixels nx ny z = Some IDs /\ forall i, In i IDs <-> start_cell nx ny i.
Proof. intros nx ny z Hx Hy. exact (start_pixels_clean nx ny Hx Hy z). Qed.
Print Assumptions C02_nodata_free_never_fails.

(* C03.  For every DEM: a cell reached from the start pixels gets the minimax elevation over all paths
   between cells whose pixel IDs differ like 8-neighbours and that avoid the cells closed at 424-428; a cell
   not reached keeps its elevation. *)
Theorem C03_fill_pits_minimax_over_ID_paths : forall nx ny nodata dem0 IDs,
  (1 <= nx)%nat -> (1 <= ny)%nat -> length dem0 = (nx * ny)%nat ->
  let dem := elevations dem0 in
  let adj := id_adjacent nx ny in
  let start := fun s => In s IDs in
  let ok := fun v => In v IDs \/ ~ wrongly_closed nx ny nodata dem v in
  get_start_pixels nx ny dem = Some IDs ->
  exists dem', fill_pits nx ny nodata dem0 = Some (Done dem') /\
    forall c, (c < nx * ny)%nat ->
      (minimax adj start ok (get 0 dem) c (get 0 dem' c) /\
       exists l, route adj start ok c l /\ non_ascending (get 0 dem') l)
      \/ ((forall l, ~ route adj start ok c l) /\ get 0 dem' c = get 0 dem c).
Proof.
  intros nx ny nodata dem0 IDs Hx Hy Hl dem adj start ok HI.
  destruct (fill_general nx ny Hx Hy nodata dem0 IDs Hl HI) as (d & H1 & _ & _ & _ & H5).
  exists d. split; [exact H1|]. intros c Hc. destruct (H5 c Hc) as [(_ & H6 & H7)|H6]; [left; split|right]; assumption.
Qed.
Print Assumptions C03_fill_pits_minimax_over_ID_paths.

(* C03.  Nodata-free DEMs, true 8-neighbours: after filling, every cell has a non-ascending path to the edge
   of the grid; its elevation is at most the minimax over paths from the start pixels and at least the
   minimax over paths from the edge of the grid. *)
Theorem C03_filled_dem_is_depression_free : forall nx ny nodata z,
  (1 <= nx)%nat -> (1 <= ny)%nat -> length z = (nx * ny)%nat -> START_NODATA <= nodata ->
  (forall i, (i < nx * ny)%nat -> nodata < get 0 z i) ->
  exists z', fill_pits nx ny nodata (map Some z) = Some (Done z') /\
    forall c, (c < nx * ny)%nat ->
      (exists l, route (grid_adjacent nx ny) (edge_cell nx ny) (fun _ => True) c l /\ non_ascending (get 0 z') l) /\
      (exists l, route (grid_adjacent nx ny) (edge_cell nx ny) (fun _ => True) c l /\ highest (get 0 z) l <= get 0 z' c) /\
      (forall l, route (grid_adjacent nx ny) (start_cell nx ny) (fun _ => True) c l -> get 0 z' c <= highest (get 0 z) l).
Proof. intros nx ny nodata z Hx Hy. exact (fill_depression_free nx ny Hx Hy nodata z). Qed.
Print Assumptions C03_filled_dem_is_depression_free.

(* C03 (partial).  The exact minimax with true 8-neighbours.  Missing: DEMs in which one of the two boundary
   cells of the row above the last one is strictly lower than all its start neighbours; there the claim is
   false (C03_minimax_refuted). *)
Theorem C03_fill_pits_minimax_partial : forall nx ny nodata z,
  (1 <= nx)%nat -> (1 <= ny)%nat -> length z = (nx * ny)%nat -> START_NODATA <= nodata ->
  (forall i, (i < nx * ny)%nat -> nodata < get 0 z i) ->
  (forall b, forgotten nx ny b ->
     exists s, start_cell nx ny s /\ grid_adjacent nx ny s b /\ get 0 z s <= get 0 z b) ->
  exists z', fill_pits nx ny nodata (map Some z) = Some (Done z') /\
    forall c, (c < nx * ny)%nat ->
      minimax (grid_adjacent nx ny) (start_cell nx ny) (fun _ => True) (get 0 z) c (get 0 z' c).
Proof. intros nx ny nodata z Hx Hy. exact (fill_minimax_grid nx ny Hx Hy nodata z). Qed.
Print Assumptions C03_fill_pits_minimax_partial.

(* Non-vacuity: a 5x5 DEM with a pit of depth 4 in the middle and an outlet on the first row. *)
Definition pit5 : list Q := map inject_Z
  [9; 9; 3; 9; 9;
   9; 8; 7; 8; 9;
   9; 8; 1; 2; 9;
   9; 8; 8; 8; 9;
   9; 9; 9; 9; 9]%Z.
Example C03_hypotheses_met : length pit5 = 25%nat /\ (forall i, (i < 25)%nat -> START_NODATA < get 0 pit5 i) /\
  (forall b, forgotten 5 5 b ->
     exists s, start_cell 5 5 s /\ grid_adjacent 5 5 s b /\ get 0 pit5 s <= get 0 pit5 b).
Proof.
  split; [reflexivity|]. split.
  - intros i Hi. do 25 (destruct i as [|i]; [vm_compute; reflexivity|]). lia.
  - intros b (Hb & Hr & _ & Hc). cbn in Hb, Hr.
    exists (if Nat.eqb b 15 then 20 else 24)%nat.
    do 25 (destruct b as [|b]; [first [discriminate Hr | destruct Hc; discriminate |
       unfold start_cell, grid_adjacent; cbn; repeat split; try lia; intros H; discriminate H]|]). lia.
Qed.
Example C02_demo : fill_pits 5 5 START_NODATA (map Some pit5) = Some (Done (map inject_Z
  [9; 9; 3; 9; 9;
   9; 8; 7; 8; 9;
   9; 8; 7; 7; 9;
   9; 8; 8; 8; 9;
   9; 9; 9; 9; 9]%Z)).
Proof. vm_compute. reflexivity. Qed.

(* The unconditional true-8-neighbour claim is false of the code.  In this 3x4 DEM cell 6 = (2,0) is lower
   than all of its neighbours and is not a start pixel, but the code floods it from cell 5 = (1,2), whose ID
   is one less although it lies on the opposite edge. *)
Definition wrap34 : list Q := map inject_Z
  [9; 9; 9;
   9; 9; 0;
   0; 9; 9;
   9; 9; 9]%Z.
Theorem C03_minimax_refuted :
  ~ (forall nx ny nodata z,
      (1 <= nx)%nat -> (1 <= ny)%nat -> length z = (nx * ny)%nat -> START_NODATA <= nodata ->
      (forall i, (i < nx * ny)%nat -> nodata < get 0 z i) ->
      exists z', fill_pits nx ny nodata (map Some z) = Some (Done z') /\
        forall c, (c < nx * ny)%nat ->
          minimax (grid_adjacent nx ny) (start_cell nx ny) (fun _ => True) (get 0 z) c (get 0 z' c)).
Proof.
  intros H. destruct (H 3%nat 4%nat START_NODATA wrap34) as (z' & H1 & H2); [lia|lia|reflexivity|discriminate| |].
  { intros i Hi. do 12 (destruct i as [|i]; [vm_compute; reflexivity|]). lia. }
  assert (E : fill_pits 3 4 START_NODATA (map Some wrap34) = Some (Done wrap34)) by (vm_compute; reflexivity).
  rewrite E in H1. inversion H1; subst z'. clear H1 E.
  destruct (H2 6%nat) as [(l & Hr & Hh) _]; [lia|].
  inversion Hr as [s Hs|u t v Hr' Hadj _]; subst.
  - destruct Hs as (_ & [Hs|[Hs|[Hs _]]]); cbn in Hs; lia.
  - assert (Hu : (u < 12)%nat). { inversion Hr'; subst; [apply H0|apply H1]. }
    assert (H9 : get 0 wrap34 u == 9).
    { destruct Hadj as (_ & Hne & Hrow & Hcol).
      do 12 (destruct u as [|u]; [first [reflexivity | exfalso; cbn in Hrow, Hcol; lia]|]). lia. }
    assert (Hge : get 0 wrap34 u <= highest (get 0 wrap34) t) by (eapply highest_last; exact Hr').
    assert (Hge2 : highest (get 0 wrap34) t <= highest (get 0 wrap34) (6%nat :: t)).
    { rewrite Fill_Proofs.highest_cons by (eapply Fill_Proofs.route_ne; exact Hr'). apply Q.le_max_r. }
    change (get 0 wrap34 6) with (0#1) in Hh. lra.
Qed.
Print Assumptions C03_minimax_refuted.

(* C04 (partial).  In a nodata-free DEM every edge cell keeps its elevation, except possibly the two cells
   (ny-2, 0) and (ny-2, nx-1).  Missing: those two cells and nodata cells, for which the claim is false. *)
Theorem C04_edge_cells_unchanged_partial : forall nx ny nodata z,
  (1 <= nx)%nat -> (1 <= ny)%nat -> length z = (nx * ny)%nat -> START_NODATA <= nodata ->
  (forall i, (i < nx * ny)%nat -> nodata < get 0 z i) ->
  exists z', fill_pits nx ny nodata (map Some z) = Some (Done z') /\
    forall c, edge_cell nx ny c -> ~ forgotten nx ny c -> get 0 z' c = get 0 z c.
Proof.
  intros nx ny nodata z Hx Hy Hl Hn Hz. destruct (fill_minimax nx ny Hx Hy nodata z Hl Hn Hz) as (z' & H1 & _ & H3 & _).
  exists z'. split; [exact H1|]. intros c Hc Hf. apply H3. exact (edge_not_forgotten nx ny Hx Hy c Hc Hf).
Qed.
Print Assumptions C04_edge_cells_unchanged_partial.
Example C04_demo_edges : edge_cell 5 5 2 /\ ~ forgotten 5 5 2 /\ edge_cell 5 5 10 /\ ~ forgotten 5 5 10.
Proof.
  unfold edge_cell, forgotten. cbn. repeat split; try lia; intros (_ & H & _); discriminate H.
Qed.

(* C04, edge cells: false of the code.  All cells are 9 except (2,0), a boundary cell, which is raised. *)
Theorem C04_edge_cell_unchanged_refuted :
  ~ (forall nx ny nodata z z', length z = (nx * ny)%nat -> (forall i, (i < nx * ny)%nat -> nodata < get 0 z i) ->
       fill_pits nx ny nodata (map Some z) = Some (Done z') ->
       forall c, edge_cell nx ny c -> get 0 z' c == get 0 z c).
Proof.
  intros H. set (z := map inject_Z [9; 9; 9;  9; 9; 9;  0; 9; 9;  9; 9; 9]%Z).
  assert (E : fill_pits 3 4 START_NODATA (map Some z) =
              Some (Done (map inject_Z [9; 9; 9;  9; 9; 9;  9; 9; 9;  9; 9; 9]%Z))) by (vm_compute; reflexivity).
  assert (Hz : forall i, (i < 3 * 4)%nat -> START_NODATA < get 0 z i).
  { intros i Hi. do 12 (destruct i as [|i]; [vm_compute; reflexivity|]). lia. }
  specialize (H 3%nat 4%nat START_NODATA z _ eq_refl Hz E 6%nat).
  assert (He : edge_cell 3 4 6) by (unfold edge_cell; cbn; lia). specialize (H He). vm_compute in H. discriminate H.
Qed.
Print Assumptions C04_edge_cell_unchanged_refuted.

(* C04, nodata cells: false of the code.  The nodata cell (1,1) of a 4x4 DEM is overwritten. *)
Theorem C04_nodata_cell_unchanged_refuted :
  ~ (forall nx ny nodata z z', length z = (nx * ny)%nat -> fill_pits nx ny nodata (map Some z) = Some (Done z') ->
       forall c, (c < nx * ny)%nat -> get 0 z c == nodata -> get 0 z' c == get 0 z c).
Proof.
  intros H. set (z := map inject_Z [9; 9; 9; 9;  9; -9999; 9; 9;  9; 9; 9; 9;  9; 9; 9; 9]%Z).
  assert (E : fill_pits 4 4 START_NODATA (map Some z) =
              Some (Done (map inject_Z [9; 9; 9; 9;  9; 9; 9; 9;  9; 9; 9; 9;  9; 9; 9; 9]%Z))) by (vm_compute; reflexivity).
  specialize (H 4%nat 4%nat START_NODATA z _ eq_refl E 5%nat ltac:(cbn; lia) ltac:(reflexivity)). vm_compute in H. discriminate H.
Qed.
Print Assumptions C04_nodata_cell_unchanged_refuted.
