(* Theorems about channel water volumes, peaks and checks (C11, C12, C13, C16, C17, C18, C47). *)
From Coq Require Import ZArith QArith Qminmax List Bool Lia Lqa.
From Verif Require Import Base D8_Spec Chan_Model Chan_Spec Chan_Proofs.
From Verif Require D8_Model.
Import ListNotations.
Local Open Scope Q_scope.

(* C11.  One step of update_flow_volume, for every D8 grid whose non-periodic sides carry no code: each cell
   ends with what it held, plus its lateral supply, plus dt times the discharge of the cells that flow to it,
   minus dt times its own discharge, clipped at 0. *)
Theorem C11_every_cell_receives_its_inflow : forall G O d8 da dt att R Qg v st, geom_ok G ->
  (forall i, (i < D8_Model.ncells G)%nat -> closed_side G O i -> get 0%Z d8 i = 0%Z) ->
  length v = D8_Model.ncells G -> length st = D8_Model.ncells G ->
  let r := update_flow_volume G d8 (D8_Model.update_parent_ID_grid G O d8) da dt att R Qg v st in
  forall i, (i < D8_Model.ncells G)%nat ->
    get 0 (fst r) i ==
    Qmax (get 0 v i + lateral da dt att R st i
          + dt * qsum (D8_Model.ncells G) (fun j => if flows_to G d8 j i then get 0 Qg j else 0)
          - dt * get 0 Qg i) 0.
Proof.
  intros G O d8 da dt att R Qg v st HG Hc Hv Hst.
  exact (proj1 (proj2 (proj2 (flow_volume_spec G HG d8 O Hc dt da att R Qg v st Hv Hst)))).
Qed.
Print Assumptions C11_every_cell_receives_its_inflow.

(* C11 and C12.  Total water (channels plus hillslope store) after the step: total before, plus the runoff,
   minus the discharge leaving through cells without a downstream neighbour, plus the overdraft of the clipped
   cells. *)
Theorem C11_flow_volume_conserves : forall G O d8 da dt att R Qg v st, geom_ok G ->
  (forall i, (i < D8_Model.ncells G)%nat -> closed_side G O i -> get 0%Z d8 i = 0%Z) ->
  length v = D8_Model.ncells G -> length st = D8_Model.ncells G ->
  let n := D8_Model.ncells G in
  let r := update_flow_volume G d8 (D8_Model.update_parent_ID_grid G O d8) da dt att R Qg v st in
  total (fst r) + total (snd r) ==
  total v + total st + dt * qsum n (fun i => fat R i * da i)
  - dt * qsum n (fun i => if has_parent G d8 i then 0 else get 0 Qg i)
  + qsum n (overdraft G d8 dt (lateral da dt att R st) Qg v).
Proof.
  intros G O d8 da dt att R Qg v st HG Hc Hv Hst. exact (flow_volume_balance G HG d8 O Hc dt da att R Qg v st Hv Hst).
Qed.
Print Assumptions C11_flow_volume_conserves.

(* C11 and C12 over whole runs: after any number of update() calls with any runoff, velocities and wetted
   areas, channel water + hillslope store + water accumulated at the edges differs from its initial value by
   exactly the accumulated runoff vol_R plus the overdrafts, which are never negative. *)
Theorem C11_run_conserves : forall G O d8 da dt ds width bank FLOOD scalar_da att xs s, geom_ok G ->
  (forall i, (i < D8_Model.ncells G)%nat -> closed_side G O i -> get 0%Z d8 i = 0%Z) ->
  code_grid G d8 ->
  (scalar_da = true -> forall i, (i < D8_Model.ncells G)%nat -> da i == da 0%nat) ->
  ok G d8 FLOOD s -> Forall (sized G) xs ->
  let pid := D8_Model.update_parent_ID_grid G O d8 in
  let s' := run G d8 pid da ds width bank dt FLOOD scalar_da att s xs in
  let created := run_overdraft G d8 da dt pid ds width bank FLOOD scalar_da att s xs in
  ok G d8 FLOOD s' /\ stock s' - vol_R s' == stock s - vol_R s + created /\ 0 <= created.
Proof.
  intros G O d8 da dt ds width bank FLOOD sc att xs s HG Hc Hcg Hsc.
  exact (run_balance G HG d8 O Hc dt da ds width bank FLOOD sc att Hcg Hsc xs s).
Qed.
Print Assumptions C11_run_conserves.

(* C12.  Volumes are never negative after a run that starts with non-negative ones. *)
Theorem C12_volumes_nonnegative : forall G O d8 da dt ds width bank FLOOD scalar_da att xs s, geom_ok G ->
  (forall i, (i < D8_Model.ncells G)%nat -> closed_side G O i -> get 0%Z d8 i = 0%Z) ->
  code_grid G d8 ->
  (scalar_da = true -> forall i, (i < D8_Model.ncells G)%nat -> da i == da 0%nat) ->
  ok G d8 FLOOD s -> Forall (sized G) xs ->
  (forall i, (i < D8_Model.ncells G)%nat -> 0 <= get 0 (vol s) i) ->
  forall i, (i < D8_Model.ncells G)%nat ->
    0 <= get 0 (vol (run G d8 (D8_Model.update_parent_ID_grid G O d8) da ds width bank dt FLOOD scalar_da att s xs)) i.
Proof.
  intros G O d8 da dt ds width bank FLOOD sc att xs s HG Hc Hcg Hsc.
  exact (vol_nonneg G HG d8 O Hc dt da ds width bank FLOOD sc att Hcg Hsc xs s).
Qed.
Print Assumptions C12_volumes_nonnegative.

(* C12.  A step creates no water exactly when no cell gives away more than it holds and receives. *)
Theorem C12_no_water_created_iff : forall G d8 dt lat Qg v,
  qsum (D8_Model.ncells G) (overdraft G d8 dt lat Qg v) == 0 <->
  forall i, (i < D8_Model.ncells G)%nat ->
    dt * get 0 Qg i <= get 0 v i + lat i + dt * inflow G d8 Qg i.
Proof.
  intros G d8 dt lat Qg v. rewrite qsum_zero_iff by (intros i _; apply overdraft_nonneg).
  split; intros H i Hi; apply overdraft_zero; apply H; exact Hi.
Qed.
Print Assumptions C12_no_water_created_iff.

(* Non-vacuity: a 3x3 grid whose centre drains east, with and without clipping. *)
Definition G3 : D8_Model.geom := D8_Model.mkGeom 3 3 1 1 (3#2).
Definition O3 : D8_Model.opts := D8_Model.mkOpts true true false false (-(9999#1)).
Definition d3 : list Z := [0; 0; 0;  0; 2; 0;  0; 0; 0]%Z.
Definition s3 : state := mkSt (repeat 1 9) (repeat 0 9) (repeat 1 9) (repeat 0 9) (repeat 0 9)
                              [0; 0; 0; 0; 1#2; 0; 0; 0; 0] (repeat 1 9) 0 0.
Definition x3 : inputs := mkIn (Grid (repeat 2 9)) (repeat 1 9) (repeat 1 9) (repeat (1#4) 9).
Definition run3 (dt : Q) := run G3 d3 (D8_Model.update_parent_ID_grid G3 O3 d3) (fun _ => 1) (fun _ => 1) (fun _ => 1)
                                (repeat 1 9) dt true true None s3 [x3; x3].
Example C11_demo_hypotheses :
  geom_ok G3 /\ (forall i, (i < 9)%nat -> closed_side G3 O3 i -> get 0%Z d3 i = 0%Z) /\ code_grid G3 d3 /\
  ok G3 d3 true s3 /\ Forall (sized G3) [x3; x3].
Proof.
  split; [repeat split; reflexivity|]. split; [|split; [|split]].
  - intros i Hi Hs. do 9 (destruct i as [|i]; [first [reflexivity |
      exfalso; destruct Hs as [[_ [H|H]]|[_ [H|H]]]; vm_compute in H; discriminate H]|]). lia.
  - split; [reflexivity|]. intros i Hi. do 9 (destruct i as [|i]; [first [left; reflexivity | right; discriminate]|]). vm_compute in Hi. lia.
  - split; try reflexivity; intros;
      match goal with H : In _ _ |- _ => vm_compute in H end;
      repeat match goal with H : _ \/ _ |- _ => destruct H as [<-|H] end; try contradiction; reflexivity.
  - repeat constructor.
Qed.
Example C11_demo : Qred (stock (run3 1)) = 45 /\ Qred (vol_R (run3 1)) = 36 /\ stock s3 == 9 /\
                   map Qred (vol (run3 1)) = [0; 0; 0; 0; 11#4; 0; 0; 0; 0].
Proof. vm_compute. auto. Qed.
Definition x3dry : inputs := mkIn (Grid (repeat (-(2#1)) 9)) (repeat 1 9) (repeat 1 9) (repeat 1 9).
Example C12_demo_clipping :
  qsum 9 (step_overdraft G3 d3 (fun _ => 1) 1 (fun _ => 1) true None s3 x3dry) == 9.
Proof. vm_compute. reflexivity. Qed.

(* C13.  The split made by update_channel_volume and update_flood_volume. *)
Theorem C13_channel_flood_split : forall G bank v i, (i < D8_Model.ncells G)%nat ->
  let c := get 0 (update_channel_volume G bank v) i in
  let f := get 0 (update_flood_volume G bank v) i in
  c + f == get 0 v i /\ c <= get 0 bank i /\ 0 <= f /\ (0 < f -> c == get 0 bank i) /\
  (0 <= get 0 v i -> 0 <= get 0 bank i -> 0 <= c).
Proof. exact split_spec. Qed.
Print Assumptions C13_channel_flood_split.
Example C13_demo :
  map Qred (update_channel_volume G3 (repeat 3 9) (map inject_Z [0; 1; 2; 3; 4; 5; 6; 7; 8]%Z)) = map inject_Z [0; 1; 2; 3; 3; 3; 3; 3; 3]%Z /\
  map Qred (update_flood_volume G3 (repeat 3 9) (map inject_Z [0; 1; 2; 3; 4; 5; 6; 7; 8]%Z)) = map inject_Z [0; 0; 0; 0; 1; 2; 3; 4; 5]%Z.
Proof. vm_compute. auto. Qed.

(* C13 at the end of update(): false of the code.  update_edge_values empties vol and vol_flood on the cells
   without a flow direction but not vol_chan, which the final report sums (update_total_channel_water_volume);
   their water is then counted both there and in vol_edge. *)
Theorem C13_split_after_update_refuted :
  ~ (forall G O d8 da dt ds width bank scalar_da att s x, geom_ok G ->
       (forall i, (i < D8_Model.ncells G)%nat -> closed_side G O i -> get 0%Z d8 i = 0%Z) ->
       ok G d8 true s -> sized G x ->
       let s' := update G d8 (D8_Model.update_parent_ID_grid G O d8) da ds width bank dt true scalar_da att s x in
       forall i, (i < D8_Model.ncells G)%nat -> get 0 (vol_chan s') i + get 0 (vol_flood s') i == get 0 (vol s') i).
Proof.
  intros H. destruct C11_demo_hypotheses as (H1 & H2 & _ & H4 & H5). inversion H5 as [|? ? H6 _]; subst.
  specialize (H G3 O3 d3 (fun _ => 1) 1 (fun _ => 1) (fun _ => 1) (repeat 1 9) true None s3 x3 H1 H2 H4 H6 5%nat ltac:(cbn; lia)).
  vm_compute in H. discriminate H.
Qed.
Print Assumptions C13_split_after_update_refuted.

(* C16.  After any sequence of outlet samples the peak of Q, u and d is the largest of the initial value and
   all samples, together with the time of its first occurrence. *)
Theorem C16_peaks_are_running_maxima : forall p0 hist,
  let p := fold_left update_peak_values hist p0 in
  is_peak (Q_peak p0) (map (fun s => (s_Q s, s_t s)) hist) (Q_peak p) /\
  is_peak (u_peak p0) (map (fun s => (s_u s, s_t s)) hist) (u_peak p) /\
  is_peak (d_peak p0) (map (fun s => (s_d s, s_t s)) hist) (d_peak p).
Proof. intros p0 hist. exact (peaks_run hist [] p0 p0 (is_peak_nil _) (is_peak_nil _) (is_peak_nil _)). Qed.
Print Assumptions C16_peaks_are_running_maxima.
Example C16_demo : fold_left update_peak_values
  [mkSample 1 5 1 10; mkSample 4 2 1 20; mkSample 4 3 2 30; mkSample 2 5 0 40] peaks0 = mkPeaks (4, 20) (5, 10) (2, 30).
Proof. vm_compute. reflexivity. Qed.

(* C17.  remove_bad_slopes, for slope grids with NaN, zero, negative and infinite entries. *)
Theorem C17_bad_slopes_repaired : forall sl,
  ((exists x, In x sl /\ good x) ->
   exists sl', remove_bad_slopes sl = Some sl' /\ length sl' = length sl /\
     (forall x, In x sl' -> good x) /\
     forall i, (i < length sl)%nat ->
       (good (nth i sl NaN) -> nth i sl' NaN = nth i sl NaN) /\
       (~ good (nth i sl NaN) -> exists m, nth i sl' NaN = Fin m /\ In (Fin m) sl /\ 0 < m /\
                                forall q, In (Fin q) sl -> 0 < q -> m <= q)) /\
  ((forall x, In x sl -> ~ good x) -> sl <> [] -> remove_bad_slopes sl = None).
Proof. exact remove_bad_slopes_spec. Qed.
Print Assumptions C17_bad_slopes_repaired.
Example C17_demo : remove_bad_slopes [Fin 3; NaN; Fin 0; Fin (1#2); PInf; Fin (-(1#1)); NInf] =
                   Some [Fin 3; Fin (1#2); Fin (1#2); Fin (1#2); Fin (1#2); Fin (1#2); Fin (1#2)] /\
                   remove_bad_slopes [NaN; Fin 0] = None.
Proof. vm_compute. auto. Qed.

(* C18 for velocities: check_flow_velocity raises unless every velocity is finite and non-negative. *)
Theorem C18_velocity_check : forall u,
  check_flow_velocity u = true <-> forall x, In x u -> exists q, x = Fin q /\ 0 <= q.
Proof. exact check_velocity_spec. Qed.
Print Assumptions C18_velocity_check.
(* C18 for depths (partial): a run passes check_flow_depth only if no depth is negative or infinite.  Missing:
   NaN depths, which pass as well. *)
Theorem C18_depth_check_partial : forall d,
  check_flow_depth d = true <-> forall x, In x d -> x = NaN \/ exists q, x = Fin q /\ 0 <= q.
Proof. exact check_depth_spec. Qed.
Print Assumptions C18_depth_check_partial.
Theorem C18_depth_check_refuted :
  ~ (forall d, check_flow_depth d = true -> forall x, In x d -> exists q, x = Fin q /\ 0 <= q).
Proof. intros H. destruct (H [Fin 1; NaN] eq_refl NaN) as (q & E & _); [right; left; reflexivity|discriminate]. Qed.
Print Assumptions C18_depth_check_refuted.
Example C18_demo : check_flow_depth [Fin 1; Fin 0] = true /\ check_flow_depth [Fin 1; NInf] = false /\
                   check_flow_velocity [Fin 1; NaN] = false.
Proof. vm_compute. auto. Qed.

(* C47.  The runoff rate: sources minus infiltration minus an evaporation rate that is the given one or 0 and
   never takes more water in a step than the cell holds.  For a grid ET the given rate is used wherever the cell
   holds enough water, and the array shared with the evaporation
   component is changed to the rate used. *)
Theorem C47_runoff_limits_ET : forall G da dt v P SM GW MR ET IN,
  (forall i, (i < D8_Model.ncells G)%nat -> 0 <= get 0 v i) ->
  let r := update_R G da dt v P SM GW MR ET IN in
  forall i, (i < D8_Model.ncells G)%nat -> exists et,
    fat (fst r) i == fat P i + fat SM i + fat GW i + fat MR i - (et + fat IN i) /\
    et * da i * dt <= get 0 v i /\
    (et == 0 \/ et == fat ET i) /\
    ((forall q, ET <> Scalar q) -> et == fat (snd r) i /\ (fat ET i * da i * dt <= get 0 v i -> et == fat ET i)).
Proof. exact (fun G da dt => R_spec G dt da). Qed.
Print Assumptions C47_runoff_limits_ET.
(* A scalar ET is ignored altogether, even where there is plenty of water, and the reported value stays. *)
Theorem C47_scalar_ET_applied_refuted :
  ~ (forall G da dt v P SM GW MR ET IN i, (i < D8_Model.ncells G)%nat -> fat ET i * da i * dt <= get 0 v i ->
       let r := update_R G da dt v P SM GW MR ET IN in
       fat (fst r) i == fat P i + fat SM i + fat GW i + fat MR i - (fat (snd r) i + fat IN i)).
Proof.
  intros H. specialize (H G3 (fun _ => 1) 1 (repeat 100 9) (Scalar 5) (Scalar 0) (Scalar 0) (Scalar 0) (Scalar 1) (Scalar 0)
     4%nat ltac:(cbn; lia) ltac:(vm_compute; discriminate)). vm_compute in H. discriminate H.
Qed.
Print Assumptions C47_scalar_ET_applied_refuted.
Example C47_demo : let r := update_R G3 (fun _ => 1) 2 [1; 4; 0; 9; 1; 1; 1; 1; 1] (Scalar 5) (Scalar 1) (Scalar 0) (Scalar 0)
                              (Grid [1; 2; 1; 1; 0; 0; 0; 0; 0]) (Scalar 2) in
  map (fun i => Qred (fat (fst r) i)) [0; 1; 2; 3]%nat = [4; 2; 4; 3].
Proof. vm_compute. reflexivity. Qed.
