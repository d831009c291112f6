(* Theorems about the Richards 1D component and its soil functions (C27, C51). *)
From Coq Require Import Reals List Lra Lia Arith Bool.
From Verif Require Import Base ChanR_Model ChanR_Proofs Richards_Model Richards_Spec Richards_Proofs SoilFun_Proofs Richards_Sat.
Import ListNotations.
Local Open Scope R_scope.

(* C27.  After any number (at least one) of updates from any state, every water content lies between qr+0.001
   and qs. *)
Theorem C27_water_content_in_range : forall sps dzs dt s rs r k, range_ok sps -> (k < length sps)%nat ->
  in_range sps (q (col_run sps dzs dt s (rs ++ [r]))) k.
Proof. intros. apply col_run_in_range; assumption. Qed.
Print Assumptions C27_water_content_in_range.
(* Values already in range are not changed by the range enforcement. *)
Theorem C27_values_in_range_unchanged : forall sps th k, (k < length sps)%nat -> in_range sps th k ->
  get 0 (enforce_theta_range sps th) k = get 0 th k.
Proof. exact enforce_id. Qed.
Print Assumptions C27_values_in_range_unchanged.

(* C27.  Water balance with equal node spacings: from every state reached by at least one update, the moisture
   update and the boundary conditions change the water stored above the bottom node by exactly
   (supply - recharge)*dt; range enforcement then changes the profile only where it is out of range. *)
Theorem C27_column_water_balance_partial : forall sps dzs dt d s0 rs r0 r,
  uniform sps dzs d -> 0 < d -> (2 <= length sps)%nat ->
  let s := col_run sps dzs dt s0 (rs ++ [r0]) in
  let m := (length sps - 1)%nat in
  stored m dzs (theta_with_BCs sps dzs dt r s) - stored m dzs (q s) = dt * (r - Rg s) /\
  q (col_update sps dzs dt s r) = enforce_theta_range sps (theta_with_BCs sps dzs dt r s).
Proof.
  intros sps dzs dt d s0 rs r0 r Hu Hd Hnz s m. split; [|reflexivity].
  apply (water_balance sps dzs dt d Hu Hd Hnz). apply col_run_darcy.
Qed.
Print Assumptions C27_column_water_balance_partial.
(* C27.  The infiltration rate reported at the end of a step is the rate at which water enters the column in
   the next one when the supply stays the same: the stored water then changes by (IN - Rg)*dt, provided only the
   top node reaches saturation and nothing dries out. *)
Theorem C27_reported_infiltration_enters : forall sps dzs dt d s0 r,
  uniform sps dzs d -> 0 < d -> 0 < dt -> (2 <= length sps)%nat -> range_ok sps ->
  let s := col_update sps dzs dt s0 r in
  let m := (length sps - 1)%nat in
  (forall k, (0 < k)%nat -> (k < m)%nat -> in_range sps (theta_with_BCs sps dzs dt r s) k) ->
  qr (get sp0 sps 0) + 1 / 1000 <= get 0 (theta_with_BCs sps dzs dt r s) 0 ->
  stored m dzs (q (col_update sps dzs dt s r)) - stored m dzs (q s) = dt * (IN s - Rg s) /\
  IN s <= r.
Proof.
  intros sps dzs dt d s0 r Hu Hd Hdt Hnz HR s m Hin Hlo. split; [|apply Rmin_l].
  etransitivity; [exact (infiltration_balance sps dzs dt d Hu Hd Hnz r s Hdt (col_update_darcy sps dzs dt s0 r) HR Hin Hlo)|].
  apply f_equal. apply (f_equal (fun a => a - Rg s)). unfold s. cbn [col_update IN v0 q]. rewrite (proj2 Hu 0%nat) by lia. reflexivity.
Qed.
Print Assumptions C27_reported_infiltration_enters.

(* A concrete case: three nodes of the same soil, starting saturated, no supply: gravity drainage at Ks. *)
Definition loam (ks ki : R) : soilp := mkSoil ks ki (1/2) (1/2) (1/10) (-1/10) 0 (1/2) 2.
Definition col3 := [loam 1 1; loam 1 1; loam 1 1].
Lemma loam_sat l : Forall (fun s => qi s = 1/2 /\ qs s = 1/2 /\ qr s + 1/1000 <= 1/2 /\ pA s = - 0 /\ Ki s = 1) l ->
  forall k, (k < length l)%nat -> let s := get sp0 l k in
  qi s = 1/2 /\ qs s = 1/2 /\ qr s + 1/1000 <= 1/2 /\ pA s = - 0 /\ Ki s = 1.
Proof. intros H k Hk s. rewrite Forall_forall in H. apply H. apply nth_In. exact Hk. Qed.
Lemma col3_sat : forall k, (k < 3)%nat -> let s := get sp0 col3 k in
  qi s = 1/2 /\ qs s = 1/2 /\ qr s + 1/1000 <= 1/2 /\ pA s = - 0 /\ Ki s = 1.
Proof. apply (loam_sat col3). repeat constructor; cbn; lra. Qed.
Lemma col3_uniform : uniform col3 [1; 1; 1] 1.
Proof. split; [reflexivity|]. intros [|[|[|k]]] Hk; try reflexivity. cbn in Hk. lia. Qed.
Example C27_demo :
  let s := col_update col3 [1; 1; 1] (1/10) (col_init col3) 0 in
  range_ok col3 /\ uniform col3 [1; 1; 1] 1 /\
  (forall k, (0 < k)%nat -> (k < 2)%nat -> in_range col3 (theta_with_BCs col3 [1; 1; 1] (1/10) 0 s) k) /\
  get 0 (theta_with_BCs col3 [1; 1; 1] (1/10) 0 s) 0 = 4/10 /\
  stored 2 [1; 1; 1] (q (col_update col3 [1; 1; 1] (1/10) s 0)) = 9/10 /\ stored 2 [1; 1; 1] (q s) = 1.
Proof.
  intros s. pose proof (s1_flux col3 [1; 1; 1] (1/10) (1/2) 0 1 ltac:(cbn; lia) col3_sat) as HF.
  pose proof (s1_q col3 [1; 1; 1] (1/10) (1/2) 0 1 ltac:(cbn; lia) col3_sat) as HQ.
  pose proof (theta_BC_at col3 [1; 1; 1] (1/10) 1 col3_uniform ltac:(lra) ltac:(cbn; lia) 0 s) as HT.
  assert (HD : darcy col3 [1; 1; 1] s) by apply col_update_darcy.
  assert (R0 : range_ok col3) by (intros k Hk; destruct (col3_sat k Hk) as (_ & E & H & _); lra).
  assert (F0 : flux col3 [1; 1; 1] s 0 = 1) by (unfold s; rewrite (HF 0%nat) by (cbn; lia); cbn; lra).
  assert (F1 : flux col3 [1; 1; 1] s 1 = 1) by (unfold s; rewrite (HF 1%nat) by (cbn; lia); cbn; lra).
  assert (T0 : get 0 (theta_with_BCs col3 [1; 1; 1] (1/10) 0 s) 0 = 4/10).
  { rewrite (HT 0%nat HD) by (cbn; lia). cbn [Nat.eqb]. rewrite F0. unfold s. rewrite (HQ 0%nat) by (cbn; lia). lra. }
  assert (T1 : get 0 (theta_with_BCs col3 [1; 1; 1] (1/10) 0 s) 1 = 1/2).
  { rewrite (HT 1%nat HD) by (cbn; lia). cbn [Nat.eqb]. replace (1 - 1)%nat with 0%nat by lia. rewrite F0, F1.
    unfold s. rewrite (HQ 1%nat) by (cbn; lia). lra. }
  split; [exact R0|]. split; [exact col3_uniform|]. split.
  { intros k H1 H2. assert (k = 1%nat) by lia. subst k. unfold in_range. rewrite T1. cbn. lra. }
  split; [exact T0|]. split.
  - cbn [col_update q]. unfold stored. cbn [rsumn]. rewrite !enforce_id.
    + rewrite T0, T1. cbn. lra.
    + cbn; lia.
    + unfold in_range. rewrite T1. cbn. lra.
    + cbn; lia.
    + unfold in_range. rewrite T0. cbn. lra.
  - unfold stored. cbn [rsumn]. unfold s. rewrite (HQ 0%nat), (HQ 1%nat) by (cbn; lia). cbn. lra.
Qed.

(* What the balance does not cover. *)
(* (a) The first update after initialize: psi and v start at 0 and do not belong to the initial water contents. *)
Theorem C27_first_update_refuted :
  ~ (forall sps dzs dt d r, uniform sps dzs d -> 0 < d -> (2 <= length sps)%nat ->
       let s := col_init sps in let m := (length sps - 1)%nat in
       stored m dzs (theta_with_BCs sps dzs dt r s) - stored m dzs (q s) = dt * (r - Rg s)).
Proof.
  intros H. set (l := [loam 1 2; loam 1 2; loam 1 0]).
  assert (Hu : uniform l [1; 1; 1] 1) by (split; [reflexivity|]; intros [|[|[|k]]] Hk; try reflexivity; cbn in Hk; lia).
  specialize (H l [1; 1; 1] 1 1 0 Hu ltac:(lra) ltac:(cbn; lia)). cbv zeta in H.
  change (length l - 1)%nat with 2%nat in H. unfold stored in H. cbn [rsumn] in H.
  pose proof (theta_interior l [1; 1; 1] 1 1 Hu ltac:(lra) ltac:(cbn; lia) (col_init l) 1 ltac:(lia) ltac:(cbn; lia)) as E1.
  unfold theta_with_BCs, bottom_BC, surface_BC in H.
  rewrite !(get_set_other 0 _ (length l - 1)) in H by (cbn; lia). rewrite (get_set_other 0 _ 0 1) in H by lia.
  rewrite get_set_same in H by (rewrite update_theta_length; cbn; lia).
  rewrite E1 in H. rewrite theta_top in H by (cbn; lia). unfold flux, avg_fwd, deriv_fwd in H. cbn in H. lra.
Qed.
Print Assumptions C27_first_update_refuted.
(* (b) Unequal node spacings: the fluxes at a change of spacing do not match. *)
Theorem C27_unequal_spacing_refuted :
  ~ (forall sps dzs dt s0 r0 r, length dzs = length sps -> (forall k, (k < length sps)%nat -> 0 < get 0 dzs k) ->
       (2 <= length sps)%nat ->
       let s := col_update sps dzs dt s0 r0 in let m := (length sps - 1)%nat in
       stored m dzs (theta_with_BCs sps dzs dt r s) - stored m dzs (q s) = dt * (r - Rg s)).
Proof.
  intros H. set (l := [loam 1 1; loam 1 1; loam 3 1]). set (dzs := [1; 1; 2]).
  assert (HS : forall k, (k < 3)%nat -> let s := get sp0 l k in
            qi s = 1/2 /\ qs s = 1/2 /\ qr s + 1/1000 <= 1/2 /\ pA s = - 0 /\ Ki s = 1).
  { apply (loam_sat l). repeat constructor; cbn; lra. }
  specialize (H l dzs 1 (col_init l) 0 0 eq_refl).
  assert (HP : forall k, (k < length l)%nat -> 0 < get 0 dzs k).
  { intros [|[|[|k]]] Hk; cbn in *; try lra. lia. }
  specialize (H HP ltac:(cbn; lia)). cbv zeta in H. set (s := col_update l dzs 1 (col_init l) 0) in *.
  change (length l - 1)%nat with 2%nat in H.
  pose proof (s1_q l dzs 1 (1/2) 0 1 ltac:(cbn; lia) HS) as HQ.
  pose proof (s1_p l dzs 1 (1/2) 0 1 ltac:(cbn; lia) HS) as HPs.
  pose proof (s1_K l dzs 1 (1/2) 0 1 ltac:(cbn; lia) HS) as HK.
  pose proof (s1_flux l dzs 1 (1/2) 0 1 ltac:(cbn; lia) HS) as HF.
  fold s in HQ, HPs, HK, HF.
  assert (HD : darcy l dzs s) by apply col_update_darcy.
  assert (ER : Rg s = 2).
  { rewrite (Rg_flux l dzs ltac:(cbn; lia) s HD). change (length l - 2)%nat with 1%nat. rewrite HF by (cbn; lia). cbn. lra. }
  assert (EV : get 0 (v s) 0 = 1).
  { rewrite (v_flux l dzs ltac:(cbn; lia) s 0 HD) by (cbn; lia). rewrite HF by (cbn; lia). cbn. lra. }
  rewrite ER in H. unfold stored in H. cbn [rsumn] in H.
  unfold theta_with_BCs, bottom_BC, surface_BC in H.
  rewrite !(get_set_other 0 _ (length l - 1)) in H by (cbn; lia). rewrite (get_set_other 0 _ 0 1) in H by lia.
  rewrite get_set_same in H by (rewrite update_theta_length; cbn; lia).
  unfold update_theta in H. rewrite !get_tab in H by (cbn; lia).
  change (Nat.eqb 0 0) with true in H. change (Nat.eqb 1 0) with false in H. change (Nat.eqb 1 (length l - 1)) with false in H.
  cbv iota in H.
  assert (B : below l 1 = 2%nat) by reflexivity. assert (A : above l 1 = 0%nat) by reflexivity.
  unfold avg_fwd, avg_bwd, deriv_fwd, deriv_bwd in H. rewrite B, A, EV in H.
  rewrite !HQ, !HPs, !HK in H by (cbn; lia). unfold zpos in H. cbn in H. lra.
Qed.
Print Assumptions C27_unequal_spacing_refuted.
(* (c) The bottom node copies its neighbour, so that the whole column, bottom node included, does not balance. *)
Theorem C27_whole_column_refuted :
  ~ (forall sps dzs dt d s0 r0 r, uniform sps dzs d -> 0 < d -> (2 <= length sps)%nat ->
       let s := col_update sps dzs dt s0 r0 in let m := length sps in
       stored m dzs (theta_with_BCs sps dzs dt r s) - stored m dzs (q s) = dt * (r - Rg s)).
Proof.
  intros H. set (l := [loam 1 1; loam 1 1]).
  assert (HS : forall k, (k < 2)%nat -> let s := get sp0 l k in
            qi s = 1/2 /\ qs s = 1/2 /\ qr s + 1/1000 <= 1/2 /\ pA s = - 0 /\ Ki s = 1).
  { apply (loam_sat l). repeat constructor; cbn; lra. }
  assert (Hu : uniform l [1; 1] 1) by (split; [reflexivity|]; intros [|[|k]] Hk; try reflexivity; cbn in Hk; lia).
  specialize (H l [1; 1] 1 1 (col_init l) 0 0 Hu ltac:(lra) ltac:(cbn; lia)). cbv zeta in H.
  set (s := col_update l [1; 1] 1 (col_init l) 0) in *.
  assert (HD : darcy l [1; 1] s) by apply col_update_darcy.
  pose proof (s1_q l [1; 1] 1 (1/2) 0 1 ltac:(cbn; lia) HS) as HQ. fold s in HQ.
  pose proof (s1_flux l [1; 1] 1 (1/2) 0 1 ltac:(cbn; lia) HS) as HF. fold s in HF.
  assert (F0 : flux l [1; 1] s 0 = 1) by (rewrite HF by (cbn; lia); cbn; lra).
  assert (ER : Rg s = 1) by (rewrite (Rg_flux l [1; 1] ltac:(cbn; lia) s HD); exact F0).
  pose proof (theta_BC_at l [1; 1] 1 1 Hu ltac:(lra) ltac:(cbn; lia) 0 s 0 HD ltac:(cbn; lia)) as T0. cbn [Nat.eqb] in T0.
  rewrite F0 in T0. rewrite HQ in T0 by (cbn; lia).
  assert (T1 : get 0 (theta_with_BCs l [1; 1] 1 0 s) 1 = get 0 (theta_with_BCs l [1; 1] 1 0 s) 0).
  { unfold theta_with_BCs, bottom_BC. change (length l - 1)%nat with 1%nat. change (1 - 1)%nat with 0%nat.
    rewrite get_set_same; [rewrite get_set_other by lia; reflexivity|].
    unfold surface_BC. rewrite set_length, update_theta_length. cbn. lia. }
  change (length l) with 2%nat in H. unfold stored in H. cbn [rsumn] in H. rewrite T1, T0, ER in H.
  rewrite !HQ in H by (cbn; lia). cbn in H. lra.
Qed.
Print Assumptions C27_whole_column_refuted.

(* C51.  The soil characteristic functions (transitional Brooks-Corey): water content and pressure head are
   inverse to each other, the head increases with water content up to -pA at saturation, and the conductivity as
   a function of water content, of saturation and of head is one and the same, between 0 and Ks and increasing. *)
Theorem C51_theta_and_psi_are_inverse : forall qs qr lam c pB pA, qr < qs -> 0 < lam -> 0 < c -> pB < 0 ->
  (forall x, qr < x <= qs -> theta_of_psi (psi_of_theta x qs qr lam c pB pA) qs qr pB pA c lam = x) /\
  (forall h, h <= - pA -> psi_of_theta (theta_of_psi h qs qr pB pA c lam) qs qr lam c pB pA = h) /\
  (forall h, qr < theta_of_psi h qs qr pB pA c lam <= qs).
Proof.
  intros qs qr lam c pB pA H1 H2 H3 H4. split; [|split].
  - intros x. apply theta_psi_theta; assumption.
  - intros h. apply psi_theta_psi; assumption.
  - intros h. apply theta_of_psi_range; assumption.
Qed.
Print Assumptions C51_theta_and_psi_are_inverse.
Theorem C51_head_increases : forall qs qr lam c pB pA, qr < qs -> 0 < lam -> 0 < c -> pB < 0 ->
  psi_of_theta qs qs qr lam c pB pA = - pA /\
  forall x y, qr < x -> x < y -> y <= qs -> psi_of_theta x qs qr lam c pB pA < psi_of_theta y qs qr lam c pB pA.
Proof.
  intros qs qr lam c pB pA H1 H2 H3 H4. split.
  - apply psi_at_saturation; assumption.
  - intros x y. apply psi_increasing; assumption.
Qed.
Print Assumptions C51_head_increases.
Theorem C51_one_conductivity : forall qs qr lam c pB pA Ks, qr < qs -> 0 < lam -> 0 < c -> pB < 0 -> 0 <= Ks ->
  (forall x, qr < x <= qs ->
     K_of_psi (psi_of_theta x qs qr lam c pB pA) pB pA Ks (2 + 3 * lam) c = K_of_theta x Ks qs qr lam /\
     K_of_sat ((x - qr) / (qs - qr)) Ks lam (2 + 3 * lam) = K_of_theta x Ks qs qr lam) /\
  (forall x, 0 <= K_of_theta x Ks qs qr lam <= Ks) /\
  (forall x y, x <= y -> K_of_theta x Ks qs qr lam <= K_of_theta y Ks qs qr lam) /\
  K_of_theta qs Ks qs qr lam = Ks.
Proof.
  intros qs qr lam c pB pA Ks H1 H2 H3 H4 H5. split; [|split; [|split]].
  - intros x. apply K_consistent; assumption.
  - intros x. apply K_theta_bounds; assumption.
  - intros x y. apply K_theta_mono; assumption.
  - unfold K_of_theta. cbv zeta. replace ((qs - qr) / (qs - qr)) with 1 by (field; lra). rewrite powr_one.
    rewrite Rmin_left by lra. rewrite Rmax_left by lra. ring.
Qed.
Print Assumptions C51_one_conductivity.
Example C51_demo : psi_of_theta (1/2) (1/2) (1/10) (1/2) 2 (-1/10) 0 = 0 /\
                   psi_of_theta (1/4) (1/2) (1/10) (1/2) 2 (-1/10) 0 < 0.
Proof.
  destruct (C51_head_increases (1/2) (1/10) (1/2) 2 (-1/10) 0 ltac:(lra) ltac:(lra) ltac:(lra) ltac:(lra)) as [A B].
  pose proof (B (1/4) (1/2) ltac:(lra) ltac:(lra) ltac:(lra)). lra.
Qed.
