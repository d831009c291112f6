(* C71: the closed channel model (volume -> depth -> velocity -> discharge -> volume) of the kinematic and diffusive
   wave components. *)
From Coq Require Import ZArith QArith Reals List Bool Lia Lra Psatz.
From Verif Require Import Base D8_Spec D8_Walk ChanR_Model ChanR_Proofs Wave_Model Wave_Spec Wave_Proofs Wave_Inv Wave_Order Wave_Steady Wave_Rise.
From Verif Require D8_Model.
Import ListNotations.
Local Open Scope R_scope.

Section Thms.
Variables (G : D8_Model.geom) (O : D8_Model.opts) (d8 : list Z) (c : chan).
Notation n := (D8_Model.ncells G).
Notation pid := (D8_Model.update_parent_ID_grid G O d8).
Notation upd := (update G d8 pid c).

Lemma reached_fits s : network G O d8 c -> reached G O d8 c s -> fits G d8 c s /\ no_flood c s.
Proof. intros (HG & Hcl & Hco & Hok) (d0 & rs & Hd & ->). apply (run_fits G HG d8 O c Hcl Hco Hok d0 rs Hd). Qed.

(* Every state that a run reaches fits together: volumes, depths and velocities are not negative, the trapezoidal
   channel filled to the depth d and the flood plain hold exactly the volume, and nothing moves in cells without a flow
   direction. *)
Theorem C71_state s : network G O d8 c -> reached G O d8 c s -> fits G d8 c s.
Proof. intros HN HR. apply (reached_fits s HN HR). Qed.

(* After any update the velocity is that of the chosen formula for the new depth: hydraulic radius = wetted area over
   wetted perimeter, slope of the bed (kinematic) or of the free surface (diffusive). *)
Theorem C71_velocity s r i : network G O d8 c -> (i < n)%nat -> flows G d8 i = true ->
  let s' := upd s r in let d := get 0 (w_d s') i in let z := rough c i in
  let rh := d * (width c i + d * tan (angle c i)) / (width c i + 2 * d / cos (angle c i)) in
  let slope := if KINEMATIC c then S_bed c i else get 0 (w_S s') i in
  get 0 (w_u s') i = match form c with
                     | Manning => powr rh (2/3) * sqrt (Rabs slope) / z
                     | LawOfWall => sqrt (981/100) / (408/1000) * sqrt (rh * Rabs slope) * ln (Rmax (476/1000 / z * d) (11/10))
                     end.
Proof.
  intros (HG & Hcl & Hco & Hok) Hi E. cbv zeta. rewrite upd_u, upd_d, E by assumption. unfold velocity. destruct (form c); reflexivity.
Qed.

(* After any update the channel holds the volume up to bankfull and the flood plain the rest; without flood plains the
   channel holds everything; edge cells hold nothing. *)
Theorem C71_parts s r i : network G O d8 c -> (i < n)%nat ->
  let s' := upd s r in let v := get 0 (w_vol s') i in
  (flows G d8 i = true -> FLOOD c = true -> get 0 (w_chan s') i = Rmin v (vol_bankfull c i) /\ get 0 (w_flood s') i = Rmax (v - vol_bankfull c i) 0) /\
  (FLOOD c = false -> get 0 (w_chan s') i = v) /\
  (flows G d8 i = false -> v = 0 /\ get 0 (w_d s') i = 0 /\ (FLOOD c = true -> get 0 (w_flood s') i = 0 /\ get 0 (w_df s') i = 0)).
Proof.
  intros (HG & Hcl & Hco & Hok) Hi. cbv zeta. split; [|split].
  - intros E HF. rewrite upd_chan, upd_flood, upd_vol, E by assumption. unfold chan_part. rewrite HF. split; reflexivity.
  - intros HF. unfold update. cbn [w_chan w_vol]. rewrite HF. reflexivity.
  - intros E. rewrite upd_vol, upd_d, E by assumption. split; [reflexivity|]. split; [reflexivity|]. intros HF. rewrite upd_flood, upd_df, E by assumption. split; reflexivity.
Qed.

(* The exact water balance of one update, for every reached state and every runoff grid: water is created where a cell
   gives away more than it holds and receives. *)
Theorem C71_created s r : network G O d8 c -> reached G O d8 c s ->
  let Q := get 0 (discharge G c s) in
  stock G (upd s r) = stock G s + supplied G c r +
    rsumn n (fun i => Rmax (Q i * dt c - (get 0 (w_vol s) i + r i * da c i * dt c + inflow G d8 Q i * dt c)) 0).
Proof.
  intros HN HR Q. destruct (reached_fits s HN HR) as [Hf Hnf]. destruct HN as (HG & Hcl & Hco & Hok).
  unfold stock, supplied. rewrite upd_edge by assumption.
  rewrite (rsumn_ext n _ (fun i => if flows G d8 i then new_vol G d8 c s r i else 0)) by (intros i Hi; apply upd_vol; assumption).
  assert (U : rsumn n (new_vol G d8 c s r) = rsumn n (fun i => if flows G d8 i then new_vol G d8 c s r i else 0) + rsumn n (fun i => if flows G d8 i then 0 else new_vol G d8 c s r i)).
  { unfold rsumn. rewrite <- rsuml_plus. apply rsuml_ext. intros i _. destruct (flows G d8 i); ring. }
  set (F := fun i => Rmax (Q i * dt c - (get 0 (w_vol s) i + r i * da c i * dt c + inflow G d8 Q i * dt c)) 0).
  assert (E : forall i, (i < n)%nat -> new_vol G d8 c s r i = (get 0 (w_vol s) i + r i * da c i * dt c + (dt c * inflow G d8 Q i - dt c * (if flows G d8 i then Q i else 0))) + F i).
  { intros i Hi. unfold new_vol, F. fold Q.
    assert (HQ : flows G d8 i = false -> Q i = 0) by (intros Ef; unfold Q; apply (discharge_edge G d8 c); assumption).
    unfold Rmax. destruct (flows G d8 i); [|rewrite HQ by reflexivity]; repeat destruct (Rle_dec _ _); lra. }
  assert (T : rsumn n (new_vol G d8 c s r) = rsumn n (get 0 (w_vol s)) + rsumn n (fun i => r i * da c i * dt c) + rsumn n F).
  { rewrite (rsumn_ext n _ _ E). unfold rsumn at 1.
    rewrite rsuml_plus, (rsuml_plus (fun i => get 0 (w_vol s) i + r i * da c i * dt c)), rsuml_plus, rsuml_minus, !rsuml_scale.
    pose proof (total_inflow G HG d8 Q) as Ht. unfold rsumn in *. rewrite Ht. ring. }
  lra.
Qed.

(* A run during which the water nowhere moves further than one cell in one step conserves water exactly. *)
Theorem C71_balance d0 rs : network G O d8 c -> (forall i, (i < n)%nat -> 0 <= d0 i) ->
  (forall r, In r rs -> forall i, (i < n)%nat -> 0 <= r i * da c i) ->
  along G d8 pid c (courant G d8 c 1) (initialize G c d0) rs ->
  stock G (run G d8 pid c (initialize G c d0) rs) = stock G (initialize G c d0) + rsuml (supplied G c) rs.
Proof.
  intros (HG & Hcl & Hco & Hok) Hd Hr Ha. destruct (init_fits G d8 c Hok d0 Hd) as [Hf Hnf]. apply run_stock; assumption.
Qed.

(* Without flood plains the limit is sharp in every cell that holds water: its outflow is covered by its content iff
   the water moves no further than one cell. *)
Theorem C71_sharp s i : network G O d8 c -> reached G O d8 c s -> FLOOD c = false -> (i < n)%nat -> flows G d8 i = true ->
  0 < get 0 (w_vol s) i ->
  (get 0 (discharge G c s) i * dt c <= get 0 (w_vol s) i <-> get 0 (w_u s) i * dt c <= ds c i).
Proof.
  intros HN HR HF Hi E Hv. destruct (reached_fits s HN HR) as [Hf Hnf]. destruct HN as (HG & Hcl & Hco & Hok).
  destruct (f_A _ _ _ _ Hf i Hi E) as [_ B]. rewrite (Hnf HF) in B. pose proof (ok_ds G c Hok i Hi).
  unfold discharge. rewrite get_tab by exact Hi. rewrite HF.
  set (A := get 0 (w_A s) i) in *. set (u := get 0 (w_u s) i). assert (EB : get 0 (w_vol s) i = A * ds c i) by lra.
  rewrite EB in *. assert (HA : 0 < A) by (destruct (Rle_dec A 0); [nra|lra]).
  replace ((u * A + 0) * dt c) with (A * (u * dt c)) by ring. split; intros H1.
  - apply (Rmult_le_reg_l A); assumption.
  - apply Rmult_le_compat_l; lra.
Qed.

(* Two runs of the kinematic wave with Manning's formula: more runoff and deeper initial water give more water, deeper
   water, faster water and more discharge in every cell at every time, as long as 5/3 of the distance that the water of
   the wetter run moves in one step is within one cell. *)
Theorem C71_comparison d1 d2 rs1 rs2 : network G O d8 c -> KINEMATIC c = true -> form c = Manning ->
  (forall i, (i < n)%nat -> 0 <= d1 i <= d2 i) ->
  Forall2 (fun r1 r2 => forall i, (i < n)%nat -> r1 i * da c i <= r2 i * da c i) rs1 rs2 ->
  (forall k, courant G d8 c (5/3) (run G d8 pid c (initialize G c d2) (firstn k rs2))) ->
  let s1 := run G d8 pid c (initialize G c d1) rs1 in let s2 := run G d8 pid c (initialize G c d2) rs2 in
  forall i, (i < n)%nat ->
    get 0 (w_vol s1) i <= get 0 (w_vol s2) i /\ get 0 (w_d s1) i <= get 0 (w_d s2) i /\
    get 0 (w_u s1) i <= get 0 (w_u s2) i /\ get 0 (discharge G c s1) i <= get 0 (discharge G c s2) i.
Proof.
  intros (HG & Hcl & Hco & Hok) HK HM Hd HF HC. cbv zeta.
  assert (I : below G c (get 0 (w_vol (initialize G c d1))) (get 0 (discharge G c (initialize G c d1)))
                        (get 0 (w_vol (initialize G c d2))) (get 0 (discharge G c (initialize G c d2))) /\
              forall i, (i < n)%nat -> get 0 (w_d (initialize G c d1)) i <= get 0 (w_d (initialize G c d2)) i /\
                                       get 0 (w_u (initialize G c d1)) i <= get 0 (w_u (initialize G c d2)) i).
  { split.
    - intros i Hi. unfold discharge, initialize. cbn [w_vol w_u w_df w_A]. rewrite !get_tab by exact Hi. rewrite !get_repeat0.
      pose proof (Hd i Hi) as [H1 H2]. pose proof (ok_width G c Hok i Hi). pose proof (ok_ds G c Hok i Hi). pose proof (tan_nonneg _ (ok_angle G c Hok i Hi)) as Ht.
      assert (ChanR_Model.A_wet (d1 i) (width c i) (angle c i) <= ChanR_Model.A_wet (d2 i) (width c i) (angle c i)).
      { unfold ChanR_Model.A_wet. apply Rmult_le_compat; try lra; [nra|]. apply Rplus_le_compat_l. apply Rmult_le_compat_r; lra. }
      assert (ChanR_Model.A_wet (d1 i) (width c i) (angle c i) * ds c i <= ChanR_Model.A_wet (d2 i) (width c i) (angle c i) * ds c i) by (apply Rmult_le_compat_r; lra).
      assert (Z : (if FLOOD c then flood_discharge 0 (slope_of c (mkWave [] [] [] [] [] [] [] [] 0) i) (width c i) else 0) = 0) by (destruct (FLOOD c); [unfold flood_discharge; ring|reflexivity]).
      unfold flood_discharge. destruct (FLOOD c); lra.
    - intros i Hi. unfold initialize. cbn [w_d w_u]. rewrite !get_tab by exact Hi. rewrite !get_repeat0. pose proof (Hd i Hi). lra. }
  assert (R : below G c (get 0 (w_vol (run G d8 pid c (initialize G c d1) rs1))) (get 0 (discharge G c (run G d8 pid c (initialize G c d1) rs1)))
                        (get 0 (w_vol (run G d8 pid c (initialize G c d2) rs2))) (get 0 (discharge G c (run G d8 pid c (initialize G c d2) rs2))) /\
              forall i, (i < n)%nat -> get 0 (w_d (run G d8 pid c (initialize G c d1) rs1)) i <= get 0 (w_d (run G d8 pid c (initialize G c d2) rs2)) i /\
                                       get 0 (w_u (run G d8 pid c (initialize G c d1) rs1)) i <= get 0 (w_u (run G d8 pid c (initialize G c d2) rs2)) i).
  { clear Hd. revert I HC. generalize (initialize G c d1) (initialize G c d2). induction HF as [|r1 r2 rs1 rs2 Hr HF IH]; intros a b I HC; [exact I|].
    change (run G d8 pid c a (r1 :: rs1)) with (run G d8 pid c (upd a r1) rs1). change (run G d8 pid c b (r2 :: rs2)) with (run G d8 pid c (upd b r2) rs2).
    apply IH.
    - destruct I as [I _]. split; [apply upd_below; try assumption; exact (HC 1%nat)|apply upd_below_du; assumption].
    - intros k. exact (HC (S k)). }
  intros i Hi. destruct R as [R1 R2]. destruct (R1 i Hi) as (A1 & A2 & _). destruct (R2 i Hi). auto.
Qed.

(* Steady flow, either solver, on a flow grid without cycles: an update with runoff leaves the water of all channel
   cells unchanged iff each discharge is the runoff of all cells upstream. *)
Theorem C71_steady s r (up : nat -> list nat) : network G O d8 c -> acyclic G d8 -> reached G O d8 c s ->
  (forall i, (i < n)%nat -> 0 <= r i * da c i) -> (forall i, (i < n)%nat -> is_upstream G d8 i (up i)) ->
  ((forall i, (i < n)%nat -> flows G d8 i = true -> get 0 (w_vol (upd s r)) i = get 0 (w_vol s) i) <->
   (forall i, (i < n)%nat -> flows G d8 i = true -> get 0 (discharge G c s) i = rsuml (fun j => r j * da c j) (up i))).
Proof.
  intros HN Hac HR Hr Hup. destruct (reached_fits s HN HR) as [Hf Hnf]. destruct HN as (HG & Hcl & Hco & Hok).
  assert (A0 : forall i, (i < n)%nat -> flows G d8 i = true -> get 0 (w_vol s) i = 0 -> get 0 (w_df s) i = 0 -> get 0 (w_A s) i = 0).
  { intros i Hi E Z1 Z2. destruct (f_A _ _ _ _ Hf i Hi E) as [_ B]. rewrite Z1, Z2 in B. pose proof (ok_ds G c Hok i Hi).
    assert (P : get 0 (w_A s) i * ds c i = 0) by lra. apply Rmult_integral in P. lra. }
  split; intros H.
  - intros i Hi E. apply (upstream_solve G HG d8 Hac (get 0 (discharge G c s)) (fun j => r j * da c j)); [|exact Hi|exact E|apply Hup; exact Hi].
    intros j Hj Ej. apply (steady_balance G HG d8 O c Hcl Hco Hok s r Hf Hnf Hr j Hj Ej (A0 j Hj Ej)). apply H; assumption.
  - intros i Hi E. apply (steady_balance G HG d8 O c Hcl Hco Hok s r Hf Hnf Hr i Hi E (A0 i Hi E)).
    assert (SU : forall j, (j < n)%nat -> flows G d8 j = true -> get 0 (discharge G c s) j = rsuml (fun j => r j * da c j) (upstream G d8 j)).
    { intros j Hj Ej. rewrite (H j Hj Ej). symmetry.
      apply (upstream_solve G HG d8 Hac (fun j => rsuml (fun j => r j * da c j) (upstream G d8 j)) (fun j => r j * da c j)); [|exact Hj|exact Ej|apply Hup; exact Hj].
      intros k Hk _. apply upstream_balance; assumption. }
    rewrite (SU i Hi E), (upstream_balance G HG d8 Hac _ i Hi). f_equal. apply rsumn_ext. intros j Hj. unfold flows_to.
    destruct (next G d8 j) as [x|] eqn:Ex; [|reflexivity]. destruct (Nat.eqb x i); [|reflexivity]. symmetry. apply SU; [exact Hj|]. unfold flows. rewrite Ex. reflexivity.
Qed.

(* Constant runoff on dry channels (kinematic wave, Manning, no flood plains, no cycles): if h is the depth at which
   each channel cell carries the runoff of all cells upstream, and 5/3 of the distance that the water moves at that
   depth is within one cell, then depths and discharges never fall, never exceed those values, and the discharges tend
   to the upstream runoff. *)
Theorem C71_rise r h (up : nat -> list nat) : network G O d8 c -> acyclic G d8 ->
  KINEMATIC c = true -> form c = Manning -> FLOOD c = false ->
  (forall i, (i < n)%nat -> 0 <= r i * da c i) -> (forall i, (i < n)%nat -> is_upstream G d8 i (up i)) ->
  (forall i, (i < n)%nat -> flows G d8 i = true ->
     let u := manning (Rh false (h i) (width c i) (angle c i)) (S_bed c i) (rough c i) in
     0 <= h i /\ u * A_wet (h i) (width c i) (angle c i) = rsuml (fun j => r j * da c j) (up i) /\ 5/3 * (u * dt c) <= ds c i) ->
  let at_ k := run G d8 pid c (initialize G c (fun _ => 0)) (repeat r k) in
  forall i, (i < n)%nat -> flows G d8 i = true ->
    (forall k, get 0 (w_d (at_ k)) i <= get 0 (w_d (at_ (S k))) i <= h i /\
               get 0 (discharge G c (at_ k)) i <= get 0 (discharge G c (at_ (S k))) i <= rsuml (fun j => r j * da c j) (up i)) /\
    Un_cv (fun k => get 0 (discharge G c (at_ k)) i) (rsuml (fun j => r j * da c j) (up i)).
Proof.
  intros (HG & Hcl & Hco & Hok) Hac HK HM HF Hr Hup Hh at_ i Hi E.
  assert (SU : forall j, (j < n)%nat -> flows G d8 j = true -> supply G d8 c r j = rsuml (fun j => r j * da c j) (up j)).
  { intros j Hj Ej. apply (upstream_solve G HG d8 Hac (supply G d8 c r) (fun j => r j * da c j)); [|exact Hj|exact Ej|apply Hup; exact Hj].
    intros k Hk _. apply upstream_balance; assumption. }
  assert (Hh' : forall j, (j < n)%nat -> flows G d8 j = true -> 0 <= h j /\
    manning (Rh false (h j) (width c j) (angle c j)) (S_bed c j) (rough c j) * A_wet (h j) (width c j) (angle c j) = supply G d8 c r j /\
    5/3 * (manning (Rh false (h j) (width c j) (angle c j)) (S_bed c j) (rough c j) * dt c) <= ds c j).
  { intros j Hj Ej. rewrite SU by assumption. apply (Hh j Hj Ej). }
  rewrite <- SU by assumption. split.
  - intros k. apply (rise G HG d8 O c Hcl Hco Hac Hok HK HM HF r Hr h Hh' i k Hi E).
  - apply (limit_discharge G HG d8 O c Hcl Hco Hac Hok HK HM HF r Hr h Hh' i Hi E).
Qed.

(* Diffusive wave: with bed elevations z, the slope after an update is that of the water surface z + d (+ flood depth),
   for every cell whose water goes to another channel cell. *)
Theorem C71_surface s r z i j : network G O d8 c -> reached G O d8 c s -> KINEMATIC c = false -> (i < n)%nat ->
  next G d8 i = Some j -> flows G d8 j = true -> S_bed c i = (z i - z j) / ds c i ->
  let s' := upd s r in
  get 0 (w_S s') i = ((z i + get 0 (w_d s') i + get 0 (w_df s') i) - (z j + get 0 (w_d s') j + get 0 (w_df s') j)) / ds c i.
Proof.
  intros HN HR HK Hi Ej Fj HS s'. destruct (reached_fits s HN HR) as [Hf Hnf]. destruct HN as (HG & Hcl & Hco & Hok).
  pose proof (next_lt G HG d8 i j Ej) as Hj.
  pose proof (parent_next G HG d8 O Hcl i j Hi Ej) as Hp.
  assert (Fi : flows G d8 i = true) by (unfold flows; rewrite Ej; reflexivity).
  destruct (upd_S G HG d8 O c Hcl s r i HK Hi) as [H|H]; [|rewrite Hp in H; lia].
  unfold s'. rewrite H, Hp, HS. cbv zeta. rewrite !upd_d, Fi, Fj by assumption. pose proof (ok_ds G c Hok i Hi).
  destruct (FLOOD c) eqn:HF.
  - rewrite !upd_df, Fi, Fj by assumption. field. lra.
  - rewrite !upd_df0, !(Hnf HF) by assumption. field. lra.
Qed.

(* A level water surface does not flow ... *)
Theorem C71_level s r i : network G O d8 c -> reached G O d8 c s -> KINEMATIC c = false -> (i < n)%nat ->
  get 0 (w_S (upd s r)) i = 0 -> get 0 (w_u (upd s r)) i = 0 /\ get 0 (discharge G c (upd s r)) i = 0.
Proof.
  intros HN HR HK Hi HS. destruct HN as (HG & Hcl & Hco & Hok).
  assert (U : get 0 (w_u (upd s r)) i = 0).
  { rewrite upd_u by assumption. destruct (flows G d8 i); [|reflexivity]. unfold slope_of. rewrite HK, HS. unfold velocity.
    destruct (form c); [unfold manning|unfold law_of_wall]; rewrite Rabs_R0, ?Rmult_0_r, sqrt_0; unfold Rdiv; ring. }
  split; [exact U|]. unfold discharge. rewrite get_tab by exact Hi. rewrite U. unfold slope_of. rewrite HK, HS. unfold flood_discharge.
  rewrite Rabs_R0, sqrt_0. destruct (FLOOD c); unfold Rdiv; ring.
Qed.
(* ... but any other surface flows in the direction of the bed, even when it rises in that direction. *)
Theorem C71_direction s r i : network G O d8 c -> reached G O d8 c s -> KINEMATIC c = false -> form c = Manning -> (i < n)%nat ->
  flows G d8 i = true -> get 0 (w_S (upd s r)) i <> 0 -> 0 < get 0 (w_d (upd s r)) i -> 0 < get 0 (discharge G c (upd s r)) i.
Proof.
  intros HN HR HK HM Hi E HS HD. destruct (reached_fits s HN HR) as [_ Hnf]. destruct HN as (HG & Hcl & Hco & Hok).
  destruct (upd_fits G HG d8 O c Hcl Hco Hok s r Hnf) as [Hf' Hnf'].
  pose proof (ok_width G c Hok i Hi) as Hw. pose proof (ok_angle G c Hok i Hi) as Ha. pose proof (ok_rough G c Hok i Hi) as Hn. pose proof (tan_nonneg _ Ha) as Ht.
  assert (HA : 0 < get 0 (w_A (upd s r)) i).
  { destruct (f_A _ _ _ _ Hf' i Hi E) as [-> _]. apply Rmult_lt_0_compat; [exact HD|nra]. }
  assert (U : 0 < get 0 (w_u (upd s r)) i).
  { rewrite upd_d, E in HD by assumption. rewrite upd_u, E by assumption. unfold slope_of, velocity. rewrite HK, HM. unfold manning.
    apply Rmult_lt_0_compat; [apply Rmult_lt_0_compat|apply Rinv_0_lt_compat; exact Hn].
    - apply powr_pos. unfold Rh. apply Rmult_lt_0_compat; [unfold A_wet; apply Rmult_lt_0_compat; [exact HD|nra]|].
      apply Rinv_0_lt_compat. unfold P_wet. pose proof (cos_pos _ Ha). assert (0 < 2 * depth_of c (new_vol G d8 c s r i) i / cos (angle c i)); [|lra].
      apply Rmult_lt_0_compat; [lra|apply Rinv_0_lt_compat; assumption].
    - apply sqrt_lt_R0. apply Rabs_pos_lt. exact HS. }
  rewrite (discharge_get G c) by assumption. apply Rplus_lt_le_0_compat; [apply Rmult_lt_0_compat; assumption|].
  destruct (FLOOD c); [|lra]. apply Rmult_le_pos; [apply flood_velocity_nonneg|]. destruct (f_d _ _ _ _ Hf' i Hi). apply Rmult_le_pos; lra.
Qed.
End Thms.
Print Assumptions C71_state.
Print Assumptions C71_velocity.
Print Assumptions C71_parts.
Print Assumptions C71_created.
Print Assumptions C71_balance.
Print Assumptions C71_sharp.
Print Assumptions C71_comparison.
Print Assumptions C71_steady.
Print Assumptions C71_rise.
Print Assumptions C71_surface.
Print Assumptions C71_level.
Print Assumptions C71_direction.

(* ---------------------------------------------------------------- a concrete network: three rows of four cells, in the
   middle row cell 5 flows east to cell 6 and cell 6 flows east to the edge cell 7 *)
Definition G4 := D8_Model.mkGeom 4 3 1 1 1.
Definition O4 := D8_Model.mkOpts true true false false (-9999).
Definition d4 : list Z := [0;0;0;0; 0;2;2;0; 0;0;0;0]%Z.
Definition chan4 (kin : bool) (step : R) : chan :=
  mkChan kin false Manning (fun _ => 1) (fun _ => 10) (fun _ => 4) (fun _ => 0) (fun i => if Nat.eqb i 6 then 1/2 else 1) (fun _ => 1) (fun _ => 1000) step.

Lemma network4 kin step : 0 < step -> network G4 O4 d4 (chan4 kin step).
Proof.
  intros H. split; [|split; [|split]].
  - unfold geom_ok, G4. cbn. repeat split; lia.
  - intros i Hi. change (D8_Model.ncells G4) with 12%nat in Hi. unfold closed_side, on_LR, on_TB.
    do 12 (destruct i as [|i]; [cbn; intros [[_ X]|[_ X]]; try reflexivity; destruct X; discriminate|]). lia.
  - split; [reflexivity|]. intros i Hi. change (D8_Model.ncells G4) with 12%nat in Hi.
    do 12 (destruct i as [|i]; [cbn; first [left; reflexivity|right; discriminate]|]). lia.
  - constructor; cbn [dt ds width angle rough vol_bankfull chan4]; intros; try lra; [pose proof PI_RGT_0; lra|]. destruct (Nat.eqb i 6); lra.
Qed.
Lemma next4 i : (i < 12)%nat -> next G4 d4 i = match i with 5%nat => Some 6%nat | 6%nat => Some 7%nat | _ => None end.
Proof. intros Hi. do 12 (destruct i as [|i]; [reflexivity|]). lia. Qed.
Lemma acyclic4 : acyclic G4 d4.
Proof.
  assert (M : forall m i j, (i < 12)%nat -> walk G4 d4 m i = Some j -> (i + m <= j)%nat).
  { induction m as [|m IH]; intros i j Hi W; cbn [walk] in W; [injection W as <-; lia|]. rewrite next4 in W by exact Hi.
    do 5 (destruct i as [|i]; [discriminate|]). destruct i as [|i]; [apply IH in W; lia|]. destruct i as [|i]; [apply IH in W; lia|discriminate]. }
  intros i m Hi W. apply M in W; [lia|exact Hi].
Qed.
Lemma flows4 i : (i < 12)%nat -> flows G4 d4 i = true -> i = 5%nat \/ i = 6%nat.
Proof. intros Hi E. unfold flows in E. rewrite next4 in E by exact Hi. do 12 (destruct i as [|i]; [auto; discriminate|]). lia. Qed.

Lemma manning4 i step kin : manning (Rh false 2 (width (chan4 kin step) i) (angle (chan4 kin step) i)) (S_bed (chan4 kin step) i) (rough (chan4 kin step) i) = if Nat.eqb i 6 then 2 else 1.
Proof.
  unfold manning, Rh, A_wet, P_wet, chan4. cbn [width angle S_bed rough]. rewrite tan_0, cos_0, Rabs_R1, sqrt_1.
  replace (2 * (4 + 2 * 0) / (4 + 2 * 2 / 1)) with 1 by field. unfold powr. destruct (Rle_dec 1 0); [lra|].
  unfold Rpower. rewrite ln_1, Rmult_0_r, exp_0. destruct (Nat.eqb i 6); field.
Qed.
(* the hypotheses of C71_rise (and of C71_steady) are met: runoff 8 m/s over cells of 1 m2, depth 2 m, discharges 8 and 16 *)
Example C71_demo_rise : let c := chan4 true 1 in
  network G4 O4 d4 c /\ acyclic G4 d4 /\ KINEMATIC c = true /\ form c = Manning /\ FLOOD c = false /\
  (forall i, (i < 12)%nat -> is_upstream G4 d4 i (upstream G4 d4 i)) /\
  rsuml (fun j => 8 * da c j) (upstream G4 d4 5) = 8 /\ rsuml (fun j => 8 * da c j) (upstream G4 d4 6) = 16 /\
  (forall i, (i < 12)%nat -> flows G4 d4 i = true ->
     let u := manning (Rh false 2 (width c i) (angle c i)) (S_bed c i) (rough c i) in
     0 <= 2 /\ u * A_wet 2 (width c i) (angle c i) = rsuml (fun j => 8 * da c j) (upstream G4 d4 i) /\ 5/3 * (u * dt c) <= ds c i).
Proof.
  intros c. assert (U5 : upstream G4 d4 5 = [5%nat]) by reflexivity. assert (U6 : upstream G4 d4 6 = [5;6]%nat) by reflexivity.
  split; [apply network4; lra|]. split; [exact acyclic4|]. do 3 (split; [reflexivity|]). split; [|split; [|split]].
  - intros i _. apply upstream_is; [apply (network4 true 1); lra|exact acyclic4].
  - rewrite U5. unfold rsuml. cbn [fold_right da c chan4]. ring.
  - rewrite U6. unfold rsuml. cbn [fold_right da c chan4]. ring.
  - intros i Hi E. cbv zeta. unfold c. rewrite manning4. split; [lra|]. split.
    + destruct (flows4 i Hi E) as [-> | ->]; [rewrite U5|rewrite U6]; unfold A_wet, rsuml; cbn [fold_right da width angle chan4 Nat.eqb]; rewrite tan_0; ring.
    + cbn [dt ds chan4]. destruct (Nat.eqb i 6); lra.
Qed.

(* after one update without runoff the initial water is still in place *)
Lemma first4 kin step (d0 : nat -> R) i : 0 < step -> (i < 12)%nat -> flows G4 d4 i = true -> 0 <= d0 i ->
  let s := update G4 d4 (D8_Model.update_parent_ID_grid G4 O4 d4) (chan4 kin step) (initialize G4 (chan4 kin step) d0) (fun _ => 0) in
  get 0 (w_vol s) i = 40 * d0 i /\ get 0 (w_d s) i = d0 i.
Proof.
  intros Hs Hi E Hd. cbv zeta. destruct (network4 kin step Hs) as (HG & Hcl & Hco & Hok).
  assert (Q0 : forall k, get 0 (discharge G4 (chan4 kin step) (initialize G4 (chan4 kin step) d0)) k = 0).
  { intros k. unfold discharge. destruct (le_lt_dec (D8_Model.ncells G4) k) as [L|L]; [apply get_overflow; rewrite tab_length; exact L|].
    rewrite get_tab by exact L. cbn [FLOOD chan4 w_u initialize]. rewrite get_repeat0. ring. }
  assert (NV : new_vol G4 d4 (chan4 kin step) (initialize G4 (chan4 kin step) d0) (fun _ => 0) i = 40 * d0 i).
  { unfold new_vol. rewrite Q0. assert (I0 : inflow G4 d4 (get 0 (discharge G4 (chan4 kin step) (initialize G4 (chan4 kin step) d0))) i = 0).
    { apply rsuml_zero. intros k _. rewrite Q0. destruct (flows_to G4 d4 k i); reflexivity. }
    rewrite I0. cbn [initialize w_vol]. rewrite !get_tab by exact Hi. unfold A_wet. cbn [width angle ds chan4]. rewrite tan_0. rewrite Rmax_left; lra. }
  rewrite upd_vol, upd_d, E, NV by assumption. split; [reflexivity|]. unfold depth_of, chan_part, channel_depth. cbn [FLOOD width ds angle chan4].
  destruct (Req_EM_T 0 0); [|lra]. replace (40 * d0 i / (4 * 10)) with (d0 i) by field. apply Rmax_left. exact Hd.
Qed.

(* Conservation without the limit on the time step is false of the code: with dt = 20 s cell 5 gives away 160 of its
   80 m3 and the water of the network grows without any runoff. *)
Definition conserves (G : D8_Model.geom) (O : D8_Model.opts) (d8 : list Z) (c : chan) : Prop :=
  forall s r, reached G O d8 c s -> (forall i, (i < D8_Model.ncells G)%nat -> 0 <= r i * da c i) ->
    stock G (update G d8 (D8_Model.update_parent_ID_grid G O d8) c s r) = stock G s + supplied G c r.
Theorem C71_conservation_refuted : exists G O d8 c, network G O d8 c /\ acyclic G d8 /\ ~ conserves G O d8 c.
Proof.
  exists G4, O4, d4, (chan4 true 20). assert (HN : network G4 O4 d4 (chan4 true 20)) by (apply network4; lra).
  split; [exact HN|]. split; [exact acyclic4|]. intros C.
  set (p := D8_Model.update_parent_ID_grid G4 O4 d4). set (c := chan4 true 20) in *. set (r0 := fun _ : nat => 0).
  set (s := update G4 d4 p c (initialize G4 c (fun _ => 2)) r0).
  assert (HR : reached G4 O4 d4 c s) by (exists (fun _ => 2), [r0]; split; [intros; lra|reflexivity]).
  specialize (C s r0 HR). fold p in C. pose proof (C71_created G4 O4 d4 c s r0 HN HR) as B. cbv zeta in B. fold p in B. rewrite C in B.
  2:{ intros i _. unfold r0. rewrite Rmult_0_l. lra. }
  set (F := fun i => Rmax (get 0 (discharge G4 c s) i * dt c - (get 0 (w_vol s) i + r0 i * da c i * dt c + inflow G4 d4 (get 0 (discharge G4 c s)) i * dt c)) 0) in B.
  assert (P : F 5%nat <= rsumn (D8_Model.ncells G4) F).
  { apply Rle_trans with (rsumn (D8_Model.ncells G4) (fun i => if Nat.eqb i 5 then F 5%nat else 0)).
    - rewrite (rsumn_single _ _ 5%nat); [rewrite Nat.eqb_refl; lra|apply Nat.ltb_lt; reflexivity|].
      intros i _ Hne. destruct (Nat.eqb i 5) eqn:E; [apply Nat.eqb_eq in E; congruence|reflexivity].
    - apply rsumn_le. intros i _. destruct (Nat.eqb i 5) eqn:E; [apply Nat.eqb_eq in E; subst i; lra|apply Rmax_r]. }
  destruct (first4 true 20 (fun _ => 2) 5 ltac:(lra) ltac:(lia) eq_refl ltac:(lra)) as [V5 D5]. fold c in V5, D5. fold p in V5, D5. fold r0 in V5, D5. fold s in V5, D5.
  assert (A5 : get 0 (w_A s) 5 = 8).
  { pose proof (C71_state G4 O4 d4 c s HN HR) as Hf. destruct (f_A _ _ _ _ Hf 5%nat ltac:(apply Nat.ltb_lt; reflexivity) eq_refl) as [A _]. rewrite A, D5. cbn. rewrite tan_0. ring. }
  assert (U5 : get 0 (w_u s) 5 = 1).
  { pose proof (C71_velocity G4 O4 d4 c (initialize G4 c (fun _ => 2)) r0 5 HN ltac:(apply Nat.ltb_lt; reflexivity) eq_refl) as U. cbv zeta in U. fold p in U. fold s in U.
    rewrite D5 in U. rewrite U. exact (manning4 5 20 true). }
  assert (I5 : inflow G4 d4 (get 0 (discharge G4 c s)) 5 = 0).
  { apply rsuml_zero. intros k Hk. change (D8_Model.ncells G4) with 12%nat in Hk. apply in_seq in Hk. unfold flows_to. rewrite next4 by lia. do 12 (destruct k as [|k]; [reflexivity|]). lia. }
  assert (Q5 : get 0 (discharge G4 c s) 5 = 8).
  { unfold discharge. rewrite get_tab by (apply Nat.ltb_lt; reflexivity). cbn [FLOOD c chan4]. rewrite A5, U5. ring. }
  assert (F 5%nat = 80); [|lra]. unfold F. rewrite Q5, V5, I5. unfold r0. cbn [dt da c chan4]. rewrite Rmax_left; lra.
Qed.

(* "Water never flows to a cell with a higher water surface" is false of the diffusive wave: cell 6 is filled 32 m deep,
   its surface is 20 m above that of cell 5, and cell 5 discharges into it. *)
Theorem C71_uphill_refuted : exists G O d8 c s i j, network G O d8 c /\ acyclic G d8 /\ KINEMATIC c = false /\ reached G O d8 c s /\
  (i < D8_Model.ncells G)%nat /\ next G d8 i = Some j /\
  S_bed c i * ds c i + get 0 (w_d s) i < get 0 (w_d s) j /\ 0 < get 0 (discharge G c s) i.
Proof.
  set (c := chan4 false 1). set (p := D8_Model.update_parent_ID_grid G4 O4 d4). set (d0 := fun i : nat => if Nat.eqb i 6 then 32 else 2).
  set (r0 := fun _ : nat => 0). set (s := update G4 d4 p c (initialize G4 c d0) r0).
  assert (HN : network G4 O4 d4 c) by (apply network4; lra).
  assert (H0 : forall i, 0 <= d0 i) by (intros i; unfold d0; destruct (Nat.eqb i 6); lra).
  assert (HR0 : reached G4 O4 d4 c (initialize G4 c d0)) by (exists d0, []; split; [intros; apply H0|reflexivity]).
  assert (HR : reached G4 O4 d4 c s) by (exists d0, [r0]; split; [intros; apply H0|reflexivity]).
  destruct (first4 false 1 d0 5 ltac:(lra) ltac:(lia) eq_refl (H0 _)) as [_ D5]. destruct (first4 false 1 d0 6 ltac:(lra) ltac:(lia) eq_refl (H0 _)) as [_ D6].
  fold c in D5, D6. fold p in D5, D6. fold r0 in D5, D6. fold s in D5, D6. change (d0 5%nat) with 2 in D5. change (d0 6%nat) with 32 in D6.
  destruct (reached_fits G4 O4 d4 c s HN HR) as [_ Hnf].
  assert (S5 : get 0 (w_S s) 5 = -2).
  { pose proof (C71_surface G4 O4 d4 c (initialize G4 c d0) r0 (fun i => if Nat.eqb i 5 then 10 else 0) 5 6 HN HR0 eq_refl ltac:(apply Nat.ltb_lt; reflexivity) eq_refl eq_refl) as H.
    cbv zeta in H. fold p in H. fold s in H. rewrite H; [|cbn; lra]. rewrite D5, D6, !(Hnf eq_refl). cbn. lra. }
  exists G4, O4, d4, c, s, 5%nat, 6%nat. split; [exact HN|]. split; [exact acyclic4|]. split; [reflexivity|]. split; [exact HR|]. split; [apply Nat.ltb_lt; reflexivity|].
  split; [reflexivity|]. split; [rewrite D5, D6; cbn; lra|].
  apply (C71_direction G4 O4 d4 c (initialize G4 c d0) r0 5 HN HR0 eq_refl eq_refl ltac:(apply Nat.ltb_lt; reflexivity) eq_refl); fold p; fold s; [rewrite S5|rewrite D5]; lra.
Qed.
(* the limits of C71_balance and C71_comparison are met by this network: one update from water 2 m deep, dt = 1 *)
Example C71_demo_courant : let c := chan4 true 1 in let p := D8_Model.update_parent_ID_grid G4 O4 d4 in
  forall k, courant G4 d4 c (5/3) (run G4 d4 p c (initialize G4 c (fun _ => 2)) (firstn k [fun _ => 0])).
Proof.
  intros c p k i Hi E. split; [|discriminate]. assert (HN : network G4 O4 d4 c) by (apply network4; lra).
  destruct k as [|k]; [cbn [firstn run fold_left initialize w_u]; rewrite get_repeat0; cbn; lra|].
  replace (firstn (S k) [fun _ : nat => 0]) with [fun _ : nat => 0] by (destruct k; reflexivity).
  change (run G4 d4 p c (initialize G4 c (fun _ => 2)) [fun _ : nat => 0]) with (update G4 d4 p c (initialize G4 c (fun _ => 2)) (fun _ => 0)).
  pose proof (C71_velocity G4 O4 d4 c (initialize G4 c (fun _ => 2)) (fun _ => 0) i HN Hi E) as U. cbv zeta in U. fold p in U.
  destruct (first4 true 1 (fun _ => 2) i ltac:(lra) Hi E ltac:(lra)) as [_ D5]. fold c in D5. fold p in D5. rewrite D5 in U. cbn [form c chan4 KINEMATIC] in U.
  pose proof (manning4 i 1 true) as M. unfold manning, Rh, A_wet, P_wet in M. fold c in M.
  assert (U2 : get 0 (w_u (update G4 d4 p c (initialize G4 c (fun _ => 2)) (fun _ => 0))) i = if Nat.eqb i 6 then 2 else 1) by (rewrite U; exact M).
  rewrite U2. cbn [dt ds c chan4]. destruct (Nat.eqb i 6); lra.
Qed.
Print Assumptions C71_conservation_refuted.
Print Assumptions C71_uphill_refuted.
