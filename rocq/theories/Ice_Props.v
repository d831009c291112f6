(* C72: the glacier component. *)
From Coq Require Import Reals Arith Bool List Lra Lia.
From Verif Require Import Wave_Spec Wave_Proofs Ice_Model Ice_Spec Ice_Proofs Ice_Flow Ice_Sym.
Local Open Scope R_scope.

Definition surface (Zb H : grid) : grid := fun r c => Zb r c + Rmax (H r c) 0.
Definition all_sides (b : bound) : bounds := mkBounds b b b b.

Lemma update_inv ny nx dx dy small S t H Zb ci dt H' Zi' mr ci' :
  update ny nx dx dy small S t H Zb ci = Some (dt, H', Zi', mr, ci') ->
  exists Bxy, mass_balance (clim S) (surface Zb H) t = Some Bxy /\
    let q := fluxes ny nx dx dy free (FLOW S) (SLIDE S) H Zb in
    (VARIABLE_DT S = false -> dt = dt_max S) /\
    H' = new_H ny nx dx dy H Zb Bxy (fst q) (snd q) dt ci /\ Zi' = new_Z ny nx dx dy H Zb Bxy (fst q) (snd q) dt ci /\
    mr = new_mr ny nx dx dy H Zb Bxy (fst q) (snd q) dt ci /\ ci' = new_ci ny nx dx dy H Zb Bxy (fst q) (snd q) dt ci.
Proof.
  unfold update. destruct (fluxes _ _ _ _ _ _ _ _ _) as [qx qy]. cbn [fst snd].
  change (fun r c => Zb r c + Rmax (H r c) 0) with (surface Zb H).
  destruct (mass_balance _ _ _) as [B|]; [|discriminate]. destruct (if VARIABLE_DT S then _ else _) as [d|] eqn:Ed; [|discriminate].
  intros E. exists B. split; [reflexivity|]. cbn zeta.
  unfold new_H, new_Z, new_mr, new_ci. destruct (update_vars _ _ _ _ _ _ _ _ _ _ _) as [[[h z] m] x] eqn:Eu.
  injection E as <- <- <- <- <-. split; [intros Ev; rewrite Ev in Ed; congruence|]. rewrite Eu. repeat split.
Qed.

(* 1. The account of one step: the thickness of every cell changes by snow, by flow, by melt and by ice made up; the melt
   rate handed to other components is the ice that really melted, as water per second; the surface is bed plus ice; and
   the total changes only by snow, by melt, by what crosses the edges and by ice made up. *)
Theorem C72_account : forall ny nx dx dy small S t H Zb ci dt H' Zi' mr ci',
  update ny nx dx dy small S t H Zb ci = Some (dt, H', Zi', mr, ci') -> 0 < dt ->
  exists Bxy melted made,
    let qx := fst (fluxes ny nx dx dy (all_sides IceFree) (FLOW S) (SLIDE S) H Zb) in
    let qy := snd (fluxes ny nx dx dy (all_sides IceFree) (FLOW S) (SLIDE S) H Zb) in
    mass_balance (clim S) (surface Zb H) t = Some Bxy /\
    account ny nx dx dy dt qx qy Bxy H H' melted made /\
    everywhere ny nx (fun r c => mr r c = melted r c / dt * (917 / 1000) / (365 * 24 * 3600)) /\
    everywhere ny nx (fun r c => Zi' r c = Zb r c + H' r c) /\
    gsum ny nx H' = gsum ny nx H + gsum ny nx (fun r c => dt * Rmax 0 (Bxy r c)) + dt * edge_inflow ny nx dx dy qx qy
                    - gsum ny nx melted + gsum ny nx made.
Proof.
  intros * E Hd. destruct (update_inv _ _ _ _ _ _ _ _ _ _ _ _ _ _ _ E) as [B [EB [_ [-> [-> [-> _]]]]]].
  exists B. change (all_sides IceFree) with free. destruct (fluxes _ _ _ _ _ _ _ _ _) as [qx qy]. cbn [fst snd].
  exists (melted dx dy H B qx qy dt), (made dx dy H B qx qy dt). cbn zeta.
  split; [assumption|]. pose proof (step_account ny nx dx dy H Zb B qx qy dt ci Hd) as A. split; [assumption|]. split; [|split].
  - intros r c _ _. rewrite new_mr_eq by assumption. unfold rhoI, rhoW, sec_per_year. f_equal. ring.
  - intros r c Hr Hc. unfold new_Z, new_H, update_vars. cbn [fst snd]. f_equal. apply Rmax_left.
    pose proof (new_H_eq ny nx dx dy H Zb B qx qy dt ci r c Hd) as En. unfold new_H, update_vars in En. cbn [fst] in En. rewrite En.
    apply Rmax_l.
  - rewrite <- gsum_inflow, <- gsum_scale, <- !gsum_plus, <- gsum_minus, <- gsum_plus. apply gsum_ext. intros r c Hr Hc.
    destruct (A r c Hr Hc) as [_ [_ [_ [_ Eq]]]]. exact Eq.
Qed.

(* 2. Thickness and melt rate are never negative. *)
Theorem C72_nonneg : forall ny nx dx dy small S t H Zb ci dt H' Zi' mr ci',
  update ny nx dx dy small S t H Zb ci = Some (dt, H', Zi', mr, ci') -> 0 < dt ->
  everywhere ny nx (fun r c => 0 <= H' r c /\ 0 <= mr r c).
Proof.
  intros * E Hd r c Hr Hc. destruct (update_inv _ _ _ _ _ _ _ _ _ _ _ _ _ _ _ E) as [B [EB [_ [-> [-> [-> _]]]]]].
  split; [rewrite new_H_eq by assumption; apply Rmax_l | unfold new_mr, update_vars; apply Rmax_r].
Qed.
(* ... nor after any number of steps; time advances by the given step *)
Theorem C72_run_nonneg : forall ny nx dx dy small S k H0 Zb s,
  0 < dt_max S -> VARIABLE_DT S = false -> everywhere ny nx (fun r c => 0 <= H0 r c) ->
  g_run ny nx dx dy small S Zb k (g_init H0 Zb) = Some s ->
  everywhere ny nx (fun r c => 0 <= h_ice s r c /\ 0 <= mr_ice s r c /\ z_ice s r c = Zb r c + h_ice s r c) /\ time s = INR k * dt_max S.
Proof.
  intros * Hd Hv H0p. revert s. induction k as [|k IH]; intros s.
  - cbn [g_run]. intros E. injection E as <-. cbn [g_init h_ice mr_ice z_ice time]. split; [|cbn [INR]; ring].
    intros r c Hr Hc. split; [auto | split; [lra | reflexivity]].
  - cbn [g_run]. destruct (g_run _ _ _ _ _ _ _ k _) as [s1|] eqn:E1; [|discriminate]. destruct (IH s1 eq_refl) as [Hn Et].
    unfold g_step. destruct (update _ _ _ _ _ _ _ _ _ _) as [[[[[dt H'] Z'] mr] ci]|] eqn:Eu; [|discriminate].
    intros E. injection E as <-. cbn [h_ice mr_ice z_ice time].
    destruct (update_inv _ _ _ _ _ _ _ _ _ _ _ _ _ _ _ Eu) as [B [_ [Edt _]]]. specialize (Edt Hv). subst dt.
    split; [|rewrite Et, S_INR; ring]. intros r c Hr Hc. destruct (C72_nonneg _ _ _ _ _ _ _ _ _ _ _ _ _ _ _ Eu Hd r c Hr Hc) as [P1 P2].
    split; [exact P1|]. split; [exact P2|].
    destruct (C72_account _ _ _ _ _ _ _ _ _ _ _ _ _ _ _ Eu Hd) as (? & ? & ? & _ & _ & _ & Ez & _). apply Ez; assumption.
Qed.
(* The loop of a model run: with a working balance and a fixed step it ends, at the first multiple of the step that
   reaches t_max, in the state after that many steps. *)
Lemma g_step_ok ny nx dx dy small S Zb s : VARIABLE_DT S = false -> mbt (clim S) <> Broken ->
  exists s', g_step ny nx dx dy small S Zb s = Some s' /\ time s' = time s + dt_max S.
Proof.
  intros Hv Hm. unfold g_step, update. destruct (fluxes _ _ _ _ _ _ _ _ _) as [qx qy]. unfold mass_balance.
  destruct (ela (clim S) (time s)) as [e|] eqn:Ee.
  - rewrite Hv. destruct (update_vars _ _ _ _ _ _ _ _ _ _ _) as [[[h z] m] x]. eexists. split; reflexivity.
  - exfalso. apply Hm. unfold ela in Ee. destruct (mbt (clim S)); congruence.
Qed.
Lemma g_run_shift ny nx dx dy small S Zb k : forall s, g_run ny nx dx dy small S Zb (Datatypes.S k) s =
  match g_step ny nx dx dy small S Zb s with Some s' => g_run ny nx dx dy small S Zb k s' | None => None end.
Proof.
  induction k as [|k IH]; intros s.
  - cbn [g_run]. destruct (g_step _ _ _ _ _ _ _ s); reflexivity.
  - change (g_run ny nx dx dy small S Zb (Datatypes.S (Datatypes.S k)) s) with
      (match g_run ny nx dx dy small S Zb (Datatypes.S k) s with Some s => g_step ny nx dx dy small S Zb s | None => None end).
    rewrite IH. destruct (g_step _ _ _ _ _ _ _ s); reflexivity.
Qed.
Theorem C72_run_ends : forall ny nx dx dy small S Zb t_max H0 k, VARIABLE_DT S = false -> mbt (clim S) <> Broken -> 0 < dt_max S ->
  (forall j, (j < k)%nat -> INR j * dt_max S < t_max) -> t_max <= INR k * dt_max S ->
  exists s, g_run ny nx dx dy small S Zb k (g_init H0 Zb) = Some s /\
    forall fuel, (k <= fuel)%nat -> run_model ny nx dx dy small S Zb t_max fuel (g_init H0 Zb) = Finished s.
Proof.
  intros * Hv Hm Hd Hlt Hge.
  enough (G : forall m n s, (n + m = k)%nat -> time s = INR n * dt_max S ->
    exists s', g_run ny nx dx dy small S Zb m s = Some s' /\ forall fuel, (m <= fuel)%nat -> run_model ny nx dx dy small S Zb t_max fuel s = Finished s').
  { apply (G k 0%nat); [reflexivity | cbn; ring]. }
  induction m as [|m IH]; intros n s Hn Ht.
  - exists s. split; [reflexivity|]. intros fuel _. replace n with k in Ht by lia.
    destruct fuel; cbn [run_model]; destruct (Rlt_dec _ _); lra || reflexivity.
  - destruct (g_step_ok ny nx dx dy small S Zb s Hv Hm) as [s1 [E1 T1]].
    destruct (IH (Datatypes.S n) s1 ltac:(lia) ltac:(rewrite T1, Ht, S_INR; ring)) as [s' [E' F']].
    exists s'. rewrite g_run_shift, E1. split; [exact E'|]. intros [|fuel] Hf; [lia|]. cbn [run_model].
    destruct (Rlt_dec _ _) as [_|N]; [|exfalso; apply N; rewrite Ht; apply Hlt; lia]. rewrite E1. apply F'. lia.
Qed.

(* 3. Ice never flows uphill, and does not flow between cells whose surfaces are level. *)
Theorem C72_downhill : forall ny nx dx dy B F S H Zb r c, 0 < dx -> 0 < dy ->
  everywhere ny nx (fun r c => 0 <= H r c) ->
  let qx := fst (fluxes ny nx dx dy B F S H Zb) in
  let qy := snd (fluxes ny nx dx dy B F S H Zb) in
  let Z := fun r c => Zb r c + H r c in
  ((r < ny)%nat -> (c + 1 < nx)%nat ->
     qx (r + 1)%nat (c + 1)%nat * (Z r (c + 1)%nat - Z r c) <= 0 /\
     (Z r (c + 1)%nat = Z r c -> qx (r + 1)%nat (c + 1)%nat = 0) /\
     (H r c = 0 -> H r (c + 1)%nat = 0 -> qx (r + 1)%nat (c + 1)%nat = 0)) /\
  ((r + 1 < ny)%nat -> (c < nx)%nat ->
     qy (r + 1)%nat (c + 1)%nat * (Z (r + 1)%nat c - Z r c) <= 0 /\
     (Z (r + 1)%nat c = Z r c -> qy (r + 1)%nat (c + 1)%nat = 0) /\
     (H r c = 0 -> H (r + 1)%nat c = 0 -> qy (r + 1)%nat (c + 1)%nat = 0)).
Proof.
  intros * Hdx Hdy Hp. rewrite fluxes_eq. cbn zeta. cbn [fst snd].
  set (s := set_bc ny nx B H Zb (surf H Zb)).
  assert (EZ : forall r c, (r < ny)%nat -> (c < nx)%nat -> snd s (r + 1)%nat (c + 1)%nat = Zb r c + H r c).
  { intros i j Hi Hj. unfold s. rewrite Zx_eq, Hx_in by lia. unfold add_halo. rewrite !inner_in by lia.
    replace (i + 1 - 1)%nat with i by lia. replace (j + 1 - 1)%nat with j by lia. reflexivity. }
  assert (EH : forall r c, (r < ny)%nat -> (c < nx)%nat -> fst s (r + 1)%nat (c + 1)%nat = H r c).
  { intros i j Hi Hj. unfold s. rewrite Hx_in by lia.
    replace (i + 1 - 1)%nat with i by lia. replace (j + 1 - 1)%nat with j by lia. reflexivity. }
  clearbody s. split; intros Hr Hc.
  - destruct (qxX_downhill (fst s) (snd s) dx dy nx B F S (r + 1) (c + 1)) as [A [A1 A2]].
    unfold dZidx in A, A1. unfold HX in A2. rewrite !EZ in A, A1 by lia. rewrite !EH in A2 by lia.
    set (q := qxX _ _ _ _ _ _ _ _ _ _) in *. clearbody q. split; [|split].
    + apply Rmult_le_reg_r with (/ dx); [now apply Rinv_0_lt_compat|]. unfold Rdiv in A. rewrite Rmult_0_l. rewrite Rmult_assoc. exact A.
    + intros E. apply A1. rewrite E. unfold Rdiv. ring.
    + intros E1 E2. apply A2. lra.
  - destruct (qyY_downhill (fst s) (snd s) dx dy ny B F S (r + 1) (c + 1)) as [A [A1 A2]].
    unfold dZidy in A, A1. unfold HY in A2. rewrite !EZ in A, A1 by lia. rewrite !EH in A2 by lia.
    set (q := qyY _ _ _ _ _ _ _ _ _ _) in *. clearbody q. split; [|split].
    + apply Rmult_le_reg_r with (/ dy); [now apply Rinv_0_lt_compat|]. unfold Rdiv in A. rewrite Rmult_0_l. rewrite Rmult_assoc. exact A.
    + intros E. apply A1. rewrite E. unfold Rdiv. ring.
    + intros E1 E2. apply A2. lra.
Qed.

(* 4. Nothing flows in across the edges (all four are ice-free), so the total grows by no more than snow and made-up ice. *)
Lemma outward_aux q h d : 0 <= h -> 0 < d -> q * (h / d) <= 0 -> (h / d = 0 -> q = 0) -> q <= 0.
Proof.
  intros Hh Hd A A0. destruct (Req_dec h 0) as [E|E].
  - rewrite A0; [lra|]. rewrite E. unfold Rdiv. ring.
  - apply Rnot_lt_le. intros L. assert (0 < h / d) by (apply Rdiv_lt_0_compat; lra).
    assert (0 < q * (h / d)) by (apply Rmult_lt_0_compat; assumption). lra.
Qed.
Theorem C72_no_ice_enters : forall ny nx dx dy F S H Zb, 0 < dx -> 0 < dy ->
  everywhere ny nx (fun r c => 0 <= H r c) ->
  let qx := fst (fluxes ny nx dx dy (all_sides IceFree) F S H Zb) in
  let qy := snd (fluxes ny nx dx dy (all_sides IceFree) F S H Zb) in
  (1 <= nx)%nat -> (1 <= ny)%nat ->
  (forall r, (1 <= r <= ny)%nat -> qx r 0%nat <= 0 <= qx r nx) /\
  (forall c, (1 <= c <= nx)%nat -> qy 0%nat c <= 0 <= qy ny c) /\
  edge_inflow ny nx dx dy qx qy <= 0.
Proof.
  intros * Hdx Hdy Hp. rewrite fluxes_eq. cbn zeta. cbn [fst snd]. intros Hx Hy.
  set (B := all_sides IceFree).
  assert (A1 : forall r, (1 <= r <= ny)%nat -> let s := set_bc ny nx B H Zb (surf H Zb) in
     qxX nx dx dy (fst s) (snd s) B F S r 0%nat <= 0 <= qxX nx dx dy (fst s) (snd s) B F S r nx).
  { intros r Hr s.
    destruct (qxX_downhill (fst s) (snd s) dx dy nx B F S r 0) as [A [A1 _]].
    destruct (qxX_downhill (fst s) (snd s) dx dy nx B F S r nx) as [C [C1 _]].
    unfold dZidx in A, A1, C, C1. unfold s in A, A1, C, C1. rewrite !Zx_eq in A, A1, C, C1.
    destruct (Hx_west ny nx B H Zb (surf H Zb) r) as [W _]; [lia..|]. destruct (Hx_east ny nx B H Zb (surf H Zb) r) as [E _]; [lia..|].
    rewrite W in A, A1 by reflexivity. rewrite E in C, C1 by reflexivity. rewrite Hx_in in A, A1, C, C1 by lia.
    unfold add_halo in A, A1, C, C1.
    rewrite inner_high in C, C1. rewrite (inner_low nx) in A, A1 by lia. rewrite (inner_in nx) in A, A1, C, C1 by lia.
    cbn [plus] in A, A1. replace (1 - 1)%nat with 0%nat in A, A1 by lia.
    fold s in A, A1, C, C1. set (q0 := qxX _ _ _ _ _ _ _ _ _ 0%nat) in *. set (q1 := qxX _ _ _ _ _ _ _ _ _ nx) in *. clearbody q0 q1.
    pose proof (Hp (r - 1)%nat 0%nat ltac:(lia) ltac:(lia)) as P0. pose proof (Hp (r - 1)%nat (nx - 1)%nat ltac:(lia) ltac:(lia)) as P1.
    cbv beta in P0, P1. set (h0 := H _ 0%nat) in *. set (h1 := H _ (nx - 1)%nat) in *. clearbody h0 h1. split.
    - apply (outward_aux q0 h0 dx); try assumption.
      + replace (h0 / dx) with ((Zb (inner ny r) 0%nat + h0 - (Zb (inner ny r) 0%nat + 0)) / dx) by (f_equal; ring). exact A.
      + intros Z. apply A1. transitivity (h0 / dx); [f_equal; ring | exact Z].
    - apply Ropp_le_cancel. rewrite Ropp_0. apply (outward_aux (- q1) h1 dx); try assumption.
      + replace (- q1 * (h1 / dx)) with (q1 * ((Zb (inner ny r) (nx - 1)%nat + 0 - (Zb (inner ny r) (nx - 1)%nat + h1)) / dx)) by (unfold Rdiv; ring).
        exact C.
      + intros Z. rewrite C1; [lra|]. replace ((Zb (inner ny r) (nx - 1)%nat + 0 - (Zb (inner ny r) (nx - 1)%nat + h1)) / dx) with (- (h1 / dx)) by (unfold Rdiv; ring).
        rewrite Z. lra. }
  assert (A2 : forall c, (1 <= c <= nx)%nat -> let s := set_bc ny nx B H Zb (surf H Zb) in
     qyY ny dx dy (fst s) (snd s) B F S 0%nat c <= 0 <= qyY ny dx dy (fst s) (snd s) B F S ny c).
  { intros c Hc s.
    destruct (qyY_downhill (fst s) (snd s) dx dy ny B F S 0 c) as [A [A1' _]].
    destruct (qyY_downhill (fst s) (snd s) dx dy ny B F S ny c) as [C [C1 _]].
    unfold dZidy in A, A1', C, C1. unfold s in A, A1', C, C1. rewrite !Zx_eq in A, A1', C, C1.
    destruct (Hx_south ny nx B H Zb (surf H Zb) c) as [W _]; [lia..|]. destruct (Hx_north ny nx B H Zb (surf H Zb) c) as [E _]; [lia..|].
    rewrite W in A, A1' by reflexivity. rewrite E in C, C1 by reflexivity. rewrite Hx_in in A, A1', C, C1 by lia.
    unfold add_halo in A, A1', C, C1.
    rewrite inner_high in C, C1. rewrite (inner_low ny) in A, A1' by lia. rewrite (inner_in ny) in A, A1', C, C1 by lia.
    cbn [plus] in A, A1'. replace (1 - 1)%nat with 0%nat in A, A1' by lia.
    fold s in A, A1', C, C1. set (q0 := qyY _ _ _ _ _ _ _ _ 0%nat _) in *. set (q1 := qyY _ _ _ _ _ _ _ _ ny _) in *. clearbody q0 q1.
    pose proof (Hp 0%nat (c - 1)%nat ltac:(lia) ltac:(lia)) as P0. pose proof (Hp (ny - 1)%nat (c - 1)%nat ltac:(lia) ltac:(lia)) as P1.
    cbv beta in P0, P1. set (h0 := H 0%nat _) in *. set (h1 := H (ny - 1)%nat _) in *. clearbody h0 h1. split.
    - apply (outward_aux q0 h0 dy); try assumption.
      + replace (h0 / dy) with ((Zb 0%nat (inner nx c) + h0 - (Zb 0%nat (inner nx c) + 0)) / dy) by (f_equal; ring). exact A.
      + intros Z. apply A1'. transitivity (h0 / dy); [f_equal; ring | exact Z].
    - apply Ropp_le_cancel. rewrite Ropp_0. apply (outward_aux (- q1) h1 dy); try assumption.
      + replace (- q1 * (h1 / dy)) with (q1 * ((Zb (ny - 1)%nat (inner nx c) + 0 - (Zb (ny - 1)%nat (inner nx c) + h1)) / dy)) by (unfold Rdiv; ring).
        exact C.
      + intros Z. rewrite C1; [lra|]. replace ((Zb (ny - 1)%nat (inner nx c) + 0 - (Zb (ny - 1)%nat (inner nx c) + h1)) / dy) with (- (h1 / dy)) by (unfold Rdiv; ring).
        rewrite Z. lra. }
  cbn zeta in A1, A2. split; [exact A1|]. split; [exact A2|]. unfold edge_inflow.
  assert (Ix : 0 < / dx) by now apply Rinv_0_lt_compat. assert (Iy : 0 < / dy) by now apply Rinv_0_lt_compat.
  match goal with |- ?a / _ + ?b / _ <= 0 => assert (a <= 0); [|assert (b <= 0)] end.
  - apply Rle_trans with (rsumn ny (fun _ => 0)); [|rewrite rsumn_zero by auto; lra]. apply rsumn_le. intros r Hr.
    pose proof (A1 (Datatypes.S r) ltac:(lia)). lra.
  - apply Rle_trans with (rsumn nx (fun _ => 0)); [|rewrite rsumn_zero by auto; lra]. apply rsumn_le. intros r Hr.
    pose proof (A2 (Datatypes.S r) ltac:(lia)). lra.
  - unfold Rdiv. match goal with |- ?a * _ + ?b * _ <= 0 => assert (0 <= - a * / dx); [|assert (0 <= - b * / dy)] end;
      [apply Rmult_le_pos; lra | apply Rmult_le_pos; lra | lra].
Qed.

(* 5. With closed boundaries (given to the functions; the component cannot give them, see C72_settings_refuted) nothing
   crosses the edges. *)
Definition closed (b : bound) : Prop := b = ZeroFlux \/ b = ConstFlux.
Theorem C72_closed : forall ny nx dx dy B F S H Zb, (1 <= nx)%nat -> (1 <= ny)%nat ->
  closed (West B) -> closed (East B) -> closed (South B) -> closed (North B) ->
  let qx := fst (fluxes ny nx dx dy B F S H Zb) in
  let qy := snd (fluxes ny nx dx dy B F S H Zb) in
  (forall r, (1 <= r <= ny)%nat -> qx r 0%nat = 0 /\ qx r nx = 0) /\
  (forall c, (1 <= c <= nx)%nat -> qy 0%nat c = 0 /\ qy ny c = 0) /\
  edge_inflow ny nx dx dy qx qy = 0.
Proof.
  intros * Hx Hy CW CE CS CN. rewrite fluxes_eq. cbn zeta. cbn [fst snd].
  assert (A1 : forall r, (1 <= r <= ny)%nat -> let s := set_bc ny nx B H Zb (surf H Zb) in
     qxX nx dx dy (fst s) (snd s) B F S r 0%nat = 0 /\ qxX nx dx dy (fst s) (snd s) B F S r nx = 0).
  { intros r Hr s.
    destruct (qxX_downhill (fst s) (snd s) dx dy nx B F S r 0) as [_ [A1 _]].
    destruct (qxX_downhill (fst s) (snd s) dx dy nx B F S r nx) as [_ [C1 _]].
    unfold dZidx in A1, C1. unfold s in A1, C1. rewrite !Zx_eq in A1, C1.
    destruct (Hx_west ny nx B H Zb (surf H Zb) r) as [_ W]; [lia..|]. destruct (Hx_east ny nx B H Zb (surf H Zb) r) as [_ E]; [lia..|].
    rewrite W in A1 by assumption. rewrite E in C1 by assumption. rewrite Hx_in in A1, C1 by lia. unfold add_halo in A1, C1.
    rewrite inner_high in C1. rewrite (inner_low nx) in A1 by lia. rewrite (inner_in nx) in A1, C1 by lia.
    cbn [plus] in A1. replace (1 - 1)%nat with 0%nat in A1 by lia.
    split; [apply A1 | apply C1]; unfold Rdiv; ring. }
  assert (A2 : forall c, (1 <= c <= nx)%nat -> let s := set_bc ny nx B H Zb (surf H Zb) in
     qyY ny dx dy (fst s) (snd s) B F S 0%nat c = 0 /\ qyY ny dx dy (fst s) (snd s) B F S ny c = 0).
  { intros c Hc s.
    destruct (qyY_downhill (fst s) (snd s) dx dy ny B F S 0 c) as [_ [A1' _]].
    destruct (qyY_downhill (fst s) (snd s) dx dy ny B F S ny c) as [_ [C1 _]].
    unfold dZidy in A1', C1. unfold s in A1', C1. rewrite !Zx_eq in A1', C1.
    destruct (Hx_south ny nx B H Zb (surf H Zb) c) as [_ W]; [lia..|]. destruct (Hx_north ny nx B H Zb (surf H Zb) c) as [_ E]; [lia..|].
    rewrite W in A1' by assumption. rewrite E in C1 by assumption. rewrite Hx_in in A1', C1 by lia. unfold add_halo in A1', C1.
    rewrite inner_high in C1. rewrite (inner_low ny) in A1' by lia. rewrite (inner_in ny) in A1', C1 by lia.
    cbn [plus] in A1'. replace (1 - 1)%nat with 0%nat in A1' by lia.
    split; [apply A1' | apply C1]; unfold Rdiv; ring. }
  cbn zeta in A1, A2. split; [exact A1|]. split; [exact A2|]. unfold edge_inflow. rewrite !rsumn_zero; [unfold Rdiv; ring | |].
  - intros c Hc. destruct (A2 (Datatypes.S c) ltac:(lia)) as [-> ->]. ring.
  - intros c Hc. destruct (A1 (Datatypes.S c) ltac:(lia)) as [-> ->]. ring.
Qed.

(* 6. Where the landscape does not vary from row to row the flux is the textbook one: deformation (Glen's law, A = 6.8e-15 * 3.15e7 /
   1e9 per Pa^3 and year) and sliding (10 m per year at a bed stress of 100000 Pa), as switched on. *)
Lemma abs_cube t : 0 < t -> Rabs t = t. Proof. intros. apply Rabs_right. lra. Qed.
Theorem C72_glen : forall F S H_ext Zi_ext dx dy r c,
  let h := (H_ext r (c + 1)%nat + H_ext r c) / 2 in
  let s := (Zi_ext r (c + 1)%nat - Zi_ext r c) / dx in
  (1 <= r)%nat ->
  (forall k, k = c \/ k = (c + 1)%nat -> Zi_ext (r - 1)%nat k = Zi_ext r k /\ Zi_ext (r + 1)%nat k = Zi_ext r k) ->
  0 <= h -> 1 / 10^5 <= 917 * (981/100) * h * Rabs s ->
  (s < 0 -> H_ext r c < 1 -> H_ext r (c + 1)%nat < 1) -> (0 < s -> H_ext r (c + 1)%nat < 1 -> H_ext r c < 1) ->
  qx0 dx dy H_ext Zi_ext F S r c = (if F then glen_flux (68 / 10^16 * (315 * 10^5) / 10^9) 917 (981/100) h s else 0)
    + (if S then slide_flux 10 100000 917 (981/100) h s else 0).
Proof.
  intros * Hr Eq Hh Hs B1 B2. rewrite qx0_face.
  assert (Hpos : 0 < 917 * (981 / 100) * h * Rabs s) by lra.
  assert (Hh' : 0 < h). { destruct (Req_dec h 0) as [E|E]; [rewrite E in Hpos; lra | lra]. }
  assert (Hs' : s <> 0). { intros E. rewrite E, Rabs_R0 in Hpos. lra. }
  assert (Ex : HX H_ext r c = h) by reflexivity. assert (Es : dZidx dx Zi_ext r c = s) by reflexivity.
  assert (Ety : taubyX dy H_ext Zi_ext r c = 0).
  { unfold taubyX, taubyY, dZidy. replace (r - 1 + 1)%nat with r by lia.
    destruct (Eq c ltac:(auto)) as [-> ->]. destruct (Eq (c + 1)%nat ltac:(auto)) as [-> ->]. unfold Rdiv. ring. }
  assert (Etx : taubxX dx H_ext Zi_ext r c = - 917 * (981 / 100) * h * s) by reflexivity.
  assert (Et : taubX dx dy H_ext Zi_ext r c = 917 * (981 / 100) * h * Rabs s).
  { unfold taubX. rewrite Ex, Ety, Etx. destruct (Rlt_dec 0 h); [|lra].
    replace ((- 917 * (981 / 100) * h * s) ^ 2 + 0 ^ 2) with ((917 * (981 / 100) * h * Rabs s) * (917 * (981 / 100) * h * Rabs s)).
    - apply sqrt_square. lra.
    - replace (917 * (981 / 100) * h * Rabs s * (917 * (981 / 100) * h * Rabs s)) with
        ((917 * (981 / 100) * h) * (917 * (981 / 100) * h) * (Rabs s * Rabs s)) by ring.
      rewrite <- Rabs_mult, (Rabs_right (s * s)) by (apply Rle_ge, Rle_0_sqr). ring. }
  assert (Eb : blockx H_ext Zi_ext dx r c = false).
  { unfold blockx. destruct (Rlt_dec _ _) as [L|L]; [|reflexivity]. exfalso. unfold DCLASSx, CLASS, MinGlacThick in L. rewrite Es in L.
    unfold sign, tiny in L.
    destruct (Rlt_dec s 0); [|destruct (Rlt_dec 0 s); [|lra]];
    destruct (Rle_dec 1 (H_ext r (c + 1)%nat)), (Rle_dec 1 (H_ext r c));
    first [ revert L; unfold Rabs; destruct (Rcase_abs _); lra
          | exfalso; assert (H_ext r (c + 1)%nat < 1) by (apply B1; lra); lra
          | exfalso; assert (H_ext r c < 1) by (apply B2; lra); lra ]. }
  rewrite Eb. unfold face_flux, speed, xcmpnt. rewrite Ex, Etx, Et. set (u := Rabs s) in *.
  assert (Hu : 0 < u) by (apply Rabs_pos_lt; assumption).
  destruct (Rlt_dec _ tiny) as [L|L]. { exfalso. rewrite Rabs_right in L by lra. unfold tiny in L. lra. }
  clearbody h. rewrite Rabs_right.
  2:{ apply Rle_ge. pose proof glensA_pos as HA. revert HA. generalize glensA. intros A HA. revert Hpos. generalize (917 * (981 / 100) * h * u). intros tau Hpos. repeat apply Rmult_le_pos; lra. }
  replace (68 / 10 ^ 16 * (315 * 10 ^ 5) / 10 ^ 9) with glensA by (unfold glensA; lra).
  unfold glen_flux, slide_flux, UsChar, taubChar. fold u. clearbody u s. set (e := exp _). destruct F, S; field; lra.
Qed.

(* 7. Ice does not flow from a cell thinner than one metre onto a thicker one. *)
Theorem C72_front : forall ny nx dx dy B F S H Zb r c, 0 < dx ->
  let qx := fst (fluxes ny nx dx dy B F S H Zb) in
  let Z := fun r c => Zb r c + H r c in
  (r < ny)%nat -> (c + 1 < nx)%nat ->
  (Z r (c + 1)%nat < Z r c -> H r c < 1 -> 1 <= H r (c + 1)%nat -> qx (r + 1)%nat (c + 1)%nat = 0) /\
  (Z r c < Z r (c + 1)%nat -> H r (c + 1)%nat < 1 -> 1 <= H r c -> qx (r + 1)%nat (c + 1)%nat = 0).
Proof.
  intros * Hdx. rewrite fluxes_eq. cbn zeta. cbn [fst snd]. intros Hr Hc.
  set (s := set_bc ny nx B H Zb (surf H Zb)).
  assert (EZ : forall r c, (r < ny)%nat -> (c < nx)%nat -> snd s (r + 1)%nat (c + 1)%nat = Zb r c + H r c).
  { intros i j Hi Hj. unfold s. rewrite Zx_eq, Hx_in by lia. unfold add_halo. rewrite !inner_in by lia.
    replace (i + 1 - 1)%nat with i by lia. replace (j + 1 - 1)%nat with j by lia. reflexivity. }
  assert (EH : forall r c, (r < ny)%nat -> (c < nx)%nat -> fst s (r + 1)%nat (c + 1)%nat = H r c).
  { intros i j Hi Hj. unfold s. rewrite Hx_in by lia.
    replace (i + 1 - 1)%nat with i by lia. replace (j + 1 - 1)%nat with j by lia. reflexivity. }
  clearbody s.
  assert (Hi : 0 < / dx) by now apply Rinv_0_lt_compat.
  assert (K : DCLASSx dx (fst s) (snd s) (r + 1)%nat (c + 1)%nat = -1 -> qxX nx dx dy (fst s) (snd s) B F S (r + 1)%nat (c + 1)%nat = 0).
  { intros E. unfold qxX. destruct (_ || _); [reflexivity|]. unfold qx0. rewrite E. replace (-1 + 1) with 0 by ring.
    rewrite Rabs_R0. destruct (Rlt_dec 0 tiny) as [_|N]; [ring | exfalso; apply N, tiny_pos]. }
  split; intros Hz H1 H2; apply K; unfold DCLASSx, CLASS, dZidx, MinGlacThick; rewrite !EZ, !EH by lia;
    destruct (Rle_dec 1 (H r c)), (Rle_dec 1 (H r (c + 1)%nat)); try lra.
  - unfold sign, Rdiv. destruct (Rlt_dec _ 0) as [L|L]; [lra|]. exfalso. apply L.
    assert (0 < (Zb r c + H r c - (Zb r (c + 1)%nat + H r (c + 1)%nat)) * / dx) by (apply Rmult_lt_0_compat; lra). lra.
  - assert (0 < (Zb r (c + 1)%nat + H r (c + 1)%nat - (Zb r c + H r c)) * / dx) by (apply Rmult_lt_0_compat; lra).
    unfold sign, Rdiv. destruct (Rlt_dec _ 0) as [L|L]; [lra|]. destruct (Rlt_dec 0 _); lra.
Qed.

(* 8. Ground without ice, none of it above the equilibrium line, stays without ice. *)
Lemma balance_below C Z t B E : mass_balance C Z t = Some B -> ela C t = Some E ->
  forall r c, 0 <= gradBz C -> Z r c <= E -> B r c <= 0.
Proof.
  unfold mass_balance. intros EB EE. rewrite EE in EB. injection EB as <-. intros r c Hg Hz.
  assert (gradBz C * (Z r c - E) <= 0).
  { assert (0 <= gradBz C * (E - Z r c)) by (apply Rmult_le_pos; lra). lra. }
  cbn zeta. destruct (Rlt_dec _ _); lra.
Qed.
Lemma no_ice_no_flux ny nx dx dy F S H Zb : (1 <= nx)%nat -> (1 <= ny)%nat -> everywhere ny nx (fun r c => H r c = 0) ->
  everywhere ny nx (fun r c => inflow dx dy (fst (fluxes ny nx dx dy free F S H Zb)) (snd (fluxes ny nx dx dy free F S H Zb)) r c = 0).
Proof.
  intros Hx Hy H0 r c Hr Hc. rewrite fluxes_eq. cbn zeta. cbn [fst snd]. set (s := set_bc ny nx free H Zb (surf H Zb)).
  assert (E0 : forall i j, fst s i j = 0).
  { intros i j. unfold s. rewrite Hx_free. destruct (_ || _); [reflexivity|]. unfold add_halo. apply H0; unfold inner; lia. }
  assert (Qx : forall i j, qxX nx dx dy (fst s) (snd s) free F S i j = 0).
  { intros i j. apply (qxX_downhill (fst s) (snd s) dx dy nx free F S i j). unfold HX. rewrite !E0. lra. }
  assert (Qy : forall i j, qyY ny dx dy (fst s) (snd s) free F S i j = 0).
  { intros i j. apply (qyY_downhill (fst s) (snd s) dx dy ny free F S i j). unfold HY. rewrite !E0. lra. }
  unfold inflow, west, east, south, north. rewrite !Qx, !Qy. unfold Rdiv. ring.
Qed.
Theorem C72_stays_bare : forall ny nx dx dy small S k H0 Zb s,
  (1 <= nx)%nat -> (1 <= ny)%nat -> 0 < dt_max S -> VARIABLE_DT S = false -> 0 <= gradBz (clim S) ->
  mbt (clim S) = ConstantELA ->
  everywhere ny nx (fun r c => H0 r c = 0 /\ Zb r c <= initELA (clim S)) ->
  g_run ny nx dx dy small S Zb k (g_init H0 Zb) = Some s ->
  everywhere ny nx (fun r c => h_ice s r c = 0 /\ mr_ice s r c = 0).
Proof.
  intros * Hx Hy Hd Hv Hg Hm H0p. revert s. induction k as [|k IH]; intros s E.
  - cbn [g_run] in E. injection E as <-. intros r c Hr Hc. split; [apply H0p; assumption | reflexivity].
  - cbn [g_run] in E. destruct (g_run _ _ _ _ _ _ _ k _) as [s1|] eqn:E1; [|discriminate]. specialize (IH s1 eq_refl).
    unfold g_step in E. destruct (update _ _ _ _ _ _ _ _ _ _) as [[[[[dt H'] Z'] mr] ci]|] eqn:Eu; [|discriminate].
    injection E as <-. cbn [h_ice mr_ice]. intros r c Hr Hc.
    destruct (update_inv _ _ _ _ _ _ _ _ _ _ _ _ _ _ _ Eu) as [B [EB [Edt [-> [_ [-> _]]]]]]. specialize (Edt Hv). subst dt.
    rewrite new_H_eq, new_mr_eq by assumption.
    assert (Hi := no_ice_no_flux ny nx dx dy (FLOW S) (SLIDE S) (h_ice s1) Zb Hx Hy (fun i j Hi Hj => proj1 (IH i j Hi Hj)) r c Hr Hc).
    assert (Bn : B r c <= 0).
    { eapply balance_below; [exact EB | unfold ela; rewrite Hm; reflexivity | assumption |]. unfold surface.
      destruct (IH r c Hr Hc) as [-> _]. rewrite Rmax_left by lra. destruct (H0p r c Hr Hc). lra. }
    assert (Em : moved dx dy (h_ice s1) B (fst (fluxes ny nx dx dy free (FLOW S) (SLIDE S) (h_ice s1) Zb))
                  (snd (fluxes ny nx dx dy free (FLOW S) (SLIDE S) (h_ice s1) Zb)) (dt_max S) r c = 0).
    { unfold moved. rewrite Hi. destruct (IH r c Hr Hc) as [-> _]. rewrite Rmax_left by lra. ring. }
    unfold melted. rewrite Em. split.
    + rewrite Rmin_right by lra. apply Rmax_left. assert (0 <= dt_max S * - B r c) by (apply Rmult_le_pos; lra). lra.
    + rewrite (Rmax_left 0 0) by lra. rewrite Rmin_left; [unfold Rdiv; ring|]. apply Rmult_le_pos; [lra | apply Rmax_l].
Qed.

(* 9. The mass balance: at most the maximum; accumulation exactly above the equilibrium line; more on higher ground; the
   line is the given one, or moves with the given rate once the spin-up time is over, or in steps of 10 m every 200
   years. *)
Theorem C72_mass_balance : forall C Z t B, mass_balance C Z t = Some B ->
  exists E, ela C t = Some E /\
    (forall r c, B r c = Rmin (gradBz C * (Z r c - E)) (maxBz C)) /\
    (forall r c, B r c <= maxBz C) /\
    (0 < gradBz C -> 0 < maxBz C -> forall r c, (0 < B r c <-> E < Z r c) /\ (B r c < 0 <-> Z r c < E)) /\
    (0 <= gradBz C -> forall r c r' c', Z r c <= Z r' c' -> B r c <= B r' c') /\
    (mbt C = ConstantELA -> E = initELA C) /\
    (mbt C = ElaLowering -> 0 < ELAStepInterval C ->
       (t <= tmin C -> E = initELA C) /\ (tmin C <= t -> E = initELA C + ELAStepSize C * ((t - tmin C) / ELAStepInterval C))) /\
    (mbt C = ElaLowering2 -> forall k : nat, 200 * INR k <= t < 200 * INR (S k) -> E = 4200 - 10 * INR k).
Proof.
  intros C Z t B. unfold mass_balance. destruct (ela C t) as [E|] eqn:EE; [|discriminate]. intros EB. injection EB as <-.
  exists E. split; [reflexivity|].
  assert (F : forall r c, (let b := gradBz C * (Z r c - E) in if Rlt_dec (maxBz C) b then maxBz C else b) = Rmin (gradBz C * (Z r c - E)) (maxBz C)).
  { intros r c. cbn zeta. unfold Rmin. destruct (Rlt_dec _ _), (Rle_dec _ _); lra. }
  split; [exact F|]. split; [intros r c; rewrite F; apply Rmin_r|]. split; [|split; [|split; [|split]]].
  - intros Hg Hm r c. rewrite F. set (b := gradBz C * (Z r c - E)).
    assert (P : 0 < b <-> E < Z r c).
    { unfold b. split; intros L.
      - apply Rnot_le_lt. intros K. assert (0 <= gradBz C * (E - Z r c)) by (apply Rmult_le_pos; lra). lra.
      - apply Rmult_lt_0_compat; lra. }
    assert (N : b < 0 <-> Z r c < E).
    { unfold b. split; intros L.
      - apply Rnot_le_lt. intros K. assert (0 <= gradBz C * (Z r c - E)) by (apply Rmult_le_pos; lra). lra.
      - assert (0 < gradBz C * (E - Z r c)) by (apply Rmult_lt_0_compat; lra). lra. }
    rewrite <- P, <- N. unfold Rmin. destruct (Rle_dec b (maxBz C)); split; lra.
  - intros Hg r c r' c' Hz. rewrite !F. assert (gradBz C * (Z r c - E) <= gradBz C * (Z r' c' - E)) by (apply Rmult_le_compat_l; lra).
    unfold Rmin. destruct (Rle_dec _ _), (Rle_dec (gradBz C * (Z r' c' - E)) _); lra.
  - intros M. unfold ela in EE. rewrite M in EE. congruence.
  - intros M Hi. unfold ela in EE. rewrite M in EE. injection EE as <-. assert (0 < / ELAStepInterval C) by now apply Rinv_0_lt_compat. split; intros Ht.
    + rewrite Rmax_left; [ring|]. unfold Rdiv. assert (0 <= (tmin C - t) * / ELAStepInterval C) by (apply Rmult_le_pos; lra). lra.
    + rewrite Rmax_right; [ring|]. unfold Rdiv. apply Rmult_le_pos; lra.
  - intros M k [K1 K2]. unfold ela in EE. rewrite M in EE. injection EE as <-.
    assert (I : Int_part ((t - 0) / (8 * 25)) = Z.of_nat k).
    { unfold Int_part. enough (up ((t - 0) / (8 * 25)) = (Z.of_nat k + 1)%Z) by lia. symmetry. apply tech_up.
      - rewrite plus_IZR, <- INR_IZR_INZ. rewrite S_INR in K2. lra.
      - rewrite plus_IZR, <- INR_IZR_INZ. lra. }
    rewrite I, <- INR_IZR_INZ. rewrite Rmax_right by apply pos_INR. ring.
Qed.

(* 10. East and west, and the two axes, are treated alike; only differences of elevation matter. *)
Theorem C72_mirror : forall ny nx dx dy small S t H Zb ci dt H' Zi' mr ci',
  (1 <= nx)%nat -> VARIABLE_DT S = false -> 0 < dt_max S ->
  update ny nx dx dy small S t H Zb ci = Some (dt, H', Zi', mr, ci') ->
  exists H'' Zi'' mr'' ci'', update ny nx dx dy small S t (mirror nx H) (mirror nx Zb) ci = Some (dt, H'', Zi'', mr'', ci'') /\
    everywhere ny nx (fun r c => H'' r c = mirror nx H' r c /\ mr'' r c = mirror nx mr r c).
Proof.
  intros * Hn Hv Hd E. pose proof (update_inv _ _ _ _ _ _ _ _ _ _ _ _ _ _ _ E) as [B [EB [Edt [-> [_ [-> _]]]]]].
  specialize (Edt Hv). subst dt. destruct (flux_mirror ny nx dx dy (FLOW S) (SLIDE S) H Zb Hn) as [Fx Fy].
  unfold update. rewrite Hv. unfold mass_balance in *. destruct (ela (clim S) t) as [el|]; [|discriminate].
  destruct (fluxes ny nx dx dy free (FLOW S) (SLIDE S) (mirror nx H) (mirror nx Zb)) as [qx' qy'] eqn:Eq'.
  destruct (fluxes ny nx dx dy free (FLOW S) (SLIDE S) H Zb) as [qx qy] eqn:Eq. cbn [fst snd] in *. injection EB as EB.
  set (B' := fun r c => let b := gradBz (clim S) * (mirror nx Zb r c + Rmax (mirror nx H r c) 0 - el) in if Rlt_dec (maxBz (clim S)) b then maxBz (clim S) else b).
  destruct (update_vars ny nx dx dy (mirror nx H) (mirror nx Zb) B' qx' qy' (dt_max S) ci) as [[[h z] m] x] eqn:Eu.
  exists h, z, m, x. split; [reflexivity|]. intros r c Hr Hc.
  replace h with (new_H ny nx dx dy (mirror nx H) (mirror nx Zb) B' qx' qy' (dt_max S) ci) by (unfold new_H; rewrite Eu; reflexivity).
  replace m with (new_mr ny nx dx dy (mirror nx H) (mirror nx Zb) B' qx' qy' (dt_max S) ci) by (unfold new_mr; rewrite Eu; reflexivity).
  assert (EB' : B' r c = B r (nx - 1 - c)%nat) by (unfold B', mirror; rewrite <- EB; reflexivity).
  assert (Em : moved dx dy (mirror nx H) B' qx' qy' (dt_max S) r c = moved dx dy H B qx qy (dt_max S) r (nx - 1 - c)%nat).
  { unfold moved. rewrite EB'. unfold mirror at 1. f_equal. f_equal. unfold inflow, west, east, south, north.
    rewrite !Fx, !Fy by lia.
    replace (nx - Datatypes.S c)%nat with (nx - 1 - c)%nat by lia. replace (nx - c)%nat with (Datatypes.S (nx - 1 - c)) by lia.
    replace (nx + 1 - Datatypes.S c)%nat with (Datatypes.S (nx - 1 - c)) by lia. unfold Rdiv. ring. }
  split; match goal with |- _ = mirror nx ?f r c => change (mirror nx f r c) with (f r (nx - 1 - c)%nat) end.
  - rewrite !new_H_eq by assumption. rewrite Em, EB'. reflexivity.
  - rewrite !new_mr_eq by assumption. unfold melted. rewrite Em, EB'. reflexivity.
Qed.
Theorem C72_transpose : forall ny nx d small S t H Zb ci dt H' Zi' mr ci',
  VARIABLE_DT S = false -> 0 < dt_max S ->
  update ny nx d d small S t H Zb ci = Some (dt, H', Zi', mr, ci') ->
  exists H'' Zi'' mr'' ci'', update nx ny d d small S t (transpose H) (transpose Zb) ci = Some (dt, H'', Zi'', mr'', ci'') /\
    everywhere nx ny (fun r c => H'' r c = H' c r /\ mr'' r c = mr c r).
Proof.
  intros * Hv Hd E. pose proof (update_inv _ _ _ _ _ _ _ _ _ _ _ _ _ _ _ E) as [B [EB [Edt [-> [_ [-> _]]]]]].
  specialize (Edt Hv). subst dt. pose proof (flux_transpose ny nx d (FLOW S) (SLIDE S) H Zb) as Ft.
  unfold update. rewrite Hv. unfold mass_balance in *. destruct (ela (clim S) t) as [el|]; [|discriminate].
  destruct (fluxes nx ny d d free (FLOW S) (SLIDE S) (transpose H) (transpose Zb)) as [qx' qy'] eqn:Eq'.
  destruct (fluxes ny nx d d free (FLOW S) (SLIDE S) H Zb) as [qx qy] eqn:Eq. cbn [fst snd] in *. injection EB as EB.
  set (B' := fun r c => let b := gradBz (clim S) * (transpose Zb r c + Rmax (transpose H r c) 0 - el) in if Rlt_dec (maxBz (clim S)) b then maxBz (clim S) else b).
  destruct (update_vars nx ny d d (transpose H) (transpose Zb) B' qx' qy' (dt_max S) ci) as [[[h z] m] x] eqn:Eu.
  exists h, z, m, x. split; [reflexivity|]. intros r c Hr Hc.
  replace h with (new_H nx ny d d (transpose H) (transpose Zb) B' qx' qy' (dt_max S) ci) by (unfold new_H; rewrite Eu; reflexivity).
  replace m with (new_mr nx ny d d (transpose H) (transpose Zb) B' qx' qy' (dt_max S) ci) by (unfold new_mr; rewrite Eu; reflexivity).
  assert (EB' : B' r c = B c r) by (unfold B', transpose; rewrite <- EB; reflexivity).
  assert (Em : moved d d (transpose H) B' qx' qy' (dt_max S) r c = moved d d H B qx qy (dt_max S) c r).
  { unfold moved. rewrite EB'. unfold transpose at 1. f_equal. f_equal. unfold inflow, west, east, south, north.
    rewrite (proj1 (Ft (Datatypes.S r) c)), (proj1 (Ft (Datatypes.S r) (Datatypes.S c))), (proj2 (Ft r (Datatypes.S c))), (proj2 (Ft (Datatypes.S r) (Datatypes.S c))).
    unfold Rdiv. ring. }
  rewrite !new_H_eq, !new_mr_eq by assumption. unfold melted. rewrite Em, EB'. split; reflexivity.
Qed.
Definition raise_ela (k : R) (C : climate) : climate := mkClimate (mbt C) (initELA C + k) (ELAStepSize C) (ELAStepInterval C) (tmin C) (gradBz C) (maxBz C).
Theorem C72_datum : forall ny nx dx dy small F SL dtm C b a m u tc t k H Zb ci dt H' Zi' mr ci', mbt C <> ElaLowering2 -> 0 < dtm ->
  update ny nx dx dy small (mkSettings F SL false dtm C b a m u tc) t H Zb ci = Some (dt, H', Zi', mr, ci') ->
  exists H'' Zi'' mr'' ci'',
    update ny nx dx dy small (mkSettings F SL false dtm (raise_ela k C) b a m u tc) t H (fun r c => Zb r c + k) ci = Some (dt, H'', Zi'', mr'', ci'') /\
    everywhere ny nx (fun r c => H'' r c = H' r c /\ mr'' r c = mr r c /\ Zi'' r c = Zi' r c + k).
Proof.
  intros * Hm Hd E. set (S := mkSettings F SL false dtm C b a m u tc) in *. set (S' := mkSettings F SL false dtm (raise_ela k C) b a m u tc).
  pose proof (update_inv _ _ _ _ _ _ _ _ _ _ _ _ _ _ _ E) as [B [EB [Edt [-> [-> [-> _]]]]]].
  specialize (Edt eq_refl). subst dt. pose proof (flux_raise ny nx dx dy F SL H Zb k) as Fr.
  unfold update. cbn [VARIABLE_DT FLOW SLIDE clim dt_max S S']. unfold mass_balance in *. cbn [clim S] in EB.
  assert (EE : ela (raise_ela k C) t = match ela C t with Some e => Some (e + k) | None => None end).
  { unfold ela, raise_ela. cbn [mbt initELA ELAStepSize tmin ELAStepInterval]. destruct (mbt C); try reflexivity; [f_equal; ring | congruence]. }
  rewrite EE. destruct (ela C t) as [el|]; [|discriminate].
  cbn [FLOW SLIDE dt_max S].
  destruct (fluxes ny nx dx dy free F SL H (fun r c => Zb r c + k)) as [qx' qy'] eqn:Eq'.
  destruct (fluxes ny nx dx dy free F SL H Zb) as [qx qy] eqn:Eq. cbn [fst snd] in *. injection EB as EB.
  set (B' := fun r c => let b := gradBz (raise_ela k C) * (Zb r c + k + Rmax (H r c) 0 - (el + k)) in if Rlt_dec (maxBz (raise_ela k C)) b then maxBz (raise_ela k C) else b).
  destruct (update_vars ny nx dx dy H (fun r c => Zb r c + k) B' qx' qy' dtm ci) as [[[h z] mm] x] eqn:Eu.
  exists h, z, mm, x. split; [reflexivity|]. intros r c Hr Hc.
  replace z with (new_Z ny nx dx dy H (fun r c => Zb r c + k) B' qx' qy' dtm ci) by (unfold new_Z; rewrite Eu; reflexivity).
  replace h with (new_H ny nx dx dy H (fun r c => Zb r c + k) B' qx' qy' dtm ci) by (unfold new_H; rewrite Eu; reflexivity).
  replace mm with (new_mr ny nx dx dy H (fun r c => Zb r c + k) B' qx' qy' dtm ci) by (unfold new_mr; rewrite Eu; reflexivity).
  assert (EB' : B' r c = B r c).
  { unfold B', raise_ela. rewrite <- EB. cbn [gradBz maxBz]. cbn zeta. unfold surface. replace (Zb r c + k + Rmax (H r c) 0 - (el + k)) with (Zb r c + Rmax (H r c) 0 - el) by ring. reflexivity. }
  assert (Em : moved dx dy H B' qx' qy' dtm r c = moved dx dy H B qx qy dtm r c).
  { unfold moved. rewrite EB'. f_equal. f_equal. unfold inflow, west, east, south, north.
    rewrite !(fun i j => proj1 (Fr i j)), !(fun i j => proj2 (Fr i j)). reflexivity. }
  assert (Eh : new_H ny nx dx dy H (fun r c => Zb r c + k) B' qx' qy' dtm ci r c = new_H ny nx dx dy H Zb B qx qy dtm ci r c).
  { rewrite !new_H_eq by assumption. rewrite Em, EB'. reflexivity. }
  split; [exact Eh|]. split.
  - rewrite !new_mr_eq by assumption. unfold melted. rewrite Em, EB'. reflexivity.
  - change (Zb r c + k + Rmax (new_H ny nx dx dy H (fun r c => Zb r c + k) B' qx' qy' dtm ci r c) 0 = Zb r c + Rmax (new_H ny nx dx dy H Zb B qx qy dtm ci r c) 0 + k).
    rewrite Eh. ring.
Qed.

(* 11. The ice account kept by the code (conserveIce): how far it is from the ice there is, on square cells. *)
Theorem C72_bookkeeping : forall ny nx d small S t H Zb ci dt H' Zi' mr ci', 0 < dt ->
  update ny nx d d small S t H Zb ci = Some (dt, H', Zi', mr, ci') ->
  exists Bxy melted made,
    let qx := fst (fluxes ny nx d d (all_sides IceFree) (FLOW S) (SLIDE S) H Zb) in
    let qy := snd (fluxes ny nx d d (all_sides IceFree) (FLOW S) (SLIDE S) H Zb) in
    account ny nx d d dt qx qy Bxy H H' melted made /\
    ci' - ci = (gsum ny nx H' - gsum ny nx H) + 2 * (gsum ny nx melted - gsum ny nx made).
Proof.
  intros * Hd E. destruct (update_inv _ _ _ _ _ _ _ _ _ _ _ _ _ _ _ E) as [B [EB [_ [-> [_ [_ ->]]]]]].
  exists B. change (all_sides IceFree) with free. destruct (fluxes _ _ _ _ _ _ _ _ _) as [qx qy]. cbn [fst snd].
  exists (melted d d H B qx qy dt), (made d d H B qx qy dt). cbn zeta.
  pose proof (step_account ny nx d d H Zb B qx qy dt ci Hd) as A. split; [assumption|].
  rewrite new_ci_eq by assumption. rewrite <- gsum_inflow, gsum_minus.
  assert (Et : gsum ny nx (new_H ny nx d d H Zb B qx qy dt ci) =
    gsum ny nx H + gsum ny nx (fun r c => dt * Rmax 0 (B r c)) + dt * gsum ny nx (inflow d d qx qy) - gsum ny nx (melted d d H B qx qy dt) + gsum ny nx (made d d H B qx qy dt)).
  { rewrite <- gsum_scale, <- !gsum_plus, <- gsum_minus, <- gsum_plus. apply gsum_ext. intros r c Hr Hc.
    destruct (A r c Hr Hc) as [_ [_ [_ [_ Eq]]]]. exact Eq. }
  rewrite Et. ring.
Qed.

(* ---------- what does not hold ---------- *)
Lemma strict F S h tau tx s : F = true -> 0 < h -> tiny <= tau -> s <> 0 -> tx = - rhoI * g * h * s ->
  face_flux F S false h tau (if Rlt_dec (Rabs tau) tiny then 0 else tx / tau) * s < 0.
Proof.
  intros -> Hh Ht Hs ->. pose proof tiny_pos. unfold face_flux. destruct (Rlt_dec (Rabs tau) tiny) as [L|L]; [rewrite Rabs_right in L by lra; lra|].
  assert (0 < speed true S tau h).
  { unfold speed. assert (0 < Rabs (4 / 10 * glensA * tau * tau * tau * h)).
    { apply Rabs_pos_lt. pose proof glensA_pos. repeat apply Rmult_integral_contrapositive_currified; lra. }
    unfold UsChar. set (e := exp _). assert (0 < e) by apply exp_pos. destruct S; lra. }
  set (v := speed true S tau h) in *. clearbody v.
  replace (v * (- rhoI * g * h * s / tau) * h * s) with (- (v * (rhoI * g) * (h * h) * (s * s) * / tau)) by (unfold Rdiv; ring).
  assert (0 < s * s) by (apply Rsqr_pos_lt; assumption).
  assert (0 < v * (rhoI * g) * (h * h) * (s * s) * / tau).
  { assert (0 < / tau) by (apply Rinv_0_lt_compat; lra). assert (0 < h * h) by (apply Rmult_lt_0_compat; lra).
    assert (0 < v * (rhoI * g)) by (apply Rmult_lt_0_compat; [lra | unfold rhoI, g; lra]).
    apply Rmult_lt_0_compat; [apply Rmult_lt_0_compat; [apply Rmult_lt_0_compat|]|]; assumption. }
  lra.
Qed.
Lemma strict_x H Z dx dy S r c : 0 < HX H r c -> tiny <= rhoI * g * HX H r c * Rabs (dZidx dx Z r c) -> blockx H Z dx r c = false ->
  qx0 dx dy H Z true S r c * dZidx dx Z r c < 0.
Proof.
  intros Hh Ht Hb. rewrite qx0_face, Hb. unfold xcmpnt. apply strict; auto.
  - apply Rle_trans with (1 := Ht). unfold taubX. destruct (Rlt_dec _ _); [|lra].
    replace (rhoI * g * HX H r c * Rabs (dZidx dx Z r c)) with (Rabs (taubxX dx H Z r c)).
    + rewrite <- sqrt_Rsqr_abs. apply sqrt_le_1_alt. unfold Rsqr. pose proof (pow2_ge_0 (taubyX dy H Z r c)). lra.
    + unfold taubxX. rewrite !Rabs_mult, Rabs_Ropp. rewrite (Rabs_right rhoI), (Rabs_right g), (Rabs_right (HX H r c)); unfold rhoI, g; lra.
  - intros E. rewrite E, Rabs_R0 in Ht. pose proof tiny_pos. lra.
Qed.

Definition still (F : bool) (bs : bounds) (A : R) : settings :=
  mkSettings F false false (1/10) (mkClimate ConstantELA 0 0 1 0 0 1) bs A 1 10 100000.

(* 12. Ice is made up: thin ice below bare rock draws on ice the rock does not have. *)
Theorem C72_no_made_ice_refuted : ~ (forall ny nx dx dy small S t H Zb ci dt H' Zi' mr ci' Bxy, 0 < dx -> 0 < dy -> 0 < dt ->
  everywhere ny nx (fun r c => 0 <= H r c) ->
  update ny nx dx dy small S t H Zb ci = Some (dt, H', Zi', mr, ci') -> mass_balance (clim S) (surface Zb H) t = Some Bxy ->
  everywhere ny nx (fun r c => H' r c <= H r c + dt * Rmax 0 (Bxy r c) +
     dt * inflow dx dy (fst (fluxes ny nx dx dy (all_sides IceFree) (FLOW S) (SLIDE S) H Zb))
                       (snd (fluxes ny nx dx dy (all_sides IceFree) (FLOW S) (SLIDE S) H Zb)) r c)).
Proof.
  intros C. set (H := fun (r c : nat) => match c with 0%nat => 0 | _ => 1/2 end). set (Zb := fun (r c : nat) => match c with 0%nat => 100 | _ => 0 end).
  set (S := still true free glensA).
  destruct (update 1 2 100 100 (fun _ => 0) S 0 H Zb 0) as [[[[[dt H'] Z'] mr] ci]|] eqn:E.
  2:{ unfold update in E. destruct (fluxes _ _ _ _ _ _ _ _ _). cbn [S still clim mass_balance ela mbt VARIABLE_DT] in E.
      unfold mass_balance in E. cbn [ela mbt clim] in E. destruct (update_vars _ _ _ _ _ _ _ _ _ _ _) as [[[? ?] ?] ?]. discriminate. }
  pose proof (update_inv _ _ _ _ _ _ _ _ _ _ _ _ _ _ _ E) as [B [EB [Edt [EH' _]]]]. specialize (Edt eq_refl).
  assert (Hdt : 0 < dt) by (subst dt; cbn [dt_max S still]; lra).
  assert (L := C 1%nat 2%nat 100 100 (fun _ => 0) S 0 H Zb 0 dt H' Z' mr ci B ltac:(lra) ltac:(lra) Hdt).
  specialize (L ltac:(intros r c _ _; unfold H; destruct c; lra) E EB 0%nat 0%nat ltac:(lia) ltac:(lia)).
  change (all_sides IceFree) with free in L. cbn [FLOW SLIDE S still] in L. rewrite fluxes_eq in L. cbn zeta in L. cbn [fst snd] in L.
  set (s := set_bc 1 2 free H Zb (surf H Zb)) in L.
  assert (B0 : B 0%nat 0%nat = 0).
  { unfold mass_balance in EB. cbn [ela clim mbt S still] in EB. injection EB as <-. cbn zeta. cbn [gradBz maxBz]. destruct (Rlt_dec _ _); lra. }
  assert (Qw : qxX 2 100 100 (fst s) (snd s) free true false 1%nat 0%nat = 0).
  { apply (qxX_downhill (fst s) (snd s) 100 100 2 free true false 1 0). unfold HX, s. rewrite !Hx_free. cbn. lra. }
  assert (Qs : qyY 1 100 100 (fst s) (snd s) free true false 0%nat 1%nat = 0).
  { apply (qyY_downhill (fst s) (snd s) 100 100 1 free true false 0 1). unfold HY, s. rewrite !Hx_free. cbn. lra. }
  assert (Qn : qyY 1 100 100 (fst s) (snd s) free true false 1%nat 1%nat = 0).
  { apply (qyY_downhill (fst s) (snd s) 100 100 1 free true false 1 1). unfold HY, s. rewrite !Hx_free. cbn. lra. }
  assert (Hx1 : fst s 1%nat 1%nat = 0) by reflexivity. assert (Hx2 : fst s 1%nat 2%nat = 1/2) by reflexivity.
  assert (Z1 : snd s 1%nat 1%nat = 100 + 0) by reflexivity. assert (Z2 : snd s 1%nat 2%nat = 0 + 1/2) by reflexivity.
  assert (Ed : dZidx 100 (snd s) 1%nat 1%nat = - (995/1000)) by (unfold dZidx; cbn [plus]; rewrite Z1, Z2; lra).
  assert (Eh : HX (fst s) 1%nat 1%nat = 1/4) by (unfold HX; cbn [plus]; rewrite Hx1, Hx2; lra).
  assert (Qe : qxX 2 100 100 (fst s) (snd s) free true false 1%nat 1%nat * dZidx 100 (snd s) 1%nat 1%nat < 0).
  { rewrite qxX_free. apply strict_x.
    - rewrite Eh. lra.
    - rewrite Ed, Eh, Rabs_Ropp, Rabs_right by lra. unfold tiny, rhoI, g. lra.
    - unfold blockx, DCLASSx, CLASS, MinGlacThick. cbn [plus]. rewrite Hx1, Hx2. destruct (Rle_dec 1 (1 / 2)); [lra|]. destruct (Rle_dec 1 0); [lra|].
      rewrite Rminus_0_r, Rmult_0_l, Rplus_0_l, Rabs_R1. destruct (Rlt_dec 1 tiny); [unfold tiny in *; lra | reflexivity]. }
  rewrite Ed in Qe. unfold inflow, west, east, south, north in L. cbn [S] in L. rewrite Qw, Qs, Qn, B0 in L.
  set (q := qxX _ _ _ _ _ _ _ _ _ _) in *. clearbody q. rewrite (Rmax_left 0 0) in L by lra.
  assert (0 <= H' 0%nat 0%nat) by (apply (C72_nonneg _ _ _ _ _ _ _ _ _ _ _ _ _ _ _ E Hdt); lia).
  assert (0 < dt * q) by (apply Rmult_lt_0_compat; lra). change (H 0%nat 0%nat) with 0 in L. lra.
Qed.

(* 13. conserveIce is not the ice there is: melt is entered with the wrong sign. *)
Theorem C72_ice_account_refuted : ~ (forall ny nx d small S t H Zb ci dt H' Zi' mr ci', 0 < dt -> 0 < d ->
  everywhere ny nx (fun r c => 0 <= H r c) ->
  update ny nx d d small S t H Zb ci = Some (dt, H', Zi', mr, ci') -> ci' - ci = gsum ny nx H' - gsum ny nx H).
Proof.
  intros C. set (H := fun (r c : nat) => 100). set (Zb := fun (r c : nat) => 0).
  set (S := mkSettings false false false 1 (mkClimate ConstantELA 200 0 1 0 (1/100) 1) free 1 1 1 1).
  destruct (update 1 1 100 100 (fun _ => 0) S 0 H Zb 0) as [[[[[dt H'] Z'] mr] ci]|] eqn:E.
  2:{ unfold update in E. destruct (fluxes _ _ _ _ _ _ _ _ _). unfold mass_balance in E. cbn [S VARIABLE_DT ela mbt clim] in E. destruct (update_vars _ _ _ _ _ _ _ _ _ _ _) as [[[? ?] ?] ?]. discriminate. }
  pose proof (update_inv _ _ _ _ _ _ _ _ _ _ _ _ _ _ _ E) as [B [EB [Edt [EH' [_ [_ Eci]]]]]]. specialize (Edt eq_refl). cbn [dt_max S] in Edt. subst dt.
  assert (L := C 1%nat 1%nat 100 (fun _ => 0) S 0 H Zb 0 1 H' Z' mr ci ltac:(lra) ltac:(lra)). specialize (L ltac:(intros r c _ _; unfold H; lra) E).
  assert (B0 : B 0%nat 0%nat = -1).
  { unfold mass_balance in EB. cbn [ela clim mbt S initELA] in EB. injection EB as <-. cbn zeta. cbn [gradBz maxBz]. unfold surface, H, Zb. rewrite Rmax_left by lra. destruct (Rlt_dec _ _); lra. }
  cbn [FLOW SLIDE S] in EH', Eci.
  assert (Q : forall F Bb, F = false -> fluxes 1 1 100 100 Bb F F H Zb = fluxes 1 1 100 100 Bb F F H Zb) by reflexivity. clear Q.
  rewrite fluxes_eq in EH', Eci. cbn zeta in EH', Eci. cbn [fst snd] in EH', Eci. set (s := set_bc 1 1 free H Zb (surf H Zb)) in *.
  assert (Qx : forall i j, qxX 1 100 100 (fst s) (snd s) free false false i j = 0).
  { intros. rewrite qxX_free, qx0_face. unfold face_flux, speed. destruct (blockx _ _ _ _ _); ring. }
  assert (Qy : forall i j, qyY 1 100 100 (fst s) (snd s) free false false i j = 0).
  { intros. rewrite qyY_free, qy0_face. unfold face_flux, speed. destruct (blocky _ _ _ _ _); ring. }
  set (qx := qxX 1 100 100 (fst s) (snd s) free false false) in *. set (qy := qyY 1 100 100 (fst s) (snd s) free false false) in *. clearbody qx qy.
  assert (Em : moved 100 100 H B qx qy 1 0%nat 0%nat = 100).
  { unfold moved, inflow, west, east, south, north. rewrite !Qx, !Qy, B0. rewrite Rmax_left by lra. unfold H. lra. }
  assert (Emd : made 100 100 H B qx qy 1 0%nat 0%nat = 0) by (unfold made; rewrite Em; apply Rmax_left; lra).
  assert (Eml : melted 100 100 H B qx qy 1 0%nat 0%nat = 1).
  { unfold melted. rewrite Em, B0. rewrite (Rmax_right 0 100), (Rmax_right 0 (- -1)) by lra. rewrite Rmin_right; lra. }
  rewrite new_ci_eq in Eci by lra. unfold gsum, rsumn, rsuml in Eci, L. cbn [seq List.fold_right] in Eci, L. rewrite Emd, Eml, B0 in Eci.
  rewrite EH' in L. rewrite new_H_eq in L by lra. rewrite Em, B0 in L. rewrite Rmin_right, Rmax_right in L by lra.
  unfold edge_inflow, rsumn, rsuml in Eci. cbn [seq List.fold_right] in Eci. rewrite !Qx, !Qy in Eci. rewrite (Rmax_left 0 (-1)) in Eci by lra.
  unfold H in L. lra.
Qed.

(* 14. The boundary conditions, the flow law parameter, the sliding parameters and the minimum thickness of the
   configuration file have no effect; closed boundaries in the file do not close the boundaries. *)
Theorem C72_settings_ignored : forall ny nx dx dy small F S v d C b a m u tc b' a' m' u' tc' t H Zb ci,
  update ny nx dx dy small (mkSettings F S v d C b a m u tc) t H Zb ci = update ny nx dx dy small (mkSettings F S v d C b' a' m' u' tc') t H Zb ci.
Proof. reflexivity. Qed.
Theorem C72_settings_refuted : ~ (forall ny nx dx dy small S t H Zb ci dt H' Zi' mr ci' Bxy, 0 < dx -> 0 < dy -> 0 < dt ->
  everywhere ny nx (fun r c => 0 <= H r c) -> set_bounds S = all_sides ZeroFlux ->
  update ny nx dx dy small S t H Zb ci = Some (dt, H', Zi', mr, ci') -> mass_balance (clim S) (surface Zb H) t = Some Bxy ->
  everywhere ny nx (fun r c => 0 <= Bxy r c) -> gsum ny nx H <= gsum ny nx H').
Proof.
  intros C. set (H := fun (r c : nat) => 100). set (Zb := fun (r c : nat) => 0). set (S := still true (all_sides ZeroFlux) glensA).
  destruct (update 1 1 100 100 (fun _ => 0) S 0 H Zb 0) as [[[[[dt H'] Z'] mr] ci]|] eqn:E.
  2:{ unfold update in E. destruct (fluxes _ _ _ _ _ _ _ _ _). unfold mass_balance in E. cbn [S still VARIABLE_DT ela mbt clim] in E. destruct (update_vars _ _ _ _ _ _ _ _ _ _ _) as [[[? ?] ?] ?]. discriminate. }
  pose proof (update_inv _ _ _ _ _ _ _ _ _ _ _ _ _ _ _ E) as [B [EB [Edt [EH' _]]]]. specialize (Edt eq_refl).
  assert (Hdt : 0 < dt) by (subst dt; cbn [dt_max S still]; lra).
  assert (B0 : forall r c, B r c = 0).
  { intros. unfold mass_balance in EB. cbn [ela clim mbt S still] in EB. injection EB as <-. cbn zeta. cbn [gradBz maxBz]. destruct (Rlt_dec _ _); lra. }
  assert (L := C 1%nat 1%nat 100 100 (fun _ => 0) S 0 H Zb 0 dt H' Z' mr ci B ltac:(lra) ltac:(lra) Hdt).
  specialize (L ltac:(intros r c _ _; unfold H; lra) eq_refl E EB ltac:(intros r c _ _; rewrite B0; lra)).
  cbn [FLOW SLIDE S still] in EH'. rewrite fluxes_eq in EH'. cbn zeta in EH'. cbn [fst snd] in EH'.
  destruct (C72_no_ice_enters 1 1 100 100 true false H Zb ltac:(lra) ltac:(lra) ltac:(intros r c _ _; unfold H; lra) ltac:(lia) ltac:(lia)) as [Nx [Ny _]].
  change (all_sides IceFree) with free in Nx, Ny. rewrite fluxes_eq in Nx, Ny. cbn zeta in Nx, Ny. cbn [fst snd] in Nx, Ny.
  set (s := set_bc 1 1 free H Zb (surf H Zb)) in *. specialize (Nx 1%nat ltac:(lia)). specialize (Ny 1%nat ltac:(lia)).
  assert (Hx1 : fst s 1%nat 1%nat = 100) by reflexivity. assert (Hx2 : fst s 1%nat 2%nat = 0) by reflexivity.
  assert (Z1 : snd s 1%nat 1%nat = 0 + 100) by reflexivity. assert (Z2 : snd s 1%nat 2%nat = 0 + 0) by reflexivity.
  assert (Ed : dZidx 100 (snd s) 1%nat 1%nat = -1) by (unfold dZidx; cbn [plus]; rewrite Z1, Z2; lra).
  assert (Eh : HX (fst s) 1%nat 1%nat = 50) by (unfold HX; cbn [plus]; rewrite Hx1, Hx2; lra).
  assert (Qe : qxX 1 100 100 (fst s) (snd s) free true false 1%nat 1%nat * dZidx 100 (snd s) 1%nat 1%nat < 0).
  { rewrite qxX_free. apply strict_x.
    - rewrite Eh. lra.
    - rewrite Ed, Eh, Rabs_left by lra. unfold tiny, rhoI, g. lra.
    - unfold blockx, DCLASSx, CLASS, MinGlacThick, sign. cbn [plus]. rewrite Hx1, Hx2, Ed. destruct (Rle_dec 1 0); [lra|]. destruct (Rle_dec 1 100); [|lra].
      destruct (Rlt_dec (-1) 0); [|lra]. replace ((0 - 1) * -1 + 1) with 2 by ring. rewrite Rabs_right by lra. destruct (Rlt_dec 2 tiny); [unfold tiny in *; lra | reflexivity]. }
  rewrite Ed in Qe. rewrite EH' in L. unfold gsum, rsumn, rsuml in L. cbn [seq List.fold_right] in L. rewrite new_H_eq in L by assumption.
  unfold moved, inflow, west, east, south, north in L. rewrite B0 in L.
  set (qe := qxX _ _ _ _ _ _ _ _ 1%nat 1%nat) in *. set (qw := qxX _ _ _ _ _ _ _ _ 1%nat 0%nat) in *. set (qn := qyY _ _ _ _ _ _ _ _ 1%nat 1%nat) in *. set (qs := qyY _ _ _ _ _ _ _ _ 0%nat 1%nat) in *.
  clearbody qe qw qn qs. unfold H in L. rewrite Rmin_left, (Rmax_left 0 0) in L by lra.
  set (x := (qw - qe) / 100 + (qs - qn) / 100) in L. assert (x < 0) by (unfold x; lra). clearbody x.
  assert (0 < dt * - x) by (apply Rmult_lt_0_compat; lra).
  unfold Rmax in L. destruct (Rle_dec 0 _); lra.
Qed.

(* 15. The adaptive time step raises an exception on every grid of more than three rows or columns. *)
Theorem C72_variable_dt_refuted : forall ny nx dx dy small S t H Zb ci, VARIABLE_DT S = true -> (3 < ny)%nat \/ (3 < nx)%nat ->
  update ny nx dx dy small S t H Zb ci = None.
Proof.
  intros * Hv Hb. unfold update. destruct (fluxes _ _ _ _ _ _ _ _ _) as [qx qy]. destruct (mass_balance _ _ _); [|reflexivity].
  rewrite Hv. unfold get_timestep.
  replace (((ny =? 1)%nat || (ny =? 3)%nat) && ((nx =? 1)%nat || (nx =? 3)%nat))%bool with false; [reflexivity|].
  destruct (Nat.eqb_spec ny 1), (Nat.eqb_spec ny 3), (Nat.eqb_spec nx 1), (Nat.eqb_spec nx 3); cbn; lia || reflexivity.
Qed.

(* 16. Every update of the ice component raises an exception: its clock never advances (so that the equilibrium line
   never moves), and the volume of melt over the whole run, an output of the component, stays zero whatever melts. *)
Theorem C72_component_refuted : forall ny nx dx dy small S s, fst (ice_update ny nx dx dy small S s) <> None.
Proof.
  intros *. unfold ice_update. destruct (update _ _ _ _ _ _ _ _ _ _) as [[[[[? ?] ?] ?] ?]|]; discriminate.
Qed.
Theorem C72_melt_volume_refuted :
  (forall ny nx dx dy small S k H0 Zb, let s := ice_calls ny nx dx dy small S k (initialize H0 Zb) in clock s = 0 /\ vol_MR s = 0) /\
  exists S H0 Zb, 0 < melt (ice_calls 1 1 100 100 (fun _ => 0) S 1 (initialize H0 Zb)) 0%nat 0%nat.
Proof.
  split.
  - intros ny nx dx dy small S k H0 Zb. cbn zeta. induction k as [|k IH]; [split; reflexivity|]. cbn [ice_calls]. unfold ice_update.
    destruct (update _ _ _ _ _ _ _ _ _ _) as [[[[[? ?] ?] ?] ?]|]; exact IH.
  - set (H := fun (r c : nat) => 100). set (Zb := fun (r c : nat) => 0).
    set (S := mkSettings false false false 1 (mkClimate ConstantELA 200 0 1 0 (1/100) 1) free 1 1 1 1). exists S, H, Zb.
    cbn [ice_calls]. unfold ice_update. cbn [initialize clock thick bed account_MR].
    destruct (update 1 1 100 100 (fun _ => 0) S 0 H Zb 0) as [[[[[dt H'] Z'] mr] ci]|] eqn:E.
    2:{ unfold update in E. destruct (fluxes _ _ _ _ _ _ _ _ _). unfold mass_balance in E. cbn [S VARIABLE_DT ela mbt clim] in E. destruct (update_vars _ _ _ _ _ _ _ _ _ _ _) as [[[? ?] ?] ?]. discriminate. }
    cbn [snd melt].
    pose proof (update_inv _ _ _ _ _ _ _ _ _ _ _ _ _ _ _ E) as [B [EB [Edt [_ [_ [-> _]]]]]]. specialize (Edt eq_refl). cbn [dt_max S] in Edt. subst dt.
    assert (B0 : B 0%nat 0%nat = -1).
    { unfold mass_balance in EB. cbn [ela clim mbt S initELA] in EB. injection EB as <-. cbn zeta. cbn [gradBz maxBz]. unfold surface, H, Zb. rewrite Rmax_left by lra. destruct (Rlt_dec _ _); lra. }
    rewrite new_mr_eq by lra. cbn [FLOW SLIDE S]. rewrite fluxes_eq. cbn zeta. cbn [fst snd]. set (s := set_bc 1 1 free H Zb (surf H Zb)) in *.
    assert (Qx : forall i j, qxX 1 100 100 (fst s) (snd s) free false false i j = 0).
    { intros. rewrite qxX_free, qx0_face. unfold face_flux, speed. destruct (blockx _ _ _ _ _); ring. }
    assert (Qy : forall i j, qyY 1 100 100 (fst s) (snd s) free false false i j = 0).
    { intros. rewrite qyY_free, qy0_face. unfold face_flux, speed. destruct (blocky _ _ _ _ _); ring. }
    set (qx := qxX 1 100 100 (fst s) (snd s) free false false) in *. set (qy := qyY 1 100 100 (fst s) (snd s) free false false) in *. clearbody qx qy.
    assert (Em : moved 100 100 H B qx qy 1 0%nat 0%nat = 100).
    { unfold moved, inflow, west, east, south, north. rewrite !Qx, !Qy, B0. rewrite Rmax_left by lra. unfold H. lra. }
    unfold melted. rewrite Em, B0. rewrite (Rmax_right 0 100), (Rmax_right 0 (- -1)) by lra. rewrite Rmin_right by lra.
    unfold rhoI, rhoW, sec_per_year. lra.
Qed.

(* the hypotheses are met: a step of the component on a slope of ice, and the textbook flux on a uniform slope *)
Example C72_demo_step : exists dt H' Zi' mr ci',
  update 2 3 100 100 (fun _ => 0) (still true free glensA) 0 (fun _ _ => 100) (fun _ c => 50 * INR c) 0 = Some (dt, H', Zi', mr, ci') /\ 0 < dt.
Proof.
  destruct (update 2 3 100 100 (fun _ => 0) (still true free glensA) 0 (fun _ _ => 100) (fun _ c => 50 * INR c) 0) as [[[[[dt H'] Z'] mr] ci]|] eqn:E.
  2:{ unfold update in E. destruct (fluxes _ _ _ _ _ _ _ _ _). unfold mass_balance in E. cbn [still VARIABLE_DT ela mbt clim] in E. destruct (update_vars _ _ _ _ _ _ _ _ _ _ _) as [[[? ?] ?] ?]. discriminate. }
  exists dt, H', Z', mr, ci. split; [reflexivity|]. pose proof (update_inv _ _ _ _ _ _ _ _ _ _ _ _ _ _ _ E) as [B [_ [Edt _]]].
  rewrite (Edt eq_refl). cbn [still dt_max]. lra.
Qed.
Example C72_demo_glen : qx0 100 100 (fun _ _ => 100) (fun _ c => 50 * INR c) true false 1%nat 1%nat = glen_flux (68 / 10^16 * (315 * 10^5) / 10^9) 917 (981/100) 100 (1/2) + 0.
Proof.
  pose proof (C72_glen true false (fun _ _ => 100) (fun _ c => 50 * INR c) 100 100 1 1) as G. cbn zeta in G. cbn [plus INR] in G.
  replace ((100 + 100) / 2) with 100 in G by lra. replace ((50 * (1 + 1) - 50 * 1) / 100) with (1/2) in G by lra.
  apply G; try lra; try lia; [intros k _; split; reflexivity | rewrite Rabs_right by lra; lra].
Qed.

Print Assumptions C72_account.
Print Assumptions C72_nonneg.
Print Assumptions C72_run_nonneg.
Print Assumptions C72_run_ends.
Print Assumptions C72_downhill.
Print Assumptions C72_no_ice_enters.
Print Assumptions C72_closed.
(* a constant-flux side (the constant is 0) lets nothing through; inside, ice flows as beside a zero-flux side *)
Definition as_zero_flux (b : bound) : bound := match b with ConstFlux => ZeroFlux | _ => b end.
Theorem C72_const_flux : forall ny nx dx dy W E So No F S H Zb,
  let q := fluxes ny nx dx dy (mkBounds W E So No) F S H Zb in
  let q' := fluxes ny nx dx dy (mkBounds (as_zero_flux W) (as_zero_flux E) (as_zero_flux So) (as_zero_flux No)) F S H Zb in
  (W = ConstFlux -> forall r, fst q r 0%nat = 0) /\ (E = ConstFlux -> forall r, fst q r nx = 0) /\
  (So = ConstFlux -> forall c, snd q 0%nat c = 0) /\ (No = ConstFlux -> forall c, snd q ny c = 0) /\
  (forall r c, (1 <= c < nx)%nat -> fst q r c = fst q' r c) /\ (forall r c, (1 <= r < ny)%nat -> snd q r c = snd q' r c).
Proof.
  intros *. unfold q, q'. rewrite !fluxes_eq. cbn zeta. cbn [fst snd].
  assert (ES : set_bc ny nx (mkBounds W E So No) H Zb (surf H Zb) =
    set_bc ny nx (mkBounds (as_zero_flux W) (as_zero_flux E) (as_zero_flux So) (as_zero_flux No)) H Zb (surf H Zb)).
  { destruct W, E, So, No; reflexivity. }
  rewrite <- ES. set (s := set_bc _ _ _ _ _ _). unfold qxX, qyY. cbn [West East South North].
  split; [intros ->; intros r; reflexivity|]. split; [intros ->; intros r; rewrite Nat.eqb_refl, orb_true_r; reflexivity|].
  split; [intros ->; intros c; reflexivity|]. split; [intros ->; intros c; rewrite Nat.eqb_refl, orb_true_r; reflexivity|].
  split; [intros r c C|intros r c C].
  - destruct (Nat.eqb_spec c 0) as [?|_]; [lia|]. destruct (Nat.eqb_spec c nx) as [?|_]; [lia|]. rewrite !andb_false_r. reflexivity.
  - destruct (Nat.eqb_spec r 0) as [?|_]; [lia|]. destruct (Nat.eqb_spec r ny) as [?|_]; [lia|]. rewrite !andb_false_r. reflexivity.
Qed.
Print Assumptions C72_const_flux.

Print Assumptions C72_glen.
Print Assumptions C72_front.
Print Assumptions C72_stays_bare.
Print Assumptions C72_mass_balance.
Print Assumptions C72_mirror.
Print Assumptions C72_transpose.
Print Assumptions C72_datum.
Print Assumptions C72_bookkeeping.
Print Assumptions C72_no_made_ice_refuted.
Print Assumptions C72_ice_account_refuted.
Print Assumptions C72_settings_ignored.
Print Assumptions C72_settings_refuted.
Print Assumptions C72_variable_dt_refuted.
Print Assumptions C72_component_refuted.
Print Assumptions C72_melt_volume_refuted.
