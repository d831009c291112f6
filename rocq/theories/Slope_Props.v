(* Property C74: the slope-grid and smoothing tools of utils/new_slopes.py. *)
From Coq Require Import ZArith QArith Qminmax Lqa List Bool Arith Lia.
From Verif Require Import Base Slope_Model Slope_Spec Slope_Proofs Slope_Chain.
Import ListNotations.
Local Open Scope Q_scope.

(* test grids: parents, elevations and heads from lists; unit distances; a cell with parent 0 has no flow unless listed *)
Definition grid (nx ny : nat) (ps : list (nat * nat)) (zs : list (nat * Q)) (heads : list nat) : topo :=
  let look {A} (d : A) (l : list (nat * A)) i := match find (fun p => Nat.eqb (fst p) i) l with Some p => snd p | None => d end in
  mkTopo nx ny (fun i => look 0%nat ps i) (fun i => negb (existsb (fun p => Nat.eqb (fst p) i) ps))
    (fun i => look 100 zs i) (fun _ => 1) (-(9999)) (fun i => existsb (Nat.eqb i) heads).
Definition value (o : outcome (list Q)) : list Q := match o with Ok l => l | _ => [] end.
Definition grid_ok (T : topo) : bool :=
  noflow T 0%nat && forallb (fun i => (par T i <? ncell T)%nat) (seq 0 (ncell T)).
Lemma grid_d8 nx ny ps zs heads : grid_ok (grid nx ny ps zs heads) = true -> d8_grid (grid nx ny ps zs heads).
Proof.
  intros H. apply andb_true_iff in H. destruct H as [A B]. split.
  - exact A.
  - intros i. cbn. intros X. apply negb_true_iff in X. destruct (find _ ps) as [p|] eqn:F; [|reflexivity].
    apply find_some in F. exfalso. assert (existsb (fun p => Nat.eqb (fst p) i) ps = true); [|congruence].
    apply existsb_exists. exists p. exact F.
  - intros i I. rewrite forallb_forall in B. apply Nat.ltb_lt. apply B. apply in_seq. lia.
  - intros i I. reflexivity.
Qed.

(* ================= get_d8_slope_grid ================= *)
(* cells with a flow code get their drop over distance, or zero if they do not drop; other cells have no value *)
Theorem C74_d8_slope : forall T l, get_d8_slope_grid T = Ok l ->
  length l = ncell T /\ forall i, (i < ncell T)%nat ->
    (noflow T i = true -> get None l i = None) /\
    (noflow T i = false -> z T (par T i) < z T i -> get None l i = Some ((z T i - z T (par T i)) / ds T i)) /\
    (noflow T i = false -> z T i <= z T (par T i) -> get None l i = Some 0).
Proof.
  intros T l. unfold get_d8_slope_grid. destruct (existsb _ _); [|discriminate]. intros E. injection E as <-.
  split; [apply tab_length|]. intros i I. rewrite get_tab by exact I. split; [intros ->; reflexivity|].
  split; intros N L; rewrite N; destruct (lt_b 0 (z T i - z T (par T i))) eqn:E; try reflexivity;
    [apply lt_b_f in E|apply lt_b_t in E]; exfalso; lra.
Qed.
Print Assumptions C74_d8_slope.
(* the tool fails exactly when no cell drops towards its parent *)
Theorem C74_d8_total : forall T, d8_grid T ->
  (get_d8_slope_grid T = ValueError <-> forall i, (i < ncell T)%nat -> noflow T i = false -> z T i <= z T (par T i)) /\
  ((exists l, get_d8_slope_grid T = Ok l) <-> exists i, (i < ncell T)%nat /\ noflow T i = false /\ z T (par T i) < z T i).
Proof.
  intros T G. unfold get_d8_slope_grid. set (l := tab _ _).
  assert (W : existsb (fun s => match s with Some s => lt_b 0 s | None => false end) l = true <->
              exists i, (i < ncell T)%nat /\ noflow T i = false /\ z T (par T i) < z T i).
  { rewrite existsb_exists. unfold l, tab. split.
    - intros [x [X E]]. apply in_map_iff in X. destruct X as [i [V X]]. apply in_seq in X. exists i. split; [lia|].
      destruct (noflow T i); [subst; discriminate|]. split; [reflexivity|]. subst. apply lt_b_t in E.
      destruct (lt_b 0 (z T i - z T (par T i))) eqn:D; [apply lt_b_t in D; lra|lra].
    - intros [i [I [N L]]]. eexists. split; [apply in_map; apply in_seq; split; [lia|]; exact I|]. cbv beta. rewrite N.
      assert (D : lt_b 0 (z T i - z T (par T i)) = true) by (apply lt_b_t; lra). rewrite D. apply lt_b_t.
      apply div_pos; [lra|apply (d8_ds T G i I)]. }
  destruct (existsb _ l) eqn:E; split; split; intros H; try discriminate; try reflexivity.
  - exfalso. destruct (proj1 W eq_refl) as [i [I [N L]]]. specialize (H i I N). lra.
  - apply W. reflexivity.
  - eexists. reflexivity.
  - intros i I N. apply Qnot_lt_le. intros L. assert (false = true); [|discriminate]. apply W. exists i. auto.
  - destruct H. discriminate.
  - apply W in H. discriminate.
Qed.
Print Assumptions C74_d8_total.

(* ================= get_new_slope_grid ================= *)
(* The slope of a cell is its drop to the first lower cell downstream, over the length of the way there, if that cell is
   not the corner cell 0 and at most 4*nx+1 steps away. *)
Theorem C74_first_lower : forall T l i k, d8_grid T -> get_new_slope_grid T = Ok l -> (i < ncell T)%nat ->
  noflow T i = false -> first_lower T i k -> anc T k i <> 0%nat -> (k <= 4 * nx T + 1)%nat ->
  get 0 l i == (z T i - z T (anc T k i)) / plen T k i.
Proof.
  intros T l i k G E I N FL A K. destruct (new_slope_ok T G l E) as [_ [m [M [F W]]]].
  assert (Km : (k <= m)%nat).
  { destruct W as [W|[W|W]]; [lia| |].
    - destruct (W i I) as [_ [M1 [L1 _]]]. destruct (le_lt_dec k m) as [Y|Y]; [exact Y|]. exfalso.
      destruct FL as [_ [_ FL]]. apply (FL m); [lia|exact L1].
    - destruct (le_lt_dec k m) as [Y|Y]; [exact Y|]. exfalso. apply A. apply (anc_zero T G k (S m)); [lia|]. apply W. exact I. }
  destruct (F i I) as [q Q [Z|Z]|q k' _ FL' K' Q]; [congruence| |].
  - exfalso. destruct FL as [K1 [L _]]. apply (Z k); [lia|exact L].
  - assert (k' = k).
    { destruct FL as [K1 [L1 F1]]. destruct FL' as [K2 [L2 F2]]. destruct (Nat.lt_trichotomy k k') as [X|[X|X]]; [|congruence|]; exfalso.
      - apply (F2 k); [lia|exact L1].
      - apply (F1 k'); [lia|exact L2]. }
    subst. exact Q.
Qed.
Print Assumptions C74_first_lower.
(* Every other value is zero or comes from a lower cell, or from corner cell 0, within 4*nx+1 steps. *)
Theorem C74_slope_source : forall T l i, d8_grid T -> get_new_slope_grid T = Ok l -> (i < ncell T)%nat ->
  get 0 l i == 0 \/ noflow T i = false /\ exists k, (k <= 4 * nx T + 1)%nat /\ first_lower T i k /\
    0 < get 0 l i /\ get 0 l i == mean_slope T i k.
Proof.
  intros T l i G E I. destruct (new_slope_ok T G l E) as [_ [m [M [F _]]]].
  destruct (F i I) as [q Q _|q k N FL K Q]; [left; exact Q|]. right. split; [exact N|]. exists k. split; [lia|].
  split; [exact FL|]. split; [|exact Q]. rewrite Q. apply mean_pos; assumption.
Qed.
Print Assumptions C74_slope_source.
Theorem C74_no_slope : forall T l i, d8_grid T -> get_new_slope_grid T = Ok l -> (i < ncell T)%nat ->
  (noflow T i = true \/ forall k, (1 <= k <= 4 * nx T + 1)%nat -> ~ lower_at T i k) -> get 0 l i == 0.
Proof.
  intros T l i G E I H. destruct (new_slope_ok T G l E) as [_ [m [M [F _]]]].
  destruct (F i I) as [q Q _|q k N FL K Q]; [exact Q|]. exfalso. destruct H as [H|H]; [congruence|].
  destruct FL as [K1 [L _]]. apply (H k); [lia|exact L].
Qed.
Print Assumptions C74_no_slope.
(* the tool gives a grid exactly when some cell drops straight to a known parent *)
Theorem C74_new_total : forall T, d8_grid T ->
  ((exists l, get_new_slope_grid T = Ok l) <-> exists i, (i < ncell T)%nat /\ noflow T i = false /\ lower_at T i 1).
Proof.
  intros T G. split.
  - intros [l E]. unfold get_new_slope_grid in E.
    assert (Er := fun n => slope_loop_err T G n true 0 _ (inv_init T)). 
    destruct (4 * nx T)%nat as [|n]; cbn [slope_loop] in E;
      set (l0 := tab (ncell T) (fun i => mkCs (par T i) (ds T i) 0)) in *;
      set (l1 := tab (ncell T) (fun i => pass T i (get cs0 l0 i))) in *;
      (destruct (existsb (fun c => lt_b 0 (c_slope c)) l1) eqn:X; [|discriminate]);
      apply existsb_exists in X; destruct X as [c [C P]]; apply lt_b_t in P;
      destruct (inv_pass T G 0 l0 (inv_init T)) as [Len I1]; fold l1 in Len, I1;
      apply (In_nth _ _ cs0) in C; destruct C as [i [Hi Ec]]; rewrite Len in Hi; destruct (I1 i Hi) as [_ [_ F]];
      unfold get in F; rewrite Ec in F; (destruct F as [q Q _|q k N FL K Q]; [exfalso; lra|]);
      (exists i; split; [exact Hi|]; split; [exact N|]; destruct FL as [K1 [L _]]; replace 1%nat with k by lia; exact L).
  - intros [i [I [N L]]]. unfold get_new_slope_grid.
    assert (Er := slope_loop_err T G (4 * nx T) true 0 _ (inv_init T)).
    destruct (slope_loop T (4 * nx T) true _) as [r| | | |]; try (destruct Er; fail); [eexists; reflexivity|].
    exfalso. destruct Er as [_ Er]. remember 0 as q0 eqn:Q0 in Er. specialize (Er i I).
    destruct Er as [q Q [Z|Z]|q k N' FL K Q]; [congruence|apply (Z 1%nat); [lia|exact L]|]. subst q.
    generalize (mean_pos T G i k I FL). lra.
Qed.
Print Assumptions C74_new_total.
Example C74_first_lower_case :
  let T := grid 4 4 [(5,6);(6,10);(10,14)]%nat [(5%nat,20);(6%nat,20);(10%nat,18);(14%nat,17)] [] in
  d8_grid T /\ first_lower T 5 2 /\ exists l, get_new_slope_grid T = Ok l /\ get 0 l 5 == 1.
Proof.
  cbv zeta. split; [apply grid_d8; reflexivity|]. split.
  - split; [lia|]. split; [split; reflexivity|]. intros j J. assert (j = 1)%nat by lia. subst. intros [_ L]. discriminate L.
  - destruct (get_new_slope_grid _) as [l| | | |] eqn:E; vm_compute in E; try discriminate. injection E as <-.
    eexists. split; reflexivity.
Qed.
(* Refuted: "a cell from which the water leaves the grid without dropping has slope zero".  Past an outlet the tool goes on
   with the corner cell 0 and takes its elevation. *)
Theorem C74_outlet_refuted : exists T l i, d8_grid T /\ get_new_slope_grid T = Ok l /\ (i < ncell T)%nat /\ noflow T i = false /\
  (forall k, anc T k i <> 0%nat -> ~ lower_at T i k) /\ 0 < get 0 l i.
Proof.
  set (T := grid 4 4 [(5,6);(6,10);(10,14);(9,13)]%nat [(5%nat,20);(6%nat,19);(10%nat,18);(14%nat,17);(9%nat,10);(13%nat,10);(0%nat,5)] []).
  exists T, (value (get_new_slope_grid T)), 9%nat. split; [apply grid_d8; vm_compute; reflexivity|]. split; [vm_compute; reflexivity|]. split; [vm_compute; lia|]. split; [vm_compute; reflexivity|].
  split; [|vm_compute; reflexivity]. intros k K [_ L]. destruct k as [|[|k]]; [vm_compute; discriminate L|vm_compute; discriminate L|]. apply K.
  apply (anc_zero T ltac:(apply grid_d8; reflexivity) _ 2%nat); [lia|vm_compute; reflexivity].
Qed.
Print Assumptions C74_outlet_refuted.
(* Refuted: "every cell with a lower cell downstream gets a slope": paths longer than 4*nx+1 are given up ... *)
Theorem C74_long_flat_refuted : exists T l i k, d8_grid T /\ get_new_slope_grid T = Ok l /\ (i < ncell T)%nat /\ noflow T i = false /\
  first_lower T i k /\ anc T k i <> 0%nat /\ get 0 l i == 0.
Proof.
  set (T := grid 3 17 (map (fun r => (3 * r + 1, 3 * r + 4))%nat (seq 1 15)) [(49%nat,5)] []).
  exists T, (value (get_new_slope_grid T)), 4%nat, 15%nat. split; [apply grid_d8; vm_compute; reflexivity|]. split; [vm_compute; reflexivity|]. split; [vm_compute; lia|]. split; [vm_compute; reflexivity|].
  split; [|split; [vm_compute; discriminate|vm_compute; reflexivity]]. split; [lia|]. split; [split; vm_compute; reflexivity|].
  intros j J. do 15 (destruct j as [|j]; [intros [_ L]; vm_compute in L; vm_compute; discriminate L|]). lia.
Qed.
Print Assumptions C74_long_flat_refuted.
(* ... and so is a drop into the corner cell, when all paths have ended there *)
Theorem C74_corner_refuted : exists T l i, d8_grid T /\ get_new_slope_grid T = Ok l /\ (i < ncell T)%nat /\ noflow T i = false /\
  first_lower T i 2 /\ (2 <= 4 * nx T + 1)%nat /\ get 0 l i == 0.
Proof.
  set (T := grid 4 4 [(5,0);(6,5)]%nat [(5%nat,10);(6%nat,10);(0%nat,5)] []).
  exists T, (value (get_new_slope_grid T)), 6%nat. split; [apply grid_d8; vm_compute; reflexivity|]. split; [vm_compute; reflexivity|]. split; [vm_compute; lia|]. split; [vm_compute; reflexivity|].
  split; [|split; [vm_compute; lia|vm_compute; reflexivity]]. split; [lia|]. split; [split; vm_compute; reflexivity|].
  intros j J. assert (j = 1)%nat by lia. subst. intros [_ L]. vm_compute; discriminate L.
Qed.
Print Assumptions C74_corner_refuted.

(* ================= get_new_slope_grid2 ================= *)
(* On elevations that never rise downstream, a cell's slope is at most its own D8 slope and that of every chain through it,
   and is one of these (or the cap 99999 if a chain is steeper than that). *)
Theorem C74_lowest_slope : forall T l i, d8_grid T -> never_rises T -> get_new_slope_grid2 T = Ok l -> (i < ncell T)%nat -> noflow T i = false ->
  (steep T i -> get 0 l i <= (z T i - z T (par T i)) / ds T i) /\
  (forall s k, on_chain T s k i -> get 0 l i <= chain_slope T s k) /\
  (steep T i /\ get 0 l i == (z T i - z T (par T i)) / ds T i \/
   flat T i /\ get 0 l i == 0 \/
   exists s k, on_chain T s k i /\ (get 0 l i == chain_slope T s k \/ get 0 l i == 99999 /\ 99999 <= chain_slope T s k)).
Proof.
  intros T l i G R E I N. destruct (grid2_ok T G l R E) as [_ [m [sl [[_ V] [A Gt]]]]]. rewrite (Gt i I), N.
  destruct (V i I N) as [B1 [B2 [B3 _]]]. split; [intros S; rewrite <- (slope_val T i S); apply B1, S|]. split.
  - intros s k [Bs [Ce [j J]]]. apply (B2 s k); [split; [exact Bs|split; [exact Ce|apply (A s k Bs Ce)]]|exists j; exact J].
  - destruct B3 as [B3|[s [k [[Bs [Ce _]] [[j J] Q]]]]].
    + destruct (three_ways T G i I) as [S|[F|X]]; [|right; left; split; [exact F|rewrite B3, (slope_flat0 T i F); reflexivity]|congruence].
      left. split; [exact S|]. rewrite B3, (slope_val T i S). reflexivity.
    + right. right. exists s, k. split; [split; [exact Bs|split; [exact Ce|exists j; exact J]]|exact Q].
Qed.
Print Assumptions C74_lowest_slope.
(* slopes are never negative, and positive wherever the cell drops or lies on a chain; cells without flow have zero *)
Theorem C74_chain_positive : forall T l i, d8_grid T -> never_rises T -> get_new_slope_grid2 T = Ok l -> (i < ncell T)%nat ->
  0 <= get 0 l i /\ (noflow T i = true -> get 0 l i = 0) /\
  (steep T i \/ (exists s k, on_chain T s k i) -> 0 < get 0 l i).
Proof.
  intros T l i G R E I. destruct (grid2_ok T G l R E) as [_ [m [sl [[_ V] [A Gt]]]]]. rewrite (Gt i I).
  destruct (noflow T i) eqn:N.
  - split; [lra|]. split; [reflexivity|]. intros [[X _]|[s [k [Bs [Ce [j [J X]]]]]]]; [congruence|].
    rewrite X in N. rewrite (chain_flow T G s k Bs Ce j J) in N. discriminate.
  - destruct (V i I N) as [_ [_ [_ [P Z]]]]. split; [exact Z|]. split; [discriminate|]. intros [S|[s [k [Bs [Ce [j J]]]]]]; apply P.
    + left. exact S.
    + right. exists s, k. split; [split; [exact Bs|split; [exact Ce|apply (A s k Bs Ce)]]|exists j; exact J].
Qed.
Print Assumptions C74_chain_positive.
(* Every flat cell above a steep one gets a positive slope, if the cells with no contributing area are known and the cell is
   not itself such a cell right above the steep one. *)
Theorem C74_flats_filled : forall T l i b, d8_grid T -> never_rises T -> get_new_slope_grid2 T = Ok l ->
  (forall i, (i < ncell T)%nat -> exists k, noflow T (anc T k i) = true) ->
  (forall i, (i < ncell T)%nat -> head T i = false -> exists u, (u < ncell T)%nat /\ noflow T u = false /\ par T u = i) ->
  (i < ncell T)%nat -> steep T (anc T b i) -> (forall j, (j < b)%nat -> flat T (anc T j i)) -> (head T i = true -> (2 <= b)%nat) ->
  0 < get 0 l i.
Proof.
  intros T l i b G R E Dr Hd I Sb Fb Hb. apply (C74_chain_positive T l i G R E I). destruct b as [|b]; [left; exact Sb|].
  right. destruct (chain_above T G Dr Hd i I (Fb 0%nat ltac:(lia))) as [s [m [Bs [Am [Fm H0]]]]].
  exists s, (m + S b)%nat. assert (AA : forall j, anc T (j + m) s = anc T j i) by (intros j; rewrite <- anc_add, Am; reflexivity).
  split; [exact Bs|]. split; [|exists m; split; [lia|symmetry; exact Am]]. split; [|split].
  - destruct m as [|m]; [|lia]. specialize (Hb (H0 eq_refl)). lia.
  - rewrite Nat.add_comm, AA. exact Sb.
  - intros j J. destruct (le_lt_dec j m) as [L|L]; [apply Fm; lia|]. replace j with ((j - m) + m)%nat by lia. rewrite AA. apply Fb. lia.
Qed.
Print Assumptions C74_flats_filled.
(* The tool does not run past its tables if every chain comes to a cell that is not flat two steps before their end. *)
Theorem C74_chains_total : forall T, d8_grid T -> never_rises T -> (exists s, begins T s) ->
  (forall s, begins T s -> exists k, (2 <= k <= 2 * Nat.max (nx T) (ny T) - 2)%nat /\ ~ flat T (anc T k s)) ->
  (exists l, get_new_slope_grid2 T = Ok l) \/ get_new_slope_grid2 T = ValueError.
Proof.
  intros T G R [s0 B0] W. unfold get_new_slope_grid2. 
  destruct (forallb (fun i => lt_b 0 (d8_drop T i)) (seq 0 (ncell T))) eqn:A.
  { exfalso. assert (N : (0 < ncell T)%nat) by (destruct B0; lia). rewrite forallb_forall in A.
    assert (X := A 0%nat ltac:(apply in_seq; lia)). apply lt_b_t in X. apply d8_drop_pos in X. destruct X as [X _].
    rewrite (d8_corner T G) in X. discriminate. }
  destruct (negb _); [right; reflexivity|]. destruct (starts T) as [|a ss] eqn:S0.
  { exfalso. apply (starts_in T G) in B0. rewrite S0 in B0. destruct B0. }
  rewrite <- S0. destruct (chain_loop_no_index T G (maxlen T) 0 (map (new_chain T) (starts T)) (tab (ncell T) (d8_slope T)) R
    (init_cinv T G) (init_starts T) (init_vinv T G) (Nat.add_0_r _)) as [r E].
  - exists (new_chain T a). split; [apply in_map; rewrite S0; left; reflexivity|reflexivity].
  - intros s Bs. destruct (W s Bs) as [k [K F]]. exists k. split; [unfold maxlen; lia|exact F].
  - change (0 + 2)%nat with 2%nat in E. rewrite E. destruct (three_positive _); [left; eexists; reflexivity|right; reflexivity].
Qed.
Print Assumptions C74_chains_total.
Definition demo : topo :=
  grid 3 8 (map (fun r => (3 * r + 1, 3 * r + 4))%nat (seq 1 6))
    [(4%nat,20);(7%nat,15);(10%nat,15);(13%nat,15);(16%nat,10);(19%nat,7);(22%nat,6)] [4%nat].
Lemma never_rises_b nx ny ps zs heads : let T := grid nx ny ps zs heads in
  forallb (fun i => noflow T i || Qle_bool (z T (par T i)) (z T i)) (seq 0 (ncell T)) = true -> never_rises T.
Proof.
  cbv zeta. intros H i I N. rewrite forallb_forall in H. specialize (H i ltac:(apply in_seq; lia)). rewrite N in H. apply Qle_bool_iff. exact H.
Qed.
Example C74_chain_case : d8_grid demo /\ never_rises demo /\ on_chain demo 4 3 10 /\
  chain_slope demo 4 3 == 5 # 2 /\ exists l, get_new_slope_grid2 demo = Ok l /\ get 0 l 4 == 5 # 2 /\ get 0 l 10 == 5 # 2 /\ get 0 l 16 == 3.
Proof.
  split; [apply grid_d8; reflexivity|]. split; [apply never_rises_b; reflexivity|]. split.
  - assert (F : flat demo 7 /\ flat demo 10) by (split; (split; [reflexivity|]; intros [_ [_ L]]; discriminate L)). destruct F as [F1 F2].
    split; [split; [vm_compute; lia|left; split; [repeat split; reflexivity|exact F1]]|]. split; [|exists 2%nat; split; [lia|reflexivity]].
    split; [lia|]. split; [repeat split; reflexivity|]. intros j J. assert (j = 2)%nat by lia. subst. exact F2.
  - split; [reflexivity|]. destruct (get_new_slope_grid2 demo) as [l| | | |] eqn:E; vm_compute in E; try discriminate. injection E as <-.
    eexists. repeat split; reflexivity.
Qed.
(* Refuted: "a DEM without flat cells keeps its D8 slopes": the tool never writes a grid for one. *)
Theorem C74_no_flats_refuted : (forall T l, d8_grid T -> (forall i, (i < ncell T)%nat -> ~ flat T i) -> get_new_slope_grid2 T <> Ok l) /\
  exists T, d8_grid T /\ never_rises T /\ (forall i, (i < ncell T)%nat -> ~ flat T i) /\ get_new_slope_grid2 T = UnboundLocalError.
Proof.
  split.
  - intros T l G NF. unfold get_new_slope_grid2. destruct (forallb _ _); [discriminate|]. destruct (negb _); [discriminate|].
    destruct (starts T) as [|s ss] eqn:E; [discriminate|]. exfalso.
    assert (B : begins T s) by (apply (starts_in T G); rewrite E; left; reflexivity). destruct B as [I [[_ F]|[_ F]]].
    + exact (NF _ (d8_range T G s I) F).
    + exact (NF s I F).
  - set (T := grid 3 5 [(4,7);(7,10);(10,13)]%nat [(4%nat,20);(7%nat,15);(10%nat,12);(13%nat,11)] []).
    exists T. split; [apply grid_d8; reflexivity|]. split; [apply never_rises_b; reflexivity|]. split; [|vm_compute; reflexivity].
    intros i I F. apply (slope_flat T ltac:(apply grid_d8; reflexivity) i I) in F. revert F.
    do 15 (destruct i as [|i]; [vm_compute; discriminate|]). vm_compute in I. lia.
Qed.
Print Assumptions C74_no_flats_refuted.
(* Refuted: "a slope grid is made for every DEM with flats": long flats run past the tables, and fewer than three different
   positive slopes are an error. *)
Definition snake : list nat := [7;8;9;10;16;15;14;13;19;20;21;22;28;27;26;25;31]%nat.
Theorem C74_chain_length_refuted : exists T, d8_grid T /\ never_rises T /\ (exists s k, begins T s /\ chain_end T s k) /\ get_new_slope_grid2 T = IndexError.
Proof.
  set (T := grid 6 6 (combine snake (tl snake)) ((7%nat, 105) :: (27%nat,95) :: (26%nat,92) :: (25%nat,90) :: (31%nat,89) :: nil) [7%nat]).
  assert (G : d8_grid T) by (apply grid_d8; reflexivity).
  exists T. split; [exact G|]. split; [apply never_rises_b; reflexivity|]. split; [|vm_compute; reflexivity].
  exists 7%nat, 12%nat. split.
  - split; [vm_compute; lia|]. left. split; [repeat split; reflexivity|]. apply (slope_flat T G); [vm_compute; lia|reflexivity].
  - split; [lia|]. split; [repeat split; reflexivity|]. intros j J. apply (slope_flat T G).
    + apply (anc_range T G). vm_compute. lia.
    + do 12 (destruct j as [|j]; [try lia; vm_compute; reflexivity|]). lia.
Qed.
Print Assumptions C74_chain_length_refuted.
Theorem C74_three_slopes_refuted : exists T, d8_grid T /\ never_rises T /\ (exists s k, begins T s /\ chain_end T s k) /\ get_new_slope_grid2 T = ValueError.
Proof.
  set (T := grid 3 8 (map (fun r => (3 * r + 1, 3 * r + 4))%nat (seq 1 6))
    [(4%nat,20);(7%nat,15);(10%nat,15);(13%nat,15);(16%nat,10);(19%nat,5);(22%nat,0)] [4%nat]).
  assert (G : d8_grid T) by (apply grid_d8; reflexivity).
  exists T. split; [exact G|]. split; [apply never_rises_b; reflexivity|]. split; [|vm_compute; reflexivity].
  exists 4%nat, 3%nat. split.
  - split; [vm_compute; lia|]. left. split; [repeat split; reflexivity|]. apply (slope_flat T G); [vm_compute; lia|reflexivity].
  - split; [lia|]. split; [repeat split; reflexivity|]. intros j J. assert (j = 2)%nat by lia. subst. apply (slope_flat T G); [vm_compute; lia|reflexivity].
Qed.
Print Assumptions C74_three_slopes_refuted.
(* A grid is only made if the D8 slopes, and then the new slopes, hold three different positive values. *)
Lemma min_of_in l m : min_of l = Some m -> exists x, In x l /\ x == m.
Proof.
  destruct l as [|x l]; cbn; [discriminate|]. intros H; inversion H; subst. clear H. revert x.
  induction l as [|y l IH]; intros x; cbn [fold_right]; [exists x; split; [left; reflexivity|reflexivity]|].
  destruct (Q.min_spec y (fold_right Qmin x l)) as [[_ E]|[_ E]].
  - exists y. split; [right; left; reflexivity|symmetry; exact E].
  - destruct (IH x) as (u & [->|U] & F); [exists u|exists u]; (split; [cbn; auto|exact (Qeq_trans _ _ _ F (Qeq_sym _ _ E))]).
Qed.
Lemma three_positive_in l : three_positive l = true -> exists a b c, In a l /\ In b l /\ In c l /\ 0 < a /\ a < b /\ b < c.
Proof.
  unfold three_positive. destruct (min_of (filter _ l)) as [m1|] eqn:E1; [|discriminate].
  destruct (min_of (filter (fun s => lt_b m1 s) l)) as [m2|] eqn:E2; [|discriminate].
  destruct (min_of (filter (fun s => lt_b m2 s) l)) as [m3|] eqn:E3; [|discriminate]. intros _.
  destruct (min_of_in _ _ E1) as (a & A & A'). destruct (min_of_in _ _ E2) as (b & B & B'). destruct (min_of_in _ _ E3) as (c & C & C').
  apply filter_In in A. apply filter_In in B. apply filter_In in C. destruct A as [A A2], B as [B B2], C as [C C2].
  apply lt_b_t in A2. apply lt_b_t in B2. apply lt_b_t in C2.
  exists a, b, c. repeat (split; [assumption|]). split; lra.
Qed.
Theorem C74_three_slopes_needed : forall T l, get_new_slope_grid2 T = Ok l ->
  (exists i j k, (i < ncell T)%nat /\ (j < ncell T)%nat /\ (k < ncell T)%nat /\ 0 < d8_slope T i /\ d8_slope T i < d8_slope T j /\ d8_slope T j < d8_slope T k) /\
  (exists i j k, (i < ncell T)%nat /\ (j < ncell T)%nat /\ (k < ncell T)%nat /\ 0 < get 0 l i /\ get 0 l i < get 0 l j /\ get 0 l j < get 0 l k).
Proof.
  intros T l. unfold get_new_slope_grid2. destruct (forallb _ _); [discriminate|].
  destruct (three_positive (tab (ncell T) (d8_slope T))) eqn:E; cbn [negb]; [|discriminate].
  destruct (starts T) as [|s0 ss]; [discriminate|].
  destruct (chain_loop _ _ _ _ _) as [sl| | | |]; try discriminate.
  set (fin := tab _ _). destruct (three_positive fin) eqn:F; [|discriminate]. intros H; inversion H; subst. split.
  - apply three_positive_in in E. destruct E as (a & b & c & A & B & C & O). unfold tab in A, B, C.
    apply in_map_iff in A. apply in_map_iff in B. apply in_map_iff in C.
    destruct A as (i & <- & A), B as (j & <- & B), C as (k & <- & C). apply in_seq in A. apply in_seq in B. apply in_seq in C.
    exists i, j, k. repeat (split; [lia|]). exact O.
  - apply three_positive_in in F. destruct F as (a & b & c & A & B & C & O).
    apply (In_nth _ _ 0) in A. apply (In_nth _ _ 0) in B. apply (In_nth _ _ 0) in C.
    destruct A as (i & A & <-), B as (j & B & <-), C as (k & C & <-). unfold fin in A, B, C. rewrite tab_length in A, B, C.
    exists i, j, k. repeat (split; [assumption|]). exact O.
Qed.
Print Assumptions C74_three_slopes_needed.
(* Refuted: "every flat cell above a steep one gets a slope": not a head cell right above the last cell before the edge. *)
Theorem C74_flat_head_refuted : exists T l i, d8_grid T /\ never_rises T /\ get_new_slope_grid2 T = Ok l /\ (i < ncell T)%nat /\
  flat T i /\ head T i = true /\ steep T (par T i) /\ get 0 l i == 0.
Proof.
  set (T := grid 4 5 [(5,6);(6,10);(10,14);(14,18);(9,13);(13,17)]%nat
    [(5%nat,40);(6%nat,30);(10%nat,25);(14%nat,22);(18%nat,21);(9%nat,10);(13%nat,10);(17%nat,5)] [5%nat;9%nat]).
  assert (G : d8_grid T) by (apply grid_d8; reflexivity).
  exists T, (value (get_new_slope_grid2 T)), 9%nat. split; [exact G|]. split; [apply never_rises_b; vm_compute; reflexivity|]. split; [vm_compute; reflexivity|]. split; [vm_compute; lia|].
  split; [apply (slope_flat T G); [vm_compute; lia|vm_compute; reflexivity]|]. split; [vm_compute; reflexivity|]. split; [repeat split; vm_compute; reflexivity|vm_compute; reflexivity].
Qed.
Print Assumptions C74_flat_head_refuted.
(* Refuted: "slopes are never negative": where elevations rise downstream the chain's slope is negative, and replaces positive ones. *)
Theorem C74_negative_refuted : exists T l i, d8_grid T /\ get_new_slope_grid2 T = Ok l /\ (i < ncell T)%nat /\ steep T i /\ get 0 l i < 0.
Proof.
  set (T := grid 3 8 (map (fun r => (3 * r + 1, 3 * r + 4))%nat (seq 1 6))
    [(4%nat,10);(7%nat,20);(10%nat,20);(13%nat,15);(16%nat,12);(19%nat,11);(22%nat,9)] [4%nat]).
  assert (G : d8_grid T) by (apply grid_d8; reflexivity).
  exists T, (value (get_new_slope_grid2 T)), 10%nat. split; [exact G|]. split; [vm_compute; reflexivity|]. split; [vm_compute; lia|]. split; [repeat split; vm_compute; reflexivity|vm_compute; reflexivity].
Qed.
Print Assumptions C74_negative_refuted.

(* ================= smooth_dem ================= *)
(* elevations stay between the lowest and the highest *)
Theorem C74_smooth_range : forall T n lo hi i, d8_grid T -> (forall i, (i < ncell T)%nat -> lo <= z T i <= hi) -> (i < ncell T)%nat ->
  lo <= get 0 (smooth_dem T n) i <= hi.
Proof. intros T n lo hi i G B I. apply (smooth_range T G n lo hi B i I). Qed.
Print Assumptions C74_smooth_range.
(* one step: a cell takes the mean of the last upstream neighbour and the parent; cells at the end of a path, and cells
   nothing flows to, keep their elevation *)
Theorem C74_smooth_step : forall T n i, d8_grid T -> (i < ncell T)%nat ->
  (par T i = 0%nat \/ par T (par T i) = 0%nat -> get 0 (smooth_dem T n) i = z T i) /\
  ((forall c, (c < ncell T)%nat -> par T c <> i) -> get 0 (smooth_dem T n) i = z T i) /\
  (par T i <> 0%nat -> par T (par T i) <> 0%nat -> forall c, (c < ncell T)%nat -> par T c = i ->
    (forall j, (c < j < ncell T)%nat -> par T j <> i) ->
    get 0 (smooth_dem T (S n)) i = (get 0 (smooth_dem T n) c + get 0 (smooth_dem T n) (par T i)) / 2).
Proof.
  intros T n i G I. split; [intros F; apply smooth_fixed_n; assumption|]. split.
  - intros C. induction n as [|n IH]; [apply (get_tab 0 _ (z T) i I)|]. rewrite smooth_succ.
    destruct (fixed_dec T i) as [F|F]; [apply smooth_fixed; assumption|].
    destruct (smooth_free T _ i (smooth_length T n) I F) as [[_ E]|[c [[Ic [P _]] _]]]; [rewrite E; exact IH|destruct (C c Ic P)].
  - intros N1 N2 c Ic P L. rewrite smooth_succ. assert (F : ~ fixed T i) by (intros [X|X]; contradiction).
    destruct (smooth_free T _ i (smooth_length T n) I F) as [[A _]|[c' [[Ic' [P' L']] E]]]; [destruct (A c Ic P)|].
    assert (c' = c); [|subst; exact E]. destruct (Nat.lt_trichotomy c c') as [X|[X|X]]; [|congruence|]; exfalso.
    + apply (L c'); [lia|exact P'].
    + apply (L' c); [lia|exact P].
Qed.
Print Assumptions C74_smooth_step.
(* along channels without confluences elevations never rise downstream, if they did not before *)
Theorem C74_smooth_downhill : forall T n i, d8_grid T -> never_rises T ->
  (forall i j, (i < ncell T)%nat -> (j < ncell T)%nat -> noflow T i = false -> noflow T j = false -> par T i = par T j -> i = j) ->
  (i < ncell T)%nat -> noflow T i = false -> get 0 (smooth_dem T n) (par T i) <= get 0 (smooth_dem T n) i.
Proof. intros T n i G R U I N. apply (smooth_never_rises T G n R U i I N). Qed.
Print Assumptions C74_smooth_downhill.
Example C74_smooth_case : d8_grid demo /\ never_rises demo /\ get 0 (smooth_dem demo 1) 7 == 35 # 2 /\ get 0 (smooth_dem demo 5) 19 = 7.
Proof. split; [apply grid_d8; reflexivity|]. split; [apply never_rises_b; reflexivity|]. split; reflexivity. Qed.
(* Refuted: "smoothing keeps a DEM that never rises downstream so": at a confluence one tributary is lifted onto the other ... *)
Theorem C74_smooth_confluence_refuted : exists T i, d8_grid T /\ never_rises T /\ (i < ncell T)%nat /\ noflow T i = false /\
  get 0 (smooth_dem T 1) i < get 0 (smooth_dem T 1) (par T i).
Proof.
  set (T := grid 4 6 [(5,9);(6,9);(9,13);(13,17);(17,21)]%nat [(5%nat,11);(6%nat,40);(9%nat,10);(13%nat,9);(17%nat,8);(21%nat,7)] []).
  exists T, 5%nat. split; [apply grid_d8; reflexivity|]. split; [apply never_rises_b; reflexivity|]. split; [vm_compute; lia|]. split; reflexivity.
Qed.
Print Assumptions C74_smooth_confluence_refuted.
(* ... and missing elevations are averaged like others: a known cell below a missing one ends far below all known elevations *)
Theorem C74_smooth_nodata_refuted : exists T i, d8_grid T /\ (i < ncell T)%nat /\ known T i /\ known T (par T i) /\
  (forall j, (j < ncell T)%nat -> known T j -> 0 <= z T j) /\ get 0 (smooth_dem T 1) i < -(1000).
Proof.
  set (T := grid 3 8 (map (fun r => (3 * r + 1, 3 * r + 4))%nat (seq 1 6))
    [(4%nat,-(9999));(7%nat,15);(10%nat,15);(13%nat,15);(16%nat,10);(19%nat,7);(22%nat,6)] [4%nat]).
  exists T, 7%nat. split; [apply grid_d8; reflexivity|]. split; [vm_compute; lia|]. split; [reflexivity|]. split; [reflexivity|].
  split; [|reflexivity]. intros j J K. revert K. do 24 (destruct j as [|j]; [vm_compute; intros X; discriminate || (exfalso; discriminate X)|]).
  vm_compute in J. lia.
Qed.
Print Assumptions C74_smooth_nodata_refuted.
