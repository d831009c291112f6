(* Theorems C35, C36 (base class) and C37. *)
From Coq Require Import ZArith QArith Qround List Bool String Lia Lqa.
From Verif Require Import Base Interp_Model Interp_Spec Interp_Proofs Bmi_Model Emeli_Spec Emeli_Proofs.
Import ListNotations.
Local Open Scope Q_scope.

(* ------------------------------------------------------------------ C35 *)

Lemma update_clock dz c :
  k_time (update dz c) = k_time c + k_dt c /\ k_dt (update dz c) = k_dt c /\
  k_index (update dz c) = S (k_index c) /\ k_driver (update dz c) = k_driver c /\
  k_rule (update dz c) = k_rule c.
Proof. unfold update, check_finished. destruct (k_driver c) eqn:E; cbn; rewrite ?E; repeat split. Qed.

Lemma iter_clock dz n c :
  k_time (Nat.iter n (update dz) c) == k_time c + Qn n * k_dt c /\
  k_dt (Nat.iter n (update dz) c) = k_dt c.
Proof.
  induction n as [|n [A B]]; cbn [Nat.iter nat_rect].
  - split; [rewrite Qn_0; ring|reflexivity].
  - change (nat_rect _ c (fun _ => update dz) n) with (Nat.iter n (update dz) c) in *.
    destruct (update_clock dz (Nat.iter n (update dz) c)) as (T & D & _).
    split; [rewrite T, A, B, Qn_S; ring|rewrite D; exact B].
Qed.

Lemma int_of_floor q : 0 <= q -> int_of q = Qfloor q.
Proof.
  intros H. unfold int_of, Qfloor. destruct q as [a b]. cbn. unfold Qle in H. cbn in H.
  apply Z.quot_div_nonneg; lia.
Qed.
Lemma int_of_neg q : q < 0 -> (int_of q <= 0)%Z.
Proof.
  intros H. unfold int_of. destruct q as [a b]. cbn. unfold Qlt in H. cbn in H.
  assert (K : (Z.quot (- a) (Z.pos b) = - Z.quot a (Z.pos b))%Z) by (apply Z.quot_opp_l; lia).
  assert (0 <= Z.quot (- a) (Z.pos b))%Z by (apply Z.quot_pos; lia). lia.
Qed.

(* After update_until(later) the clock is past [later] by at most one step: the whole steps are
   made and then one more whole step, whatever the fraction. *)
Theorem C35_passes_the_time_partial : forall dz later c,
  0 < k_dt c -> k_time c <= later ->
  exists c', update_until dz later c = Some c' /\
    later < k_time c' /\ k_time c' <= later + k_dt c /\
    exists n, k_time c' == k_time c + Qn n * k_dt c.
Proof.
  intros dz later c D L. unfold update_until.
  destruct (Qeq_bool (k_dt c) 0) eqn:E; [apply Qeq_bool_iff in E; lra|].
  eexists. split; [reflexivity|]. unfold update_frac. set (q := (later - k_time c) / k_dt c).
  assert (Q0 : 0 <= q) by (apply Qle_shift_div_l; lra).
  assert (QE : q * k_dt c == later - k_time c) by (unfold q; field; lra).
  rewrite (int_of_floor q Q0).
  set (m := Z.to_nat (Qfloor q)).
  destruct (iter_clock dz m c) as [A B].
  destruct (update_clock dz (Nat.iter m (update dz) c)) as (T & _). rewrite T, B, A.
  assert (F0 : (0 <= Qfloor q)%Z) by (change 0%Z with (Qfloor 0); apply Qfloor_resp_le; exact Q0).
  assert (M : Qn m == inject_Z (Qfloor q)) by (unfold Qn, m; rewrite Z2Nat.id by exact F0; reflexivity).
  pose proof (Qfloor_le q) as F1. pose proof (Qlt_floor q) as F2. rewrite inject_Z_plus in F2.
  change (inject_Z 1) with 1 in F2.
  assert (G1 : inject_Z (Qfloor q) * k_dt c <= q * k_dt c) by (apply Qmult_le_compat_r; lra).
  assert (G2 : q * k_dt c < (inject_Z (Qfloor q) + 1) * k_dt c) by (apply Qmult_lt_r; lra).
  rewrite M. split; [lra|]. split; [lra|]. exists (S m). rewrite A, Qn_S, M. ring.
Qed.

(* The property itself is false, and not only at some times: the requested time is never met. *)
Theorem C35_update_until_reaches_time_refuted :
  ~ (exists dz later c, 0 < k_dt c /\ k_time c <= later /\
       exists c', update_until dz later c = Some c' /\ k_time c' == later).
Proof.
  intros (dz & later & c & D & L & c' & E & T).
  destruct (C35_passes_the_time_partial dz later c D L) as (c2 & E2 & G & _).
  rewrite E in E2. inversion E2; subst. lra.
Qed.

(* A time in the past moves the clock forward by one step. *)
Theorem C35_past_time_advances : forall dz later c,
  0 < k_dt c -> later < k_time c ->
  exists c', update_until dz later c = Some c' /\ k_time c' == k_time c + k_dt c.
Proof.
  intros dz later c D L. unfold update_until.
  destruct (Qeq_bool (k_dt c) 0) eqn:E; [apply Qeq_bool_iff in E; lra|].
  eexists. split; [reflexivity|]. unfold update_frac.
  assert (N : (int_of ((later - k_time c) / k_dt c) <= 0)%Z).
  { apply int_of_neg. apply Qlt_shift_div_r; lra. }
  replace (Z.to_nat (int_of ((later - k_time c) / k_dt c))) with 0%nat by lia. cbn [Nat.iter nat_rect].
  destruct (update_clock dz c) as (T & _). rewrite T. reflexivity.
Qed.

Definition demo_clk (rule : stop_rule) : clk :=
  {| k_driver := true; k_dt := 60; k_rule := rule; k_time := 0; k_index := 0; k_done := false |}.

Example C35_demo :
  option_map k_time (update_until 0 150 (demo_clk (StopSteps 10))) = Some 180 /\
  option_map k_time (update_until 0 120 (demo_clk (StopSteps 10))) = Some 180.
Proof. split; reflexivity. Qed.

Print Assumptions C35_passes_the_time_partial.
Print Assumptions C35_update_until_reaches_time_refuted.
Print Assumptions C35_past_time_advances.

(* ------------------------------------------------------------------ C36, base class *)

(* what the stop rule asks, after n updates *)
Definition rule_met (c0 : clk) (dzs : nat -> Q) (n : nat) : Prop :=
  match k_rule c0 with
  | StopSteps m => (m <= Z.of_nat n)%Z
  | StopTime t => t <= Qn n * k_dt c0
  | StopDz tol => dzs n < tol
  end.

Definition fresh (c : clk) : Prop :=
  k_driver c = true /\ k_time c == 0 /\ k_index c = 0%nat /\ k_done c = false.

Definition at_step (c0 c : clk) : Prop :=
  k_driver c = true /\ k_dt c = k_dt c0 /\ k_rule c = k_rule c0 /\
  k_time c == Qn (k_index c) * k_dt c0.

Lemma body_base c0 c dzs :
  at_step c0 c -> k_done c = false ->
  let c' := check_finished (dzs (S (k_index c))) (update (dzs (S (k_index c))) c) in
  at_step c0 c' /\ k_index c' = S (k_index c) /\
  (k_done c' = true <-> rule_met c0 dzs (S (k_index c))).
Proof.
  intros (A & B & C & D) N. cbv zeta. unfold update, check_finished. cbn. rewrite A, N. cbn.
  split; [|split; [reflexivity|]].
  - unfold at_step. cbn. rewrite B, C. split; [reflexivity|]. split; [reflexivity|]. split; [reflexivity|].
    rewrite D, Qn_S. ring.
  - rewrite C. unfold rule_met. destruct (k_rule c0) as [m|t|tol].
    + rewrite orb_diag. apply Z.leb_le.
    + rewrite orb_diag, Qle_bool_iff, D, B, Qn_S. split; intros; lra.
    + rewrite orb_diag. apply Qltb_lt.
Qed.

(* run_model stops after exactly the first number of updates (from 1) that meets the rule, and
   does stop whenever there is one. *)
Theorem C36_base_run_stops_at_first : forall c0 dzs n,
  fresh c0 -> (1 <= n)%nat -> rule_met c0 dzs n -> (forall m, (1 <= m < n)%nat -> ~ rule_met c0 dzs m) ->
  (forall k, (n <= k)%nat ->
     let c := run_until_done k dzs c0 in k_done c = true /\ k_index c = n /\ k_time c == Qn n * k_dt c0) /\
  (forall k, (k < n)%nat ->
     let c := run_until_done k dzs c0 in k_done c = false /\ k_index c = k).
Proof.
  intros c0 dzs n (F1 & F2 & F3 & F4) N1 M F.
  assert (A0 : at_step c0 c0) by (split; [exact F1|split; [reflexivity|split; [reflexivity|rewrite F2, F3, Qn_0; ring]]]).
  assert (Run : forall k c, at_step c0 c -> k_done c = false -> (k_index c < n)%nat ->
     let r := run_until_done k dzs c in
     ((n <= k_index c + k)%nat -> k_done r = true /\ k_index r = n /\ k_time r == Qn n * k_dt c0) /\
     ((k_index c + k < n)%nat -> k_done r = false /\ k_index r = (k_index c + k)%nat)).
  { induction k as [|k IH]; intros c A D I; cbv zeta; cbn [run_until_done].
    - split; [lia|]. intros _. split; [exact D|lia].
    - rewrite D. destruct (body_base c0 c dzs A D) as (A' & I' & D').
      set (c' := check_finished (dzs (S (k_index c))) (update (dzs (S (k_index c))) c)) in *.
      destruct (Nat.eq_dec (S (k_index c)) n) as [E|E].
      + assert (Dn : k_done c' = true) by (apply D'; rewrite E; exact M).
        assert (R : run_until_done k dzs c' = c') by (destruct k; cbn; [reflexivity|rewrite Dn; reflexivity]).
        rewrite R. split; [|lia]. intros _. split; [exact Dn|]. split; [lia|].
        destruct A' as (_ & _ & _ & T). rewrite T, I', E. reflexivity.
      + assert (Dn : k_done c' = false).
        { destruct (k_done c') eqn:K; [|reflexivity]. exfalso. apply (F (S (k_index c))); [lia|]. apply D'. reflexivity. }
        destruct (IH c' A' Dn ltac:(lia)) as [X Y]. cbv zeta in X, Y. rewrite I' in X, Y.
        split; [intros K; apply X; lia|intros K; destruct (Y ltac:(lia)) as [Y1 Y2]; split; [exact Y1|lia]]. }
  split; intros k K; destruct (Run k c0 A0 F4 ltac:(lia)) as [X Y]; cbv zeta in *; rewrite F3 in *.
  - apply X. lia.
  - destruct (Y ltac:(lia)) as [Y1 Y2]. split; [exact Y1|lia].
Qed.

(* Once DONE is set no update clears it, and outside driver mode it is never set. *)
Theorem C36_done_is_permanent : forall c (dzs : list Q),
  let c' := fold_left (fun c dz => update dz c) dzs c in
  (k_done c = true -> k_done c' = true) /\
  (k_driver c = false -> k_done c = false -> k_done c' = false).
Proof.
  intros c dzs. cbv zeta. revert c. induction dzs as [|dz dzs IH]; intros c; cbn [fold_left]; [auto|].
  destruct (IH (update dz c)) as [A B]. split.
  - intros D. apply A. unfold update, check_finished. cbn [k_driver]. destruct (k_driver c); cbn [k_done]; rewrite D; reflexivity.
  - intros V D. apply B; unfold update, check_finished; cbn [k_driver]; rewrite V; cbn [k_driver k_done]; auto.
Qed.

(* get_end_time() is the time at which a run with a step limit stops, unless the component also
   has a stop_time. *)
Theorem C36_end_time_is_where_it_stops_partial : forall c0 dzs n,
  fresh c0 -> k_rule c0 = StopSteps n -> (1 <= n)%Z ->
  exists t, get_end_time None true (Some n) 0 (k_dt c0) = Some t /\
    forall k, (Z.to_nat n <= k)%nat -> k_time (run_until_done k dzs c0) == t.
Proof.
  intros c0 dzs n F R N. eexists. split; [reflexivity|]. intros k K.
  destruct (C36_base_run_stops_at_first c0 dzs (Z.to_nat n) F) as [X _].
  - lia.
  - unfold rule_met. rewrite R. lia.
  - intros m Hm. unfold rule_met. rewrite R. lia.
  - destruct (X k K) as (_ & _ & T). rewrite T. unfold Qn. rewrite Z2Nat.id by lia. reflexivity.
Qed.

Theorem C36_end_time_with_stop_time_refuted :
  ~ (forall c0 dzs n ts, fresh c0 -> k_rule c0 = StopSteps n -> (1 <= n)%Z ->
       exists t, get_end_time ts true (Some n) 0 (k_dt c0) = Some t /\
         forall k, (Z.to_nat n <= k)%nat -> k_time (run_until_done k dzs c0) == t).
Proof.
  intros H. destruct (H (demo_clk (StopSteps 3)) (fun _ => 0) 3%Z (Some 1000)) as (t & E & K).
  - repeat split; reflexivity.
  - reflexivity.
  - lia.
  - cbn in E. inversion E; subst. specialize (K 3%nat (le_n 3)). vm_compute in K. discriminate K.
Qed.

Example C36_base_demo :
  fresh (demo_clk (StopTime 150)) /\
  (let c := run_until_done 10 (fun _ => 0) (demo_clk (StopTime 150)) in
   k_done c = true /\ k_index c = 3%nat /\ k_time c == 180) /\
  rule_met (demo_clk (StopTime 150)) (fun _ => 0) 3.
Proof.
  split; [repeat split; reflexivity|]. split; [vm_compute; repeat split; reflexivity|].
  unfold rule_met. cbn. vm_compute. discriminate.
Qed.

Print Assumptions C36_base_run_stops_at_first.
Print Assumptions C36_done_is_permanent.
Print Assumptions C36_end_time_is_where_it_stops_partial.
Print Assumptions C36_end_time_with_stop_time_refuted.

(* ------------------------------------------------------------------ C37 *)

(* the variable behind a long name *)
Definition same_var (o : obj) (a b : string) : Prop := assoc (o_map o) a = assoc (o_map o) b.

(* dest is a grid of n cells in memory *)
Definition is_grid (h : heap) (l n : nat) : Prop :=
  (l < List.length h)%nat /\ exists vs, load h l = mk false vs /\ List.length vs = n.

Lemma assign_grid h dest n vs :
  (0 < n)%nat -> is_grid h dest n -> List.length vs = n ->
  assign_all h dest (mk false vs) = Some (set h dest (mk false vs)).
Proof.
  intros N (Hd & ws & E & L) Lv. unfold assign_all. rewrite E. cbn [a_0d a_vals mk]. rewrite L.
  rewrite (spread_mk false n vs); [reflexivity|split; [exact N|discriminate]|exact Lv].
Qed.

Lemma set_value_ptr o a v o' :
  set_value o a v = Some o' ->
  o_map o' = o_map o /\ get_value_ptr o' a = Some v /\
  forall b, (same_var o a b -> get_value_ptr o' b = Some v) /\
            (~ same_var o a b -> get_value_ptr o' b = get_value_ptr o b).
Proof.
  unfold set_value, get_value_ptr. destruct (assoc (o_map o) a) as [x|] eqn:E; [|discriminate].
  intros H. inversion H; subst. cbn [o_map o_attrs setattr]. split; [reflexivity|].
  split; [rewrite E; cbn; rewrite String.eqb_refl; reflexivity|].
  intros b. unfold same_var. rewrite E. split.
  - intros <-. cbn. rewrite String.eqb_refl. reflexivity.
  - intros N. destruct (assoc (o_map o) b) as [y|]; [|reflexivity]. cbn.
    destruct (String.eqb_spec y x) as [->|K]; [congruence|reflexivity].
Qed.

(* set_value then get_value copies the value into dest; variables other than the one named keep
   their values; two long names of one variable see the same value. *)
Theorem C37_set_then_get : forall h o a v o' dest n vs,
  (0 < n)%nat -> set_value o a v = Some o' -> load h v = mk false vs -> List.length vs = n ->
  is_grid h dest n ->
  (forall b, same_var o a b ->
     exists h', get_value h o' b dest = Some h' /\ load h' dest = mk false vs /\
                forall l, l <> dest -> load h' l = load h l) /\
  (forall b, ~ same_var o a b ->
     get_value_ptr o' b = get_value_ptr o b /\ get_value h o' b dest = get_value h o b dest).
Proof.
  intros h o a v o' dest n vs N S V L D.
  destruct (set_value_ptr o a v o' S) as (M & _ & P).
  split; intros b Hb.
  - destruct (P b) as [P1 _]. specialize (P1 Hb). unfold get_value_ptr in P1. unfold get_value.
    destruct (assoc (o_map o') b) as [x|]; [|discriminate]. rewrite P1, V.
    rewrite (assign_grid h dest n vs N D L). eexists. split; [reflexivity|].
    split; [apply load_set_same; apply D|]. intros l Hl. apply load_set_other. congruence.
  - destruct (P b) as [_ P2]. specialize (P2 Hb). split; [exact P2|].
    unfold get_value_ptr in P2. unfold get_value. rewrite M in *.
    destruct (assoc (o_map o) b) as [x|]; [|reflexivity]. rewrite P2. reflexivity.
Qed.

(* A 0D variable fills dest with its value. *)
Theorem C37_get_scalar : forall h o a v o' dest n q,
  set_value o a v = Some o' -> load h v = mk true [q] -> is_grid h dest n ->
  exists h', get_value h o' a dest = Some h' /\ load h' dest = mk false (repeat q n).
Proof.
  intros h o a v o' dest n q S V (Hd & ws & E & L).
  destruct (set_value_ptr o a v o' S) as (_ & P & _). unfold get_value_ptr in P. unfold get_value.
  destruct (assoc (o_map o') a) as [x|]; [|discriminate]. rewrite P, V.
  unfold assign_all. rewrite E. cbn [a_0d a_vals mk]. unfold spread. cbn. rewrite L.
  eexists. split; [reflexivity|]. apply load_set_same. exact Hd.
Qed.

(* set_value shares the caller's array: writing to that array afterwards changes the variable.
   get_value copies: writing to dest afterwards does not. *)
Theorem C37_set_shares_get_copies : forall h o a v o' n vs ws dest h',
  (0 < n)%nat -> set_value o a v = Some o' -> is_grid h v n -> is_grid h dest n -> dest <> v ->
  List.length ws = n -> List.length vs = n ->
  get_value h o' a dest = Some h' ->
  (exists h2, get_value (set h v (mk false ws)) o' a dest = Some h2 /\ load h2 dest = mk false ws) /\
  load (set h' dest (mk false vs)) v = load h v.
Proof.
  intros h o a v o' n vs ws dest h' N S (Hv & xs & Ev & Lx) D Nd Lw Lv G.
  destruct (set_value_ptr o a v o' S) as (_ & P & _). unfold get_value_ptr in P. unfold get_value in *.
  destruct (assoc (o_map o') a) as [x|]; [|discriminate]. rewrite P in *. split.
  - rewrite load_set_same by exact Hv.
    assert (D2 : is_grid (set h v (mk false ws)) dest n).
    { destruct D as (Hd & ys & Ed & Ly). split; [rewrite set_length; exact Hd|]. exists ys.
      rewrite load_set_other by congruence. auto. }
    rewrite (assign_grid _ dest n ws N D2 Lw). eexists. split; [reflexivity|]. apply load_set_same.
    rewrite set_length. apply D.
  - rewrite load_set_other by congruence. rewrite Ev in G. rewrite (assign_grid h dest n xs N D Lx) in G.
    inversion G; subst. rewrite load_set_other by congruence. reflexivity.
Qed.

(* get_value_at_indices reads exactly the listed cells, in order (C-order numbering). *)
Lemma take_spec l IDs :
  (forall i, In i IDs -> (0 <= i < Z.of_nat (List.length l))%Z) ->
  take l IDs = Some (map (fun i => get 0 l (Z.to_nat i)) IDs).
Proof.
  induction IDs as [|i r IH]; intros H; cbn; [reflexivity|].
  rewrite IH by (intros j Hj; apply H; right; exact Hj).
  assert (Hi : (0 <= i < Z.of_nat (List.length l))%Z) by (apply H; left; reflexivity).
  unfold take1. cbv zeta.
  replace ((- Z.of_nat (List.length l) <=? i)%Z) with true by (symmetry; apply Z.leb_le; lia).
  replace ((i <? Z.of_nat (List.length l))%Z) with true by (symmetry; apply Z.ltb_lt; lia).
  replace ((i <? 0)%Z) with false by (symmetry; apply Z.ltb_ge; lia). reflexivity.
Qed.

Theorem C37_get_at_indices : forall h o a l vs dest IDs,
  get_value_ptr o a = Some l -> load h l = mk false vs ->
  (0 < List.length IDs)%nat -> is_grid h dest (List.length IDs) ->
  (forall i, In i IDs -> (0 <= i < Z.of_nat (List.length vs))%Z) ->
  exists h', get_value_at_indices h o a dest IDs = Some h' /\
    load h' dest = mk false (map (fun i => get 0 vs (Z.to_nat i)) IDs) /\
    forall m, m <> dest -> load h' m = load h m.
Proof.
  intros h o a l vs dest IDs P V N D I. unfold get_value_at_indices. rewrite P, V. cbn [a_vals mk].
  rewrite (take_spec vs IDs I).
  change {| a_0d := false; a_vals := map (fun i => get 0 vs (Z.to_nat i)) IDs |}
    with (mk false (map (fun i => get 0 vs (Z.to_nat i)) IDs)).
  rewrite (assign_grid h dest (List.length IDs)); [|exact N|exact D|apply map_length].
  eexists. split; [reflexivity|]. split; [apply load_set_same; apply D|].
  intros m Hm. apply load_set_other. congruence.
Qed.

(* set_value_at_indices never changes any variable (as long as no attribute name ends in
   ".flat[IDs]"). *)
Theorem C37_set_at_indices_does_nothing : forall o a IDs v o',
  (forall b x, assoc (o_map o) b = Some x -> forall y, x <> (y ++ ".flat[IDs]")%string) ->
  set_value_at_indices o a IDs v = Some o' ->
  forall b, get_value_ptr o' b = get_value_ptr o b.
Proof.
  intros o a IDs v o' H S b. unfold set_value_at_indices in S.
  destruct (assoc (o_map o) a) as [x|] eqn:E; [|discriminate]. inversion S; subst.
  unfold get_value_ptr. cbn [o_map o_attrs setattr].
  destruct (assoc (o_map o) b) as [y|] eqn:F; [|reflexivity]. cbn [assoc].
  destruct (String.eqb_spec y (x ++ ".flat[IDs]")) as [K|K]; [|reflexivity].
  exfalso. exact (H b y F x K).
Qed.

Theorem C37_set_at_indices_changes_cells_refuted :
  ~ (forall h o a l v vs q i o',
       get_value_ptr o a = Some l -> load h l = mk false vs -> load h v = mk true [q] ->
       (0 <= i < Z.of_nat (List.length vs))%Z ->
       set_value_at_indices o a [i] v = Some o' ->
       exists l', get_value_ptr o' a = Some l' /\ get 0 (a_vals (load h l')) (Z.to_nat i) == q).
Proof.
  intros H.
  specialize (H [mk false [1; 2]; mk true [5]]
                {| o_map := [("land__depth", "d")]; o_attrs := [("d", 0%nat)] |}%string
                "land__depth"%string 0%nat 1%nat [1; 2] 5 1%Z).
  destruct (H _ eq_refl eq_refl eq_refl ltac:(cbn; lia) eq_refl) as (l' & E & K).
  vm_compute in E. inversion E; subst. vm_compute in K. discriminate K.
Qed.

(* Two variables, two names for the first; write h, read it back, read cells 3 and 0. *)
Definition demo_obj : obj :=
  {| o_map := [("depth", "d"); ("water_depth", "d"); ("flow", "Q")]; o_attrs := [("d", 0%nat); ("Q", 1%nat)] |}%string.
Definition demo_heap : heap :=
  [mk false [1; 2; 3; 4]; mk false [9; 9; 9; 9]; mk false [5; 6; 7; 8]; mk false [0; 0; 0; 0]; mk false [0; 0]].

Example C37_demo :
  exists o', set_value demo_obj "depth" 2 = Some o' /\
    option_map (fun h => a_vals (load h 3)) (get_value demo_heap o' "water_depth" 3) = Some [5; 6; 7; 8] /\
    option_map (fun h => a_vals (load h 3)) (get_value demo_heap o' "flow" 3) = Some [9; 9; 9; 9] /\
    option_map (fun h => a_vals (load h 4)) (get_value_at_indices demo_heap o' "depth" 4 [3; 0]%Z) = Some [8; 5].
Proof. eexists. split; [reflexivity|]. split; [reflexivity|]. split; reflexivity. Qed.

Print Assumptions C37_set_then_get.
Print Assumptions C37_get_scalar.
Print Assumptions C37_set_shares_get_copies.
Print Assumptions C37_get_at_indices.
Print Assumptions C37_set_at_indices_does_nothing.
Print Assumptions C37_set_at_indices_changes_cells_refuted.
