(** C46: diversions. *)

From Coq Require Import String Ascii List ZArith QArith Qround Bool Lia Lqa.
From Verif Require Import Base Time_Model Cfg_Model Cfg_Spec Cfg_Proofs Cfg_Props Div_Model Div_Spec.
Import ListNotations.

Lemma forall2_length {A B} (R : A -> B -> Prop) l m : Forall2 R l m -> length l = length m.
Proof. induction 1; cbn; congruence. Qed.
Lemma get_roll1 r j : (S j < length r)%nat -> get 0%Q (roll1 r) (S j) = get 0%Q r j.
Proof.
  intro H. unfold roll1, get. destruct r as [|a r]; [cbn in H; lia|].
  assert (E : a :: r = removelast (a :: r) ++ [last (a :: r) 0%Q]) by (apply app_removelast_last; discriminate).
  change (nth j (removelast (a :: r)) 0%Q = nth j (a :: r) 0%Q). rewrite E at 2. rewrite app_nth1; [reflexivity|].
  apply (f_equal (@length _)) in E. rewrite app_length in E. cbn [length] in *. lia.
Qed.
Lemma roll1_length r : length (roll1 r) = length r.
Proof.
  destruct r as [|a r]; [reflexivity|]. unfold roll1.
  assert (E : a :: r = removelast (a :: r) ++ [last (a :: r) 0%Q]) by (apply app_removelast_last; discriminate).
  apply (f_equal (@length _)) in E. rewrite app_length in E. cbn [length] in *. lia.
Qed.
Lemma outflows_nth l out : outflows true l = Ok out ->
  length out = length l /\
  forall k, (k < length l)%nat -> float_index true (snd (nth k l (0%Z, []))) (fst (nth k l (0%Z, [])) - 1) = Ok (nth k out 0%Q).
Proof.
  revert out. induction l as [|[nt row] l IH]; intros out H; cbn [outflows] in H.
  - injection H as <-. split; [reflexivity|]. intros k K. cbn in K. lia.
  - destruct (float_index true row (nt - 1)) as [q|] eqn:E; [|discriminate H]. cbn [rbind] in H.
    destruct (outflows true l) as [qs|]; [|discriminate H]. cbn [rbind] in H. injection H as <-.
    destruct (IH qs eq_refl) as [L G]. split; [cbn; now rewrite L|].
    intros [|k] K; cbn [nth fst snd]; [exact E|]. apply G. cbn in K. lia.
Qed.

Definition row_of (c : canals) k := nth k (canal_Q c) [].

(** Row k of the state holds the inflows of the steps before. *)
Definition holds (ins : list (list Q)) (t : nat) (N : nat) (c : canals) : Prop :=
  forall k, (k < length (canal_Q c))%nat -> length (row_of c k) = N /\
    forall j, (S j < N)%nat -> get 0%Q (row_of c k) (S j) = if (j <? t)%nat then flow ins (t - S j) k else 0%Q.

Lemma update_ok c Q_in out c' N ins t :
  update_canals true Q_in c = Ok (out, c') -> length (nts c) = length (canal_Q c) ->
  (0 < N)%nat -> holds ins t N c -> Q_in = nth t ins [] ->
  Forall (fun n => (1 <= n <= Z.of_nat N)%Z) (nts c) ->
  nts c' = nts c /\ length (canal_Q c') = length (canal_Q c) /\ holds ins (S t) N c' /\ length out = length (canal_Q c) /\
  forall k, (k < length (canal_Q c))%nat ->
    nth k out 0%Q = let d := Z.to_nat (nth k (nts c) 0%Z - 1) in if (d <=? t)%nat then flow ins (t - d) k else 0%Q.
Proof.
  intros H LN NP HO EQ NT. unfold update_canals in H.
  destruct (negb (length Q_in =? length (canal_Q c))%nat) eqn:L; [discriminate H|].
  apply negb_false_iff, Nat.eqb_eq in L.
  destruct (existsb _ _); [discriminate H|].
  set (rows := map (fun xr => set (snd xr) 0 (fst xr)) (combine Q_in (canal_Q c))) in *.
  destruct (outflows true (combine (nts c) rows)) as [o|] eqn:O; [|discriminate H]. cbn [rbind] in H.
  injection H as <- <-.
  assert (LR : length rows = length (canal_Q c)).
  { unfold rows. rewrite map_length, combine_length. lia. }
  assert (RK : forall k, (k < length (canal_Q c))%nat -> nth k rows [] = set (row_of c k) 0 (nth k Q_in 0%Q)).
  { intros k K. unfold rows. set (f := fun xr : Q * list Q => set (snd xr) 0 (fst xr)).
    rewrite (nth_indep _ [] (f (0%Q, []))) by (rewrite map_length, combine_length; lia).
    rewrite (map_nth f), combine_nth by exact L. reflexivity. }
  destruct (outflows_nth _ _ O) as [LO GO]. rewrite combine_length, LR, LN in LO. rewrite Nat.min_id in LO.
  cbn [nts canal_Q]. rewrite map_length, LR.
  assert (FULL : forall k, (k < length (canal_Q c))%nat -> length (nth k rows []) = N /\
      forall j, (j < N)%nat -> get 0%Q (nth k rows []) j = if (j <=? t)%nat then flow ins (t - j) k else 0%Q).
  { intros k K. rewrite RK by exact K. destruct (HO k K) as [RL G]. rewrite set_length. split; [exact RL|].
    intros [|j] J.
    - rewrite get_set_same by lia. cbn [Nat.leb]. rewrite Nat.sub_0_r. unfold flow. now rewrite <- EQ.
    - rewrite get_set_other by lia. rewrite G by exact J. reflexivity. }
  split; [reflexivity|]. split; [reflexivity|]. split; [|split; [exact LO|]].
  - intros k K. cbn [canal_Q] in K. rewrite map_length, LR in K. unfold row_of. cbn [canal_Q].
    rewrite (nth_indep _ [] (roll1 [])) by (rewrite map_length; lia). rewrite (map_nth roll1).
    destruct (FULL k K) as [RL G]. rewrite roll1_length. split; [exact RL|].
    intros j J. rewrite get_roll1 by lia. rewrite G by lia. reflexivity.
  - intros k K. assert (KC : (k < length (combine (nts c) rows))%nat) by (rewrite combine_length; lia).
    specialize (GO k KC). rewrite (combine_nth (nts c) rows k 0%Z []) in GO by lia. cbn [fst snd] in GO.
    destruct (FULL k K) as [RL G].
    assert (KN : (k < length (nts c))%nat) by lia.
    pose proof (proj1 (Forall_forall _ _) NT (nth k (nts c) 0%Z) (nth_In _ _ KN)) as B. cbv beta in B.
    unfold float_index in GO. cbn [negb] in GO. destruct (Z.ltb_spec (nth k (nts c) 0%Z - 1) 0) as [X|X]; [lia|].
    rewrite RL in GO. replace ((0 <=? nth k (nts c) 0 - 1) && (nth k (nts c) 0 - 1 <? Z.of_nat N))%Z with true in GO.
    2: { symmetry. apply andb_true_iff. rewrite Z.leb_le, Z.ltb_lt. lia. }
    injection GO as GO. rewrite <- GO. cbv zeta. apply G. lia.
Qed.

Lemma steps_ok N ins : (0 < N)%nat -> forall todo done c outs,
  ins = done ++ todo -> canal_steps true todo c = Ok outs -> length (nts c) = length (canal_Q c) ->
  holds ins (length done) N c -> Forall (fun n => (1 <= n <= Z.of_nat N)%Z) (nts c) ->
  length outs = length todo /\
  forall t k, (t < length todo)%nat -> (k < length (canal_Q c))%nat ->
    flow outs t k = let d := Z.to_nat (nth k (nts c) 0%Z - 1) in
                    if (d <=? length done + t)%nat then flow ins (length done + t - d) k else 0%Q.
Proof.
  intro NP. induction todo as [|q todo IH]; intros done c outs E H LN HO NT; cbn [canal_steps] in H.
  - injection H as <-. split; [reflexivity|]. intros t k T. cbn in T. lia.
  - destruct (update_canals true q c) as [[out c']|] eqn:U; [|discriminate H]. cbn [rbind] in H.
    destruct (canal_steps true todo c') as [outs'|] eqn:R; [|discriminate H]. cbn [rbind] in H. injection H as <-.
    assert (EQ : q = nth (length done) ins []) by (rewrite E, app_nth2, Nat.sub_diag by lia; reflexivity).
    destruct (update_ok c q out c' N ins (length done) U LN NP HO EQ NT) as (E1 & E2 & HO' & LO & G).
    destruct (IH (done ++ [q]) c' outs') as [L2 G2]; try assumption.
    + rewrite <- app_assoc. exact E.
    + now rewrite E1, E2.
    + rewrite app_length. cbn [length]. replace (length done + 1)%nat with (S (length done)) by lia. exact HO'.
    + now rewrite E1.
    + split; [cbn; now rewrite L2|]. intros [|t] k T K.
      * rewrite Nat.add_0_r. unfold flow at 1. cbn [nth]. apply G, K.
      * unfold flow at 1. cbn [nth]. fold (flow outs' t k). rewrite G2 by (cbn in T; lia).
        rewrite E1, app_length. cbn [length]. replace (length done + 1 + t)%nat with (length done + S t)%nat by lia. reflexivity.
Qed.

Lemma steps_for_ceiling dt time n : (0 < dt)%Q -> steps_for dt time n -> nt_canal dt time = Z.of_nat n.
Proof.
  intros D [A B]. unfold nt_canal.
  assert (E : (time / dt * dt == time)%Q) by (field; lra).
  pose proof (Qle_ceiling (time / dt)) as C1. pose proof (Qceiling_lt (time / dt)) as C2.
  set (z := Qceiling (time / dt)) in *. set (x := (time / dt)%Q) in *. clearbody z x.
  assert (x <= inject_Z (Z.of_nat n))%Q.
  { apply Qnot_lt_le. intro L. pose proof (Qmult_lt_compat_r _ _ dt D L). lra. }
  assert (inject_Z (Z.of_nat n - 1) < x)%Q.
  { apply Qnot_le_lt. intro L. pose proof (Qmult_le_compat_r _ _ dt L ltac:(lra)). lra. }
  assert (P1 : (inject_Z (z - 1) < inject_Z (Z.of_nat n))%Q) by lra.
  assert (P2 : (inject_Z (Z.of_nat n - 1) < inject_Z z)%Q) by lra.
  rewrite <- Zlt_Qlt in P1, P2. lia.
Qed.
Lemma fold_max ns : forall n, (n <= fold_left Z.max ns n)%Z /\ Forall (fun x => (x <= fold_left Z.max ns n)%Z) ns.
Proof.
  induction ns as [|x ns IH]; intro n; cbn [fold_left]; [split; [lia|constructor]|].
  destruct (IH (Z.max n x)) as [A B]. split; [lia|]. constructor; [lia|exact B].
Qed.

(** Water that enters a canal of n steps comes out n - 1 steps later (in the
    same step for n = 1), in order, nothing else comes out: for every number of
    canals, travel times and inflows.  For numpy versions that accept a float
    as an index. *)
Theorem C46_canal_is_a_delay (dt : Q) (times : list Q) (ns : list nat) (ins outs : list (list Q)) :
  (0 < dt)%Q -> Forall2 (steps_for dt) times ns -> Forall (fun n => (1 <= n)%nat) ns ->
  run_canals true dt times ins = Ok outs ->
  length outs = length ins /\
  forall t k, (t < length ins)%nat -> (k < length times)%nat ->
    flow outs t k = if (nth k ns 0%nat <=? t + 1)%nat then flow ins (t + 1 - nth k ns 0%nat) k else 0%Q.
Proof.
  intros D F P H. unfold run_canals, init_canals in H.
  assert (M : map (nt_canal dt) times = map Z.of_nat ns).
  { clear -D F. induction F as [|x n times ns A _ IH]; [reflexivity|]. cbn [map]. now rewrite IH, (steps_for_ceiling dt x n). }
  assert (LT : length times = length ns) by (now apply forall2_length in F).
  rewrite M in H. destruct ns as [|n ns]; [discriminate H|]. cbn [map] in H.
  set (nm := fold_left Z.max (map Z.of_nat ns) (Z.of_nat n)) in *.
  destruct (fold_max (map Z.of_nat ns) (Z.of_nat n)) as [B1 B2]. fold nm in B1, B2.
  inversion_clear P as [|? ? P1 P2].
  destruct (Z.ltb_spec nm 0) as [X|X]; [lia|]. cbn [rbind] in H. rewrite map_length in H.
  set (N := Z.to_nat nm) in *.
  assert (NT : Forall (fun x => (1 <= x <= Z.of_nat N)%Z) (Z.of_nat n :: map Z.of_nat ns)).
  { constructor; [unfold N; lia|]. rewrite Forall_forall in *. intros x I. specialize (B2 x I).
    apply in_map_iff in I as (y & <- & I). specialize (P2 y I). unfold N. lia. }
  assert (NP : (0 < N)%nat) by (inversion_clear NT; lia).
  destruct (steps_ok N ins NP ins [] _ outs eq_refl H) as [LO G].
  - cbn [nts canal_Q]. cbn [length]. rewrite map_length, repeat_length. reflexivity.
  - intros k K. cbn [canal_Q] in K. rewrite repeat_length in K. unfold row_of. cbn [canal_Q length].
    rewrite (nth_indep _ [] (repeat 0%Q N)), nth_repeat by (rewrite repeat_length; exact K).
    split; [apply repeat_length|]. intros j _. cbn [length Nat.ltb Nat.leb]. apply nth_repeat.
  - exact NT.
  - split; [exact LO|]. intros t k T K. rewrite G; [|exact T|cbn [canal_Q]; rewrite repeat_length; cbn in LT; lia].
    cbn [nts length Nat.add]. cbv zeta. change (Z.of_nat n :: map Z.of_nat ns) with (map Z.of_nat (n :: ns)).
    change 0%Z with (Z.of_nat 0). rewrite map_nth.
    assert (Q1 : (1 <= nth k (n :: ns) 0)%nat).
    { apply (proj1 (Forall_forall (fun n => (1 <= n)%nat) (n :: ns))); [now constructor|]. apply nth_In. lia. }
    replace (Z.to_nat (Z.of_nat (nth k (n :: ns) 0%nat) - 1)) with (nth k (n :: ns) 0%nat - 1)%nat by lia.
    set (d := nth k (n :: ns) 0%nat) in *. clearbody d.
    replace (t - (d - 1))%nat with (t + 1 - d)%nat by lia.
    destruct (Nat.leb_spec (d - 1) t), (Nat.leb_spec d (t + 1)); try reflexivity; lia.
Qed.

Lemma sum_delay f d T : (sum_to T (fun t => if (d <=? t)%nat then f (t - d)%nat else 0) == sum_to (T - d) f)%Q.
Proof.
  induction T as [|T IH]; [reflexivity|]. cbn [sum_to]. rewrite IH.
  destruct (Nat.leb_spec d T).
  - replace (S T - d)%nat with (S (T - d)) by lia. cbn [sum_to]. reflexivity.
  - replace (S T - d)%nat with (T - d)%nat by lia. lra.
Qed.
Lemma sum_ext T f g : (forall t, (t < T)%nat -> f t == g t)%Q -> (sum_to T f == sum_to T g)%Q.
Proof.
  induction T as [|T IH]; intro H; [reflexivity|]. cbn [sum_to]. rewrite IH by (intros; apply H; lia).
  rewrite (H T) by lia. reflexivity.
Qed.
Lemma sum_split f m : forall T, (m <= T)%nat -> (sum_to T f == sum_to m f + sum_to (T - m) (fun s => f (m + s)%nat))%Q.
Proof.
  induction T as [|T IH]; intro H.
  - replace m with 0%nat by lia. reflexivity.
  - destruct (Nat.eq_dec m (S T)) as [->|N].
    + rewrite Nat.sub_diag. cbn [sum_to]. lra.
    + replace (S T - m)%nat with (S (T - m)) by lia. cbn [sum_to]. rewrite IH by lia.
      replace (m + (T - m))%nat with T by lia. lra.
Qed.

(** No water is created or lost: what went in by step T has come out, except
    for the inflows of the last n - 1 steps. *)
Theorem C46_canal_water_balance (dt : Q) (times : list Q) (ns : list nat) (ins outs : list (list Q)) (k T : nat) :
  (0 < dt)%Q -> Forall2 (steps_for dt) times ns -> Forall (fun n => (1 <= n)%nat) ns ->
  run_canals true dt times ins = Ok outs -> (k < length times)%nat -> (T <= length ins)%nat ->
  let d := (nth k ns 0 - 1)%nat in
  (sum_to T (fun t => flow ins t k) ==
   sum_to T (fun t => flow outs t k) + sum_to (Nat.min d T) (fun s => flow ins (T - Nat.min d T + s) k))%Q.
Proof.
  intros D F P H K TL d. destruct (C46_canal_is_a_delay dt times ns ins outs D F P H) as [LO G].
  assert (Q1 : (1 <= nth k ns 0)%nat).
  { apply (proj1 (Forall_forall _ _) P). apply nth_In. apply forall2_length in F. lia. }
  assert (E : (sum_to T (fun t => flow outs t k) == sum_to (T - d) (fun t => flow ins t k))%Q).
  { rewrite <- (sum_delay (fun t => flow ins t k) d T). apply sum_ext. intros t HT. rewrite G by lia.
    unfold d. replace (t + 1 - nth k ns 0%nat)%nat with (t - (nth k ns 0%nat - 1))%nat by lia.
    destruct (Nat.leb_spec (nth k ns 0%nat) (t + 1)), (Nat.leb_spec (nth k ns 0%nat - 1) t); try reflexivity; lia. }
  rewrite E. rewrite (sum_split (fun t => flow ins t k) (T - d) T) by lia.
  replace (T - Nat.min d T)%nat with (T - d)%nat by lia. replace (T - (T - d))%nat with (Nat.min d T) by lia. reflexivity.
Qed.

(** The run succeeds for inflows of the right size. *)
Theorem C46_canals_run (dt : Q) (times : list Q) (ns : list nat) (ins : list (list Q)) :
  (0 < dt)%Q -> Forall2 (steps_for dt) times ns -> Forall (fun n => (1 <= n)%nat) ns -> times <> [] ->
  Forall (fun q => length q = length times) ins -> exists outs, run_canals true dt times ins = Ok outs.
Proof.
  intros D F P NE L. unfold run_canals, init_canals.
  assert (M : map (nt_canal dt) times = map Z.of_nat ns).
  { clear -D F. induction F as [|x n times ns A _ IH]; [reflexivity|]. cbn [map]. now rewrite IH, (steps_for_ceiling dt x n). }
  assert (LT : length times = length ns) by (now apply forall2_length in F).
  rewrite M. destruct ns as [|n ns]; [destruct times; [easy|discriminate LT]|]. cbn [map].
  set (nm := fold_left Z.max (map Z.of_nat ns) (Z.of_nat n)) in *.
  destruct (fold_max (map Z.of_nat ns) (Z.of_nat n)) as [B1 B2]. fold nm in B1, B2.
  inversion_clear P as [|? ? P1 P2].
  destruct (Z.ltb_spec nm 0) as [X|X]; [lia|]. cbn [rbind]. rewrite map_length.
  set (N := Z.to_nat nm) in *.
  assert (NT : Forall (fun x => (1 <= x <= Z.of_nat N)%Z) (Z.of_nat n :: map Z.of_nat ns)).
  { constructor; [unfold N; lia|]. rewrite Forall_forall in *. intros x I. specialize (B2 x I).
    apply in_map_iff in I as (y & <- & I). specialize (P2 y I). unfold N. lia. }
  assert (NP : (0 < N)%nat) by (inversion_clear NT; lia).
  assert (G : forall ins c, length (nts c) = length times -> length (canal_Q c) = length times ->
    Forall (fun r => length r = N) (canal_Q c) -> Forall (fun x => (1 <= x <= Z.of_nat N)%Z) (nts c) ->
    Forall (fun q => length q = length times) ins -> exists outs, canal_steps true ins c = Ok outs).
  { clear -NP. induction ins as [|q ins IH]; intros c L1 L2 R NT L; [eexists; reflexivity|].
    inversion_clear L as [|? ? LA LB]. cbn [canal_steps].
    assert (U : exists out c', update_canals true q c = Ok (out, c') /\ nts c' = nts c /\
       length (canal_Q c') = length times /\ Forall (fun r => length r = N) (canal_Q c')).
    { unfold update_canals. rewrite LA, L2, Nat.eqb_refl. cbn [negb].
      replace (existsb (fun r : list Q => (length r =? 0)%nat) (canal_Q c)) with false.
      2: { symmetry. apply not_true_is_false. intro X. apply existsb_exists in X as (r & I & E).
           apply Nat.eqb_eq in E. pose proof (proj1 (Forall_forall _ _) R r I). cbv beta in *. lia. }
      set (rows := map (fun xr => set (snd xr) 0 (fst xr)) (combine q (canal_Q c))).
      assert (RR : Forall (fun r => length r = N) rows).
      { apply Forall_forall. intros r I. apply in_map_iff in I as ([x r0] & <- & I).
        apply in_combine_r in I. rewrite set_length. exact (proj1 (Forall_forall _ _) R r0 I). }
      assert (O : exists o, outflows true (combine (nts c) rows) = Ok o).
      { clearbody rows. clear -NT RR. revert rows RR. induction NT as [|x l A _ IH]; intros rows RR; [eexists; reflexivity|].
        destruct RR as [|r rows B C]; [eexists; reflexivity|]. cbn [combine outflows].
        destruct (IH rows C) as [o ->]. unfold float_index. cbn [negb]. destruct (Z.ltb_spec (x - 1) 0); [lia|].
        rewrite B. replace ((0 <=? x - 1) && (x - 1 <? Z.of_nat N))%Z with true; [eexists; reflexivity|].
        symmetry. apply andb_true_iff. rewrite Z.leb_le, Z.ltb_lt. lia. }
      destruct O as [o ->]. cbn [rbind]. do 2 eexists. split; [reflexivity|]. cbn [nts canal_Q].
      split; [reflexivity|]. split; [rewrite map_length; unfold rows; rewrite map_length, combine_length; lia|].
      apply Forall_map. eapply Forall_impl; [|exact RR]. intros r E. now rewrite roll1_length. }
    destruct U as (out & c' & -> & E1 & E2 & E3). cbn [rbind].
    destruct (IH c') as [outs ->]; try assumption; try (now rewrite E1). eexists. reflexivity. }
  apply G; cbn [nts canal_Q]; try assumption.
  - cbn [length]. rewrite map_length. cbn in LT. lia.
  - rewrite repeat_length. cbn in LT. lia.
  - apply Forall_forall. intros r I. apply repeat_spec in I. subst r. apply repeat_length.
Qed.

(** With current numpy the first step raises an error for every canal: the step
    counts are floats and floats are no indices. *)
Theorem C46_canals_run_with_current_numpy_refuted :
  ~ (forall dt times ns ins, (0 < dt)%Q -> Forall2 (steps_for dt) times ns -> Forall (fun n => (1 <= n)%nat) ns ->
       times <> [] -> Forall (fun q => length q = length times) ins ->
       exists outs, run_canals false dt times ins = Ok outs).
Proof.
  intro H. specialize (H 1%Q [2%Q] [2%nat] [[1%Q]] ltac:(lra)).
  destruct H as [outs H].
  - constructor; [|constructor]. split; vm_compute; [discriminate|reflexivity].
  - constructor; [lia|constructor].
  - discriminate.
  - constructor; [reflexivity|constructor].
  - vm_compute in H. discriminate H.
Qed.

(** A canal without travel time (0 steps) delays like the longest canal. *)
Theorem C46_zero_travel_time_refuted :
  ~ (forall dt times ins outs t k, (0 < dt)%Q -> run_canals true dt times ins = Ok outs ->
       (t < length ins)%nat -> (k < length times)%nat -> nth k times 1%Q = 0%Q ->
       (flow outs t k == flow ins t k)%Q).
Proof.
  intro H. specialize (H 1%Q [3%Q; 0%Q] [[5%Q; 7%Q]] _ 0%nat 1%nat ltac:(lra) eq_refl ltac:(cbn; lia) ltac:(cbn; lia) eq_refl).
  vm_compute in H. discriminate H.
Qed.

(** The switch use_canals = Yes of a configuration file turns canals off: the
    reader stores True, and True is not 'Yes'. *)
Theorem C46_yes_turns_canals_on_refuted :
  ~ (forall A A' text es v before after,
       cfg_file text es -> es = before ++ mkentry "use_canals" v "string" :: after -> says_yes v ->
       Forall (leaves "use_canals") after -> read_config_file no_layers A text = Ok A' ->
       use_flag (A' "use_canals"%string) = Ok true).
Proof.
  intro H.
  assert (F : cfg_file (text_of_lines ["use_canals|Yes|string|"%string]) [mkentry "use_canals" "Yes" "string"]).
  { exists ["use_canals|Yes|string|"%string], [Some (mkentry "use_canals" "Yes" "string")].
    split; [reflexivity|]. split; [|reflexivity]. constructor; [|constructor].
    split.
    - intros k E. do 23 (destruct k as [|k]; [discriminate E|]). discriminate E.
    - exists "use_canals"%string, "Yes"%string, "string"%string, ""%string.
      split; [reflexivity|]. do 4 (split; [reflexivity|]). split; [apply not_comment; discriminate|].
      assert (NB : forall a, is_space a = false -> ~ blank a) by (intros a E B; apply blank_is_space in B; congruence).
      split; [|split]; (split; [exists ""%string, ""%string; split; [exact I|split; [exact I|reflexivity]]|right]).
      + split; [exists "u"%char, "se_canals"%string|exists "use_canal"%string, "s"%char]; (split; [reflexivity|now apply NB]).
      + split; [exists "Y"%char, "es"%string|exists "Ye"%string, "s"%char]; (split; [reflexivity|now apply NB]).
      + split; [exists "s"%char, "tring"%string|exists "strin"%string, "g"%char]; (split; [reflexivity|now apply NB]). }
  destruct (read_config_file no_layers none (text_of_lines ["use_canals|Yes|string|"%string])) as [A'|] eqn:E.
  - assert (Y : says_yes "Yes") by (apply yes_iff; reflexivity).
    specialize (H none A' _ _ "Yes"%string [] [] F eq_refl Y (Forall_nil _) E). vm_compute in E. injection E as <-. vm_compute in H. discriminate H.
  - vm_compute in E. discriminate E.
Qed.

(** ** Sources *)

(** A source gives its t-th value in step t, and nothing after its values. *)
Theorem C46_sources_follow_their_table (nt_max : nat) (lists table : list (list Q)) (t k : nat) :
  Forall2 (fun v row => (2 <= length v <= nt_max)%nat /\ source_row nt_max (length v) v = Ok row) lists table ->
  (k < length lists)%nat ->
  nth k (update_sources nt_max table t) 0%Q = nth t (nth k lists []) 0%Q.
Proof.
  intros F K. assert (LT : length lists = length table) by (now apply forall2_length in F).
  assert (R : nth k table [] = nth k lists [] ++ repeat 0%Q (nt_max - length (nth k lists [])) /\
              (length (nth k lists []) <= nt_max)%nat).
  { clear LT. revert k K. induction F as [|v row lists table [A B] _ IH]; intros k K; [cbn in K; lia|].
    destruct k as [|k]; cbn [nth]; [|apply IH; cbn in K; lia].
    unfold source_row in B. rewrite Nat.min_l in B by lia. destruct v as [|x [|y v]]; cbn [length] in A; try lia.
    rewrite Nat.eqb_refl in B. injection B as <-. split; [reflexivity|cbn [length]; lia]. }
  destruct R as [R L]. unfold update_sources. destruct (Nat.ltb_spec t nt_max).
  - rewrite (nth_indep _ 0%Q (get 0%Q [] t)) by (rewrite map_length; lia).
    rewrite (map_nth (fun r => get 0%Q r t)), R. unfold get.
    destruct (Nat.lt_ge_cases t (length (nth k lists []))) as [A|A].
    + now rewrite app_nth1.
    + rewrite app_nth2 by exact A. rewrite nth_repeat. symmetry. now apply nth_overflow.
  - rewrite nth_repeat. symmetry. apply nth_overflow. lia.
Qed.

(** Sinks never work: storing into an undefined name. *)
Theorem C46_sinks_run_refuted : ~ (forall use_sinks, update_sinks use_sinks = Ok tt).
Proof. intro H. specialize (H true). discriminate H. Qed.

Example C46_demo :
  run_canals true (1 # 2) [1; 3 # 4; 1 # 4] [[1; 10; 100]; [2; 20; 200]; [3; 30; 300]]%Q
  = Ok [[0; 0; 100]; [1; 10; 200]; [2; 20; 300]]%Q /\
  Forall2 (steps_for (1 # 2)) [1; 3 # 4; 1 # 4]%Q [2; 2; 1]%nat.
Proof.
  split; [vm_compute; reflexivity|]. repeat apply Forall2_cons; try apply Forall2_nil; (split; vm_compute; [discriminate|reflexivity]).
Qed.

Print Assumptions C46_canal_is_a_delay.
Print Assumptions C46_canal_water_balance.
Print Assumptions C46_canals_run.
Print Assumptions C46_canals_run_with_current_numpy_refuted.
Print Assumptions C46_zero_travel_time_refuted.
Print Assumptions C46_yes_turns_canals_on_refuted.
Print Assumptions C46_sources_follow_their_table.
Print Assumptions C46_sinks_run_refuted.
