From Coq Require Import ZArith QArith Qminmax Qabs List Bool String Lia Lqa.
From Verif Require Import Base Emeli_Model Emeli_Spec.
Import ListNotations.
Local Open Scope Q_scope.

(* ================================================================ names *)

Lemma dict_get_put d x v y :
  dict_get (dict_put d x v) y = if String.eqb y x then Some v else dict_get d y.
Proof.
  induction d as [|[k w] d IH]; cbn.
  - destruct (String.eqb_spec y x); reflexivity.
  - destruct (String.eqb_spec x k) as [->|N]; cbn.
    + destruct (String.eqb_spec y k); reflexivity.
    + rewrite IH. destruct (String.eqb_spec y k) as [->|N2]; [|reflexivity].
      destruct (String.eqb_spec k x); [congruence|reflexivity].
Qed.

Lemma mem_In x l : mem x l = true <-> In x l.
Proof.
  unfold mem. rewrite existsb_exists. split.
  - intros (y & H & E). apply String.eqb_eq in E. now subst.
  - intros H. exists x. split; [exact H|apply String.eqb_refl].
Qed.

(* the pairs (component, name) in processing order *)
Definition noters (ps : list (string * string)) (x : string) : list string :=
  map fst (filter (fun p => String.eqb x (snd p)) ps).

Definition note_pair st (p : string * string) := note_name (fst p) st (snd p).

Definition pinv (ps : list (string * string)) (st : list string * dict) : Prop :=
  forall x,
    (In x (fst st) <-> x <> ""%string /\ noters ps x <> []) /\
    (dict_get (snd st) x =
       if String.eqb x "" then None else match noters ps x with [] => None | l => Some l end).

Lemma noters_snoc ps c y x :
  noters (ps ++ [(c, y)]) x = noters ps x ++ (if String.eqb x y then [c] else []).
Proof.
  unfold noters. rewrite filter_app, map_app. cbn. destruct (String.eqb x y); reflexivity.
Qed.

Lemma pinv_step ps st p : pinv ps st -> pinv (ps ++ [p]) (note_pair st p).
Proof.
  destruct p as [c y], st as [all d]. intros H x.
  unfold note_pair. cbn [fst snd]. unfold note_name.
  rewrite noters_snoc.
  destruct (String.eqb_spec y "") as [->|Ny].
  - destruct (H x) as [H1 H2]. cbn [fst snd] in *.
    destruct (String.eqb_spec x "") as [Ex|Nx].
    + split; [|exact H2].
      rewrite H1. split; intros [K _]; congruence.
    + rewrite app_nil_r. split; [exact H1|exact H2].
  - pose proof (H y) as [Hy1 Hy2]. cbn [fst snd] in Hy1, Hy2.
    pose proof (H x) as [Hx1 Hx2]. cbn [fst snd] in Hx1, Hx2.
    destruct (String.eqb_spec y "") as [E|_]; [congruence|].
    destruct (mem y all) eqn:M; cbn [fst snd].
    + apply mem_In in M. apply Hy1 in M. destruct M as [_ M].
      unfold dict_append. rewrite Hy2.
      destruct (noters ps y) as [|z l] eqn:N; [congruence|].
      rewrite dict_get_put. destruct (String.eqb_spec x y) as [->|Nxy].
      * rewrite N. split.
        -- rewrite Hx1, N. split; intros [A B]; split; try exact A; discriminate.
        -- destruct (String.eqb_spec y ""); [congruence|]. reflexivity.
      * rewrite app_nil_r. split; [exact Hx1|exact Hx2].
    + assert (Nall : ~ In y all) by (intros K; apply mem_In in K; congruence).
      assert (N : noters ps y = []).
      { destruct (noters ps y) eqn:E; [reflexivity|]. exfalso. apply Nall. apply Hy1.
        split; [exact Ny|discriminate]. }
      unfold dict_append. rewrite dict_get_put, String.eqb_refl.
      rewrite !dict_get_put. rewrite in_app_iff. cbn [In].
      destruct (String.eqb_spec x y) as [->|Nxy].
      * rewrite N. cbn. split.
        -- split; [intros _; split; [exact Ny|discriminate]|intros _; right; left; reflexivity].
        -- destruct (String.eqb_spec y ""); [congruence|]. reflexivity.
      * rewrite app_nil_r. split.
        -- rewrite Hx1. split; [intros [K|[K|[]]]; [exact K|congruence]|intros K; left; exact K].
        -- exact Hx2.
Qed.

Lemma pinv_fold qs ps st : pinv ps st -> pinv (ps ++ qs) (fold_left note_pair qs st).
Proof.
  revert ps st. induction qs as [|q qs IH]; intros ps st H; cbn.
  - rewrite app_nil_r. exact H.
  - replace (ps ++ q :: qs) with ((ps ++ [q]) ++ qs) by (rewrite <- app_assoc; reflexivity).
    apply IH. apply pinv_step. exact H.
Qed.

Definition out_pairs (cs : list names) := flat_map (fun c => map (pair (n_comp c)) (n_out c)) cs.
Definition in_pairs (cs : list names) := flat_map (fun c => map (pair (n_comp c)) (n_in c)) cs.

Lemma fold_note c l st : fold_left (note_name c) l st = fold_left note_pair (map (pair c) l) st.
Proof. revert st. induction l as [|x l IH]; intros st; cbn; [reflexivity|]. apply IH. Qed.

Lemma fold_comps (sel : names -> list string) cs st :
  fold_left (fun s c => fold_left (note_name (n_comp c)) (sel c) s) cs st =
  fold_left note_pair (flat_map (fun c => map (pair (n_comp c)) (sel c)) cs) st.
Proof.
  revert st. induction cs as [|c cs IH]; intros st; cbn; [reflexivity|].
  rewrite fold_left_app, <- fold_note. apply IH.
Qed.

Lemma pinv_nil : pinv [] ([], []).
Proof.
  intros x. cbn. split.
  - split; [intros []|intros [_ K]; congruence].
  - destruct (String.eqb x ""); reflexivity.
Qed.

Lemma find_providers_inv cs : pinv (out_pairs cs) (find_providers cs).
Proof. unfold find_providers. rewrite fold_comps. apply (pinv_fold (out_pairs cs) [] _ pinv_nil). Qed.
Lemma find_users_inv cs : pinv (in_pairs cs) (find_users cs).
Proof. unfold find_users. rewrite fold_comps. apply (pinv_fold (in_pairs cs) [] _ pinv_nil). Qed.

Lemma noters_app ps qs x : noters (ps ++ qs) x = noters ps x ++ noters qs x.
Proof. unfold noters. rewrite filter_app, map_app. reflexivity. Qed.

Lemma noters_one c l x : List.length (noters (map (pair c) l) x) = count_occ string_dec l x.
Proof.
  induction l as [|y l IH]; cbn; [reflexivity|]. unfold noters in *. cbn.
  destruct (String.eqb_spec x y) as [->|N]; cbn.
  - destruct (string_dec y y); [|congruence]. rewrite IH. reflexivity.
  - destruct (string_dec y x); [congruence|]. exact IH.
Qed.

Lemma noters_count (sel : names -> list string) cs x :
  List.length (noters (flat_map (fun c => map (pair (n_comp c)) (sel c)) cs) x) =
  count_occ string_dec (flat_map sel cs) x.
Proof.
  induction cs as [|c cs IH]; [reflexivity|]. cbn [flat_map].
  rewrite noters_app, app_length, noters_one, IH, count_occ_app. reflexivity.
Qed.

Lemma noters_In (sel : names -> list string) cs x u :
  In u (noters (flat_map (fun c => map (pair (n_comp c)) (sel c)) cs) x) <->
  exists c, In c cs /\ n_comp c = u /\ In x (sel c).
Proof.
  unfold noters. rewrite in_map_iff. split.
  - intros ([c' y] & E & H). cbn in E. subst c'. apply filter_In in H. destruct H as [H K]. cbn in K.
    apply String.eqb_eq in K. subst y. apply in_flat_map in H. destruct H as (c & Hc & H).
    apply in_map_iff in H. destruct H as (z & E & Hz). inversion E; subst. eauto.
  - intros (c & Hc & E & Hx). exists (u, x). split; [reflexivity|]. apply filter_In. split.
    + apply in_flat_map. exists c. split; [exact Hc|]. apply in_map_iff. exists x. rewrite E. auto.
    + cbn. apply String.eqb_refl.
Qed.

Lemma in_user_names cs x :
  In x (fst (find_users cs)) <-> x <> ""%string /\ exists c, In c cs /\ In x (n_in c).
Proof.
  destruct (find_users_inv cs x) as [H _]. rewrite H.
  split; intros [N K]; split; try exact N.
  - destruct (noters (in_pairs cs) x) as [|u l] eqn:E; [congruence|].
    assert (Hu : In u (noters (in_pairs cs) x)) by (rewrite E; left; reflexivity).
    apply noters_In in Hu. destruct Hu as (c & A & _ & B). eauto.
  - destruct K as (c & A & B). intros E.
    assert (Hu : In (n_comp c) (noters (in_pairs cs) x)) by (apply noters_In; eauto).
    rewrite E in Hu. destruct Hu.
Qed.

Lemma check_fold prov l ok :
  fold_left (fun ok x => match dict_get prov x with
                         | Some l => if (1 <? List.length l)%nat then false else ok
                         | None => false end) l ok = true <->
  ok = true /\ forall x, In x l -> exists p, dict_get prov x = Some p /\ (List.length p <= 1)%nat.
Proof.
  revert ok. induction l as [|y l IH]; intros ok; cbn [fold_left].
  - split; [intros H; split; [exact H|intros x []]|intros [H _]; exact H].
  - rewrite IH. destruct (dict_get prov y) as [p|] eqn:E.
    + destruct (Nat.ltb_spec 1 (List.length p)) as [L|L].
      * split; [intros [K _]; discriminate|]. intros [_ K]. exfalso.
        destruct (K y (or_introl eq_refl)) as (q & E2 & L2). rewrite E in E2. inversion E2; subst. lia.
      * split; intros [A B]; split; try exact A.
        -- intros x [<-|Hx]; [exists p; split; [exact E|exact L]|apply B; exact Hx].
        -- intros x Hx. apply B. right. exact Hx.
    + split; [intros [K _]; discriminate|]. intros [_ K]. exfalso.
      destruct (K y (or_introl eq_refl)) as (q & E2 & _). congruence.
Qed.

Lemma check_iff cs : check_providers cs = true <-> uniquely_provided cs.
Proof.
  unfold check_providers, uniquely_provided. cbv zeta. rewrite check_fold. split.
  - intros [_ H] c x Hc Hx Nx.
    destruct (H x) as (p & E & L); [apply in_user_names; split; [exact Nx|eauto]|].
    destruct (find_providers_inv cs x) as [_ E2]. rewrite E in E2.
    destruct (String.eqb_spec x ""); [congruence|].
    unfold times_provided. rewrite <- noters_count. fold (out_pairs cs).
    destruct (noters (out_pairs cs) x) as [|u l]; [discriminate|]. inversion E2; subst.
    cbn in *. lia.
  - intros H. split; [reflexivity|]. intros x Hx. apply in_user_names in Hx.
    destruct Hx as (Nx & c & Hc & Hx). specialize (H c x Hc Hx Nx).
    destruct (find_providers_inv cs x) as [_ E2].
    destruct (String.eqb_spec x ""); [congruence|].
    unfold times_provided in H. rewrite <- noters_count in H. fold (out_pairs cs) in H.
    destruct (noters (out_pairs cs) x) as [|u l]; [discriminate|].
    exists (u :: l). split; [exact E2|]. lia.
Qed.

Lemma user_lookup cs x :
  x <> ""%string ->
  forall u, In u (match dict_get (snd (find_users cs)) x with Some l => l | None => [] end) <->
            exists c, In c cs /\ n_comp c = u /\ In x (n_in c).
Proof.
  intros Nx u. destruct (find_users_inv cs x) as [_ E]. rewrite E.
  destruct (String.eqb_spec x ""); [congruence|].
  rewrite <- (noters_In n_in cs x u). fold (in_pairs cs).
  destruct (noters (in_pairs cs) x); reflexivity.
Qed.

Lemma user_lookup_empty cs : dict_get (snd (find_users cs)) "" = None.
Proof. destruct (find_users_inv cs ""%string) as [_ E]. rewrite E. reflexivity. Qed.

Lemma connections_iff cs pl p u x :
  In (p, u, x) (connections cs pl) <->
  x <> ""%string /\ (exists cp, In cp pl /\ n_comp cp = p /\ In x (n_out cp)) /\
  (exists cu, In cu cs /\ n_comp cu = u /\ In x (n_in cu)).
Proof.
  unfold connections. rewrite in_flat_map. split.
  - intros (cp & Hp & H). apply in_flat_map in H. destruct H as (y & Hy & H).
    apply in_map_iff in H. destruct H as (v & E & Hv). inversion E; subst.
    assert (Nx : x <> ""%string) by (intros ->; rewrite user_lookup_empty in Hv; destruct Hv).
    apply (user_lookup cs x Nx) in Hv. split; [exact Nx|]. split; [eauto|exact Hv].
  - intros (Nx & (cp & Hp & E & Ho) & Hu). exists cp. split; [exact Hp|].
    apply in_flat_map. exists x. split; [exact Ho|]. apply in_map_iff. exists u.
    split; [rewrite E; reflexivity|]. apply (user_lookup cs x Nx). exact Hu.
Qed.

Lemma count_two {A} (dec : forall x y : A, {x = y} + {x <> y}) (f : names -> list A) cs a b x :
  In a cs -> In b cs -> a <> b -> In x (f a) -> In x (f b) ->
  (2 <= count_occ dec (flat_map f cs) x)%nat.
Proof.
  assert (One : forall l c, In c l -> In x (f c) -> (1 <= count_occ dec (flat_map f l) x)%nat).
  { intros l c Hc Hx. apply (proj1 (count_occ_In dec _ _)). apply in_flat_map. eauto. }
  induction cs as [|c cs IH]; intros Ha Hb N Xa Xb; [destruct Ha|].
  cbn. rewrite count_occ_app.
  assert (Oc : forall c, In x (f c) -> (1 <= count_occ dec (f c) x)%nat)
    by (intros c' K; apply (proj1 (count_occ_In dec _ _)); exact K).
  destruct Ha as [->|Ha], Hb as [->|Hb].
  - congruence.
  - specialize (Oc a Xa). specialize (One cs b Hb Xb). lia.
  - specialize (Oc b Xb). specialize (One cs a Ha Xa). lia.
  - specialize (IH Ha Hb N Xa Xb). lia.
Qed.

(* ================================================================ units *)

Lemma fw_secs_eq u t : fw_secs u t == t * unit_seconds u.
Proof.
  destruct u; unfold fw_secs, unit_seconds; try (apply Qmult_comp; reflexivity); ring.
Qed.

Lemma ti_secs_eq u t v : ti_secs u t = Some v -> v == t * unit_seconds u.
Proof.
  destruct u; unfold ti_secs, unit_seconds; intros H; inversion H; subst;
    try (apply Qmult_comp; reflexivity); ring.
Qed.

Lemma unit_pos u : 0 < unit_seconds u.
Proof. destruct u; reflexivity. Qed.

(* ================================================================ framework dt *)

Lemma fold_min_le l d : fold_left Qmin l d <= d /\ forall x, In x l -> fold_left Qmin l d <= x.
Proof.
  revert d. induction l as [|y l IH]; intros d; cbn; [split; [lra|intros x []]|].
  destruct (IH (Qmin d y)) as [A B]. pose proof (Q.le_min_l d y). pose proof (Q.le_min_r d y).
  split; [lra|]. intros x [<-|Hx]; [lra|apply B; exact Hx].
Qed.

Lemma fold_min_in l d : fold_left Qmin l d == d \/ exists x, In x l /\ fold_left Qmin l d == x.
Proof.
  revert d. induction l as [|y l IH]; intros d; cbn; [left; reflexivity|].
  destruct (IH (Qmin d y)) as [A|(x & Hx & A)].
  - destruct (Q.min_dec d y) as [E|E].
    + left. exact (Qeq_trans _ _ _ A E).
    + right. exists y. split; [left; reflexivity|exact (Qeq_trans _ _ _ A E)].
  - right. exists x. split; [right; exact Hx|exact A].
Qed.

Lemma framework_dt_spec cs d :
  framework_dt cs = Some d ->
  (exists c, In c cs /\ d == dt_entry c) /\ forall c, In c cs -> d <= dt_entry c.
Proof.
  unfold framework_dt. destruct cs as [|c cs]; cbn [map]; [discriminate|].
  intros H. inversion H; subst. destruct (fold_min_le (map dt_entry cs) (dt_entry c)) as [A B]. split.
  - destruct (fold_min_in (map dt_entry cs) (dt_entry c)) as [E|(x & Hx & E)].
    + exists c. split; [left; reflexivity|exact E].
    + apply in_map_iff in Hx. destruct Hx as (c' & <- & Hc'). exists c'. split; [right; exact Hc'|exact E].
  - intros c' [<-|Hc']; [exact A|]. apply B. apply in_map. exact Hc'.
Qed.

Lemma dt_entry_step c : c_status c <> Disabled -> dt_entry c == step_s c.
Proof. unfold dt_entry, step_s. destruct (c_status c); try congruence; intros _; apply fw_secs_eq. Qed.

(* ================================================================ one pass *)

(* what a visit does to the visited component *)
Definition visited (c : comp) (T : Q) (s : cstate) : option cstate :=
  if Qltb (fw_secs (c_units c) (s_time s)) T
  then update2 c (match c_status c with Enabled => bmi_update c s | _ => s end)
  else Some s.

Lemma visit_none cs T l : fold_left (visit cs T) l None = None.
Proof. induction l as [|i l IH]; cbn; [reflexivity|exact IH]. Qed.

Section Pass.
Variables (cs : list comp) (T : Q) (ss0 : list cstate).
Let n := List.length cs.
Hypothesis Hlen : List.length ss0 = n.

Definition req_ok (ss : list cstate) (m : nat) (r : request) : Prop :=
  exists i p, (i < m)%nat /\ In p (c_needs (get comp0 cs i)) /\
    Qltb (fw_secs (c_units (get comp0 cs i)) (s_time (get cstate0 ss0 i))) T = true /\
    let sp := if (p <? i)%nat then get cstate0 ss p else get cstate0 ss0 p in
    r = {| q_user := i; q_prov := p;
           q_time := fw_secs (c_units (get comp0 cs i)) (s_time (get cstate0 ss0 i));
           q_t1 := s_t1 sp; q_t2 := s_t2 sp; q_direct := s_init sp |}.

Lemma pass_prefix m ss log :
  (m <= n)%nat ->
  fold_left (visit cs T) (seq 0 m) (Some (ss0, [])) = Some (ss, log) ->
  List.length ss = n /\
  (forall j, (m <= j)%nat -> get cstate0 ss j = get cstate0 ss0 j) /\
  (forall j, (j < m)%nat -> visited (get comp0 cs j) T (get cstate0 ss0 j) = Some (get cstate0 ss j)) /\
  (forall r, In r log -> req_ok ss m r).
Proof.
  revert ss log. induction m as [|m IH]; intros ss log Hm H.
  - cbn in H. inversion H; subst. split; [exact Hlen|]. split; [reflexivity|].
    split; [intros j Hj; lia|intros r []].
  - rewrite seq_S, fold_left_app in H. cbn [fold_left Nat.add] in H.
    destruct (fold_left (visit cs T) (seq 0 m) (Some (ss0, []))) as [[ss1 log1]|] eqn:E1.
    2:{ cbn in H. discriminate. }
    destruct (IH ss1 log1 ltac:(lia) eq_refl) as (L1 & U1 & V1 & R1).
    unfold visit in H. cbv zeta in H. rewrite (U1 m (le_n m)) in H.
    assert (Rmono : forall r, (forall j, (j < m)%nat -> get cstate0 ss j = get cstate0 ss1 j) ->
                              req_ok ss1 m r -> req_ok ss (S m) r).
    { intros r Hs (i & p & Hi & Hp & Hlt & Hr). exists i, p. split; [lia|]. split; [exact Hp|].
      split; [exact Hlt|]. cbv zeta in *. destruct (Nat.ltb_spec p i) as [K|K]; [|exact Hr].
      rewrite Hs by lia. exact Hr. }
    destruct (Qltb (fw_secs (c_units (get comp0 cs m)) (s_time (get cstate0 ss0 m))) T) eqn:Lt.
    + destruct (update2 _ _) as [s2|] eqn:E2; [|discriminate].
      inversion H; subst. clear H.
      assert (Same : forall j, (j < m)%nat -> get cstate0 (set ss1 m s2) j = get cstate0 ss1 j)
        by (intros j Hj; apply get_set_other; lia).
      split; [rewrite set_length; exact L1|].
      split; [intros j Hj; rewrite get_set_other by lia; apply U1; lia|].
      split.
      * intros j Hj. destruct (Nat.eq_dec j m) as [->|N].
        -- rewrite get_set_same by lia. unfold visited. rewrite Lt. exact E2.
        -- rewrite Same by lia. apply V1. lia.
      * intros r Hr. apply in_app_iff in Hr. destruct Hr as [Hr|Hr]; [apply Rmono; auto|].
        apply in_map_iff in Hr. destruct Hr as (p & <- & Hp). exists m, p.
        split; [lia|]. split; [exact Hp|]. split; [exact Lt|]. cbv zeta.
        destruct (Nat.ltb_spec p m) as [K|K].
        -- rewrite Same by exact K. reflexivity.
        -- rewrite (U1 p K). reflexivity.
    + inversion H; subst. split; [exact L1|]. split; [intros j Hj; apply U1; lia|]. split.
      * intros j Hj. destruct (Nat.eq_dec j m) as [->|N].
        -- unfold visited. rewrite Lt. f_equal. symmetry. apply U1. lia.
        -- apply V1. lia.
      * intros r Hr. apply Rmono; [reflexivity|apply R1; exact Hr].
Qed.

Lemma pass_spec ss log :
  pass cs T ss0 = Some (ss, log) ->
  List.length ss = n /\
  (forall j, (j < n)%nat -> visited (get comp0 cs j) T (get cstate0 ss0 j) = Some (get cstate0 ss j)) /\
  (forall r, In r log -> req_ok ss n r).
Proof.
  intros H. destruct (pass_prefix n ss log (le_n n) H) as (A & _ & B & C). split; [exact A|]. split; [exact B|exact C].
Qed.

(* a pass cannot fail when no component counts in hours *)

Lemma pass_total :
  (forall c, In c cs -> c_units c <> Hours) -> exists ss log, pass cs T ss0 = Some (ss, log).
Proof.
  intros H. unfold pass.
  assert (G : forall l, (forall i, In i l -> (i < n)%nat) -> forall ss log, exists ss' log',
     fold_left (visit cs T) l (Some (ss, log)) = Some (ss', log')).
  { induction l as [|i l IH]; intros Hl ss log; cbn [fold_left]; [eauto|].
    assert (Hl' : forall j, In j l -> (j < n)%nat) by (intros j Hj; apply Hl; right; exact Hj).
    unfold visit at 2. cbv zeta.
    assert (Hh : c_units (get comp0 cs i) <> Hours).
    { apply H. apply nth_In. apply Hl. left. reflexivity. }
    destruct (Qltb _ T); [|apply IH; exact Hl'].
    unfold update2. destruct (s_init _); [apply IH; exact Hl'|].
    unfold shift_window, ti_secs.
    destruct (c_units (get comp0 cs i)); try congruence; apply IH; exact Hl'. }
  apply G. intros i Hi. apply in_seq in Hi. unfold n. lia.
Qed.
End Pass.

(* ================================================================ clocks of enabled components *)

(* state of an enabled component: the clock is count steps, the window is its last step *)
Definition sound (c : comp) (s : cstate) : Prop :=
  (1 <= s_count s)%nat /\ s_init s = false /\
  s_time s * unit_seconds (c_units c) == Qn (s_count s) * step_s c /\
  s_t2 s == Qn (s_count s) * step_s c /\
  s_t1 s == Qn (s_count s - 1) * step_s c.

(* after a pass at time T: the clock has reached T, by as few updates as possible *)
Definition caught_up (c : comp) (T : Q) (s : cstate) : Prop :=
  T <= Qn (s_count s) * step_s c /\
  (s_count s = 1%nat \/ Qn (s_count s - 1) * step_s c < T).

Lemma Qn_S k : Qn (S k) == Qn k + 1.
Proof. unfold Qn. rewrite Nat2Z.inj_succ, <- Z.add_1_r, inject_Z_plus. reflexivity. Qed.
Lemma Qn_0 : Qn 0 == 0. Proof. reflexivity. Qed.
Lemma Qn_1 : Qn 1 == 1. Proof. reflexivity. Qed.
Lemma Qn_le a b : (a <= b)%nat -> Qn a <= Qn b.
Proof. intros H. unfold Qn. rewrite <- Zle_Qle. lia. Qed.
Lemma Qn_nonneg a : 0 <= Qn a.
Proof. rewrite <- Qn_0. apply Qn_le. lia. Qed.
Lemma Qn_le_inv a b : Qn a <= Qn b -> (a <= b)%nat.
Proof. unfold Qn. rewrite <- Zle_Qle. lia. Qed.
Lemma Qn_lt_inv a b : Qn a < Qn b -> (a < b)%nat.
Proof. unfold Qn. rewrite <- Zlt_Qlt. lia. Qed.
Lemma Qn_mult a b : Qn (a * b) == Qn a * Qn b.
Proof. unfold Qn. rewrite Nat2Z.inj_mul, inject_Z_mult. reflexivity. Qed.

Lemma sound_update c s s' :
  sound c s -> c_status c = Enabled ->
  shift_window c (bmi_update c s) = Some s' ->
  sound c s' /\ s_count s' = S (s_count s).
Proof.
  intros (C & I & A & B & D) E H. unfold bmi_update in H. rewrite E in H. unfold shift_window in H.
  cbn [s_time s_t2 s_init s_count] in H.
  destruct (ti_secs (c_units c) (s_time s + c_dt c)) as [t|] eqn:Et; [|discriminate].
  inversion H; subst. clear H. apply ti_secs_eq in Et.
  assert (K : t == Qn (S (s_count s)) * step_s c).
  { rewrite Et, Qn_S. unfold step_s in *. rewrite Qmult_plus_distr_l, A. ring. }
  split; [|reflexivity]. unfold sound. cbn [s_time s_t2 s_init s_count s_t1].
  split; [lia|]. split; [reflexivity|]. split; [rewrite <- K, Et; reflexivity|].
  split; [exact K|]. replace (S (s_count s) - 1)%nat with (s_count s) by lia. exact B.
Qed.

Lemma visited_enabled c T fdt s s' :
  c_status c = Enabled -> 0 < fdt -> fdt <= step_s c ->
  sound c s -> caught_up c (T - fdt) s ->
  visited c T s = Some s' ->
  sound c s' /\ caught_up c T s' /\
  (Qn (s_count s) * step_s c < T -> s_count s' = S (s_count s)) /\
  (~ Qn (s_count s) * step_s c < T -> s' = s).
Proof.
  intros E F0 F S (CA & CB) H. pose proof S as (C & I & A & B & D).
  unfold visited in H. rewrite E in H.
  assert (Lt : Qltb (fw_secs (c_units c) (s_time s)) T = true <-> Qn (s_count s) * step_s c < T).
  { rewrite Qltb_lt, fw_secs_eq, A. reflexivity. }
  destruct (Qltb (fw_secs (c_units c) (s_time s)) T).
  - assert (L : Qn (s_count s) * step_s c < T) by (apply Lt; reflexivity). clear Lt.
    assert (I2 : s_init (bmi_update c s) = false) by (unfold bmi_update; rewrite E; reflexivity).
    unfold update2 in H. rewrite I2 in H.
    destruct (sound_update c s s' S E H) as [S' N]. split; [exact S'|].
    split; [|split; [intros _; exact N|intros K; contradiction]].
    unfold caught_up. rewrite N. split.
    + rewrite Qn_S. lra.
    + right. replace (Datatypes.S (s_count s) - 1)%nat with (s_count s) by lia. exact L.
  - inversion H; subst. assert (L : ~ Qn (s_count s') * step_s c < T).
    { intros K. apply Lt in K. discriminate. }
    split; [exact S|]. split; [|split; [intros K; contradiction|reflexivity]].
    split; [lra|]. destruct CB as [K|K]; [left; exact K|right; lra].
Qed.

(* ================================================================ the run *)

Section Run.
Variables (cs : list comp) (fdt : Q) (drv : nat) (stop : nat -> bool).
Let n := List.length cs.
Hypothesis Hpos : positive_steps cs.
Hypothesis Hdt : framework_dt cs = Some fdt.
Hypothesis Hhours : forall c, In c cs -> c_units c <> Hours.

Lemma in_cs i : (i < n)%nat -> In (get comp0 cs i) cs.
Proof. intros H. apply nth_In. exact H. Qed.

Lemma fdt_pos : 0 < fdt.
Proof.
  destruct (framework_dt_spec cs fdt Hdt) as ((c & Hc & E) & _). rewrite E.
  unfold dt_entry. destruct (c_status c); try reflexivity; rewrite fw_secs_eq;
  pose proof (Hpos c Hc); pose proof (unit_pos (c_units c));
  apply Qmult_lt_0_compat; assumption.
Qed.

Lemma fdt_le i : enabled cs i -> fdt <= step_s (get comp0 cs i).
Proof.
  intros [Hi E]. destruct (framework_dt_spec cs fdt Hdt) as (_ & H).
  rewrite <- dt_entry_step by (rewrite E; discriminate). apply H. apply in_cs. exact Hi.
Qed.

Definition inv0 (ss : list cstate) (T : Q) : Prop :=
  List.length ss = n /\
  forall i, enabled cs i ->
    sound (get comp0 cs i) (get cstate0 ss i) /\ caught_up (get comp0 cs i) T (get cstate0 ss i).

(* windows of requests *)
Definition window_ok (r : request) : Prop :=
  enabled cs (q_user r) -> enabled cs (q_prov r) ->
  q_direct r = false /\
  ((q_prov r < q_user r)%nat -> q_t1 r - fdt < q_time r /\ q_time r < q_t2 r) /\
  ((q_user r <= q_prov r)%nat -> q_t1 r <= q_time r /\ q_time r < q_t2 r + fdt).

Lemma pass_inv ss ss' log T :
  0 <= T ->
  inv0 ss (T - fdt) -> pass cs T ss = Some (ss', log) ->
  inv0 ss' T /\ (forall r, In r log -> window_ok r) /\
  (forall i, enabled cs i ->
     let t := Qn (s_count (get cstate0 ss i)) * step_s (get comp0 cs i) in
     (t < T -> s_count (get cstate0 ss' i) = S (s_count (get cstate0 ss i))) /\
     (~ t < T -> get cstate0 ss' i = get cstate0 ss i)).
Proof.
  intros HT [L I] H. destruct (pass_spec cs T ss L ss' log H) as (L' & V & R).
  assert (G : forall i, enabled cs i ->
     sound (get comp0 cs i) (get cstate0 ss' i) /\ caught_up (get comp0 cs i) T (get cstate0 ss' i) /\
     (Qn (s_count (get cstate0 ss i)) * step_s (get comp0 cs i) < T ->
        s_count (get cstate0 ss' i) = S (s_count (get cstate0 ss i))) /\
     (~ Qn (s_count (get cstate0 ss i)) * step_s (get comp0 cs i) < T ->
        get cstate0 ss' i = get cstate0 ss i)).
  { intros i Ei. pose proof Ei as [Hi E]. destruct (I i Ei) as [S C].
    apply (visited_enabled _ T fdt _ _ E fdt_pos (fdt_le i Ei) S C (V i Hi)). }
  split; [split; [exact L'|intros i Ei; destruct (G i Ei) as (A & B & _); auto]|].
  split; [|intros i Ei; destruct (G i Ei) as (_ & _ & A); exact A].
  intros r Hr. destruct (R r Hr) as (i & p & Hi & Hp & Lt & ->). cbv zeta.
  intros Eu Ep. cbn [q_user q_prov] in Eu, Ep.
  cbn [q_user q_prov q_direct q_t1 q_t2 q_time].
  apply Qltb_lt in Lt. rewrite fw_secs_eq in Lt.
  destruct (I i Eu) as [(Cu & Iu & Au & Bu & Du) [Qu1 Qu2]].
  pose proof fdt_pos as F0.
  set (su := get cstate0 ss i) in *. set (cu := get comp0 cs i) in *.
  assert (T0 : 0 <= fw_secs (c_units cu) (s_time su)).
  { rewrite fw_secs_eq, Au. apply Qmult_le_0_compat; [apply Qn_nonneg|]. pose proof (fdt_le i Eu). fold cu in H0. lra. }
  destruct (Nat.ltb_spec p i) as [K|K].
  - destruct (G p Ep) as ((Cp & Ip & Ap & Bp & Dp) & (Qp1 & Qp2) & _).
    split; [exact Ip|]. split; [|intros; lia]. intros _.
    rewrite fw_secs_eq in *. rewrite Bp, Dp. split; [|lra].
    destruct Qp2 as [Q1|Q1]; [|lra]. rewrite Q1. cbn [Nat.sub]. rewrite Qn_0. lra.
  - destruct (I p Ep) as [(Cp & Ip & Ap & Bp & Dp) (Qp1 & Qp2)].
    split; [exact Ip|]. split; [intros; lia|]. intros _.
    rewrite fw_secs_eq in *. rewrite Bp, Dp. split; [|lra].
    destruct Qp2 as [Q1|Q1]; [|lra]. rewrite Q1. cbn [Nat.sub]. rewrite Qn_0. lra.
Qed.

Lemma Qn_mult_lt a b d : 0 < d -> Qn a * d < Qn b * d -> (a < b)%nat.
Proof. intros D H. apply Qn_lt_inv. apply Qmult_lt_r with d; assumption. Qed.
Lemma Qn_mult_le a b d : 0 < d -> Qn a * d <= Qn b * d -> (a <= b)%nat.
Proof. intros D H. apply Qn_le_inv. apply Qmult_le_r with d; assumption. Qed.

(* with whole-number steps, requests are always inside the window *)
Lemma pass_inside ss ss' log k :
  multiples cs fdt ->
  inv0 ss (Qn k * fdt - fdt) -> pass cs (Qn k * fdt) ss = Some (ss', log) ->
  forall r, In r log -> enabled cs (q_user r) -> enabled cs (q_prov r) ->
    q_t1 r <= q_time r /\ q_time r <= q_t2 r.
Proof.
  intros M IV H. pose proof fdt_pos as F0.
  assert (HT : 0 <= Qn k * fdt) by (apply Qmult_le_0_compat; [apply Qn_nonneg|lra]).
  destruct (pass_inv ss ss' log _ HT IV H) as ([L' I'] & _ & _).
  destruct IV as [L I]. destruct (pass_spec cs (Qn k * fdt) ss L ss' log H) as (_ & V & R).
  intros r Hr. destruct (R r Hr) as (i & p & Hi & Hp & Lt & ->). cbv zeta.
  cbn [q_user q_prov q_direct q_t1 q_t2 q_time]. intros Eu Ep.
  apply Qltb_lt in Lt. rewrite !fw_secs_eq in *.
  destruct (M i Eu) as [mu Mu]. destruct (M p Ep) as [mp Mp].
  destruct (I i Eu) as [(Cu & Iu & Au & Bu & Du) [Qu1 Qu2]].
  rewrite Au in *.
  set (su := get cstate0 ss i) in *. set (cu := get comp0 cs i) in *.
  assert (Xu : Qn (s_count su) * step_s cu == Qn (s_count su * mu) * fdt) by (rewrite Mu, Qn_mult; ring).
  rewrite Xu in *.
  assert (Lu : (s_count su * mu < k)%nat) by (apply (Qn_mult_lt _ _ fdt F0); exact Lt).
  assert (Gu : (k <= S (s_count su * mu))%nat).
  { apply (Qn_mult_le _ _ fdt F0). rewrite Qn_S. lra. }
  destruct (Nat.ltb_spec p i) as [K|K].
  - destruct (I' p Ep) as [(Cp & Ip & Ap & Bp & Dp) (Qp1 & Qp2)].
    set (sp := get cstate0 ss' p) in *. set (cp := get comp0 cs p) in *.
    rewrite Bp, Dp. split; [|lra].
    assert (Xp : Qn (s_count sp - 1) * step_s cp == Qn ((s_count sp - 1) * mp) * fdt) by (rewrite Mp, Qn_mult; ring).
    rewrite Xp in *. apply Qmult_le_compat_r; [|lra]. apply Qn_le.
    destruct Qp2 as [Q1|Q1]; [rewrite Q1; cbn; lia|].
    apply (Qn_mult_lt _ _ fdt F0) in Q1. lia.
  - destruct (I p Ep) as [(Cp & Ip & Ap & Bp & Dp) (Qp1 & Qp2)].
    set (sp := get cstate0 ss p) in *. set (cp := get comp0 cs p) in *.
    rewrite Bp, Dp. split.
    + assert (Xp : Qn (s_count sp - 1) * step_s cp == Qn ((s_count sp - 1) * mp) * fdt) by (rewrite Mp, Qn_mult; ring).
      rewrite Xp in *. apply Qmult_le_compat_r; [|lra]. apply Qn_le.
      destruct Qp2 as [Q1|Q1]; [rewrite Q1; cbn; lia|].
      assert (K1 : Qn ((s_count sp - 1) * mp) * fdt < Qn k * fdt) by lra.
      assert (K2 : Qn (S ((s_count sp - 1) * mp)) * fdt < Qn k * fdt) by (rewrite Qn_S; lra).
      apply (Qn_mult_lt _ _ fdt F0) in K2. lia.
    + assert (Xp : Qn (s_count sp) * step_s cp == Qn (s_count sp * mp) * fdt) by (rewrite Mp, Qn_mult; ring).
      rewrite Xp in *. apply Qmult_le_compat_r; [|lra]. apply Qn_le.
      assert (K1 : Qn k * fdt <= Qn (S (s_count sp * mp)) * fdt) by (rewrite Qn_S; lra).
      apply (Qn_mult_le _ _ fdt F0) in K1. lia.
Qed.

(* after j iterations: time j*fdt *)
Definition rinv (j : nat) (f : fw) : Prop :=
  f_time f == Qn j * fdt /\
  inv0 (f_comps f) (f_time f - fdt) /\
  (forall r, In r (f_log f) -> window_ok r) /\
  (multiples cs fdt -> forall r, In r (f_log f) -> enabled cs (q_user r) -> enabled cs (q_prov r) ->
     q_t1 r <= q_time r /\ q_time r <= q_t2 r).

Lemma caught_up_comp c T T' s : T == T' -> caught_up c T s -> caught_up c T' s.
Proof.
  unfold caught_up. intros E [A B]. split; [lra|]. destruct B as [B|B]; [left; exact B|right; lra].
Qed.
Lemma inv0_comp ss T T' : T == T' -> inv0 ss T -> inv0 ss T'.
Proof.
  intros E [A B]. split; [exact A|]. intros i Ei. destruct (B i Ei) as [C D].
  split; [exact C|]. apply (caught_up_comp _ T); assumption.
Qed.

Lemma pass_comp T T' ss : T == T' -> pass cs T ss = pass cs T' ss.
Proof.
  intros E. unfold pass. generalize (seq 0 (List.length cs)) (Some (ss, @nil request)).
  induction l as [|i l IH]; intros st; cbn; [reflexivity|]. rewrite IH. f_equal.
  unfold visit. destruct st as [[ss1 log]|]; [|reflexivity]. cbv zeta.
  assert (X : forall t, Qltb t T = Qltb t T').
  { intros t. destruct (Qltb t T) eqn:A, (Qltb t T') eqn:B; try reflexivity.
    - apply Qltb_lt in A. apply Qltb_ge in B. lra.
    - apply Qltb_ge in A. apply Qltb_lt in B. lra. }
  rewrite X. reflexivity.
Qed.

Lemma body_inv j f f' :
  rinv j f -> loop_body cs fdt drv stop f = Some f' ->
  rinv (S j) f' /\
  f_done f' = stop (updates f' drv) || f_done f /\
  (forall i, enabled cs i ->
     (Qn (updates f i) * step_s (get comp0 cs i) < f_time f -> updates f' i = S (updates f i)) /\
     (~ Qn (updates f i) * step_s (get comp0 cs i) < f_time f -> updates f' i = updates f i)).
Proof.
  intros (HT & I & W & Wm) H. unfold loop_body in H.
  destruct (pass cs (f_time f) (f_comps f)) as [[ss log]|] eqn:P; [|discriminate].
  inversion H; subst. clear H. cbn [f_time f_comps f_done f_log].
  assert (T0 : 0 <= f_time f).
  { rewrite HT. apply Qmult_le_0_compat; [apply Qn_nonneg|]. pose proof fdt_pos. lra. }
  destruct (pass_inv (f_comps f) ss log (f_time f) T0 I P) as (I' & W' & U).
  split; [|split; [reflexivity|]].
  - split; [cbn; rewrite HT, Qn_S; ring|]. split; [cbn; apply (inv0_comp _ (f_time f)); [ring|exact I']|].
    cbn [f_log]. split.
    + intros r Hr. apply in_app_iff in Hr. destruct Hr; auto.
    + intros M r Hr Eu Ep. apply in_app_iff in Hr. destruct Hr as [Hr|Hr]; [apply Wm; auto|].
      rewrite (pass_comp _ _ _ HT) in P.
      apply (pass_inside (f_comps f) ss log j M); auto.
      apply (inv0_comp _ (f_time f - fdt)); [rewrite HT; reflexivity|exact I].
  - intros i Ei. destruct (U i Ei) as [A B]. unfold updates. cbn [f_comps]. split; [exact A|].
    intros K. rewrite (B K). reflexivity.
Qed.

Lemma init_comp_sound c s :
  In c cs -> c_status c = Enabled -> init_comp c = Some s -> sound c s /\ s_count s = 1%nat.
Proof.
  intros Hc E H. unfold init_comp in H. destruct (ti_secs (c_units c) 0) as [t|] eqn:Et; [|discriminate].
  unfold bmi_update in H. rewrite E in H. unfold shift_window in H. cbn [s_time s_t2 s_init s_count] in H.
  destruct (ti_secs (c_units c) (0 + c_dt c)) as [t2|] eqn:Et2; [|discriminate].
  inversion H; subst. clear H. apply ti_secs_eq in Et. apply ti_secs_eq in Et2.
  unfold sound. cbn [s_time s_t2 s_init s_count s_t1 Nat.sub]. split; [|reflexivity].
  unfold step_s. split; [lia|]. split; [reflexivity|].
  split; [rewrite Qn_1; ring|]. split; [rewrite Et2, Qn_1; ring|]. rewrite Et, Qn_0. ring.
Qed.

Lemma init_comps_get l ss :
  init_comps l = Some ss ->
  List.length ss = List.length l /\
  forall i, (i < List.length l)%nat -> init_comp (get comp0 l i) = Some (get cstate0 ss i).
Proof.
  revert ss. induction l as [|c l IH]; intros ss H; cbn in H.
  - inversion H; subst. split; [reflexivity|]. intros i Hi. cbn in Hi. lia.
  - destruct (init_comp c) as [s|] eqn:E; [|discriminate].
    destruct (init_comps l) as [ss1|] eqn:E1; [|discriminate]. inversion H; subst.
    destruct (IH ss1 eq_refl) as [L G]. split; [cbn; rewrite L; reflexivity|].
    intros [|i] Hi; cbn; [exact E|]. apply G. cbn in Hi. lia.
Qed.

Lemma start_inv ss :
  init_comps cs = Some ss ->
  rinv 0 {| f_time := 0; f_comps := ss; f_done := false; f_log := [] |} /\
  forall i, enabled cs i -> s_count (get cstate0 ss i) = 1%nat.
Proof.
  intros H. destruct (init_comps_get cs ss H) as [L G]. pose proof fdt_pos as F0.
  assert (A : forall i, enabled cs i -> sound (get comp0 cs i) (get cstate0 ss i) /\ s_count (get cstate0 ss i) = 1%nat).
  { intros i [Hi E]. apply init_comp_sound; [apply in_cs; exact Hi|exact E|apply G; exact Hi]. }
  split; [|intros i Ei; apply A; exact Ei].
  split; [reflexivity|]. cbn [f_time f_comps f_log].
  split; [|split; [intros r []|intros _ r []]]. split; [exact L|]. intros i Ei. destruct (A i Ei) as [B C].
  split; [exact B|]. split; [|left; exact C].
  rewrite C, Qn_1. pose proof (fdt_le i Ei). lra.
Qed.

Lemma init_comps_total l : (forall c, In c l -> c_units c <> Hours) -> exists ss, init_comps l = Some ss.
Proof.
  induction l as [|c l IH]; intros H; cbn; [eauto|].
  destruct IH as [ss E]; [intros c' Hc'; apply H; right; exact Hc'|]. rewrite E.
  assert (N : c_units c <> Hours) by (apply H; left; reflexivity).
  unfold init_comp, shift_window, bmi_update.
  destruct (c_units c), (c_status c); cbn; try congruence; eauto.
Qed.

Lemma body_total j f : rinv j f -> exists f', loop_body cs fdt drv stop f = Some f'.
Proof.
  intros (_ & [L _] & _). unfold loop_body.
  destruct (pass_total cs (f_time f) (f_comps f) L Hhours) as (ss & log & ->). eauto.
Qed.

(* what a partial run establishes: j iterations were made *)
Lemma loop_inv k j f f' :
  rinv j f -> loop k cs fdt drv stop f = Some f' ->
  exists m, (m <= k)%nat /\ rinv (j + m) f' /\ (f_done f' = false -> m = k) /\ (f_done f = false -> (1 <= k)%nat -> (1 <= m)%nat).
Proof.
  revert j f. induction k as [|k IH]; intros j f R H; cbn in H.
  - inversion H; subst. exists 0%nat. rewrite Nat.add_0_r. split; [lia|]. split; [exact R|]. split; [reflexivity|lia].
  - destruct (f_done f) eqn:D.
    + inversion H; subst. exists 0%nat. rewrite Nat.add_0_r. split; [lia|]. split; [exact R|].
      split; [congruence|congruence].
    + destruct (loop_body cs fdt drv stop f) as [f1|] eqn:B; [|discriminate].
      destruct (body_inv j f f1 R B) as (R1 & _ & _).
      destruct (IH (S j) f1 R1 H) as (m & M1 & M2 & M3 & _).
      exists (S m). split; [lia|]. split; [replace (j + S m)%nat with (S j + m)%nat by lia; exact M2|].
      split; [intros K; rewrite (M3 K); reflexivity|lia].
Qed.

Lemma loop_total k j f : rinv j f -> exists f', loop k cs fdt drv stop f = Some f'.
Proof.
  revert j f. induction k as [|k IH]; intros j f R; cbn; [eauto|].
  destruct (f_done f); [eauto|]. destruct (body_total j f R) as [f1 B]. rewrite B.
  destruct (body_inv j f f1 R B) as (R1 & _ & _). apply (IH (S j) f1 R1).
Qed.

(* ---- stopping ---- *)
Hypothesis Hdrv : enabled cs drv.

(* the driver has not met its stop rule up to now *)
Definition before (N j : nat) (f : fw) : Prop :=
  rinv j f /\ f_done f = false /\ (updates f drv <= N)%nat /\
  ((1 <= j)%nat -> (updates f drv < N)%nat).

Lemma updates_ge1 j f : rinv j f -> (1 <= updates f drv)%nat.
Proof. intros (_ & [_ I] & _). destruct (I drv Hdrv) as [(C & _) _]. exact C. Qed.

Lemma body_stop N j f f' :
  first_stop stop N -> before N j f -> loop_body cs fdt drv stop f = Some f' ->
  (f_done f' = true /\ updates f' drv = N) \/ before N (S j) f'.
Proof.
  intros (N1 & SN & FN) (R & D & U & U2) B. destruct (body_inv j f f' R B) as (R' & D' & K).
  destruct (K drv Hdrv) as [K1 K2]. pose proof (updates_ge1 _ _ R') as G.
  assert (U3 : (updates f' drv <= N)%nat).
  { destruct j as [|j].
    - (* first pass is at time 0: no updates *)
      rewrite K2; [exact U|]. destruct R as (HT & _). rewrite HT, Qn_0.
      assert (0 <= Qn (updates f drv) * step_s (get comp0 cs drv)).
      { apply Qmult_le_0_compat; [apply Qn_nonneg|]. pose proof (fdt_le drv Hdrv). pose proof fdt_pos. lra. }
      lra.
    - destruct (Qlt_le_dec (Qn (updates f drv) * step_s (get comp0 cs drv)) (f_time f)) as [L|L].
      + rewrite (K1 L). specialize (U2 ltac:(lia)). lia.
      + rewrite K2 by lra. exact U. }
  rewrite D, orb_false_r in D'.
  destruct (Nat.eq_dec (updates f' drv) N) as [E|E].
  - left. split; [rewrite D', E; exact SN|exact E].
  - right. split; [exact R'|]. split; [rewrite D'; apply FN; lia|]. split; [exact U3|lia].
Qed.

Lemma loop_stop N k j f f' :
  first_stop stop N -> before N j f -> loop k cs fdt drv stop f = Some f' ->
  (f_done f' = true /\ updates f' drv = N) \/ before N (j + k) f'.
Proof.
  intros HN. revert j f. induction k as [|k IH]; intros j f B H; cbn in H.
  - inversion H; subst. right. rewrite Nat.add_0_r. exact B.
  - assert (D : f_done f = false) by (destruct B as (_ & D & _); exact D). rewrite D in H.
    destruct (loop_body cs fdt drv stop f) as [f1|] eqn:E; [|discriminate].
    destruct (body_stop N j f f1 HN B E) as [[D1 U1]|B1].
    + left. destruct k; cbn in H; [inversion H; subst; auto|]. rewrite D1 in H. inversion H; subst; auto.
    + destruct (IH (S j) f1 B1 H) as [L|R]; [left; exact L|right].
      replace (j + S k)%nat with (S j + k)%nat by lia. exact R.
Qed.

(* a bound on the number of iterations *)
Lemma before_bound N j f : before N (S j) f -> Qn j * fdt <= Qn N * step_s (get comp0 cs drv).
Proof.
  intros ((HT & [_ I] & _) & _ & _ & U). specialize (U ltac:(lia)).
  destruct (I drv Hdrv) as [_ [A _]]. rewrite HT, Qn_S in A.
  assert (P : 0 <= step_s (get comp0 cs drv)) by (pose proof (fdt_le drv Hdrv); pose proof fdt_pos; lra).
  fold (updates f drv) in A.
  assert (Q : Qn (updates f drv) * step_s (get comp0 cs drv) <= Qn N * step_s (get comp0 cs drv)).
  { apply Qmult_le_compat_r; [apply Qn_le; lia|exact P]. }
  lra.
Qed.
End Run.
