(* C83: the event-driven erosion model processes its events in time order and loses no change of elevation. *)
From Coq Require Import ZArith QArith Qabs Lqa List Bool Arith Lia Permutation.
From Verif Require Import Base Des_Model.
Import ListNotations.
Local Open Scope Q_scope.

(* ---------- specification ---------- *)
(* the elevation of a cell at time t: it moves at its current rate since its last update *)
Definition elev (s : state) (t : Q) (i : nat) : Q := DEM s i + dz_dt s i * (t - T_last s i).
Definition xle (a b : xt) : Prop := match a, b with At x, At y => x <= y | _, Never => True | Never, At _ => False end.
(* states of runs with any flow grids *)
Definition reachable (K : par) (s : state) : Prop := exists N0 dem Ns s0, start K N0 dem = Ok s0 /\ run K Ns s0 = Ok s.
(* every rate is uplift minus outflow plus inflow *)
Definition balanced (K : par) (s : state) : Prop :=
  forall i, (i < ncells K)%nat -> ~ In i (base_IDs K) -> dz_dt s i == U K - Qs s i / da K + inflow K (codes s) (Qs s) i.
(* the change since the cell's last event is smaller than predicted, in the predicted direction *)
Definition within (c : Q) (t : xq) : Prop :=
  match t with Fin x => Qabs c < Qabs x /\ (0 < c <-> 0 < x) /\ (c < 0 <-> x < 0) | Inf p => if p then 0 < c else c < 0 | NaN => False end.

(* ---------- orders ---------- *)
Lemma mem_In i l : mem i l = true <-> In i l.
Proof. unfold mem. rewrite existsb_exists. split; [intros (x & I & E); apply Nat.eqb_eq in E; congruence | intro H; exists i; split; [exact H | apply Nat.eqb_refl]]. Qed.
Lemma mem_not i l : mem i l = false <-> ~ In i l.
Proof. rewrite <- mem_In. destruct (mem i l); split; congruence. Qed.
Lemma upd_in {A} l (f g : nat -> A) i : In i l -> upd l f g i = f i.
Proof. intro H. unfold upd. apply mem_In in H. rewrite H. reflexivity. Qed.
Lemma upd_out {A} l (f g : nat -> A) i : ~ In i l -> upd l f g i = g i.
Proof. intro H. unfold upd. apply mem_not in H. rewrite H. reflexivity. Qed.
Lemma xltb_spec a b : xltb a b = false <-> xle b a.
Proof. destruct a, b; cbn; try tauto; try (split; [discriminate | tauto]). rewrite <- not_true_iff_false, Qltb_lt. split; lra. Qed.
Lemma xle_refl a : xle a a.
Proof. destruct a; cbn; [lra | exact I]. Qed.
Lemma xle_trans a b c : xle a b -> xle b c -> xle a c.
Proof. destruct a, b, c; cbn; try tauto. lra. Qed.
Lemma xle_total a b : xle a b \/ xle b a.
Proof. destruct a, b; cbn; try tauto. lra. Qed.
Lemma before_le a b : before a b = true -> xle (fst a) (fst b).
Proof.
  unfold before. rewrite orb_true_iff, andb_true_iff. intros [H|[H _]]; destruct (fst a), (fst b); cbn in *; try discriminate; try exact I; [apply Qltb_lt in H; lra | apply Qeq_bool_iff in H; lra].
Qed.
Lemma before_refl a : before a a = true.
Proof. unfold before. rewrite Nat.leb_refl. destruct (fst a); cbn; [rewrite (proj2 (Qeq_bool_iff t t)) by reflexivity; apply orb_true_r | reflexivity]. Qed.
Lemma not_before_le a b : before a b = false -> xle (fst b) (fst a).
Proof. unfold before. rewrite orb_false_iff. intros [H _]. apply xltb_spec. exact H. Qed.
Lemma pop_spec h : match pop h with None => h = [] | Some (m, r) => Permutation h (m :: r) /\ forall e, In e h -> xle (fst m) (fst e) end.
Proof.
  induction h as [|e r IH]; [reflexivity|]. cbn. destruct (pop r) as [[m r']|].
  - destruct IH as [P L]. destruct (before e m) eqn:B.
    + split; [reflexivity|]. intros x [<-|X]; [apply xle_refl|]. eapply xle_trans; [apply before_le, B | apply L, X].
    + split; [rewrite P; apply perm_swap|]. intros x [<-|X]; [apply not_before_le, B | apply L, X].
  - subst r. split; [reflexivity|]. intros x [<-|[]]. apply xle_refl.
Qed.
Lemma pop_length h m r : pop h = Some (m, r) -> length h = S (length r).
Proof. intro E. pose proof (pop_spec h) as P. rewrite E in P. destruct P as [P _]. apply Permutation_length in P. exact P. Qed.
(* the event found: everything dropped before it was retracted *)
Lemma next_event_spec fuel Tn : forall h n T i h' n', next_event fuel Tn h n = Ok ((T, i), h', n') ->
  exists D, Permutation h (D ++ (T, i) :: h') /\ (forall e, In e D -> xltb (fst e) (Tn (snd e)) = true) /\ xltb T (Tn i) = false /\
    (forall e, In e h' -> xle T (fst e)) /\ (n' = n - Z.of_nat (length D) - 1)%Z.
Proof.
  induction fuel as [|fuel IH]; intros h n T i h' n' E; [discriminate|]. cbn in E. pose proof (pop_spec h) as P. destruct (pop h) as [[[T0 i0] h0]|]; [|discriminate]. destruct P as [P L].
  destruct (xltb T0 (Tn i0)) eqn:R.
  - destruct (IH _ _ _ _ _ _ E) as (D & P2 & A & B & C & ->). exists ((T0, i0) :: D). split; [rewrite P; cbn; constructor; exact P2|]. split; [intros e [<-|I]; [exact R | apply A, I]|]. split; [exact B|]. split; [exact C|]. cbn [length]. lia.
  - injection E as <- <- <- <-. exists []. split; [exact P|]. split; [intros e []|]. split; [exact R|]. split; [|cbn; lia]. intros e I. apply (L e). rewrite P. right. exact I.
Qed.
Lemma next_event_total fuel Tn : forall h n, (length h < fuel)%nat -> (exists e, In e h /\ xltb (fst e) (Tn (snd e)) = false) -> exists r, next_event fuel Tn h n = Ok r.
Proof.
  induction fuel as [|fuel IH]; intros h n L (e & I & R); [lia|]. cbn. pose proof (pop_spec h) as P. destruct (pop h) as [[[T0 i0] h0]|] eqn:Q; [|subst h; destruct I]. destruct P as [P _].
  destruct (xltb T0 (Tn i0)) eqn:R0; [|eauto]. apply IH; [apply pop_length in Q; lia|]. exists e. split; [|exact R]. rewrite P in I. destruct I as [<-|I]; [cbn in R; congruence | exact I].
Qed.
Lemma next_event_fuel fuel Tn : forall h n, (length h < fuel)%nat -> next_event fuel Tn h n <> Raise OutOfFuel.
Proof.
  induction fuel as [|fuel IH]; intros h n L; [lia|]. cbn. destruct (pop h) as [[[T0 i0] h0]|] eqn:Q; [|discriminate]. destruct (xltb T0 (Tn i0)); [|discriminate]. apply IH. apply pop_length in Q. lia.
Qed.

Lemma NoDup_app {A} (l1 l2 : list A) : NoDup l1 -> NoDup l2 -> (forall x, In x l1 -> ~ In x l2) -> NoDup (l1 ++ l2).
Proof.
  induction 1 as [|a l1 N D IH]; intros H2 H; cbn; [exact H2|]. constructor; [intro X; apply in_app_or in X; destruct X as [X|X]; [exact (N X) | exact (H a (or_introl eq_refl) X)] | apply IH; [exact H2 | intros x X; apply H; right; exact X]].
Qed.
(* ---------- the zone ---------- *)
Record frame (s s' : state) : Prop := {
  f_rate : dz_dt s' = dz_dt s; f_Qs : Qs s' = Qs s; f_dt : dt_grid s' = dt_grid s; f_target : dz_target s' = dz_target s; f_next : T_next s' = T_next s; f_codes : codes s' = codes s;
  f_heap : heap s' = heap s; f_n : n_heap s' = n_heap s; f_clock : T_clock s' = T_clock s; f_last : last_active s' = last_active s; f_count : active_count s' = active_count s }.
Lemma new_nbrs_spec K IDs zone j : In j (new_nbrs K IDs zone) <-> (j < ncells K)%nat /\ ~ In j zone /\ exists i, In i IDs /\ near K i j = true.
Proof.
  unfold new_nbrs. rewrite filter_In, in_seq, andb_true_iff, negb_true_iff, mem_not, existsb_exists. split; [intros (A & B & i & C & D) | intros (A & B & i & C & D)]; (split; [lia|]); split; eauto.
Qed.
Lemma NOW_frame K s s' i : codes s' = codes s -> dz_target s' = dz_target s -> flux_cap s' i = flux_cap s i -> NOW K s' i = NOW K s i.
Proof. intros A B C. unfold NOW. rewrite A, B, C. reflexivity. Qed.
Lemma zone_ok fuel K : forall s IDs zone now s' zone' now', update_neighbors fuel K s IDs zone now = Ok (s', zone', now') ->
  exists add addnow, zone' = zone ++ add /\ now' = now ++ addnow /\ incl addnow add /\ NoDup add /\ NoDup addnow /\ (forall i, In i add -> ~ In i zone /\ (i < ncells K)%nat) /\ frame s s' /\
  (forall i, In i add -> DEM s' i = DEM s i + change s i /\ T_last s' i = T_clock s /\
     ((In i addnow /\ flux_cap s' i = 0) \/ (~ In i addnow /\ NOW K s' i = false /\ flux_cap s' i = flux_cap s i + change s i))) /\
  (forall i, ~ In i add -> DEM s' i = DEM s i /\ T_last s' i = T_last s i /\ flux_cap s' i = flux_cap s i) /\
  (forall i, update_count s' i = (update_count s i + (if mem i add then 1 else 0))%Z) /\
  (forall i j, In i (IDs ++ addnow) -> (j < ncells K)%nat -> near K i j = true -> In j zone').
Proof.
  induction fuel as [|fuel IH]; intros s IDs zone now s' zone' now' E; [discriminate|]. cbn [update_neighbors] in E. set (nbr := new_nbrs K IDs zone) in *.
  destruct (Nat.eqb_spec (length nbr) 0) as [L|L].
  { injection E as <- <- <-. exists [], []. rewrite !app_nil_r. split; [reflexivity|]. split; [reflexivity|]. split; [intros x []|]. split; [constructor|]. split; [constructor|]. split; [intros i []|]. split; [constructor; reflexivity|].
    split; [intros i []|]. split; [auto|]. split; [intro; cbn; lia|]. intros i j I J N. destruct (in_dec Nat.eq_dec j zone) as [Y|Y]; [exact Y|]. exfalso. assert (X : In j nbr) by (apply new_nbrs_spec; eauto). destruct nbr; [destruct X | discriminate]. }
  destruct (zone_size K <? length zone + length nbr)%nat; [discriminate|].
  set (s1 := update_T_last (update_flux_cap (update_DEM s nbr) nbr) nbr) in *. set (nw := filter (NOW K s1) nbr) in *.
  assert (NB : forall i, In i nbr -> ~ In i zone /\ (i < ncells K)%nat) by (intros i I; apply new_nbrs_spec in I; tauto).
  assert (ND : NoDup nbr) by (apply NoDup_filter, seq_NoDup).
  assert (A1 : forall i, In i nbr -> DEM s1 i = DEM s i + change s i /\ T_last s1 i = T_clock s /\ flux_cap s1 i = flux_cap s i + change s i) by (intros i I; cbn; rewrite !upd_in by exact I; auto).
  assert (A2 : forall i, ~ In i nbr -> DEM s1 i = DEM s i /\ T_last s1 i = T_last s i /\ flux_cap s1 i = flux_cap s i) by (intros i I; cbn; rewrite !upd_out by exact I; auto).
  assert (F1 : frame s s1) by (constructor; reflexivity).
  assert (U1 : forall i, update_count s1 i = (update_count s i + (if mem i nbr then 1 else 0))%Z) by (intro i; cbn; unfold upd; destruct (mem i nbr); lia).
  destruct (Nat.eqb_spec (length nw) 0) as [L2|L2].
  { injection E as <- <- <-. exists nbr, []. rewrite !app_nil_r. split; [reflexivity|]. split; [reflexivity|]. split; [intros x []|]. split; [exact ND|]. split; [constructor|]. split; [exact NB|]. split; [exact F1|]. split; [|split; [exact A2|split; [exact U1|]]].
    - intros i I. destruct (A1 i I) as (X1 & X2 & X3). split; [exact X1|]. split; [exact X2|]. right. split; [intros []|]. split; [|exact X3]. destruct (NOW K s1 i) eqn:Q; [|reflexivity].
      exfalso. assert (X : In i nw) by (apply filter_In; auto). destruct nw; [destruct X | discriminate].
    - intros i j I J N. apply in_or_app. destruct (in_dec Nat.eq_dec j zone) as [Y|Y]; [left; exact Y | right]. apply new_nbrs_spec. eauto. }
  destruct (zone_size K <? length now + length nw)%nat; [discriminate|].
  destruct (IH _ _ _ _ _ _ _ E) as (add2 & now2 & -> & -> & I2 & ND2 & NN2 & NB2 & F2 & C1 & C2 & U2 & CL). clear IH.
  assert (NWn : incl nw nbr) by (intros x X; apply filter_In in X; tauto).
  assert (DJ : forall i, In i nbr -> ~ In i add2) by (intros i I X; apply (proj1 (NB2 i X)); apply in_or_app; right; exact I).
  exists (nbr ++ add2), (nw ++ now2). rewrite !app_assoc. split; [reflexivity|]. split; [reflexivity|].
  split; [intros x X; apply in_app_or in X; apply in_or_app; destruct X as [X|X]; [left; apply NWn, X | right; apply I2, X]|].
  split; [apply NoDup_app; [exact ND | exact ND2 | exact DJ]|]. split; [apply NoDup_app; [apply NoDup_filter, ND | exact NN2 | intros i X Y; apply (DJ i (NWn i X)), I2, Y]|].
  split; [intros i X; apply in_app_or in X; destruct X as [X|X]; [apply NB, X | destruct (NB2 i X) as [Y Y2]; split; [intro Z; apply Y, in_or_app; left; exact Z | exact Y2]]|].
  split; [destruct F2; constructor; assumption|]. split; [|split; [|split]].
  - intros i I. apply in_app_or in I. destruct I as [I|I].
    + destruct (A1 i I) as (X1 & X2 & X3). destruct (C2 i (DJ i I)) as (Y1 & Y2 & Y3). cbn [DEM T_last reset_cap set_cap] in Y1, Y2. split; [congruence|]. split; [congruence|]. cbn [flux_cap reset_cap set_cap] in Y3.
      destruct (in_dec Nat.eq_dec i nw) as [W|W]; [left; split; [apply in_or_app; left; exact W | rewrite Y3, upd_in by exact W; reflexivity]|]. right. rewrite upd_out in Y3 by exact W.
      split; [intro X; apply in_app_or in X; destruct X as [X|X]; [exact (W X) | exact (DJ i I (I2 i X))]|]. split; [|congruence].
      rewrite (NOW_frame K s1 s' i); [|apply (f_codes _ _ F2) | apply (f_target _ _ F2) | exact Y3]. destruct (NOW K s1 i) eqn:Q; [|reflexivity]. exfalso. apply W. apply filter_In. auto.
    + assert (NI : ~ In i nbr) by (intro X; exact (DJ i X I)). assert (NW2 : ~ In i nw) by (intro X; exact (NI (NWn i X))). destruct (A2 i NI) as (X1 & X2 & X3). destruct (C1 i I) as (Y1 & Y2 & Y3).
      assert (CH : change (reset_cap s1 nw) i = change s i) by (unfold change; cbn [dz_dt T_clock T_last reset_cap set_cap]; rewrite X2; reflexivity). rewrite CH in *. cbn [DEM T_clock reset_cap set_cap flux_cap] in Y1, Y2, Y3. rewrite (upd_out nw) in Y3 by exact NW2. rewrite X3 in Y3.
      split; [rewrite Y1, X1; reflexivity|]. split; [exact Y2|]. destruct Y3 as [[Y3 Y4]|(Y3 & Y4 & Y5)]; [left; split; [apply in_or_app; right; exact Y3 | exact Y4]|]. right. split; [intro X; apply in_app_or in X; tauto|]. auto.
  - intros i I. assert (NI : ~ In i nbr /\ ~ In i add2) by (split; intro X; apply I, in_or_app; auto). destruct NI as [N1 N2]. destruct (A2 i N1) as (X1 & X2 & X3). destruct (C2 i N2) as (Y1 & Y2 & Y3). cbn [DEM T_last flux_cap reset_cap set_cap] in Y1, Y2, Y3.
    rewrite upd_out in Y3 by (intro X; exact (N1 (NWn i X))). split; [congruence|]. split; congruence.
  - intro i. rewrite U2. cbn [update_count reset_cap set_cap]. rewrite U1. unfold mem. rewrite existsb_app. fold (mem i nbr). fold (mem i add2). destruct (mem i nbr) eqn:M1, (mem i add2) eqn:M2; cbn; try lia. apply mem_In in M1. apply mem_In in M2. destruct (DJ i M1 M2).
  - intros i j I J N. rewrite <- app_assoc in I. apply in_app_or in I. destruct I as [I|I].
    + destruct (in_dec Nat.eq_dec j zone) as [Y|Y]; [apply in_or_app; left; apply in_or_app; left; exact Y|]. apply in_or_app. left. apply in_or_app. right. apply new_nbrs_spec. eauto.
    + apply (CL i j); assumption.
Qed.
(* every step of the recursion adds cells, so the depth is bounded *)
Lemma zone_fuel fuel K : forall s IDs zone now, (length (filter (fun j => negb (mem j zone)) (seq 0 (ncells K))) < fuel)%nat -> update_neighbors fuel K s IDs zone now <> Raise OutOfFuel.
Proof.
  induction fuel as [|fuel IH]; intros s IDs zone now L; [lia|]. cbn [update_neighbors]. set (nbr := new_nbrs K IDs zone). destruct (Nat.eqb_spec (length nbr) 0) as [L1|L1]; [discriminate|].
  destruct (zone_size K <? _)%nat; [discriminate|]. destruct (Nat.eqb _ 0); [discriminate|]. destruct (zone_size K <? _)%nat; [discriminate|]. apply IH.
  assert (X : (length (filter (fun j => negb (mem j (zone ++ nbr))) (seq 0 (ncells K))) < length (filter (fun j => negb (mem j zone)) (seq 0 (ncells K))))%nat); [|lia].
  assert (Y : exists j, In j nbr) by (destruct nbr as [|j r]; [cbn in L1; lia | exists j; left; reflexivity]). destruct Y as [j J].
  assert (JZ : (j < ncells K)%nat /\ ~ In j zone) by (apply new_nbrs_spec in J; tauto). destruct JZ as [J1 J2].
  apply (NoDup_incl_length (l := j :: filter (fun j => negb (mem j (zone ++ nbr))) (seq 0 (ncells K)))).
  - constructor; [|apply NoDup_filter, seq_NoDup]. intro X. apply filter_In in X. destruct X as [_ X]. apply negb_true_iff, mem_not in X. apply X, in_or_app. right. exact J.
  - intros x [<-|X]; [apply filter_In; split; [apply in_seq; lia | apply negb_true_iff, mem_not; exact J2]|]. apply filter_In in X. destruct X as [X1 X2]. apply filter_In. split; [exact X1|]. apply negb_true_iff, mem_not in X2. apply negb_true_iff, mem_not. intro Z. apply X2, in_or_app. left. exact Z.
Qed.
(* ---------- one update ---------- *)
Record step (K : par) (N : net) (s : state) (r : result) : Prop := {
  u_ev : exists h n, next_event (S (length (heap s))) (T_next s) (heap s) (n_heap s) = Ok ((At (T_clock (new r)), active r), h, n) /\
           heap (new r) = map (fun i => (T_next (new r) i, i)) (filter (not_edge K) (all_now r)) ++ h /\ n_heap (new r) = (n + Z.of_nat (length (filter (not_edge K) (all_now r))))%Z;
  u_clock : T_clock s <= T_clock (new r);
  u_active : In (active r) (all_now r); u_incl : incl (all_now r) (zone r); u_nodup : NoDup (zone r); u_nodup2 : NoDup (all_now r);
  u_range : forall i, In i (zone r) -> i = active r \/ (i < ncells K)%nat;
  u_in : forall i, In i (zone r) -> DEM (new r) i = DEM s i + dz_dt s i * (T_clock (new r) - T_last s i) /\ T_last (new r) i = T_clock (new r);
  u_out : forall i, ~ In i (zone r) -> DEM (new r) i = DEM s i /\ T_last (new r) i = T_last s i /\ flux_cap (new r) i = flux_cap s i /\ Qs (new r) i = Qs s i;
  u_now : forall i, In i (all_now r) -> flux_cap (new r) i = 0 /\ xpos (dt_grid (new r) i) = true /\ dz_target (new r) i = target (dt_grid (new r) i) (dz_dt (new r) i);
  u_notnow : forall i, ~ In i (all_now r) -> dt_grid (new r) i = dt_grid s i /\ dz_target (new r) i = dz_target s i;
  u_rest : forall i, In i (zone r) -> ~ In i (all_now r) -> flux_cap (new r) i = flux_cap s i + dz_dt s i * (T_clock (new r) - T_last s i) /\
             ((Z.eqb (codes s i) 0 && not_edge K i) || too_large (flux_cap (new r) i) (dz_target s i) || wrong_sign (flux_cap (new r) i) (dz_target s i)) && negb (Qeq_bool (flux_cap (new r) i) 0) = false;
  u_codes : codes (new r) = code N;
  u_Qs : forall i, In i (zone r) -> Qs (new r) i = law K (disch K (area N i)) (if Nat.eqb (parent N i) 0 then 0 else (DEM (new r) i - DEM (new r) (parent N i)) / ds N i);
  u_rate : dz_dt (new r) = upd (base_IDs K) (fun _ => - BLR K) (upd (zone r) (rate K (codes (new r)) (Qs (new r))) (dz_dt s));
  u_next : forall i, T_next (new r) i = if mem i (all_now r) && not_edge K i then xadd (T_clock (new r)) (dt_grid (new r) i) else T_next s i;
  u_count : forall i, update_count (new r) i = (update_count s i + (if mem i (zone r) then 1 else 0))%Z;
  u_stall : (active_count (new r) = if Nat.eqb (active r) (last_active s) then S (active_count s) else 0%nat) /\ ((10 < active_count (new r))%nat -> dt_grid (new r) (active r) = At (dt_limit K));
  u_dt : forall i, In i (all_now r) -> ((10 < active_count (new r))%nat /\ i = active r) \/
     dt_grid (new r) i = (if Z.eqb (code N i) 0 && not_edge K i then dt_pit K (new r) i else if Qltb 0 (Qs (new r) i) then At (dt_equal K N (new r) i) else dt_grid s i);
  u_closed : forall i j, In i (all_now r) -> (j < ncells K)%nat -> near K i j = true -> In j (zone r) }.
Lemma mem_filter f l i : mem i (filter f l) = mem i l && f i.
Proof. apply eq_true_iff_eq. rewrite andb_true_iff, !mem_In, filter_In. tauto. Qed.
Lemma update_ok K N s r : update K N s = Ok r -> step K N s r.
Proof.
  intro E. unfold update in E. destruct (next_event (S (length (heap s))) (T_next s) (heap s) (n_heap s)) as [[[[T i] h] n]|] eqn:EV; [|discriminate]. cbn [bind] in E. destruct T as [T|]; [|discriminate].
  destruct (Qltb T (T_clock s)) eqn:Lt; [discriminate|]. set (sa := activate s T i h n) in *. set (sb := update_T_last (reset_cap (update_DEM sa [i]) [i]) [i]) in *.
  destruct (update_neighbors (S (ncells K)) K sb [i] [i] [i]) as [[[sc zone] now]|] eqn:ZN; [|discriminate]. cbn [bind] in E.
  destruct (zone_ok _ _ _ _ _ _ _ _ _ ZN) as (add & addnow & -> & -> & I1 & ND & NN & NB & F & C1 & C2 & UC & CL). destruct F as [f1 f2 f3 f4 f5 f6 f7 f8 f9 f10 f11].
  set (sd := update_dz_dt K (update_fluxes K N sc ([i] ++ add)) ([i] ++ add)) in *. destruct (update_dt K N sd i ([i] ++ addnow)) as [se|] eqn:DT; [|discriminate]. cbn [bind] in E. injection E as <-.
  unfold update_dt in DT. set (d0 := upd ([i] ++ addnow) (new_dt K N sd) (dt_grid sd)) in DT. set (d1 := if (10 <? active_count sd)%nat then upd [i] (fun _ => At (dt_limit K)) d0 else d0) in DT.
  destruct (negb (forallb (fun i => xpos (d1 i)) ([i] ++ addnow))) eqn:PO; [discriminate|]. apply negb_false_iff in PO. injection DT as <-.
  assert (SA : ~ In i add) by (intro X; apply (proj1 (NB i X)); left; reflexivity).
  assert (CK : T_clock sc = T) by (rewrite f9; reflexivity). assert (AC : active_count sd = if Nat.eqb i (last_active s) then S (active_count s) else 0%nat) by (cbn; rewrite f11; reflexivity).
  assert (CH : forall j, ~ In j [i] -> change sb j = dz_dt s j * (T - T_last s j)) by (intros j J; unfold change; cbn [dz_dt T_clock T_last sb update_T_last reset_cap set_cap update_DEM sa activate]; rewrite upd_out by exact J; reflexivity).
  assert (B1 : DEM sb i = DEM s i + dz_dt s i * (T - T_last s i) /\ T_last sb i = T /\ flux_cap sb i = 0) by (cbn [DEM T_last flux_cap T_clock sb update_T_last reset_cap set_cap update_DEM sa activate]; rewrite !upd_in by (left; reflexivity); auto).
  assert (B2 : forall j, ~ In j [i] -> DEM sb j = DEM s j /\ T_last sb j = T_last s j /\ flux_cap sb j = flux_cap s j) by (intros j J; cbn [DEM T_last flux_cap sb update_T_last reset_cap set_cap update_DEM sa activate]; rewrite !upd_out by exact J; auto).
  assert (SG : forall j, In j add -> ~ In j [i]) by (intros j J; exact (proj1 (NB j J))).
  assert (SP : forall (l : list nat) j, ~ In j (i :: l) -> ~ In j [i] /\ ~ In j l) by (intros l j J; split; [intros [X|[]]; apply J; left; exact X | intro X; apply J; right; exact X]).
  constructor; cbn [new active Des_Model.zone all_now update_T_next update_target T_clock heap n_heap DEM T_last flux_cap Qs dt_grid dz_target codes dz_dt T_next update_count active_count sd update_dz_dt update_fluxes].
  - exists h, n. rewrite CK. split; [exact EV|]. rewrite f7, f8. split; [|reflexivity]. change (heap sb) with h. f_equal. apply map_ext_in. intros j J. rewrite upd_in by exact J. reflexivity.
  - rewrite CK. apply Qltb_ge. exact Lt.
  - left. reflexivity.
  - intros x [X|X]; [left; exact X | right; apply I1, X].
  - constructor; assumption.
  - constructor; [intro X; exact (SA (I1 _ X)) | exact NN].
  - intros j [->|J]; [left; reflexivity | right; apply (NB j J)].
  - rewrite CK. intros j [<-|J].
    + destruct (C2 i SA) as (-> & -> & _). destruct B1 as (-> & -> & _). auto.
    + destruct (C1 j J) as (-> & -> & _). destruct (B2 j (SG j J)) as (-> & _). rewrite CH by (exact (SG j J)). auto.
  - intros j J. destruct (SP add j J) as [J1 J2]. destruct (C2 j J2) as (-> & -> & ->). destruct (B2 j J1) as (-> & -> & ->). repeat split. rewrite upd_out by exact J. rewrite f2. reflexivity.
  - intros j J. assert (D : xpos (d1 j) = true) by (rewrite forallb_forall in PO; apply PO; exact J). split; [|split; [exact D | rewrite upd_in by exact J; reflexivity]].
    destruct J as [<-|J]; [destruct (C2 i SA) as (_ & _ & ->); apply B1|]. destruct (C1 j (I1 j J)) as (_ & _ & [[_ X]|[X _]]); [exact X | contradiction].
  - intros j J. rewrite upd_out by exact J. rewrite f4. split; [|reflexivity]. unfold d1. destruct (SP addnow j J) as [J0 _]. destruct (10 <? active_count sd)%nat; [rewrite (upd_out [i]) by exact J0|]; unfold d0; rewrite upd_out by exact J; cbn; rewrite f3; reflexivity.
  - intros j J JN. assert (J2 : In j add) by (destruct J as [<-|J]; [exfalso; apply JN; left; reflexivity | exact J]). destruct (C1 j J2) as (_ & _ & [[X _]|(X & Y & ->)]); [exfalso; apply JN; right; exact X|].
    destruct (B2 j (SG j J2)) as (_ & _ & E3). rewrite E3, CH, CK by (exact (SG j J2)). split; [reflexivity|]. unfold NOW in Y. rewrite f6, f4 in Y. cbn [codes dz_target sb update_T_last reset_cap set_cap update_DEM sa activate] in Y.
    destruct (C1 j J2) as (_ & _ & [[X2 _]|(_ & _ & Z)]); [contradiction|]. rewrite Z, E3, CH in Y by (exact (SG j J2)). exact Y.
  - reflexivity.
  - intros j J. rewrite upd_in by exact J. reflexivity.
  - rewrite f1. reflexivity.
  - intro j. unfold upd at 1. rewrite mem_filter. rewrite f5. destruct (mem j ([i] ++ addnow) && not_edge K j); reflexivity.
  - intro j. rewrite (UC j). change (update_count sb j) with (upd [i] (fun i => (update_count s i + 1)%Z) (update_count s) j). change (mem j (i :: add)) with (Nat.eqb j i || mem j add). unfold upd. change (mem j [i]) with (Nat.eqb j i || false). destruct (Nat.eqb_spec j i) as [E0|D]; destruct (mem j add) eqn:M2; cbn [orb]; try lia. apply mem_In in M2. destruct (SG j M2). left. congruence.
  - rewrite f11. split; [reflexivity|]. intro X. unfold d1. cbn [active_count sd update_dz_dt update_fluxes]. rewrite f11. apply Nat.ltb_lt in X. rewrite X. rewrite upd_in by (left; reflexivity). reflexivity.
  - intros j J. rewrite f11. destruct (10 <? active_count sd)%nat eqn:X.
    + destruct (Nat.eq_dec j i) as [->|D]; [left; split; [apply Nat.ltb_lt in X; cbn in X; rewrite f11 in X; exact X | reflexivity]|]. right. unfold d1. rewrite (upd_out [i]) by (intros [Y|[]]; congruence). unfold d0. rewrite upd_in by exact J. unfold new_dt. cbn. rewrite f3. reflexivity.
    + right. unfold d1, d0. rewrite upd_in by exact J. unfold new_dt. cbn. rewrite f3. reflexivity.
  - intros a b A B NE. apply (CL a b A B NE).
Qed.
(* ---------- invariant of all reachable states ---------- *)
Record Inv (K : par) (s : state) : Prop := {
  i_ge : forall T i, In (T, i) (heap s) -> xle (At (T_clock s)) T /\ (i < ncells K)%nat;
  i_sched : forall i, (i < ncells K)%nat -> not_edge K i = true -> In (T_next s i, i) (heap s);
  i_edge : forall T i, In (T, i) (heap s) -> not_edge K i = false -> T = T_next s i;
  i_n : n_heap s = Z.of_nat (length (heap s));
  i_last : forall i, T_last s i <= T_clock s;
  i_base : forall i, In i (base_IDs K) -> dz_dt s i = - BLR K;
  i_cap : forall i, flux_cap s i == 0 \/ within (flux_cap s i) (dz_target s i) }.
Lemma inv_start K N dem s : start K N dem = Ok s -> Inv K s.
Proof.
  unfold start. destruct (existsb _ _); [discriminate|]. set (Q0 := fun i => law K (disch K (area N i)) (slope0 N dem i)). set (z := upd (base_IDs K) (fun _ => - BLR K) (rate K (code N) Q0)).
  set (d := upd (base_IDs K) (fun _ => At (dt_limit K)) _). destruct (negb _) eqn:P; [discriminate|]. apply negb_false_iff in P. rewrite forallb_forall in P. intro E. injection E as <-. constructor; cbn [heap T_clock T_next n_heap T_last dz_dt flux_cap dz_target].
  - intros T i I. apply in_map_iff in I. destruct I as (j & E & J). injection E as <- <-. pose proof (P j J) as X. apply in_seq in J. split; [|lia]. destruct (d j); cbn in *; [apply Qltb_lt in X; lra | exact I].
  - intros i I _. apply in_map_iff. exists i. split; [reflexivity | apply in_seq; lia].
  - intros T i I _. apply in_map_iff in I. destruct I as (j & E & J). injection E as <- <-. reflexivity.
  - rewrite map_length, seq_length. reflexivity.
  - intro. lra.
  - intros i I. unfold z. apply upd_in with (f := fun _ => - BLR K). exact I.
  - intro. left. reflexivity.
Qed.
(* what the heap gives: the earliest next time *)
Lemma event_facts K s T i h n : Inv K s -> next_event (S (length (heap s))) (T_next s) (heap s) (n_heap s) = Ok ((T, i), h, n) ->
  xle (At (T_clock s)) T /\ (i < ncells K)%nat /\ xle T (T_next s i) /\ xle (T_next s i) T /\
  (forall j, (j < ncells K)%nat -> not_edge K j = true -> xle T (T_next s j)) /\ (forall e, In e h -> In e (heap s) /\ xle T (fst e)) /\
  (forall j, (j < ncells K)%nat -> not_edge K j = true -> j <> i -> In (T_next s j, j) h) /\ n = Z.of_nat (length h).
Proof.
  intros V E. destruct (next_event_spec _ _ _ _ _ _ _ _ E) as (D & P & A & B & C & L). apply xltb_spec in B.
  assert (M : forall e, In e (heap s) <-> In e (D ++ (T, i) :: h)) by (intro e; split; apply Permutation_in; [exact P | symmetry; exact P]).
  assert (S1 : forall j, (j < ncells K)%nat -> not_edge K j = true -> In (T_next s j, j) ((T, i) :: h)).
  { intros j J X. pose proof (i_sched _ _ V j J X) as I. apply M in I. apply in_app_or in I. destruct I as [I|I]; [|exact I]. apply A in I. cbn in I. exfalso. pose proof (xle_refl (T_next s j)) as R. apply xltb_spec in R. congruence. }
  assert (S2 : forall j, (j < ncells K)%nat -> not_edge K j = true -> xle T (T_next s j)).
  { intros j J X. destruct (S1 j J X) as [I|I]; [injection I as -> _; apply xle_refl | exact (C _ I)]. }
  assert (I0 : In (T, i) (heap s)) by (apply M; apply in_or_app; right; left; reflexivity). destruct (i_ge _ _ V T i I0) as [G1 G2].
  split; [exact G1|]. split; [exact G2|]. split; [destruct (not_edge K i) eqn:X; [apply S2; assumption | rewrite (i_edge _ _ V T i I0 X); apply xle_refl]|]. split; [exact B|]. split; [exact S2|]. split; [|split].
  - intros e I. split; [apply M; apply in_or_app; right; right; exact I | exact (C e I)].
  - intros j J X NE. destruct (S1 j J X) as [I|I]; [injection I as _ I; congruence | exact I].
  - rewrite L, (i_n _ _ V). apply Permutation_length in P. rewrite P, app_length. cbn [length]. lia.
Qed.
Lemma sgn_spec c x : sgn c = sgn x -> (0 < c <-> 0 < x) /\ (c < 0 <-> x < 0).
Proof.
  unfold sgn. destruct (Qltb 0 c) eqn:A, (Qltb 0 x) eqn:B; try rewrite Qltb_lt in *; try (apply Qltb_ge in A); try (apply Qltb_ge in B).
  - intros _. lra.
  - destruct (Qltb x 0) eqn:C; discriminate.
  - destruct (Qltb c 0) eqn:C; discriminate.
  - destruct (Qltb c 0) eqn:C, (Qltb x 0) eqn:D; try discriminate; intros _; try rewrite Qltb_lt in *; try (apply Qltb_ge in C); try (apply Qltb_ge in D); lra.
Qed.
Lemma not_now b c t : (b || too_large c t || wrong_sign c t) && negb (Qeq_bool c 0) = false -> c == 0 \/ (b = false /\ within c t).
Proof.
  rewrite andb_false_iff, !orb_false_iff, negb_false_iff, Qeq_bool_iff. intros [[[Z A] B]|H]; [|left; exact H]. right. split; [exact Z|]. destruct t as [x|p|]; cbn in *; [| |discriminate].
  - apply negb_false_iff, Z.eqb_eq, sgn_spec in B. apply Qleb_gt in A. split; [exact A | exact B].
  - apply negb_false_iff, Z.eqb_eq in B. unfold sgn in B. destruct p; destruct (Qltb 0 c) eqn:X; try discriminate; [apply Qltb_lt; exact X | destruct (Qltb c 0) eqn:Y; [discriminate | discriminate] | destruct (Qltb c 0) eqn:Y; [apply Qltb_lt; exact Y | discriminate]].
Qed.
Lemma inv_update K N s r : Inv K s -> update K N s = Ok r -> Inv K (new r).
Proof.
  intros V E. apply update_ok in E. destruct (u_ev _ _ _ _ E) as (h & n & EV & HP & NH). destruct (event_facts _ _ _ _ _ _ V EV) as (G1 & G2 & G3 & G4 & G5 & G6 & G7 & G8).
  assert (RG : forall i, In i (all_now r) -> (i < ncells K)%nat) by (intros i I; destruct (u_range _ _ _ _ E i (u_incl _ _ _ _ E i I)) as [->|X]; [exact G2 | exact X]).
  assert (TN : forall i, In i (all_now r) -> not_edge K i = true -> T_next (new r) i = xadd (T_clock (new r)) (dt_grid (new r) i)) by (intros i I X; rewrite (u_next _ _ _ _ E i), (proj2 (mem_In i _) I), X; reflexivity).
  constructor.
  - intros T i I. rewrite HP in I. apply in_app_or in I. destruct I as [I|I].
    + apply in_map_iff in I. destruct I as (j & Q & J). injection Q as <- <-. apply filter_In in J. destruct J as [J1 J2]. split; [|apply RG, J1]. rewrite (TN j J1 J2). destruct (u_now _ _ _ _ E j J1) as (_ & X & _). destruct (dt_grid (new r) j); cbn in *; [apply Qltb_lt in X; lra | exact I].
    + destruct (G6 _ I) as [I1 I2]. split; [exact I2 | apply (i_ge _ _ V T i I1)].
  - intros i I X. rewrite HP. apply in_or_app. destruct (in_dec Nat.eq_dec i (all_now r)) as [W|W].
    + left. apply in_map_iff. exists i. split; [reflexivity|]. apply filter_In. auto.
    + right. rewrite (u_next _ _ _ _ E i), (proj2 (mem_not i _) W). cbn [andb]. apply G7; [exact I | exact X|]. intros ->. apply W, (u_active _ _ _ _ E).
  - intros T i I X. rewrite HP in I. apply in_app_or in I. rewrite (u_next _ _ _ _ E i), X, andb_false_r. destruct I as [I|I].
    + apply in_map_iff in I. destruct I as (j & Q & J). injection Q as _ <-. apply filter_In in J. destruct J. congruence.
    + apply (i_edge _ _ V T i); [apply G6, I | exact X].
  - rewrite HP, NH, app_length, map_length, G8. lia.
  - intro i. destruct (in_dec Nat.eq_dec i (zone r)) as [Z|Z]; [destruct (u_in _ _ _ _ E i Z) as [_ ->]; lra|]. destruct (u_out _ _ _ _ E i Z) as (_ & -> & _). pose proof (i_last _ _ V i). pose proof (u_clock _ _ _ _ E). lra.
  - intros i I. rewrite (u_rate _ _ _ _ E). rewrite upd_in by exact I. reflexivity.
  - intro i. destruct (in_dec Nat.eq_dec i (all_now r)) as [W|W]; [left; destruct (u_now _ _ _ _ E i W) as [-> _]; reflexivity|]. destruct (u_notnow _ _ _ _ E i W) as [_ ->]. destruct (in_dec Nat.eq_dec i (zone r)) as [Z|Z].
    + destruct (u_rest _ _ _ _ E i Z W) as [_ X]. apply not_now in X. tauto.
    + destruct (u_out _ _ _ _ E i Z) as (_ & _ & -> & _). apply (i_cap _ _ V).
Qed.
Lemma inv_run K Ns : forall s s', Inv K s -> run K Ns s = Ok s' -> Inv K s'.
Proof.
  induction Ns as [|N Ns IH]; intros s s' V E; cbn in E; [injection E as <-; exact V|]. destruct (update K N s) as [r|] eqn:U; [|discriminate]. cbn in E. eapply IH; [eapply inv_update; eassumption | exact E].
Qed.
Lemma inv_reachable K s : reachable K s -> Inv K s.
Proof. intros (N0 & dem & Ns & s0 & A & B). eapply inv_run; [eapply inv_start; exact A | exact B]. Qed.

(* ---------- theorems ---------- *)
(* the clock never goes back: the exit for it is never taken *)
Theorem C83_clock K N s r : reachable K s -> update K N s = Ok r -> T_clock s <= T_clock (new r).
Proof. intros _ E. apply update_ok in E. apply (u_clock _ _ _ _ E). Qed.
Print Assumptions C83_clock.
Theorem C83_not_backwards K s T i h n : reachable K s -> next_event (S (length (heap s))) (T_next s) (heap s) (n_heap s) = Ok ((At T, i), h, n) -> T_clock s <= T.
Proof. intros R E. apply (event_facts _ _ _ _ _ _ (inv_reachable _ _ R) E). Qed.
Print Assumptions C83_not_backwards.
(* the cell processed is due now, and no inner cell is due earlier *)
Theorem C83_earliest K N s r : reachable K s -> update K N s = Ok r ->
  (active r < ncells K)%nat /\ (exists t, T_next s (active r) = At t /\ T_clock (new r) == t) /\
  forall j, (j < ncells K)%nat -> not_edge K j = true -> xle (At (T_clock (new r))) (T_next s j).
Proof.
  intros R E. apply update_ok in E. destruct (u_ev _ _ _ _ E) as (h & n & EV & _). destruct (event_facts _ _ _ _ _ _ (inv_reachable _ _ R) EV) as (_ & G2 & G3 & G4 & G5 & _). split; [exact G2|]. split; [|exact G5].
  destruct (T_next s (active r)) as [t|]; cbn in *; [|destruct G4]. exists t. split; [reflexivity | lra].
Qed.
Print Assumptions C83_earliest.
(* every inner cell is always scheduled, never for a time that is over *)
Theorem C83_scheduled K s i : reachable K s -> (i < ncells K)%nat -> not_edge K i = true -> In (T_next s i, i) (heap s) /\ xle (At (T_clock s)) (T_next s i).
Proof. intros R I X. pose proof (inv_reachable _ _ R) as V. split; [apply (i_sched _ _ V); assumption|]. apply (i_ge _ _ V _ i). apply (i_sched _ _ V); assumption. Qed.
Print Assumptions C83_scheduled.
Theorem C83_heap_size K s : reachable K s -> n_heap s = Z.of_nat (length (heap s)).
Proof. intro R. apply (i_n _ _ (inv_reachable _ _ R)). Qed.
Print Assumptions C83_heap_size.
(* a grid with an inner cell never runs out of events, and neither the search nor the zone goes on for ever *)
Theorem C83_no_index_error K N s : reachable K s -> (exists i, (i < ncells K)%nat /\ not_edge K i = true) -> update K N s <> Raise IndexError.
Proof.
  intros R (i & I & X). pose proof (inv_reachable _ _ R) as V. unfold update.
  destruct (next_event_total (S (length (heap s))) (T_next s) (heap s) (n_heap s)) as [[[[T j] h] n] E]; [lia | exists (T_next s i, i); split; [apply (i_sched _ _ V); assumption | apply xltb_spec, xle_refl]|]. rewrite E. cbn [bind].
  destruct T as [T|]; [|discriminate]. destruct (Qltb T (T_clock s)); [discriminate|].
  assert (Z : forall f s0 a b c, update_neighbors f K s0 a b c <> Raise IndexError).
  { induction f as [|f IH]; intros s0 a b c; [discriminate|]. cbn [update_neighbors]. destruct (Nat.eqb _ 0); [discriminate|]. destruct (zone_size K <? _)%nat; [discriminate|]. destruct (Nat.eqb _ 0); [discriminate|]. destruct (zone_size K <? _)%nat; [discriminate|]. apply IH. }
  match goal with |- bind ?x _ <> _ => destruct x as [[[sc z] w]|e] eqn:ZN end; cbn [bind]; [|intro Q; injection Q as ->; exact (Z _ _ _ _ _ ZN)]. unfold update_dt. destruct (negb _); discriminate.
Qed.
Print Assumptions C83_no_index_error.
Theorem C83_terminates K N s : update K N s <> Raise OutOfFuel.
Proof.
  unfold update. destruct (next_event (S (length (heap s))) (T_next s) (heap s) (n_heap s)) as [[[[T j] h] n]|e] eqn:E; cbn [bind]; [|intro Q; injection Q as ->; exact (next_event_fuel (S (length (heap s))) _ _ _ (Nat.lt_succ_diag_r _) E)].
  destruct T as [T|]; [|discriminate]. destruct (Qltb T (T_clock s)); [discriminate|].
  match goal with |- bind ?x _ <> _ => destruct x as [[[sc z] w]|e] eqn:ZN end; cbn [bind]; [unfold update_dt; destruct (negb _); discriminate|]. intro Q. injection Q as ->. apply (zone_fuel (S (ncells K)) K _ _ _ _) in ZN; [exact ZN|].
  rewrite <- (seq_length (ncells K) 0) at 2. apply Nat.lt_succ_r. generalize (seq 0 (ncells K)). intro l. clear. induction l as [|a l IH]; [cbn; lia|]. cbn [filter length]. destruct (negb _); cbn [length]; lia.
Qed.
Print Assumptions C83_terminates.
(* no change of elevation is lost or made by an event: every cell's elevation is continuous in time *)
Theorem C83_continuous K N s r i : reachable K s -> update K N s = Ok r -> elev (new r) (T_clock (new r)) i == elev s (T_clock (new r)) i.
Proof.
  intros R E. pose proof (inv_reachable _ _ R) as V. apply update_ok in E. unfold elev. destruct (in_dec Nat.eq_dec i (zone r)) as [Z|Z].
  - destruct (u_in _ _ _ _ E i Z) as [-> ->]. ring.
  - destruct (u_out _ _ _ _ E i Z) as (-> & -> & _). assert (X : dz_dt (new r) i = dz_dt s i).
    { rewrite (u_rate _ _ _ _ E). destruct (in_dec Nat.eq_dec i (base_IDs K)) as [B|B]; [rewrite upd_in by exact B; symmetry; apply (i_base _ _ V i B)|]. rewrite !upd_out by assumption. reflexivity. }
    rewrite X. reflexivity.
Qed.
Print Assumptions C83_continuous.
(* the cells of the zone are up to date, together with all neighbours of the cells that had an event; nothing is ahead of the clock *)
Theorem C83_up_to_date K N s r : reachable K s -> update K N s = Ok r ->
  (forall i, In i (zone r) -> T_last (new r) i = T_clock (new r) /\ DEM (new r) i == elev s (T_clock (new r)) i) /\
  (forall i j, In i (all_now r) -> (j < ncells K)%nat -> near K i j = true -> In j (zone r)) /\ (forall i, T_last (new r) i <= T_clock (new r)).
Proof.
  intros R E. pose proof (inv_update _ _ _ _ (inv_reachable _ _ R) E) as V. apply update_ok in E. split; [|split; [apply (u_closed _ _ _ _ E) | apply (i_last _ _ V)]].
  intros i I. destruct (u_in _ _ _ _ E i I) as [A B]. split; [exact B|]. rewrite A. reflexivity.
Qed.
Print Assumptions C83_up_to_date.
(* near is: at most one row and one column apart *)
Theorem C83_near K i j : near K i j = true <-> (Z.abs (Z.of_nat (row K i) - Z.of_nat (row K j)) <= 1 /\ Z.abs (Z.of_nat (col K i) - Z.of_nat (col K j)) <= 1)%Z.
Proof. unfold near. rewrite !andb_true_iff, !Nat.leb_le. lia. Qed.
Print Assumptions C83_near.
(* between events a cell moves by less than predicted, in the predicted direction *)
Theorem C83_within_target K s i : reachable K s -> flux_cap s i == 0 \/ within (flux_cap s i) (dz_target s i).
Proof. intro R. apply (i_cap _ _ (inv_reachable _ _ R)). Qed.
Print Assumptions C83_within_target.
(* ... where flux_cap is the change of elevation since the last event *)
Theorem C83_change_since_event K N s r i : update K N s = Ok r ->
  (In i (all_now r) -> flux_cap (new r) i = 0) /\ (~ In i (all_now r) -> flux_cap (new r) i - flux_cap s i == DEM (new r) i - DEM s i).
Proof.
  intro E. apply update_ok in E. split; [apply (u_now _ _ _ _ E)|]. intro W. destruct (in_dec Nat.eq_dec i (zone r)) as [Z|Z].
  - destruct (u_rest _ _ _ _ E i Z W) as [-> _]. destruct (u_in _ _ _ _ E i Z) as [-> _]. ring.
  - destruct (u_out _ _ _ _ E i Z) as (-> & _ & -> & _). ring.
Qed.
Print Assumptions C83_change_since_event.
(* inner pits that moved have an event at once *)
Theorem C83_pits_now K N s r i : update K N s = Ok r -> In i (zone r) -> codes s i = 0%Z -> not_edge K i = true -> ~ elev s (T_clock (new r)) i == DEM s i -> flux_cap s i == 0 -> In i (all_now r).
Proof.
  intros E Z C X M F. apply update_ok in E. destruct (in_dec Nat.eq_dec i (all_now r)) as [W|W]; [exact W|]. exfalso. destruct (u_rest _ _ _ _ E i Z W) as [Y H]. rewrite C, X in H. cbn in H. apply negb_false_iff, Qeq_bool_iff in H. rewrite Y, F in H. apply M. unfold elev. lra.
Qed.
Print Assumptions C83_pits_now.
(* after its event an inner cell is due strictly later: after the time in which the fluxes level half the drop, or pits move max_dz *)
Theorem C83_next_time K N s r i : update K N s = Ok r -> In i (all_now r) -> not_edge K i = true ->
  T_next (new r) i = xadd (T_clock (new r)) (dt_grid (new r) i) /\ xltb (At (T_clock (new r))) (T_next (new r) i) = true /\
  ((active_count (new r) <= 10)%nat ->
     (code N i = 0%Z -> forall t, dt_grid (new r) i = At t -> t * Qabs (dz_dt (new r) i) == max_dz_for_pits K) /\
     (code N i <> 0%Z -> 0 < Qs (new r) i -> exists t, dt_grid (new r) i = At t /\ 2 * (t * Qs (new r) i) == CFL K * (da K * (DEM (new r) i - DEM (new r) (parent N i))))) /\
  ((10 < active_count (new r))%nat -> i = active r -> dt_grid (new r) i = At (dt_limit K)).
Proof.
  intros E W X. apply update_ok in E. pose proof (u_next _ _ _ _ E i) as T. rewrite (proj2 (mem_In i _) W), X in T. cbn [andb] in T. split; [exact T|]. destruct (u_now _ _ _ _ E i W) as (_ & P & _). split; [|split].
  - rewrite T. destruct (dt_grid (new r) i); cbn in *; [apply Qltb_lt in P; apply Qltb_lt; lra | reflexivity].
  - intro C. destruct (u_dt _ _ _ _ E i W) as [[Y _]|Y]; [lia|]. split.
    + intros C0 t Q. rewrite C0, X in Y. cbn in Y. unfold dt_pit in Y. rewrite Q in Y. destruct (Qeq_bool (dz_dt (new r) i) 0) eqn:Z; [discriminate|]. injection Y as ->. field. apply Qeqb_neq in Z. intro A. apply Z. revert A. apply Qabs_case; intros; lra.
    + intros C0 Q. apply Z.eqb_neq in C0. rewrite C0 in Y. cbn [andb] in Y. apply Qltb_lt in Q. rewrite Q in Y. eexists. split; [exact Y|]. unfold dt_equal. apply Qltb_lt in Q. field. lra.
  - intros C ->. apply (proj2 (u_stall _ _ _ _ E)). exact C.
Qed.
Print Assumptions C83_next_time.
(* rates of the cells of the zone: uplift minus outflow plus inflow, of the new fluxes; other cells keep theirs *)
Theorem C83_zone_rates K N s r i : update K N s = Ok r -> ~ In i (base_IDs K) ->
  (In i (zone r) -> dz_dt (new r) i == U K - Qs (new r) i / da K + inflow K (codes (new r)) (Qs (new r)) i) /\ (~ In i (zone r) -> dz_dt (new r) i = dz_dt s i).
Proof.
  intros E B. apply update_ok in E. rewrite (u_rate _ _ _ _ E). rewrite (upd_out (base_IDs K)) by exact B. split; intro Z; [rewrite upd_in by exact Z; unfold rate; ring | apply upd_out; exact Z].
Qed.
Print Assumptions C83_zone_rates.
(* fluxes of the zone: the law applied to discharge and the slope to the parent *)
Theorem C83_zone_fluxes K N s r i : update K N s = Ok r -> In i (zone r) -> parent N i <> 0%nat ->
  Qs (new r) i = law K (disch K (area N i)) ((DEM (new r) i - DEM (new r) (parent N i)) / ds N i).
Proof. intros E Z P. apply update_ok in E. rewrite (u_Qs _ _ _ _ E i Z). apply Nat.eqb_neq in P. rewrite P. reflexivity. Qed.
Print Assumptions C83_zone_fluxes.
(* a cell that flows into cell 0 is taken for a cell without flow *)
Theorem C83_parent_zero_refuted K N s r i : update K N s = Ok r -> In i (zone r) -> parent N i = 0%nat -> Qs (new r) i = law K (disch K (area N i)) 0.
Proof. intros E Z P. apply update_ok in E. rewrite (u_Qs _ _ _ _ E i Z), P. reflexivity. Qed.
Print Assumptions C83_parent_zero_refuted.
(* sediment balance: kept when no cell of the zone sends sediment, before or after, to a cell outside it *)
Theorem C83_balance_partial K N s r : update K N s = Ok r -> balanced K s -> (forall i, ~ In i (zone r) -> code N i = codes s i) ->
  (forall i k, (i < ncells K)%nat -> (k < 8)%nat -> ~ In i (zone r) -> ~ In i (base_IDs K) -> In (nbr K i k) (zone r) -> codes s (nbr K i k) <> nth k opps 0%Z /\ code N (nbr K i k) <> nth k opps 0%Z) -> balanced K (new r).
Proof.
  intros E B C H i I NB. destruct (C83_zone_rates K N s r i E NB) as [A1 A2]. destruct (in_dec Nat.eq_dec i (zone r)) as [Z|Z]; [exact (A1 Z)|]. rewrite (A2 Z), (B i I NB). apply update_ok in E. destruct (u_out _ _ _ _ E i Z) as (_ & _ & _ & ->).
  assert (X : inflow K (codes s) (Qs s) i == inflow K (codes (new r)) (Qs (new r)) i); [|rewrite X; reflexivity]. unfold inflow. apply qsum_ext. intros k Hk. rewrite (u_codes _ _ _ _ E). destruct (in_dec Nat.eq_dec (nbr K i k) (zone r)) as [Y|Y].
  - destruct (H i k I Hk Z NB Y) as [H1 H2]. apply Z.eqb_neq in H1. apply Z.eqb_neq in H2. rewrite H1, H2. reflexivity.
  - rewrite (C _ Y). destruct (u_out _ _ _ _ E _ Y) as (_ & _ & _ & ->). reflexivity.
Qed.
Print Assumptions C83_balance_partial.
(* at the end every cell is brought to the time of the clock *)
Theorem C83_final K s i : reachable K s -> final_DEM s i == elev s (T_clock s) i.
Proof. intros _. unfold final_DEM, change, elev. reflexivity. Qed.
Print Assumptions C83_final.
(* ... but the call write_output_files(0) at the end saves nothing once a grid has been saved *)
Theorem C83_final_grid_refuted save_dt last : 0 <= save_dt -> 0 <= last -> save_grid save_dt last 0 = (false, last).
Proof. intros A B. unfold save_grid. replace (Qltb save_dt (0 - last)) with false; [reflexivity|]. symmetry. apply not_true_iff_false. rewrite Qltb_lt. lra. Qed.
Print Assumptions C83_final_grid_refuted.
(* ---------- cases and witnesses ---------- *)
(* a valley of five cells (8 .. 12 of a 3 x 7 grid) that drains to the left edge; edges are base cells; Qs = Q S^2 *)
Definition edges (x y : nat) : list nat := filter (fun i => Nat.eqb (i / x) 0 || Nat.eqb (i / x) (y - 1) || Nat.eqb (i mod x) 0 || Nat.eqb (i mod x) (x - 1)) (seq 0 (x * y)).
Definition Kv : par := mkPar 7 3 (edges 7 3) 1 0 0 (1 # 4) 100 (1 # 100) (100000000000000000000 # 1) (fun A => A) (fun Q S => Q * S * S).
Definition valley (i : nat) : bool := (8 <=? i)%nat && (i <=? 12)%nat.
Definition Nv : net := mkNet (fun i => if valley i then 32%Z else 0%Z) (fun i => if valley i then (i - 1)%nat else 0%nat) (fun i => if valley i then inject_Z (Z.of_nat (13 - i)) else 0) (fun _ => 1).
Definition zv (i : nat) : Q := nth i [0;0;0;0;0;0;0; 0;1;2;10;11;12;0] 0.
Definition okv {A} (x : out A) (P : A -> Prop) : Prop := match x with Ok a => P a | Raise _ => False end.
Lemma okv_ex {A} (x : out A) P : okv x P -> exists a, x = Ok a /\ P a.
Proof. destruct x as [a|]; cbn; [exists a; auto | intros []]. Qed.
Definition balancedb (K : par) (s : state) : bool :=
  forallb (fun i => mem i (base_IDs K) || Qeq_bool (dz_dt s i) (U K - Qs s i / da K + inflow K (codes s) (Qs s) i)) (seq 0 (ncells K)).
Lemma balancedb_spec K s : balancedb K s = true <-> balanced K s.
Proof.
  unfold balancedb, balanced. rewrite forallb_forall. split.
  - intros H i I B. specialize (H i ltac:(apply in_seq; lia)). apply orb_true_iff in H. rewrite mem_In, Qeq_bool_iff in H. tauto.
  - intros H i I. apply in_seq in I. apply orb_true_iff. rewrite mem_In, Qeq_bool_iff. destruct (in_dec Nat.eq_dec i (base_IDs K)) as [B|B]; [left; exact B | right; apply H; [lia | exact B]].
Qed.
(* volume of the inner cells gained per year, by their rates, and by what flows out of the valley *)
Definition inner_gain (s : state) : Q := total (map (dz_dt s) (seq 8 5)).
(* an event whose zone sends sediment to a cell outside it: that cell keeps the old inflow and sediment is lost or made.
   At the start the five cells gain exactly minus what leaves at the outlet (cell 8); after one event they do not *)
Theorem C83_balance_refuted : exists K N dem s r, start K N dem = Ok s /\ balanced K s /\ inner_gain s == - Qs s 8 /\ update K N s = Ok r /\
  (forall i, code N i = codes s i) /\ ~ balanced K (new r) /\ ~ inner_gain (new r) == - Qs (new r) 8.
Proof.
  exists Kv, Nv, zv. assert (X : match start Kv Nv zv with Ok s => balancedb Kv s && Qeq_bool (inner_gain s) (- Qs s 8) && match update Kv Nv s with Ok r => negb (balancedb Kv (new r)) && negb (Qeq_bool (inner_gain (new r)) (- Qs (new r) 8)) | _ => false end | _ => false end = true) by (vm_compute; reflexivity).
  destruct (start Kv Nv zv) as [s|] eqn:E; [|discriminate]. destruct (update Kv Nv s) as [r|] eqn:F; [|rewrite andb_false_r in X; discriminate]. exists s, r. rewrite !andb_true_iff, !negb_true_iff in X. destruct X as [[X1 X2] [X3 X4]].
  split; [reflexivity|]. split; [apply balancedb_spec, X1|]. split; [apply Qeq_bool_iff, X2|]. split; [exact F|]. split; [|split].
  - unfold start in E. destruct (existsb _ _); [discriminate|]. destruct (negb _); [discriminate|]. injection E as <-. reflexivity.
  - rewrite <- balancedb_spec, X3. discriminate.
  - apply Qeqb_neq. exact X4.
Qed.
Print Assumptions C83_balance_refuted.
(* grids saved during a run show cells at different times *)
Theorem C83_snapshot_refuted : exists K s i, reachable K s /\ (i < ncells K)%nat /\ not_edge K i = true /\ ~ DEM s i == elev s (T_clock s) i.
Proof.
  exists Kv. assert (X : match start Kv Nv zv with Ok s => match run Kv [Nv] s with Ok s => negb (Qeq_bool (DEM s 8) (elev s (T_clock s) 8)) | _ => false end | _ => false end = true) by (vm_compute; reflexivity).
  destruct (start Kv Nv zv) as [s|] eqn:E; [|discriminate]. destruct (run Kv [Nv] s) as [s1|] eqn:F; [|discriminate]. exists s1, 8%nat. split; [exists Nv, zv, [Nv], s; auto|]. split; [vm_compute; lia|]. split; [reflexivity|]. apply Qeqb_neq. apply negb_true_iff. exact X.
Qed.
Print Assumptions C83_snapshot_refuted.
(* a zone of more than 100 cells stops the run: a flat 12 x 12 grid under uplift stops at its first event, whatever the flow grids *)
Definition Kf : par := mkPar 12 12 (edges 12 12) 1 (1 # 1000) 0 (1 # 4) 100 (1 # 100) (100000000000000000000 # 1) (fun A => A) (fun Q S => Q * S).
Definition Nf : net := mkNet (fun _ => 0%Z) (fun _ => 0%nat) (fun _ => 0) (fun _ => 1).
Definition exits (K : par) (s : state) : bool :=
  match next_event (S (length (heap s))) (T_next s) (heap s) (n_heap s) with
  | Ok ((At T, i), h, n) => match update_neighbors (S (ncells K)) K (update_T_last (reset_cap (update_DEM (activate s T i h n) [i]) [i]) [i]) [i] [i] [i] with Raise SystemExit => negb (Qltb T (T_clock s)) | _ => false end
  | _ => false end.
Lemma exits_spec K s : exits K s = true -> forall N, update K N s = Raise SystemExit.
Proof.
  unfold exits, update. intros X N. destruct (next_event _ _ _ _) as [[[[[T|] i] h] n]|]; try discriminate. cbn [bind]. destruct (update_neighbors _ _ _ _ _ _) as [|e]; [discriminate|]. destruct e; try discriminate. apply negb_true_iff in X. rewrite X. reflexivity.
Qed.
Definition starts (K : par) (N : net) (dem : nat -> Q) (P : state -> bool) : bool := match start K N dem with Ok s => P s | _ => false end.
Lemma starts_spec K N dem P : starts K N dem P = true -> exists s, start K N dem = Ok s /\ P s = true.
Proof. unfold starts. destruct (start K N dem) as [s|]; [|discriminate]. exists s. auto. Qed.
Theorem C83_zone_limit_refuted : exists K N0 dem s, start K N0 dem = Ok s /\ forall N, update K N s = Raise SystemExit.
Proof.
  exists Kf, Nf, (fun _ => 0). destruct (starts_spec Kf Nf (fun _ => 0) (exits Kf)) as (s & A & B); [vm_compute; reflexivity|]. exists s. split; [exact A|]. apply exits_spec. exact B.
Qed.
Print Assumptions C83_zone_limit_refuted.
(* cases: three events of the valley; the third one reaches cell 12 through cell 11 *)
Example C83_case : exists s s1 r, start Kv Nv zv = Ok s /\ run Kv [Nv; Nv] s = Ok s1 /\ reachable Kv s1 /\ update Kv Nv s1 = Ok r /\ active r = 10%nat /\ zone r = [10; 2; 3; 4; 9; 11; 16; 17; 18; 5; 12; 19]%nat /\ all_now r = [10; 11]%nat /\ n_heap (new r) = 22%Z /\ T_clock (new r) == 9733125421 # 463297716672.
Proof.
  assert (X : match start Kv Nv zv with Ok s => match run Kv [Nv; Nv] s with Ok s1 => match update Kv Nv s1 with Ok r => Some (active r, zone r, all_now r, n_heap (new r), Qred (T_clock (new r))) | _ => None end | _ => None end | _ => None end
     = Some (10%nat, [10; 2; 3; 4; 9; 11; 16; 17; 18; 5; 12; 19]%nat, [10; 11]%nat, 22%Z, 9733125421 # 463297716672)) by (vm_compute; reflexivity).
  destruct (start Kv Nv zv) as [s|] eqn:E; [|discriminate]. destruct (run Kv [Nv; Nv] s) as [s1|] eqn:F; [|discriminate]. destruct (update Kv Nv s1) as [r|] eqn:G; [|discriminate]. injection X as A B C D H. exists s, s1, r.
  split; [reflexivity|]. split; [exact F|]. split; [exists Nv, zv, [Nv; Nv], s; auto|]. split; [exact G|]. repeat (split; [assumption|]). rewrite <- (Qred_correct (T_clock (new r))), H. reflexivity.
Qed.
Example C83_pit_case : exists s r, start (mkPar 4 4 (edges 4 4) 1 (1 # 1000) 0 (1 # 4) 100 (1 # 100) 100 (fun A => A) (fun Q S => Q * S)) Nf (fun _ => 0) = Ok s /\
  update (mkPar 4 4 (edges 4 4) 1 (1 # 1000) 0 (1 # 4) 100 (1 # 100) 100 (fun A => A) (fun Q S => Q * S)) Nf s = Ok r /\ all_now r = [5; 6; 9; 10]%nat.
Proof.
  set (K := mkPar 4 4 _ _ _ _ _ _ _ _ _ _). assert (X : match start K Nf (fun _ => 0) with Ok s => match update K Nf s with Ok r => Some (all_now r) | _ => None end | _ => None end = Some [5; 6; 9; 10]%nat) by (vm_compute; reflexivity).
  destruct (start K Nf (fun _ => 0)) as [s|]; [|discriminate]. destruct (update K Nf s) as [r|] eqn:F; [|discriminate]. injection X as X. exists s, r. auto.
Qed.
(* the balance is kept in a valley of three cells, all in the zone of its middle cell *)
Definition Kw : par := mkPar 5 3 (edges 5 3) 1 0 0 (1 # 4) 100 (1 # 100) (100000000000000000000 # 1) (fun A => A) (fun Q S => Q * S * S).
Definition inw (i : nat) : bool := (6 <=? i)%nat && (i <=? 8)%nat.
Definition Nw : net := mkNet (fun i => if inw i then 32%Z else 0%Z) (fun i => if inw i then (i - 1)%nat else 0%nat) (fun i => if inw i then inject_Z (Z.of_nat (9 - i)) else 0) (fun _ => 1).
Definition zw (i : nat) : Q := nth i [0;0;0;0;0; 0;1;10;11;0] 0.
Example C83_balance_case : exists s r, start Kw Nw zw = Ok s /\ update Kw Nw s = Ok r /\ balanced Kw s /\ active r = 7%nat /\ ~ dz_dt (new r) 6 == dz_dt s 6 /\
  (forall i, ~ In i (zone r) -> code Nw i = codes s i) /\
  (forall i k, (i < ncells Kw)%nat -> (k < 8)%nat -> ~ In i (zone r) -> ~ In i (base_IDs Kw) -> In (nbr Kw i k) (zone r) -> codes s (nbr Kw i k) <> nth k opps 0%Z /\ code Nw (nbr Kw i k) <> nth k opps 0%Z) /\ balanced Kw (new r).
Proof.
  assert (X : match start Kw Nw zw with Ok s => balancedb Kw s && match update Kw Nw s with Ok r => Nat.eqb (active r) 7 && forallb (fun i => mem i (zone r) || mem i (base_IDs Kw)) (seq 0 (ncells Kw)) && negb (Qeq_bool (dz_dt (new r) 6) (dz_dt s 6)) | _ => false end | _ => false end = true) by (vm_compute; reflexivity).
  destruct (start Kw Nw zw) as [s|] eqn:E; [|discriminate]. destruct (update Kw Nw s) as [r|] eqn:F; [|rewrite andb_false_r in X; discriminate]. exists s, r. rewrite !andb_true_iff in X. destruct X as [X1 [[X2 X3] X4]].
  assert (C : forall i, code Nw i = codes s i) by (unfold start in E; destruct (existsb _ _); [discriminate|]; destruct (negb _); [discriminate|]; injection E as <-; reflexivity).
  assert (H : forall i k, (i < ncells Kw)%nat -> (k < 8)%nat -> ~ In i (zone r) -> ~ In i (base_IDs Kw) -> In (nbr Kw i k) (zone r) -> codes s (nbr Kw i k) <> nth k opps 0%Z /\ code Nw (nbr Kw i k) <> nth k opps 0%Z).
  { intros i k I _ Z B _. exfalso. rewrite forallb_forall in X3. specialize (X3 i ltac:(apply in_seq; lia)). apply orb_true_iff in X3. rewrite !mem_In in X3. tauto. }
  split; [reflexivity|]. split; [exact F|]. split; [apply balancedb_spec, X1|]. split; [apply Nat.eqb_eq, X2|]. split; [apply Qeqb_neq, negb_true_iff, X4|]. split; [intros i _; apply C|]. split; [exact H|].
  apply (C83_balance_partial Kw Nw s r F); [apply balancedb_spec, X1 | intros i _; apply C | exact H].
Qed.

(* ---------- more ---------- *)
(* base level cells always fall at the base-level rate *)
Theorem C83_base_level K s i : reachable K s -> In i (base_IDs K) -> dz_dt s i = - BLR K.
Proof.
  intros (N0 & dem & Ns & s0 & A & B) I. assert (C : dz_dt s0 i = - BLR K).
  { unfold start in A. destruct (existsb _ _); [discriminate|]. destruct (negb _); [discriminate|]. injection A as <-. cbn. rewrite upd_in by exact I. reflexivity. }
  clear A. revert s0 B C. induction Ns as [|N Ns IH]; intros s0 B C; cbn in B; [injection B as <-; exact C|]. destruct (update K N s0) as [r|] eqn:E; [|discriminate]. apply (IH (new r) B).
  rewrite (u_rate _ _ _ _ (update_ok _ _ _ _ E)), upd_in by exact I. reflexivity.
Qed.
Print Assumptions C83_base_level.
(* at the start: every cell is scheduled, at a positive time; inner drainage cells after CFL times the levelling of half the drop,
   pits after a change by max_dz; base cells at the limit; all rates are balanced *)
Theorem C83_start K N dem s : start K N dem = Ok s -> balanced K s /\ T_clock s = 0 /\ (forall i, DEM s i = dem i /\ T_last s i = 0 /\ flux_cap s i = 0) /\
  (forall i, (i < ncells K)%nat -> In (T_next s i, i) (heap s) /\ xltb (At 0) (T_next s i) = true) /\
  (forall i, In i (base_IDs K) -> T_next s i = At (dt_limit K)) /\
  (forall i, (i < ncells K)%nat -> ~ In i (base_IDs K) -> code N i <> 0%Z -> 0 < Qs s i -> T_next s i = At (CFL K * ((da K / 2) * (dem i - dem (parent N i)) / Qs s i))) /\
  (forall i, ~ In i (base_IDs K) -> code N i = 0%Z -> ~ dz_dt s i == 0 -> T_next s i = At (max_dz_for_pits K / Qabs (dz_dt s i))) /\
  (forall i, Qs s i = law K (disch K (area N i)) (if Z.eqb (code N i) 0 then 0 else (dem i - dem (parent N i)) / ds N i)).
Proof.
  intro A. unfold start in A. destruct (existsb _ _); [discriminate|]. destruct (negb _) eqn:P; [discriminate|]. apply negb_false_iff in P. rewrite forallb_forall in P. injection A as <-. cbn [DEM T_last flux_cap T_next heap dz_dt Qs T_clock].
  split; [|split; [reflexivity|split; [auto|split; [|split; [|split; [|split]]]]]].
  - intros i I B. cbn [dz_dt Qs codes]. rewrite upd_out by exact B. unfold rate, Qminus. set (x := - _). set (y := inflow _ _ _ _). rewrite (Qplus_comm x (U K)). reflexivity.
  - intros i I. split; [apply in_map_iff; exists i; split; [reflexivity | apply in_seq; lia]|]. specialize (P i ltac:(apply in_seq; lia)). unfold xpos in P. unfold xltb. exact P.
  - intros i I. rewrite upd_in by exact I. reflexivity.
  - intros i I B C Q. rewrite upd_out by exact B. apply Z.eqb_neq in C. rewrite C. apply Qltb_lt in Q. rewrite Q. reflexivity.
  - intros i B C Q. rewrite (upd_out (base_IDs K) _ _ i B). rewrite C, Z.eqb_refl. apply Qeqb_neq in Q. rewrite Q. reflexivity.
  - reflexivity.
Qed.
Print Assumptions C83_start.
(* the zone holds at most zone_size cells, none twice, all of the grid; each is updated once *)
Lemma zone_len fuel K : forall s IDs zone now s' zone' now', update_neighbors fuel K s IDs zone now = Ok (s', zone', now') -> (length zone <= zone_size K)%nat -> (length now <= zone_size K)%nat -> (length zone' <= zone_size K)%nat /\ (length now' <= zone_size K)%nat.
Proof.
  induction fuel as [|fuel IH]; intros s IDs zone now s' zone' now' E L1 L2; [discriminate|]. cbn [update_neighbors] in E. destruct (Nat.eqb _ 0); [injection E as <- <- <-; auto|]. destruct (Nat.ltb_spec (zone_size K) (length zone + length (new_nbrs K IDs zone))) as [M|M]; [discriminate|].
  destruct (Nat.eqb (length (filter _ _)) 0); [injection E as <- <- <-; rewrite app_length; auto|]. destruct (Nat.ltb_spec (zone_size K) (length now + length (filter (NOW K (update_T_last (update_flux_cap (update_DEM s (new_nbrs K IDs zone)) (new_nbrs K IDs zone)) (new_nbrs K IDs zone))) (new_nbrs K IDs zone)))) as [M2|M2]; [discriminate|].
  apply IH in E; rewrite ?app_length in *; auto.
Qed.
Theorem C83_zone K N s r : reachable K s -> (1 <= zone_size K)%nat -> update K N s = Ok r ->
  (length (zone r) <= zone_size K)%nat /\ (length (all_now r) <= zone_size K)%nat /\ NoDup (zone r) /\ NoDup (all_now r) /\ incl (all_now r) (zone r) /\ In (active r) (all_now r) /\ (forall i, In i (zone r) -> (i < ncells K)%nat) /\
  (forall i, update_count (new r) i = (update_count s i + (if mem i (zone r) then 1 else 0))%Z).
Proof.
  intros R Z E. destruct (C83_earliest K N s r R E) as [I _]. pose proof (update_ok _ _ _ _ E) as S.
  assert (L : (length (zone r) <= zone_size K)%nat /\ (length (all_now r) <= zone_size K)%nat).
  { unfold update in E. destruct (next_event _ _ _ _) as [[[[[T|] j] h] n]|]; try discriminate. cbn [bind] in E. destruct (Qltb _ _); [discriminate|]. destruct (update_neighbors _ _ _ _ _ _) as [[[s1 z] w]|] eqn:F; [|discriminate]. cbn [bind] in E. destruct (update_dt _ _ _ _ _) as [s2|]; [|discriminate]. injection E as <-. apply zone_len in F; cbn; auto. }
  destruct L. split; [assumption|]. split; [assumption|]. split; [apply (u_nodup _ _ _ _ S)|]. split; [apply (u_nodup2 _ _ _ _ S)|]. split; [apply (u_incl _ _ _ _ S)|]. split; [apply (u_active _ _ _ _ S)|]. split; [|apply (u_count _ _ _ _ S)].
  intros i X. destruct (u_range _ _ _ _ S i X) as [->|Y]; assumption.
Qed.
Print Assumptions C83_zone.
(* a cell that is active more than eleven times in a row is put off to the limit *)
Theorem C83_stuck_cell K N s r : update K N s = Ok r -> not_edge K (active r) = true -> (10 < active_count (new r))%nat -> T_next (new r) (active r) = At (T_clock (new r) + dt_limit K).
Proof.
  intros E X A. pose proof (update_ok _ _ _ _ E) as S. rewrite (u_next _ _ _ _ S), X. assert (M : mem (active r) (all_now r) = true) by (apply mem_In, (u_active _ _ _ _ S)). rewrite M. cbn [andb]. rewrite (proj2 (u_stall _ _ _ _ S) A). reflexivity.
Qed.
Print Assumptions C83_stuck_cell.
Theorem C83_active_count K N s r : update K N s = Ok r -> (active_count (new r) = if Nat.eqb (active r) (last_active s) then S (active_count s) else 0%nat) /\ last_active (new r) = active r.
Proof.
  intro E. split; [apply (u_stall _ _ _ _ (update_ok _ _ _ _ E))|].
  unfold update in E. destruct (next_event _ _ _ _) as [[[[[T|] j] h] n]|]; try discriminate. cbn [bind] in E. destruct (Qltb _ _); [discriminate|]. destruct (update_neighbors _ _ _ _ _ _) as [[[s1 z] w]|] eqn:F; [|discriminate]. cbn [bind] in E. destruct (update_dt _ _ _ _ _) as [s2|] eqn:G; [|discriminate]. injection E as <-. cbn.
  unfold update_dt in G. destruct (negb _); [discriminate|]. injection G as <-. cbn. apply zone_ok in F. destruct F as (? & ? & _ & _ & _ & _ & _ & _ & F & _). rewrite (f_last _ _ F). cbn. destruct (Nat.eqb_spec j (last_active s)); auto.
Qed.
Print Assumptions C83_active_count.
(* one inner cell that rises: after its twelfth event in a row it is put off *)
Definition K1 : par := mkPar 3 3 (edges 3 3) 1 1 0 (1 # 4) 100 (1 # 100) 1000 (fun A => A) (fun Q S => Q * S).
Definition okb {A} (x : out A) (P : A -> bool) : bool := match x with Ok a => P a | Raise _ => false end.
Lemma okb_ex {A} (x : out A) P : okb x P = true -> exists a, x = Ok a /\ P a = true.
Proof. destruct x as [a|]; [exists a; auto | discriminate]. Qed.
Example C83_stuck_case : exists s r, reachable K1 s /\ update K1 Nf s = Ok r /\ active r = 4%nat /\ not_edge K1 (active r) = true /\ active_count (new r) = 11%nat.
Proof.
  destruct (okb_ex (start K1 Nf (fun _ => 0)) (fun s => okb (run K1 (repeat Nf 11) s) (fun s => okb (update K1 Nf s) (fun r => Nat.eqb (active r) 4 && Nat.eqb (active_count (new r)) 11)))) as (s & A & X); [vm_compute; reflexivity|].
  apply okb_ex in X. destruct X as (s1 & B & X). apply okb_ex in X. destruct X as (r & C & X). apply andb_true_iff in X. rewrite !Nat.eqb_eq in X. destruct X as [X Y]. exists s1, r. split; [exists Nf, (fun _ => 0), (repeat Nf 11), s; auto|]. split; [exact C|]. split; [exact X|]. rewrite X. split; [reflexivity | exact Y].
Qed.
(* inner cells are those off the four edges; edge cells keep their first time *)
Theorem C83_inner K i : not_edge K i = true <-> (0 < row K i /\ row K i <> ny K - 1 /\ 0 < col K i /\ col K i <> nx K - 1)%nat.
Proof. unfold not_edge. rewrite negb_true_iff, !orb_false_iff, !Nat.eqb_neq. lia. Qed.
Print Assumptions C83_inner.
Theorem C83_edge_time K N s r i : update K N s = Ok r -> not_edge K i = false -> T_next (new r) i = T_next s i.
Proof. intros E X. rewrite (u_next _ _ _ _ (update_ok _ _ _ _ E)), X, andb_false_r. reflexivity. Qed.
Print Assumptions C83_edge_time.
(* the k-th neighbour, clockwise from the upper right, of an inner cell; the code that flows back from there to the cell is opposite *)
Theorem C83_directions K i : not_edge K i = true -> (i < ncells K)%nat -> forall k, (k < 8)%nat ->
  (Z.of_nat (row K (nbr K i k)) = Z.of_nat (row K i) + nth k [-1; 0; 1; 1; 1; 0; -1; -1] 0 /\
   Z.of_nat (col K (nbr K i k)) = Z.of_nat (col K i) + nth k [1; 1; 1; 0; -1; -1; -1; 0] 0 /\
   nth k opps 0 = nth ((k + 4) mod 8) [1; 2; 4; 8; 16; 32; 64; 128] 0)%Z.
Proof.
  intros E L k Hk. apply C83_inner in E. destruct E as (R0 & R1 & C0 & C1). unfold ncells in L.
  assert (X : (nx K <> 0)%nat) by nia. assert (RB : (row K i < ny K)%nat) by (unfold row; apply Nat.div_lt_upper_bound; nia). assert (CB : (col K i < nx K)%nat) by (unfold col; apply Nat.mod_upper_bound; exact X).
  assert (A : forall r c, (c < nx K)%nat -> row K (r * nx K + c) = r /\ col K (r * nx K + c) = c).
  { intros r c H. unfold row, col. split; [rewrite Nat.div_add_l by exact X; rewrite Nat.div_small by exact H; lia | rewrite Nat.add_comm, Nat.mod_add by exact X; apply Nat.mod_small, H]. }
  unfold nbr. rewrite (Nat.mod_small (col K i + 1)) by lia. rewrite (Nat.mod_small (row K i + 1)) by lia.
  replace ((col K i + nx K - 1) mod nx K)%nat with (col K i - 1)%nat by (replace (col K i + nx K - 1)%nat with (col K i - 1 + 1 * nx K)%nat by lia; rewrite Nat.mod_add by exact X; symmetry; apply Nat.mod_small; lia).
  replace ((row K i + ny K - 1) mod ny K)%nat with (row K i - 1)%nat by (replace (row K i + ny K - 1)%nat with (row K i - 1 + 1 * ny K)%nat by lia; rewrite Nat.mod_add by lia; symmetry; apply Nat.mod_small; lia).
  cbv zeta. do 8 (destruct k as [|k]; [cbn [nth fst snd opps Nat.add Nat.modulo]; match goal with |- context [row K (?r * nx K + ?c)] => destruct (A r c) as [Ar Ac]; [lia|] end; rewrite Ar, Ac; repeat split; try reflexivity; lia|]). lia.
Qed.
Print Assumptions C83_directions.
