(* C79: flow codes and parents kept up to date near changed cells only. *)
From Coq Require Import ZArith QArith Lqa List Bool Arith Lia ZifyBool Sorted.
From Verif Require Import Base D8_Model D8_Spec D8_Proofs D8Local_Model.
Import ListNotations.
Local Open Scope Z_scope.

(* ---------- specification ---------- *)
(* two cells that touch, or are the same *)
Definition touches (G : geom) (i j : nat) : Prop := Z.abs (row G i - row G j) <= 1 /\ Z.abs (col G i - col G j) <= 1.
(* the code of cell j points to cell i *)
Definition points_to (G : geom) (d : list Z) (j i : nat) : Prop :=
  exists dr dc, offset (get 0 d j) = Some (dr, dc) /\ row G i = row G j + dr /\ col G i = col G j + dc.
(* elevations differ in the listed cells only *)
Definition same_but (G : geom) (ids : list nat) (dem dem' : list (option Q)) : Prop :=
  forall i, (i < ncells G)%nat -> ~ In i ids -> elev dem' i = elev dem i.
(* a history of changes: each DEM with the cells in which it differs from the one before *)
Fixpoint changes (G : geom) (dem : list (option Q)) (hist : list (list nat * list (option Q))) : Prop :=
  match hist with
  | [] => True
  | (ids, dem') :: r => (forall i, In i ids -> (i < ncells G)%nat) /\ same_but G ids dem dem' /\ changes G dem' r
  end.
Definition last_dem (dem : list (option Q)) (hist : list (list nat * list (option Q))) : list (option Q) := last (map snd hist) dem.

(* ---------- lemmas ---------- *)
Lemma memb_In i l : memb i l = true <-> In i l.
Proof. unfold memb. rewrite existsb_exists. split; [intros [x [H E]]; apply Nat.eqb_eq in E; subst; exact H | intro H; exists i; split; [exact H | apply Nat.eqb_refl]]. Qed.
Lemma unique_In G l j : In j (unique G l) <-> (j < ncells G)%nat /\ In j l.
Proof. unfold unique. rewrite filter_In, memb_In, in_seq. split; intros [A B]; split; auto; lia. Qed.
Lemma keep_In {A} p (l : list A) x : In x l -> p x = true -> In x (keep p l).
Proof. intros H E. unfold keep. assert (In x (filter p l)) as F by (apply filter_In; auto). destruct (filter p l); [inversion F | exact F]. Qed.
Lemma keep_sub {A} p (l : list A) x : In x (keep p l) -> In x l.
Proof. unfold keep. destruct (filter p l) eqn:E; [auto|]. rewrite <- E, filter_In. tauto. Qed.
Lemma keep_sat {A} p (l : list A) : (exists y, In y l /\ p y = true) -> forall x, In x (keep p l) -> p x = true.
Proof.
  intros [y [H E]] x. unfold keep. assert (In y (filter p l)) as F by (apply filter_In; auto).
  destruct (filter p l) eqn:D; [inversion F|]. rewrite <- D, filter_In. tauto.
Qed.

Lemma near_In G ids j : geom_ok G -> (forall i, In i ids -> (i < ncells G)%nat) -> (j < ncells G)%nat ->
  (In j (near_IDs G ids) <-> exists i, In i ids /\ touches G i j).
Proof.
  intros HG R J. unfold near_IDs.
  set (rc := flat_map (fun inc => map (fun i => (row G i + fst inc, col G i + snd inc)) ids) incs9).
  assert (M : forall p, In p rc <-> exists i, In i ids /\ Z.abs (row G i - fst p) <= 1 /\ Z.abs (col G i - snd p) <= 1).
  { intros [r c]. unfold rc. rewrite in_flat_map. split.
    - intros [inc [I H]]. apply in_map_iff in H. destruct H as [i [E H]]. injection E as <- <-. exists i. split; [exact H|]. cbn [fst snd].
      unfold incs9 in I. cbn in I. repeat destruct I as [<-|I]; cbn [fst snd]; try lia.
    - intros [i [H [A B]]]. cbn [fst snd] in A, B. exists (r - row G i, c - col G i). split.
      + unfold incs9. assert (-1 <= r - row G i <= 1) as A' by lia. assert (-1 <= c - col G i <= 1) as B' by lia.
        assert (r - row G i = -1 \/ r - row G i = 0 \/ r - row G i = 1) as [->|[->| ->]] by lia;
        assert (c - col G i = -1 \/ c - col G i = 0 \/ c - col G i = 1) as [->|[->| ->]] by lia; cbn; tauto.
      + apply in_map_iff. exists i. split; [|exact H]. cbn [fst snd]. f_equal; lia. }
  assert (W : forall i, In i ids -> row_ok G (row G i, col G i) = true /\ col_ok G (row G i, col G i) = true).
  { intros i H. pose proof (row_range G HG i (R i H)). pose proof (col_range G HG i). unfold row_ok, col_ok. cbn [fst snd]. lia. }
  rewrite in_map_iff. split.
  - intros [[r c] [E H]]. cbn [fst snd] in E. assert (In (r, c) rc) as P by (apply keep_sub, keep_sub in H; exact H).
    apply M in P. destruct P as [i [I [A B]]]. cbn [fst snd] in A, B.
    assert (C : In (row G i, col G i) rc) by (apply M; exists i; cbn; split; [exact I | lia]).
    destruct (W i I) as [W1 W2].
    assert (row_ok G (r, c) = true) as K1 by (apply (keep_sat (row_ok G) rc); [exists (row G i, col G i); auto | apply (keep_sub (col_ok G)); exact H]).
    assert (col_ok G (r, c) = true) as K2. { apply (keep_sat (col_ok G) (keep (row_ok G) rc)); [|exact H]. exists (row G i, col G i). split; [apply keep_In; assumption | exact W2]. }
    unfold row_ok, col_ok in K1, K2. cbn [fst snd] in K1, K2. exists i. split; [exact I|]. unfold touches.
    rewrite <- E, row_flat, col_flat by (try exact HG; lia). lia.
  - intros [i [I [A B]]]. exists (row G j, col G j). split; [apply flat_row_col, HG|].
    pose proof (row_range G HG j J). pose proof (col_range G HG j).
    apply keep_In; [apply keep_In|]; [apply M; exists i; cbn [fst snd]; split; [exact I | lia] | unfold row_ok | unfold col_ok]; cbn [fst snd]; lia.
Qed.

(* C79 neighbours: the cells of the grid that touch one of the given cells, in increasing order; without the given
   cells unless they are asked for *)
Theorem C79_neighbors G ids inc j : geom_ok G -> (forall i, In i ids -> (i < ncells G)%nat) ->
  (In j (get_neighbors G ids inc) <->
   (j < ncells G)%nat /\ (exists i, In i ids /\ touches G i j) /\ (inc = false -> ~ In j ids)).
Proof.
  intros HG R. unfold get_neighbors.
  assert (U : In j (unique G (near_IDs G ids)) <-> (j < ncells G)%nat /\ exists i, In i ids /\ touches G i j).
  { rewrite unique_In. split; intros [A B]; (split; [exact A|]); apply (near_In G ids j HG R A); exact B. }
  destruct inc.
  - rewrite U. intuition congruence.
  - rewrite filter_In, U, negb_true_iff. destruct (memb j ids) eqn:E.
    + apply memb_In in E. intuition congruence.
    + assert (~ In j ids) by (rewrite <- memb_In; congruence). intuition.
Qed.
Print Assumptions C79_neighbors.
Lemma filter_seq_sorted p a n : StronglySorted lt (filter p (seq a n)).
Proof.
  revert a. induction n as [|n IH]; intro a; cbn; [constructor|]. destruct (p a); [|apply IH]. constructor; [apply IH|].
  apply Forall_forall. intros x H. apply filter_In in H. destruct H as [H _]. apply in_seq in H. lia.
Qed.
Lemma filter_sorted (p : nat -> bool) l : StronglySorted lt l -> StronglySorted lt (filter p l).
Proof.
  induction 1 as [|x l S IH F]; cbn; [constructor|]. destruct (p x); [|exact IH]. constructor; [exact IH|].
  apply Forall_forall. intros y H. apply filter_In in H. rewrite Forall_forall in F. apply F. tauto.
Qed.
Theorem C79_neighbors_sorted G ids inc : StronglySorted lt (get_neighbors G ids inc).
Proof. unfold get_neighbors, unique. destruct inc; [|apply filter_sorted]; apply filter_seq_sorted. Qed.
Print Assumptions C79_neighbors_sorted.


Lemma opp_lt k : (k < 8)%nat -> (opp k < 8)%nat.
Proof. intro K. do 8 (destruct k as [|k]; [cbn; lia|]). lia. Qed.
Lemma offset_g k : (k < 8)%nat -> offset (g k) = Some (drow k, dcol k).
Proof. intro K. do 8 (destruct k as [|k]; [reflexivity|]). lia. Qed.
Lemma offset_cases c dr dc : offset c = Some (dr, dc) -> exists k, (k < 8)%nat /\ c = g k /\ dr = drow k /\ dc = dcol k.
Proof.
  intro H.
  assert (c = 1 \/ c = 2 \/ c = 4 \/ c = 8 \/ c = 16 \/ c = 32 \/ c = 64 \/ c = 128) as C.
  { destruct c as [|p|p]; try discriminate H. do 8 (destruct p as [p|p|]; try discriminate H; try lia). }
  destruct C as [->|[->|[->|[->|[->|[->|[->| ->]]]]]]]; injection H as <- <-.
  - exists 0%nat; repeat split; lia. - exists 1%nat; repeat split; lia. - exists 2%nat; repeat split; lia. - exists 3%nat; repeat split; lia.
  - exists 4%nat; repeat split; lia. - exists 5%nat; repeat split; lia. - exists 6%nat; repeat split; lia. - exists 7%nat; repeat split; lia.
Qed.
(* C79 the kids of a cell are the cells whose codes point to it *)
Theorem C79_kids G d i j : geom_ok G -> (1 < ncells G)%nat -> (i < ncells G)%nat ->
  (In j (kid_IDs G d i) <-> (j < ncells G)%nat /\ points_to G d j i).
Proof.
  intros HG N I. unfold kid_IDs.
  set (t0 := map (fun k => (row G i + drow k, col G i + dcol k, h k)) dirs).
  pose proof (row_range G HG i I) as Ri. pose proof (col_range G HG i) as Ci.
  set (t1 := keep (fun t => row_ok G (fst t)) t0). set (t2 := keep (fun t => col_ok G (fst t)) t1).
  assert (IT : forall k, (k < 8)%nat -> In (row G i + drow k, col G i + dcol k, h k) t0).
  { intros k K. unfold t0. apply (in_map (fun k => (row G i + drow k, col G i + dcol k, h k))), In_dirs, K. }
  assert (S1 : forall t, In t t1 -> row_ok G (fst t) = true).
  { apply keep_sat. exists (row G i + drow 1, col G i + dcol 1, h 1). split; [apply IT; lia|]. unfold row_ok. cbn. lia. }
  assert (S2 : forall t, In t t2 -> col_ok G (fst t) = true).
  { apply keep_sat.
    assert (exists k, (k < 8)%nat /\ 0 <= row G i + drow k < ny G /\ 0 <= col G i + dcol k < nx G) as [k [K [A B]]].
    { destruct HG as [Hx [Hy _]]. unfold ncells in N. destruct (Z.eq_dec (nx G) 1) as [X|X].
      - assert (1 < ny G) by nia. destruct (Z.eq_dec (row G i) 0) as [Z|Z]; [exists 3%nat | exists 7%nat]; cbn; lia.
      - destruct (Z.eq_dec (col G i) 0) as [Z|Z]; [exists 1%nat | exists 5%nat]; cbn; lia. }
    exists (row G i + drow k, col G i + dcol k, h k). split; [|unfold col_ok; cbn [fst snd]; lia].
    apply keep_In; [apply IT, K|]. unfold row_ok. cbn [fst snd]. lia. }
  rewrite in_map_iff. split.
  - intros [[[r c] x] [E H]]. cbn [fst snd] in E. apply filter_In in H. destruct H as [H V]. cbn [fst snd] in V. rewrite E in V.
    assert (In (r, c, x) t0) as T by (apply keep_sub, keep_sub in H; exact H).
    pose proof (S2 _ H) as C2. pose proof (S1 _ (keep_sub _ _ _ H)) as C1. unfold row_ok, col_ok in C1, C2. cbn [fst snd] in C1, C2.
    unfold t0 in T. apply in_map_iff in T. destruct T as [k [Ek K]]. apply In_dirs in K. injection Ek as <- <- <-.
    split; [rewrite <- E; apply flat_lt; lia|].
    exists (- drow k), (- dcol k). assert (get 0 d j = h k) as -> by lia. rewrite h_opp, offset_g by (try apply opp_lt; exact K).
    rewrite drow_opp, dcol_opp by exact K. split; [reflexivity|]. rewrite <- E, row_flat, col_flat by (try exact HG; lia). lia.
  - intros [J [dr [dc [E [A B]]]]]. apply offset_cases in E. destruct E as [k [K [E [-> ->]]]].
    pose proof (row_range G HG j J) as Rj. pose proof (col_range G HG j) as Cj.
    assert (K' : (opp k < 8)%nat) by (apply opp_lt, K).
    assert (Er : row G i + drow (opp k) = row G j) by (rewrite drow_opp by exact K; lia).
    assert (Ec : col G i + dcol (opp k) = col G j) by (rewrite dcol_opp by exact K; lia).
    exists (row G j, col G j, h (opp k)). split; [apply flat_row_col, HG|]. apply filter_In. split.
    + apply keep_In; [apply keep_In|]; [|unfold row_ok; cbn [fst snd]; lia|unfold col_ok; cbn [fst snd]; lia].
      pose proof (IT (opp k) K') as T. rewrite Er, Ec in T. exact T.
    + cbn [fst snd]. rewrite flat_row_col by exact HG. rewrite h_opp by exact K'. apply Z.eqb_eq. rewrite E.
      do 8 (destruct k as [|k]; [reflexivity|]). lia.
Qed.
Print Assumptions C79_kids.

(* C79 a pit is a cell lower than all the cells that touch it; an interior pit lies off the sides *)
Theorem C79_pit G dem i z : geom_ok G -> (i < ncells G)%nat -> elev dem i = Some z ->
  (is_a_pit G dem i = true <->
   forall j y, (j < ncells G)%nat -> j <> i -> touches G i j -> elev dem j = Some y -> (z < y)%Q) /\
  (is_an_interior_pit G dem i = true <-> is_a_pit G dem i = true /\ not_edge G i = true).
Proof.
  intros HG I Z. split.
  - unfold is_a_pit. rewrite Z.
    assert (N : forall j, In j (get_neighbors G [i] false) <-> (j < ncells G)%nat /\ touches G i j /\ j <> i).
    { intro j. rewrite C79_neighbors; [|exact HG|intros k [<-|[]]; exact I]. split.
      - intros [A [[k [[<-|[]] T]] B]]. split; [exact A|]. split; [exact T|]. intros ->. apply B; [reflexivity | left; reflexivity].
      - intros [A [T B]]. split; [exact A|]. split; [exists i; split; [left; reflexivity | exact T]|]. intros _ [->|[]]. congruence. }
    destruct (filter _ _) as [|b l] eqn:F.
    + split; [|reflexivity]. intros _ j y J D T Y.
      destruct (Qlt_le_dec z y) as [L|L]; [exact L|]. exfalso.
      assert (In j []) as X; [|inversion X]. rewrite <- F. apply filter_In. split; [apply N; auto|]. rewrite Y. cbn. apply Qle_bool_iff. exact L.
    + split; [discriminate|]. intro H. exfalso.
      assert (In b (b :: l)) as X by (left; reflexivity). rewrite <- F in X. apply filter_In in X. destruct X as [X Y]. apply N in X.
      destruct X as [A [T B]]. destruct (elev dem b) as [y|] eqn:E; [|discriminate]. cbn in Y. apply Qle_bool_iff in Y.
      pose proof (H b y A B T E). lra.
  - unfold is_an_interior_pit, not_edge, left_edge, right_edge, top_edge, bottom_edge.
    destruct (row G i =? 0), (row G i =? ny G - 1), (col G i =? 0), (col G i =? nx G - 1); cbn; intuition congruence.
Qed.
Print Assumptions C79_pit.

(* ---------- lemmas about codes ---------- *)
Lemma local_start G O dem i : local_code G O dem i = start_code G O dem i.
Proof.
  unfold local_code, start_code. destruct (LINK_FLATS O); cbn [negb].
  - destruct (elev dem i) as [z|]; [destruct (Qle_bool z (DEM_nodata O)); [reflexivity|] | reflexivity].
    destruct (oeqb (max_slope G dem i) (Some 0%Q)); [|reflexivity].
    replace (- raw_code G dem i) with (-1 * raw_code G dem i) by lia. reflexivity.
  - replace (if oeqb (max_slope G dem i) (Some 0%Q) then 0 else if oltb (max_slope G dem i) 0 then 0 else raw_code G dem i)
      with (if oleb (max_slope G dem i) 0 then 0 else raw_code G dem i).
    + destruct (elev dem i) as [z|]; [destruct (Qle_bool z (DEM_nodata O))|]; reflexivity.
    + destruct (max_slope G dem i) as [m|]; [|reflexivity]. cbn [oeqb oleb oltb].
      destruct (Qle_bool m 0) eqn:L, (Qeq_bool m 0) eqn:E, (Qltb m 0) eqn:T; try reflexivity; exfalso.
      * apply Qle_bool_iff in L. apply Qeq_bool_neq in E. apply Qltb_ge in T. apply E. lra.
      * apply Qeq_bool_iff in E. rewrite <- not_true_iff_false, Qle_bool_iff in L. apply L. lra.
      * apply Qeq_bool_iff in E. rewrite <- not_true_iff_false, Qle_bool_iff in L. apply L. lra.
      * apply Qltb_lt in T. rewrite <- not_true_iff_false, Qle_bool_iff in L. apply L. lra.
Qed.
(* code of a cell after ties are broken *)
Definition code (G : geom) (O : opts) (dem : list (option Q)) (i : nat) : Z :=
  let c := start_code G O dem i in if 0 <? c then resolve_at c else c.
Lemma start_range G O dem i : LINK_FLATS O = false -> 0 <= start_code G O dem i <= 255.
Proof.
  intro L. destruct (Z.eq_dec (start_code G O dem i) 0) as [E|E]; [lia|].
  destruct (start_code_spec G O dem i E) as [_ [m [Hm [[P [H _]]|[[L' _]|[L' _]]]]]]; try congruence.
  destruct (code_of_bits (fun k => oeqb (slope G dem i k) (max_slope G dem i))) as [Hr _]. rewrite <- raw_code_is in Hr. lia.
Qed.
Lemma code_kinds G O dem i : LINK_FLATS O = false -> code G O dem i = 0 \/ exists k, (k < 8)%nat /\ code G O dem i = g k.
Proof.
  intro L. pose proof (start_range G O dem i L) as R. unfold code. destruct (0 <? start_code G O dem i) eqn:E; [|left; lia].
  right. destruct (resolve_spec (start_code G O dem i) ltac:(lia)) as [k [K [-> _]]]. exists k. auto.
Qed.
Lemma final_code_code G O dem i : LINK_FLATS O = false -> final_code (code G O dem i) = code G O dem i.
Proof.
  intro L. destruct (code_kinds G O dem i L) as [->|[k [K ->]]]; [reflexivity | apply final_code_g, K].
Qed.
Lemma global_codes G O dem : BREAK_TIES O = true -> LINK_FLATS O = false ->
  D8_Model.update_flow_grid G O dem = Some (tab (ncells G) (code G O dem)).
Proof.
  intros B L. unfold D8_Model.update_flow_grid. rewrite B, L. cbn [option_map]. f_equal.
  unfold break_flow_grid_ties, start_new_d8_codes, tab. rewrite !map_map. apply map_ext. intro i. apply (final_code_code G O dem i L).
Qed.

(* a cell that touches no changed cell keeps its code *)
Lemma slope_same G dem dem' i k : elev dem' i = elev dem i -> elev dem' (nbr G k i) = elev dem (nbr G k i) ->
  slope G dem' i k = slope G dem i k.
Proof. intros A B. unfold slope. rewrite A, B. reflexivity. Qed.
Lemma start_same G O dem dem' i : elev dem' i = elev dem i ->
  (forall k, (k < 8)%nat -> elev dem' (nbr G k i) = elev dem (nbr G k i)) -> start_code G O dem' i = start_code G O dem i.
Proof.
  intros A B.
  assert (S : forall k, (k < 8)%nat -> slope G dem' i k = slope G dem i k) by (intros; apply slope_same; auto).
  assert (M : max_slope G dem' i = max_slope G dem i) by (unfold max_slope; rewrite !S by lia; reflexivity).
  assert (W : raw_code G dem' i = raw_code G dem i).
  { unfold raw_code. rewrite M. f_equal. apply map_ext_in. intros k K. apply In_dirs in K. rewrite S by exact K. reflexivity. }
  unfold start_code. rewrite A, M, W. reflexivity.
Qed.
Lemma nbr_touches G k i : geom_ok G -> (k < 8)%nat -> (i < ncells G)%nat -> not_edge G i = true -> touches G (nbr G k i) i.
Proof.
  intros HG K I E. unfold touches. rewrite row_nbr, col_nbr by exact HG.
  pose proof (row_range G HG i I). pose proof (col_range G HG i).
  assert (0 < row G i < ny G - 1 /\ 0 < col G i < nx G - 1).
  { unfold not_edge, left_edge, right_edge, top_edge, bottom_edge in E. lia. }
  assert (-1 <= drow k <= 1 /\ -1 <= dcol k <= 1) by (do 8 (destruct k as [|k]; [cbn; lia|]); lia).
  rewrite !Z.mod_small by lia. lia.
Qed.
(* C79 locality: on a grid with closed sides, a cell that touches no changed cell keeps its flow code *)
Theorem C79_locality G O ids dem dem' d d' i : geom_ok G -> LR_PERIODIC O = false -> TB_PERIODIC O = false -> LINK_FLATS O = false ->
  BREAK_TIES O = true -> (i < ncells G)%nat -> same_but G ids dem dem' -> (forall j, In j ids -> ~ touches G j i) ->
  D8_Model.update_flow_grid G O dem = Some d -> D8_Model.update_flow_grid G O dem' = Some d' -> get 0 d' i = get 0 d i.
Proof.
  intros HG LR TB L B I S N D D'. rewrite global_codes in D, D' by assumption. injection D as <-. injection D' as <-.
  rewrite !get_tab by exact I. unfold code. replace (start_code G O dem' i) with (start_code G O dem i); [reflexivity|].
  destruct (not_edge G i) eqn:E.
  - symmetry. apply start_same.
    + apply S; [exact I|]. intro H. apply (N i H). unfold touches. lia.
    + intros k K. apply S; [apply nbr_lt, HG|]. intro H. apply (N _ H). apply nbr_touches; assumption.
  - unfold start_code. rewrite LR, TB. cbn [negb andb]. unfold not_edge in E.
    destruct (left_edge G i), (right_edge G i), (top_edge G i), (bottom_edge G i); cbn in E |- *; try discriminate; reflexivity.
Qed.
Print Assumptions C79_locality.

(* ---------- lemmas about assignments at IDs ---------- *)
Lemma puts_length ps : forall a, length (puts a ps) = length a.
Proof. induction ps as [|p ps IH]; intro a; [reflexivity|]. cbn. unfold puts in IH. rewrite IH. apply set_length. Qed.
Lemma puts_get (f : nat -> Z) l : forall a j, (forall i, In i l -> (i < length a)%nat) ->
  get 0 (puts a (map (fun i => (i, f i)) l)) j = if memb j l then f j else get 0 a j.
Proof.
  induction l as [|i l IH]; intros a j R; [reflexivity|].
  change (puts a (map (fun i => (i, f i)) (i :: l))) with (puts (set a i (f i)) (map (fun i => (i, f i)) l)).
  rewrite IH by (intros x X; rewrite set_length; apply R; right; exact X).
  unfold memb at 2. cbn [existsb]. fold (memb j l). destruct (memb j l); [rewrite orb_true_r; reflexivity|]. rewrite orb_false_r.
  destruct (Nat.eqb_spec j i) as [->|N].
  - apply get_set_same, R. left. reflexivity.
  - apply get_set_other. congruence.
Qed.
Lemma combine_map {A B} (f : A -> B) l : combine l (map f l) = map (fun i => (i, f i)) l.
Proof. induction l as [|a l IH]; [reflexivity|]. cbn. rewrite IH. reflexivity. Qed.
Lemma filter_map {A B} (f : A -> B) p l : filter p (map f l) = map f (filter (fun x => p (f x)) l).
Proof. induction l as [|a l IH]; [reflexivity|]. cbn. destruct (p (f a)); cbn; rewrite IH; reflexivity. Qed.
Lemma memb_filter p l j : memb j (filter p l) = memb j l && p j.
Proof.
  destruct (memb j (filter p l)) eqn:E.
  - apply memb_In, filter_In in E. destruct E as [E ->]. apply memb_In in E. rewrite E. reflexivity.
  - destruct (memb j l) eqn:F; [|reflexivity]. destruct (p j) eqn:P; [|reflexivity]. exfalso.
    apply memb_In in F. assert (memb j (filter p l) = true) by (apply memb_In, filter_In; auto). congruence.
Qed.
Lemma combine_map2 {A B C} (f : A -> B) (k : A -> C) l : combine (map (fun i => (i, f i)) l) (map k l) = map (fun i => (i, f i, k i)) l.
Proof. induction l as [|a l IH]; [reflexivity|]. cbn. rewrite IH. reflexivity. Qed.

(* what update_flow_grid leaves behind when ties are broken and flats are not linked *)
Lemma codes_result G O dem s ids : BREAK_TIES O = true -> LINK_FLATS O = false ->
  length (d8_grid s) = ncells G -> (forall i, In i ids -> (i < ncells G)%nat) ->
  exists s', update_codes G O dem s ids = Ok s' /\ IDs s' = ids /\ d8_codes s' = map (code G O dem) ids /\
    length (d8_grid s') = ncells G /\ parent_ID_grid s' = parent_ID_grid s /\
    (forall j, get 0 (d8_grid s') j = if memb j ids then code G O dem j else get 0 (d8_grid s) j) /\
    (CHANGED s' = true <-> exists j, In j ids /\ code G O dem j <> get 0 (d8_grid s) j).
Proof.
  intros B L Len R. unfold update_codes. rewrite B, L. cbn [break_ties].
  replace (map (local_code G O dem) ids) with (map (start_code G O dem) ids) by (apply map_ext; intro; symmetry; apply local_start).
  rewrite map_map. rewrite combine_map.
  change (fun x => if 0 <? start_code G O dem x then resolve_at (start_code G O dem x) else start_code G O dem x) with (code G O dem).
  rewrite combine_map2, filter_map, map_map. cbn [fst snd].
  set (pos := filter (fun x => 0 <? start_code G O dem x) ids).
  eexists. split; [reflexivity|]. cbn [IDs d8_codes d8_grid parent_ID_grid CHANGED]. split; [reflexivity|]. split; [reflexivity|].
  split; [rewrite !puts_length; exact Len|]. split; [reflexivity|]. split.
  - intro j. rewrite (puts_get (code G O dem)).
    2: { intros i I. rewrite puts_length, Len. apply R. unfold pos in I. apply filter_In in I. tauto. }
    rewrite (puts_get (start_code G O dem)) by (intros i I; rewrite Len; apply R, I).
    unfold pos. rewrite memb_filter. destruct (memb j ids); [|reflexivity]. cbn [andb].
    unfold code. destruct (0 <? start_code G O dem j); reflexivity.
  - rewrite existsb_exists. split.
    + intros [[x y] [H E]]. assert (exists j, In j ids /\ x = code G O dem j /\ y = get 0 (d8_grid s) j) as [j [J [-> ->]]].
      { clear - H. induction ids as [|i l IH]; [inversion H|]. cbn in H. destruct H as [H|H].
        - injection H as <- <-. exists i. split; [left; reflexivity | auto].
        - destruct (IH H) as [j [J K]]. exists j. split; [right; exact J | exact K]. }
      exists j. split; [exact J|]. cbn [fst snd] in E. lia.
    + intros [j [J E]]. exists (code G O dem j, get 0 (d8_grid s) j). split; [|cbn [fst snd]; lia].
      clear - J. induction ids as [|i l IH]; [inversion J|]. cbn. destruct J as [->|J]; [left; reflexivity | right; apply IH, J].
Qed.

(* parents in step with the codes *)
Definition in_step (G : geom) (O : opts) (s : state) : Prop :=
  length (d8_grid s) = ncells G /\ length (parent_ID_grid s) = ncells G /\
  forall j, (j < ncells G)%nat -> get 0 (parent_ID_grid s) j = parent_ID G O (d8_grid s) j.
Lemma parent_same G O d d' j : get 0 d' j = get 0 d j -> parent_ID G O d' j = parent_ID G O d j.
Proof. intro E. unfold parent_ID. rewrite E. reflexivity. Qed.
Lemma refresh_step G O dem s ids : LR_PERIODIC O = false -> TB_PERIODIC O = false -> BREAK_TIES O = true -> LINK_FLATS O = false ->
  in_step G O s -> (forall i, In i ids -> (i < ncells G)%nat) ->
  (forall j, (j < ncells G)%nat -> ~ In j ids -> get 0 (d8_grid s) j = code G O dem j) ->
  exists s', bind (update_codes G O dem s ids) (update_parents G O) = Ok s' /\ in_step G O s' /\
    d8_grid s' = tab (ncells G) (code G O dem).
Proof.
  intros LR TB B L [Lg [Lp P]] R Q.
  destruct (codes_result G O dem s ids B L Lg R) as [s1 [-> [E1 [E2 [E3 [E4 [E5 E6]]]]]]]. cbn [bind].
  assert (Gd : d8_grid s1 = tab (ncells G) (code G O dem)).
  { apply (list_eq_get 0); [rewrite tab_length; exact E3|]. intros j J. rewrite E3 in J. rewrite get_tab by exact J. rewrite E5.
    destruct (memb j ids) eqn:M; [reflexivity|]. apply Q; [exact J|]. rewrite <- memb_In. congruence. }
  unfold update_parents. destruct (CHANGED s1) eqn:C; cbn [negb].
  - assert (forallb inc_ok (d8_codes s1) = true) as ->.
    { rewrite E2. apply forallb_forall. intros c H. apply in_map_iff in H. destruct H as [i [<- _]].
      destruct (code_kinds G O dem i L) as [->|[k [K ->]]]; [reflexivity|]. pose proof (g_range k K). unfold inc_ok. lia. }
    assert (existsb (wraps G O) (combine (IDs s1) (d8_codes s1)) = false) as ->.
    { rewrite <- not_true_iff_false, existsb_exists. intros [[i c] [_ H]]. unfold wraps in H. rewrite LR, TB in H. discriminate. }
    cbn [negb]. eexists. split; [reflexivity|]. split; [|exact Gd]. unfold in_step. cbn [d8_grid parent_ID_grid].
    split; [exact E3|]. rewrite puts_length, E4. split; [exact Lp|]. intros j J.
    rewrite E1, E2, combine_map, map_map. cbn [fst].
    rewrite (puts_get (fun i => local_parent G O (i, code G O dem i))) by (intros i I; rewrite Lp; apply R, I).
    destruct (memb j ids) eqn:M.
    + unfold local_parent, parent_ID. rewrite E5, M, LR, TB. cbn [negb andb].
      destruct (right_edge G j || left_edge G j), (top_edge G j || bottom_edge G j), (code G O dem j <=? 0); reflexivity.
    + rewrite P by exact J. apply parent_same. rewrite E5, M. reflexivity.
  - exists s1. split; [reflexivity|]. split; [|exact Gd]. split; [exact E3|]. rewrite E4. split; [exact Lp|]. intros j J.
    rewrite P by exact J. apply parent_same. rewrite E5. destruct (memb j ids) eqn:M; [|reflexivity].
    destruct (Z.eq_dec (code G O dem j) (get 0 (d8_grid s) j)) as [E|E]; [congruence|]. exfalso.
    apply memb_In in M. assert (false = true) by (apply E6; exists j; auto). congruence.
Qed.
Lemma initial_in_step G O : in_step G O (initial G).
Proof.
  unfold in_step, initial. cbn [d8_grid parent_ID_grid]. rewrite !repeat_length. repeat split. intros j J.
  assert (Z0 : get 0 (repeat 0 (ncells G)) j = 0) by (unfold get; apply nth_repeat). unfold parent_ID. rewrite Z0. reflexivity.
Qed.
(* C79 history: codes and parents that are only refreshed around the changed cells are, after every history of changes,
   those of the component that computes the whole grid anew (closed sides, ties broken, flats not linked; a numpy on
   which the comparison with None does not fail) *)
Theorem C79_history G O dem0 hist : geom_ok G -> LR_PERIODIC O = false -> TB_PERIODIC O = false ->
  BREAK_TIES O = true -> LINK_FLATS O = false -> changes G dem0 hist ->
  exists s0 s, refresh G O dem0 None (initial G) = Ok s0 /\ refreshes G O hist s0 = Ok s /\
    D8_Model.update_flow_grid G O (last_dem dem0 hist) = Some (d8_grid s) /\
    parent_ID_grid s = D8_Model.update_parent_ID_grid G O (d8_grid s).
Proof.
  intros HG LR TB B L C.
  destruct (refresh_step G O dem0 (initial G) (seq 0 (ncells G)) LR TB B L (initial_in_step G O)) as [s0 [E0 [I0 G0]]].
  { intros i I. apply in_seq in I. lia. }
  { intros j J N. exfalso. apply N, in_seq. lia. }
  exists s0.
  assert (S : exists s, refreshes G O hist s0 = Ok s /\ in_step G O s /\ d8_grid s = tab (ncells G) (code G O (last_dem dem0 hist))).
  { clear E0. revert dem0 s0 I0 G0 C. induction hist as [|[ids dem'] r IH]; intros dem0 s0 I0 G0 C.
    - exists s0. auto.
    - destruct C as [R [Sb C]]. cbn [refreshes].
      destruct (refresh_step G O dem' s0 (get_neighbors G ids true) LR TB B L I0) as [s1 [E1 [I1 G1]]].
      { intros i I. apply C79_neighbors in I; try assumption. tauto. }
      { intros j J N. rewrite G0, get_tab by exact J.
        assert (X : get 0 (tab (ncells G) (code G O dem')) j = get 0 (tab (ncells G) (code G O dem0)) j).
        { apply (C79_locality G O ids dem0 dem'); try assumption; try (apply global_codes; assumption).
          intros i I T. apply N. apply C79_neighbors; try assumption. split; [exact J|]. split; [exists i; auto | congruence]. }
        rewrite !get_tab in X by exact J. congruence. }
      unfold refresh, update_flow_grid. cbn [orb bind]. rewrite E1. cbn [bind].
      destruct (IH dem' s1 I1 G1 C) as [s [Es [Is Gs]]]. exists s. split; [exact Es|]. split; [exact Is|].
      rewrite Gs. unfold last_dem. cbn [map snd]. f_equal. f_equal. destruct r; [reflexivity|]. cbn [map]. clear. revert dem'. generalize (map snd r).
      generalize (snd p). intros x l. revert x. induction l as [|y l IH]; intros x dem'; [reflexivity|]. cbn [last]. destruct l; [reflexivity|]. apply (IH y). }
  destruct S as [s [Es [[Lg [Lp P]] Gs]]]. exists s. split; [exact E0|]. split; [exact Es|]. split.
  - rewrite global_codes by assumption. rewrite Gs. reflexivity.
  - apply (list_eq_get 0); [unfold D8_Model.update_parent_ID_grid; rewrite tab_length; exact Lp|]. intros j J. rewrite Lp in J.
    unfold D8_Model.update_parent_ID_grid. rewrite get_tab by exact J. apply P, J.
Qed.
Print Assumptions C79_history.
(* C79 the flag tells whether any cell of the grid has a new code *)
Theorem C79_changed G O dem given s s' : geom_ok G -> BREAK_TIES O = true -> LINK_FLATS O = false -> length (d8_grid s) = ncells G ->
  (forall l, given = Some l -> forall i, In i l -> (i < ncells G)%nat) ->
  update_flow_grid true G O dem given s = Ok s' -> (CHANGED s' = true <-> d8_grid s' <> d8_grid s).
Proof.
  intros HG B L Lg R E.
  assert (X : exists ids, update_codes G O dem s ids = Ok s' /\ forall i, In i ids -> (i < ncells G)%nat).
  { unfold update_flow_grid in E. destruct given as [l|]; cbn [orb bind] in E.
    - exists (get_neighbors G l true). split; [exact E|]. intros i I. apply C79_neighbors in I; [tauto | exact HG | apply R; reflexivity].
    - exists (seq 0 (ncells G)). split; [exact E|]. intros i I. apply in_seq in I. lia. }
  destruct X as [ids [E' R']]. destruct (codes_result G O dem s ids B L Lg R') as [s1 [E0 [_ [_ [Ls [_ [E5 E6]]]]]]].
  rewrite E0 in E'. injection E' as <-. rewrite E6. split.
  - intros [j [J N]] Eq. apply N. pose proof (E5 j) as F. rewrite Eq in F. assert (memb j ids = true) as M by (apply memb_In, J). rewrite M in F. congruence.
  - intro N. destruct (existsb (fun j => negb (code G O dem j =? get 0 (d8_grid s) j)) ids) eqn:X.
    + apply existsb_exists in X. destruct X as [j [J X]]. exists j. split; [exact J | lia].
    + exfalso. apply N. apply (list_eq_get 0); [congruence|]. intros j _. rewrite E5. destruct (memb j ids) eqn:M; [|reflexivity].
      apply memb_In in M. rewrite <- not_true_iff_false, existsb_exists in X.
      destruct (Z.eq_dec (code G O dem j) (get 0 (d8_grid s) j)) as [Y|Y]; [exact Y|]. exfalso. apply X. exists j. split; [exact M | lia].
Qed.
Print Assumptions C79_changed.

(* ---------- where the claims fail ---------- *)
(* C79 refuted: update() never returns after a change; whatever it returns has the codes it started from *)
Theorem C79_update_refuted legacy G O dem given s s' : geom_ok G -> BREAK_TIES O = true -> LINK_FLATS O = false ->
  length (d8_grid s) = ncells G -> (forall l, given = Some l -> forall i, In i l -> (i < ncells G)%nat) ->
  update legacy G O dem given s = Ok s' -> d8_grid s' = d8_grid s.
Proof.
  intros HG B L Lg R E. unfold update in E. destruct (update_flow_grid legacy G O dem given s) as [s1|e] eqn:E1; [|discriminate]. cbn [bind] in E.
  assert (E1' : update_flow_grid true G O dem given s = Ok s1).
  { unfold update_flow_grid in *. destruct given as [l|]; [|exact E1]. cbn [orb]. destruct (legacy || (length l <=? 1)%nat); [exact E1 | discriminate]. }
  pose proof (C79_changed G O dem given s s1 HG B L Lg R E1') as C.
  destruct (CHANGED s1) eqn:F.
  - exfalso. destruct (update_parents G O s1) as [s2|e] eqn:E2; [|discriminate]. cbn [bind] in E.
    assert (F2 : CHANGED s2 = true).
    { unfold update_parents in E2. rewrite F in E2. cbn [negb] in E2. destruct (negb (forallb inc_ok (d8_codes s1))); [discriminate|].
      destruct (existsb (wraps G O) (combine (IDs s1) (d8_codes s1))); [discriminate|]. injection E2 as <-. reflexivity || exact F. }
    destruct (update_width_length legacy s2) as [s3|e] eqn:E3; [|discriminate]. cbn [bind] in E.
    assert (s3 = s2) as ->.
    { unfold update_width_length in E3. rewrite F2 in E3. cbn [negb] in E3. destruct (_ && _) in E3; [discriminate | congruence]. }
    unfold update_area in E. rewrite F2 in E. discriminate.
  - unfold update_parents, update_width_length, update_area in E. rewrite F in E. cbn [negb bind] in E. rewrite F in E. cbn [negb bind] in E.
    rewrite F in E. cbn [negb] in E. injection E as <-.
    destruct (list_eq_dec Z.eq_dec (d8_grid s1) (d8_grid s)) as [X|X]; [exact X|]. apply C in X. discriminate.
Qed.
Print Assumptions C79_update_refuted.
(* C79 refuted: with a current numpy more than one changed cell cannot be given *)
Theorem C79_numpy_refuted G O dem l s : (1 < length l)%nat -> update_flow_grid false G O dem (Some l) s = Raise ValueError.
Proof. intro H. unfold update_flow_grid. cbn [orb]. destruct (Nat.leb_spec (length l) 1); [lia | reflexivity]. Qed.
Print Assumptions C79_numpy_refuted.

(* a flat cell: no neighbour is lower, one is as high *)
Definition flat_cell (G : geom) (dem : list (option Q)) (j : nat) : Prop :=
  exists z, elev dem j = Some z /\ (forall k, (k < 8)%nat -> exists z', elev dem (nbr G k j) = Some z' /\ (z <= z')%Q) /\
    exists k z', (k < 8)%nat /\ elev dem (nbr G k j) = Some z' /\ (z' == z)%Q.
Lemma slope_sign G dem j k a b s : geom_ok G -> (k < 8)%nat -> elev dem j = Some a -> elev dem (nbr G k j) = Some b -> slope G dem j k = Some s ->
  ((s <= 0)%Q -> (a <= b)%Q) /\ ((s == 0)%Q -> (b == a)%Q) /\ ((a < b)%Q -> (s < 0)%Q).
Proof.
  intros HG K A B S. unfold slope in S. rewrite A, B in S. injection S as <-. pose proof (dist_pos G HG k K) as D.
  assert (E : (a - b == (a - b) / dist G k * dist G k)%Q) by (field; lra). set (q := ((a - b) / dist G k)%Q) in *. clearbody q. repeat split; intro H; nra.
Qed.
Lemma zero_slope_flat G dem j m : geom_ok G -> max_slope G dem j = Some m -> (m == 0)%Q -> flat_cell G dem j.
Proof.
  intros HG M Z. pose proof (max_slope_some G dem j m M) as S.
  destruct (max_slope_attained G dem j m M) as [k0 [s0 [K0 [S0 E0]]]].
  assert (X : exists z, elev dem j = Some z) by (unfold slope in S0; destruct (elev dem j) as [z|]; [eauto | discriminate]).
  destruct X as [z Ez]. exists z. split; [exact Ez|]. split.
  - intros k K. destruct (S k K) as [s [Sk Le]]. destruct (elev dem (nbr G k j)) as [z'|] eqn:Ez'.
    + exists z'. split; [reflexivity|]. apply (slope_sign G dem j k z z' s HG K Ez Ez' Sk). lra.
    + exfalso. unfold slope in Sk. rewrite Ez, Ez' in Sk. discriminate.
  - exists k0. destruct (elev dem (nbr G k0 j)) as [z'|] eqn:Ez'.
    + exists z'. split; [exact K0|]. split; [reflexivity|]. apply (slope_sign G dem j k0 z z' s0 HG K0 Ez Ez' S0). lra.
    + exfalso. unfold slope in S0. rewrite Ez, Ez' in S0. discriminate.
Qed.
(* C79 refuted: with flats linked, a DEM with a pit and without flats stops the parents with an IndexError *)
Theorem C79_pits_refuted G O dem i z : geom_ok G -> BREAK_TIES O = true -> LINK_FLATS O = true -> (i < ncells G)%nat -> not_edge G i = true ->
  elev dem i = Some z -> (DEM_nodata O < z)%Q -> (forall k, (k < 8)%nat -> exists z', elev dem (nbr G k i) = Some z' /\ (z < z')%Q) ->
  (forall j, (j < ncells G)%nat -> ~ flat_cell G dem j) -> refresh G O dem None (initial G) = Raise IndexError.
Proof.
  intros HG B L I NE Ez Nd P NF.
  assert (C : start_code G O dem i = -300).
  { destruct (max_slope_defined G dem i) as [m M].
    { intros k K. destruct (P k K) as [z' [Ez' _]]. unfold slope. rewrite Ez, Ez'. discriminate. }
    destruct (max_slope_attained G dem i m M) as [k [s [K [S E]]]]. destruct (P k K) as [z' [Ez' Lt]].
    assert (Neg : (m < 0)%Q) by (rewrite <- E; apply (slope_sign G dem i k z z' s HG K Ez Ez' S), Lt).
    unfold start_code. rewrite Ez, M, L.
    assert (Qle_bool z (DEM_nodata O) = false) as -> by (rewrite <- not_true_iff_false, Qle_bool_iff; lra).
    unfold not_edge in NE. destruct (left_edge G i), (right_edge G i), (top_edge G i), (bottom_edge G i); try discriminate.
    cbn [orb oeqb oltb]. rewrite !andb_false_r. assert (Qltb m 0 = true) as -> by (apply Qltb_lt, Neg). reflexivity. }
  unfold refresh, update_flow_grid. cbn [bind]. unfold update_codes. rewrite B, L.
  set (ids := seq 0 (ncells G)).
  replace (map (local_code G O dem) ids) with (map (start_code G O dem) ids) by (apply map_ext; intro; symmetry; apply local_start).
  unfold break_ties. rewrite map_map.
  change (fun x => if 0 <? start_code G O dem x then resolve_at (start_code G O dem x) else start_code G O dem x) with (code G O dem).
  set (gr := puts _ (map _ (filter _ _))).
  assert (F : filter (local_flat G) (combine ids (map (code G O dem) ids)) = []).
  { rewrite combine_map, filter_map. replace (filter (fun x => local_flat G (x, code G O dem x)) ids) with (@nil nat); [reflexivity|].
    symmetry. assert (H : forall l, (forall j, In j l -> (j < ncells G)%nat) -> filter (fun x => local_flat G (x, code G O dem x)) l = []).
    { induction l as [|j l IH]; intro R; [reflexivity|]. cbn [filter]. rewrite IH by (intros; apply R; right; assumption).
      destruct (local_flat G (j, code G O dem j)) eqn:LF; [|reflexivity]. exfalso.
      unfold local_flat in LF. cbn [fst snd] in LF. assert (N : code G O dem j < 0 /\ code G O dem j <> -300) by lia.
      unfold code in N. destruct (0 <? start_code G O dem j) eqn:Ps.
      - destruct (Z_le_gt_dec (start_code G O dem j) 255) as [U|U].
        + destruct (resolve_spec (start_code G O dem j) ltac:(lia)) as [k [K [E _]]]. pose proof (g_range k K). lia.
        + destruct (start_code_spec G O dem j ltac:(lia)) as [_ [m [Hm [[_ [E _]]|[[_ [E _]]|[_ [E _]]]]]]];
          destruct (code_of_bits (fun k => oeqb (slope G dem j k) (max_slope G dem j))) as [Hr _]; rewrite <- raw_code_is in Hr; lia.
      - destruct (start_code_spec G O dem j ltac:(lia)) as [_ [m [Hm [[E _]|[[_ [E Zm]]|[_ [E _]]]]]]]; [lia | | lia].
        apply (NF j); [apply R; left; reflexivity|]. exact (zero_slope_flat G dem j m HG Hm Zm). }
    apply H. intros j J. apply in_seq in J. lia. }
  assert (LL : local_link (length ids) G ids (map (code G O dem) ids) gr = Some (map (code G O dem) ids, gr)).
  { destruct (length ids); cbn [local_link]; rewrite F; reflexivity. }
  rewrite LL. cbn [bind]. unfold update_parents. cbn [CHANGED IDs d8_codes].
  assert (X : existsb (fun p => negb (fst p =? snd p)) (combine (map (code G O dem) ids) (map (get 0 (d8_grid (initial G))) ids)) = true).
  { apply existsb_exists. exists (code G O dem i, get 0 (d8_grid (initial G)) i). split.
    - assert (J : In i ids) by (apply in_seq; lia). clear - J. induction ids as [|j l IH]; [inversion J|]. cbn. destruct J as [->|J]; [left; reflexivity | right; apply IH, J].
    - unfold initial, code. cbn [d8_grid fst snd]. rewrite C. unfold get. rewrite nth_repeat. reflexivity. }
  rewrite X. cbn [negb].
  assert (forallb inc_ok (map (code G O dem) ids) = false) as ->; [|reflexivity].
  rewrite <- not_true_iff_false, forallb_forall. intro H. specialize (H (-300)).
  assert (inc_ok (-300) = true) as K; [|discriminate]. apply H. apply in_map_iff. exists i. split; [unfold code; rewrite C; reflexivity | apply in_seq; lia].
Qed.
Print Assumptions C79_pits_refuted.
(* C79 refuted: a cell that flows over a periodic side stops the parents with a TypeError *)
Theorem C79_wrap_refuted G O dem d i : geom_ok G -> BREAK_TIES O = true -> LINK_FLATS O = false -> LR_PERIODIC O = true ->
  D8_Model.update_flow_grid G O dem = Some d -> (i < ncells G)%nat -> col G i = nx G - 1 -> In (get 0 d i) [1; 2; 4] ->
  refresh G O dem None (initial G) = Raise TypeError.
Proof.
  intros HG B L LR D I Cl Cd. rewrite global_codes in D by assumption. injection D as <-. rewrite get_tab in Cd by exact I.
  unfold refresh, update_flow_grid. cbn [bind].
  destruct (codes_result G O dem (initial G) (seq 0 (ncells G)) B L) as [s1 [-> [E1 [E2 [_ [_ [_ E6]]]]]]].
  { apply repeat_length. } { intros j J. apply in_seq in J. lia. }
  cbn [bind]. unfold update_parents.
  assert (J : In i (seq 0 (ncells G))) by (apply in_seq; lia).
  assert (CHANGED s1 = true) as ->.
  { apply E6. exists i. split; [exact J|]. unfold initial, get. cbn [d8_grid]. rewrite nth_repeat. cbn in Cd. lia. }
  assert (forallb inc_ok (d8_codes s1) = true) as ->.
  { rewrite E2. apply forallb_forall. intros c H. apply in_map_iff in H. destruct H as [j [<- _]].
    destruct (code_kinds G O dem j L) as [->|[k [K ->]]]; [reflexivity|]. pose proof (g_range k K). unfold inc_ok. lia. }
  cbn [negb].
  assert (existsb (wraps G O) (combine (IDs s1) (d8_codes s1)) = true) as ->; [|reflexivity].
  apply existsb_exists. exists (i, code G O dem i). split.
  - rewrite E1, E2, combine_map. apply in_map_iff. exists i. auto.
  - unfold wraps. rewrite LR. assert (right_edge G i = true) as -> by (unfold right_edge, col in *; lia).
    destruct Cd as [<-|[<-|[<-|[]]]]; reflexivity.
Qed.
Print Assumptions C79_wrap_refuted.
(* C79 refuted: a cell once listed as one without flow stays listed *)
Theorem C79_noflow_refuted G s old j : (j < ncells G)%nat -> In j old -> In j (noflow_IDs G s old).
Proof.
  intros J I. unfold noflow_IDs. destruct (map fst _) eqn:E; [exact I|]. apply unique_In. split; [exact J|]. apply in_or_app. left. exact I.
Qed.
Print Assumptions C79_noflow_refuted.

Definition fG := mkGeom 7 3 1 1 (14 # 10).
Definition fO := mkOpts true true false false (-(9999)).
(* a level channel from west to east between two ridges *)
Definition fd (w e : Q) : list (option Q) := map Some ([9;9;9;9;9;9;9] ++ [w; 5; 5; 5; 5; 5; e] ++ [9;9;9;9;9;9;9])%Q.
Ltac cells H := repeat (destruct H as [H|H]; [subst; try (cbv; lia); try reflexivity|]); try contradiction.
(* C79 refuted: with flats linked, cells of a flat far from the changed ends keep their old directions *)
Theorem C79_flats_refuted : exists G O dem ids dem' s d', geom_ok G /\ BREAK_TIES O = true /\ LINK_FLATS O = true /\
  LR_PERIODIC O = false /\ TB_PERIODIC O = false /\ changes G dem [(ids, dem')] /\
  bind (refresh G O dem None (initial G)) (refresh G O dem' (Some ids)) = Ok s /\
  D8_Model.update_flow_grid G O dem' = Some d' /\ d8_grid s <> d'.
Proof.
  exists fG, fO, (fd 9 3), [7%nat; 13%nat], (fd 3 9). do 2 eexists. split; [unfold geom_ok, fG; cbn; repeat split; lra || lia|].
  do 4 (split; [reflexivity|]). split; [|split; [vm_compute; reflexivity|split; [vm_compute; reflexivity | discriminate]]].
  cbn [changes]. split; [intros i [<-|[<-|[]]]; cbv; lia|]. split; [|exact I]. intros i R N.
  assert (H : In i (seq 0 21)) by (apply in_seq; cbv in R; lia). cbn in H. cells H; exfalso; apply N; cbn; auto.
Qed.
Print Assumptions C79_flats_refuted.
Definition pG := mkGeom 4 3 1 1 (14 # 10).
Definition pO := mkOpts true false true false (-(9999)).
Definition pd (w : Q) : list (option Q) := map Some ([9;9;9;9] ++ [w; 7; 6; 7] ++ [9;9;9;9])%Q.
(* C79 refuted: a change at a periodic side does not reach the cells at the other side *)
Theorem C79_periodic_refuted : exists G O dem ids dem' s d', geom_ok G /\ BREAK_TIES O = true /\ LINK_FLATS O = false /\
  LR_PERIODIC O = true /\ TB_PERIODIC O = false /\ changes G dem [(ids, dem')] /\
  bind (refresh G O dem None (initial G)) (update_flow_grid true G O dem' (Some ids)) = Ok s /\
  D8_Model.update_flow_grid G O dem' = Some d' /\ d8_grid s <> d'.
Proof.
  exists pG, pO, (pd 8), [4%nat], (pd 3). do 2 eexists. split; [unfold geom_ok, pG; cbn; repeat split; lra || lia|].
  do 4 (split; [reflexivity|]). split; [|split; [vm_compute; reflexivity|split; [vm_compute; reflexivity | discriminate]]].
  cbn [changes]. split; [intros i [<-|[]]; cbv; lia|]. split; [|exact I]. intros i R N.
  assert (H : In i (seq 0 12)) by (apply in_seq; cbv in R; lia). cbn in H. cells H; exfalso; apply N; cbn; auto.
Qed.
Print Assumptions C79_periodic_refuted.

(* ---------- cases ---------- *)
Definition cO := mkOpts true false false false (-(9999)).
Definition cG := mkGeom 5 4 1 1 (14 # 10).
Definition c0 : list (option Q) := map Some ([9;9;9;9;9; 9;8;7;6;5; 9;8;6;7;9; 9;9;9;9;9])%Q.
Definition c1 : list (option Q) := map Some ([9;9;9;9;9; 9;8;7;6;5; 9;8;9;7;9; 9;9;9;9;9])%Q.
Definition c2 : list (option Q) := map Some ([9;9;9;9;9; 9;8;7;6;7; 9;8;9;7;9; 9;2;9;9;9])%Q.
Example C79_history_case : geom_ok cG /\ changes cG c0 [([12%nat], c1); ([9%nat; 16%nat], c2)] /\
  exists s0 s, refresh cG cO c0 None (initial cG) = Ok s0 /\ refreshes cG cO [([12%nat], c1); ([9%nat; 16%nat], c2)] s0 = Ok s /\
    d8_grid s0 = [0;0;0;0;0; 0;4;2;2;0; 0;2;0;1;0; 0;0;0;0;0] /\
    d8_grid s = [0;0;0;0;0; 0;2;2;0;0; 0;8;16;128;0; 0;0;0;0;0] /\ parent_ID_grid s = [0;0;0;0;0; 0;7;8;0;0; 0;16;16;8;0; 0;0;0;0;0].
Proof.
  split; [unfold geom_ok, cG; cbn; repeat split; lra || lia|]. split.
  { assert (A : forall i, (i < ncells cG)%nat -> In i (seq 0 20)) by (intros; apply in_seq; cbv in H; lia).
    cbn [changes]. split; [intros i [<-|[]]; cbv; lia|]. split.
    - intros i R N. apply A in R. cbn in R. cells R; exfalso; apply N; cbn; auto.
    - split; [intros i [<-|[<-|[]]]; cbv; lia|]. split; [|exact I]. intros i R N. apply A in R. cbn in R. cells R; exfalso; apply N; cbn; auto. }
  do 2 eexists. split; [vm_compute; reflexivity|]. split; [vm_compute; reflexivity|]. cbn [d8_grid parent_ID_grid].
  repeat split; reflexivity.
Qed.
Example C79_neighbors_case : get_neighbors cG [0%nat; 12%nat] false = [1; 5; 6; 7; 8; 11; 13; 16; 17; 18]%nat /\
  get_neighbors cG [19%nat] true = [13; 14; 18; 19]%nat.
Proof. split; reflexivity. Qed.
Example C79_kids_case : kid_IDs cG [0;0;0;0;0; 0;4;2;2;0; 0;2;0;1;0; 0;0;0;0;0] 12 = [11; 6]%nat /\
  kid_IDs cG [0;0;0;0;0; 0;4;2;2;0; 0;2;0;1;0; 0;0;0;0;0] 9 = [13; 8]%nat /\ is_a_pit cG c0 9 = true /\ is_an_interior_pit cG c0 9 = false.
Proof. repeat split; reflexivity. Qed.
(* the hypotheses of C79_pits_refuted: a bowl *)
Definition bG := mkGeom 3 3 1 1 (14 # 10).
Example C79_pits_case : refresh bG (mkOpts true true false false 0) (map Some ([1;2;3; 4;0;5; 6;7;8])%Q) None (initial bG) = Ok (mk (seq 0 9) (repeat 0 9) (repeat 0 9) false (repeat 0 9)) /\
  refresh bG (mkOpts true true false false (-(1))) (map Some ([1;2;3; 4;0;5; 6;7;8])%Q) None (initial bG) = Raise IndexError /\
  (forall j, (j < 9)%nat -> flat_cell bG (map Some ([1;2;3; 4;0;5; 6;7;8])%Q) j -> False).
Proof.
  split; [reflexivity|]. split; [reflexivity|]. intros j J [z [E [A [k [z' [K [E' Q]]]]]]].
  assert (H : In j (seq 0 9)) by (apply in_seq; lia). assert (H' : In k (seq 0 8)) by (apply in_seq; lia). cbn in H, H'. 
  repeat (destruct H as [H|H]; [subst j; repeat (destruct H' as [H'|H']; [subst k; cbv in E, E'; congruence || (injection E as <-; injection E' as <-; cbv in Q; lia)|]); contradiction|]). contradiction.
Qed.
(* C79 a flat cell is linked only to one of its steepest directions (of slope zero), and only to a neighbour that drains and not back into it *)
Theorem C79_linked_flat G grid i c : (-255 <= c < 0) -> (0 < local_ready G grid (i, c)) ->
  exists k, (k < 8)%nat /\ resolve_at (local_ready G grid (i, c)) = g k /\ Z.testbit (- c) (Z.of_nat k) = true /\
    0 < get 0 grid (nbr G k i) /\ get 0 grid (nbr G k i) <> h k.
Proof.
  intros C P. unfold local_ready in *. cbn [fst snd] in *.
  destruct (code_of_bits (fun k => valid G grid i k && nth k (allowed (-1 * c)) false)) as [R B].
  change (sumZ _) with (code_of (fun k => valid G grid i k && nth k (allowed (-1 * c)) false)) in *.
  destruct (resolve_spec (code_of (fun k => valid G grid i k && nth k (allowed (-1 * c)) false)) ltac:(split; [apply Z.le_succ_l in P; exact P | exact (proj2 R)])) as (k & K & E & T). exists k. split; [exact K|]. split; [exact E|]. rewrite B in T by exact K.
  apply andb_true_iff in T. destruct T as [V A]. rewrite allowed_spec in A by lia. replace (-1 * c) with (- c) in A by lia. split; [exact A|]. unfold valid in V. cbv zeta in V. lia.
Qed.
Print Assumptions C79_linked_flat.
Example C79_linked_case : local_ready cG [0;0;0;0;0; 0;-9;-9;1;0; 0;0;0;0;0; 0;0;0;0;0] (7%nat, -19) = 2 /\ resolve_at 2 = 2.
Proof. split; reflexivity. Qed.
