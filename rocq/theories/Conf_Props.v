(* C82: the conflict model keeps its books for every outcome of the random numbers. *)
From Coq Require Import ZArith QArith Qminmax Lqa List Bool Arith Lia.
From Verif Require Import Base Conf_Model.
Import ListNotations.
Local Open Scope Q_scope.

(* ---------- specification ---------- *)
(* a random number with probability 0 is 0 *)
Definition admissible (K : conf) (U : list Q) (d : draws) : Prop :=
  (forall p i, p_emerge K U = Some p -> B1 d i = true -> ~ get 0 p i == 0) /\
  (forall i js k, mapM (neighbor K i) dirs = Ok js -> (k < length js)%nat -> B3 d i k = true -> ~ get 0 (pn K (map (get 0 U) js)) k == 0).
Definition adjacent (K : conf) (i j : nat) : Prop :=
  (Z.abs (Z.of_nat (row K i) - Z.of_nat (row K j)) <= 1)%Z /\ (Z.abs (Z.of_nat (col K i) - Z.of_nat (col K j)) <= 1)%Z /\ i <> j.
Definition in_conflict (s : state) (i : nat) : Prop := get false (S_ s) i = true.
(* the number of cells in conflict *)
Definition conflicts (K : conf) (s : state) : nat := length (filter (get false (S_ s)) (seq 0 (ncells K))).

(* ---------- lists ---------- *)
Lemma puts_length {A} ps : forall l : list A, length (puts l ps) = length l.
Proof. induction ps as [|p ps IH]; intro l; cbn; [reflexivity|]. unfold puts in *. rewrite IH. apply set_length. Qed.
Lemma puts_get {A} (d : A) ps : forall l j, (j < length l)%nat ->
  (exists v, In (j, v) ps /\ get d (puts l ps) j = v) \/ ((forall v, ~ In (j, v) ps) /\ get d (puts l ps) j = get d l j).
Proof.
  induction ps as [|[i v] ps IH]; intros l j J; [right; split; [intros v []|reflexivity]|].
  cbn [puts fold_left fst snd]. change (fold_left (fun l p => set l (fst p) (snd p)) ps (set l i v)) with (puts (set l i v) ps).
  destruct (IH (set l i v) j ltac:(rewrite set_length; exact J)) as [[w [I E]]|[N E]]; [left; exists w; split; [right; exact I | exact E]|].
  destruct (Nat.eq_dec i j) as [<-|D].
  - left. exists v. split; [left; reflexivity|]. rewrite E. apply get_set_same. exact J.
  - right. split; [intros w [Q|Q]; [injection Q; congruence | eapply N; exact Q]|]. rewrite E. apply get_set_other. exact D.
Qed.
Lemma puts_const {A} (d v : A) w l j : (j < length l)%nat -> get d (puts l (map (fun i => (i, v)) w)) j = if existsb (Nat.eqb j) w then v else get d l j.
Proof.
  intro J. destruct (puts_get d (map (fun i => (i, v)) w) l j J) as [[x [I E]]|[N E]]; rewrite E.
  - apply in_map_iff in I. destruct I as [i [Q I]]. injection Q as -> <-. replace (existsb (Nat.eqb j) w) with true; [reflexivity|]. symmetry. apply existsb_exists. exists j. split; [exact I | apply Nat.eqb_refl].
  - replace (existsb (Nat.eqb j) w) with false; [reflexivity|]. symmetry. apply not_true_iff_false. intro H. apply existsb_exists in H. destruct H as [i [I Q]]. apply Nat.eqb_eq in Q. subst i. apply (N v). apply in_map_iff. eauto.
Qed.
Lemma mem_where n w j : existsb (Nat.eqb j) (where_ n w) = (j <? n)%nat && w j.
Proof.
  apply eq_true_iff_eq. rewrite existsb_exists, andb_true_iff, Nat.ltb_lt. split.
  - intros [i [I Q]]. apply Nat.eqb_eq in Q. subst i. apply filter_In in I. destruct I as [I Q]. apply in_seq in I. split; [lia | exact Q].
  - intros [L Q]. exists j. split; [apply filter_In; split; [apply in_seq; lia | exact Q] | apply Nat.eqb_refl].
Qed.
Definition b2z (b : bool) : Z := if b then 1%Z else 0%Z.
Lemma cnt_lin n (f g h k : nat -> bool) : (forall i, (i < n)%nat -> (b2z (f i) = b2z (g i) + b2z (h i) - b2z (k i))%Z) ->
  (Z.of_nat (length (where_ n f)) = Z.of_nat (length (where_ n g)) + Z.of_nat (length (where_ n h)) - Z.of_nat (length (where_ n k)))%Z.
Proof.
  induction n as [|n IH]; intro H; [reflexivity|]. unfold where_ in *. rewrite seq_S, !filter_app, !app_length. cbn [Nat.add filter].
  specialize (IH ltac:(intros; apply H; lia)). specialize (H n ltac:(lia)). destruct (f n), (g n), (h n), (k n); cbn in H |- *; lia.
Qed.
Lemma count_where l n : length l = n -> count l = length (where_ n (get false l)).
Proof.
  revert n. induction l as [|b l IH] using rev_ind; intros n L; [subst; reflexivity|]. rewrite app_length in L. cbn in L. subst n.
  unfold count, where_ in *. rewrite filter_app, app_length. replace (length l + 1)%nat with (S (length l)) by lia. rewrite seq_S, filter_app, app_length. cbn [Nat.add filter].
  rewrite (IH (length l) eq_refl). f_equal.
  - f_equal. apply filter_ext_in. intros i I. apply in_seq in I. unfold get. rewrite app_nth1 by lia. reflexivity.
  - unfold get. rewrite app_nth2, Nat.sub_diag by lia. cbn. destruct b; reflexivity.
Qed.
Lemma mapM_ok {A B} (f : A -> out B) l r : mapM f l = Ok r -> length r = length l /\ forall i a b, nth i l a = nth i l a -> (i < length l)%nat -> f (nth i l a) = Ok (nth i r b).
Proof.
  revert r. induction l as [|x l IH]; intros r E; cbn in E; [injection E as <-; split; [reflexivity|]; cbn; lia|].
  destruct (f x) as [y|e] eqn:F; [|discriminate]. cbn in E. destruct (mapM f l) as [ys|e] eqn:M; [|discriminate]. cbn in E. injection E as <-.
  destruct (IH ys eq_refl) as [L H]. split; [cbn; congruence|]. intros i a b _ I. destruct i as [|i]; [exact F|]. cbn in *. apply H; [reflexivity | lia].
Qed.
Lemma mapM_total {A B} (f : A -> out B) l : (forall a, In a l -> exists b, f a = Ok b) -> exists r, mapM f l = Ok r.
Proof.
  induction l as [|x l IH]; intro H; [exists []; reflexivity|]. destruct (H x (or_introl eq_refl)) as [b E]. destruct IH as [r R]; [intros; apply H; right; assumption|].
  exists (b :: r). cbn. rewrite E. cbn. rewrite R. reflexivity.
Qed.
(* ---------- the maximum ---------- *)
Lemma fold_max_spec r : forall x, x <= fold_left Qmax r x /\ (forall y, In y r -> y <= fold_left Qmax r x).
Proof.
  induction r as [|a r IH]; intro x; [split; [cbn; lra | intros y []]|]. cbn. destruct (IH (Qmax x a)) as [A B].
  pose proof (Q.le_max_l x a). pose proof (Q.le_max_r x a). split; [lra|]. intros y [<-|I]; [lra | apply B, I].
Qed.
Lemma lmax_ge l x : In x l -> x <= lmax l.
Proof. destruct l as [|a l]; [intros []|]. cbn. destruct (fold_max_spec l a) as [A B]. intros [<-|I]; [exact A | apply B, I]. Qed.

(* ---------- the field U ---------- *)
Definition field_ok (K : conf) (U : list Q) : Prop :=
  length U = ncells K /\ (forall i, 0 <= get 0 U i) /\ (forall i, (i < ncells K)%nat -> border K i = true -> get 0 U i == 0).
Lemma field_initial K f : field_ok K (initialize_U K f).
Proof.
  unfold field_ok, initialize_U. split; [apply tab_length|]. split.
  - intro i. destruct (Nat.lt_ge_cases i (ncells K)) as [H|H].
    + rewrite get_tab by exact H. destruct (border K i); [lra|]. destruct f; [apply Q.le_max_r | lra].
    + unfold get. rewrite nth_overflow; [lra|]. rewrite tab_length. exact H.
  - intros i I B. rewrite get_tab by exact I. rewrite B. reflexivity.
Qed.
Lemma index_ok z n : (0 <= z < Z.of_nat n)%Z -> index z n = Ok (Z.to_nat z).
Proof. intro H. unfold index. destruct (Z.ltb_spec z 0); [lia|]. destruct (Z.ltb_spec z 0); [lia|]. destruct (Z.leb_spec (Z.of_nat n) z); [lia|]. reflexivity. Qed.
Lemma rowcol K i : (i < ncells K)%nat -> (0 < nx K)%nat /\ (row K i < ny K)%nat /\ (col K i < nx K)%nat /\ i = (row K i * nx K + col K i)%nat.
Proof.
  intro I. unfold ncells in I. assert (P : (0 < nx K)%nat) by (destruct (nx K); lia). split; [exact P|]. unfold row, col. split; [apply Nat.div_lt_upper_bound; lia|].
  split; [apply Nat.mod_upper_bound; lia|]. rewrite Nat.mul_comm. apply Nat.div_mod. lia.
Qed.
Lemma place K r c : (c < nx K)%nat -> row K (r * nx K + c) = r /\ col K (r * nx K + c) = c.
Proof. intro C. unfold row, col. split; [rewrite Nat.div_add_l by lia; rewrite Nat.div_small by exact C; lia | rewrite Nat.add_comm, Nat.mod_add by lia; apply Nat.mod_small; exact C]. Qed.
Lemma dir_range k : (k < 8)%nat -> (-1 <= dr k <= 1)%Z /\ (-1 <= dc k <= 1)%Z /\ ~ (dr k = 0 /\ dc k = 0)%Z.
Proof. intro K. do 8 (destruct k as [|k]; [cbn; lia|]). lia. Qed.
Lemma neighbor_ok K i k : (i < ncells K)%nat -> border K i = false -> (k < 8)%nat ->
  exists j, neighbor K i k = Ok j /\ (j < ncells K)%nat /\ adjacent K i j.
Proof.
  intros I B Hk. destruct (rowcol K i I) as (P & R & C & E). unfold border in B. rewrite !orb_false_iff, !Nat.eqb_neq in B. destruct B as [[[B1 B2] B3] B4].
  destruct (dir_range k Hk) as (D1 & D2 & D3). unfold neighbor. rewrite index_ok by lia. cbn [bind]. rewrite index_ok by lia. cbn [bind]. eexists. split; [reflexivity|].
  set (r := Z.to_nat (Z.of_nat (row K i) + dr k)). set (c := Z.to_nat (Z.of_nat (col K i) + dc k)).
  assert (Hr : (r < ny K)%nat) by lia. assert (Hc : (c < nx K)%nat) by lia. split; [unfold ncells; nia|].
  destruct (place K r c Hc) as [A1 A2]. unfold adjacent. rewrite A1, A2. split; [lia|]. split; [lia|]. intro Q. apply D3. rewrite <- Q in A1, A2. lia.
Qed.

(* ---------- invariant ---------- *)
Record Inv (K : conf) (U : list Q) (s : state) : Prop := {
  i_S : length (S_ s) = ncells K; i_IDs : length (IDs s) = ncells K;
  i_U : forall i, (i < ncells K)%nat -> in_conflict s i -> 0 < get 0 U i;
  i_n : n_conflict s = Z.of_nat (conflicts K s);
  i_zero : forall i, (i < ncells K)%nat -> ~ in_conflict s i -> get 0%Z (IDs s) i = 0%Z;
  i_id : forall i, (i < ncells K)%nat -> in_conflict s i -> In (get 0%Z (IDs s) i) (firstn (start_index s) (ran_IDs K)) }.
Lemma get_rep {A} (d x : A) n k : (k < n)%nat -> get d (repeat x n) k = x.
Proof. intro H. unfold get. rewrite (nth_indep _ d x) by (rewrite repeat_length; exact H). apply nth_repeat. Qed.
Lemma inv_initial K U : Inv K U (initial K).
Proof.
  assert (F : forall i, (i < ncells K)%nat -> ~ in_conflict (initial K) i) by (intros i I H; unfold in_conflict in H; change (S_ (initial K)) with (repeat false (ncells K)) in H; rewrite get_rep in H by exact I; discriminate).
  constructor; cbn [initial S_ IDs n_conflict start_index].
  - apply repeat_length.
  - apply repeat_length.
  - intros i I H. destruct (F i I H).
  - unfold conflicts. cbn [initial S_]. replace (filter _ _) with (@nil nat); [reflexivity|]. symmetry.
    assert (G : forall l, (forall i, In i l -> (i < ncells K)%nat) -> filter (get false (repeat false (ncells K))) l = []).
    { induction l as [|a l IH]; intro H; [reflexivity|]. cbn [filter]. rewrite get_rep by (apply H; left; reflexivity). apply IH. intros; apply H; right; assumption. }
    apply G. intros i I. apply in_seq in I. lia.
  - intros i I _. apply get_rep. exact I.
  - intros i I H. destruct (F i I H).
Qed.
Lemma p_zero K U p i : p_emerge K U = Some p -> (i < length U)%nat -> get 0 U i == 0 -> get 0 p i == 0.
Proof.
  unfold p_emerge. destruct (Qeq_bool (lmax U) 0); [discriminate|]. intros E I Z. injection E as <-. unfold get in *. rewrite (nth_indep _ 0 ((fun u => c_emerge K / lmax U * u) 0)) by (rewrite map_length; exact I).
  rewrite (map_nth (fun u => c_emerge K / lmax U * u)), Z. ring.
Qed.
Lemma pn_zero K Un k : (k < length Un)%nat -> get 0 Un k == 0 -> get 0 (pn K Un) k == 0.
Proof.
  intros I Z. unfold pn, get in *. destruct (Qltb 0 (lmax Un)) eqn:L.
  - rewrite (nth_indep _ 0 ((fun u => c_spread K * u / lmax Un) 0)) by (rewrite map_length; exact I). rewrite (map_nth (fun u => c_spread K * u / lmax Un)), Z. unfold Qdiv. ring.
  - clear. revert k. induction Un as [|u l IH]; intros [|k]; cbn; try reflexivity. apply IH.
Qed.
(* the state after emergence and resolution *)
Definition emerged (d : draws) (s : state) (i : nat) : bool := negb (get false (S_ s) i) && B1 d i.
Definition resolved (d : draws) (s : state) (i : nat) : bool := get false (S_ s) i && B2 d i.
Lemma in_firstn_skipn {A} (x : A) n2 n l : In x (firstn n2 (skipn n l)) -> In x (firstn (n + n2) l).
Proof.
  revert l. induction n as [|n IH]; intros l H; [exact H|]. destruct l as [|a l]; [cbn in H; rewrite firstn_nil in H; destruct H|]. cbn in *. right. apply IH, H.
Qed.
Lemma firstn_more {A} (x : A) a b l : In x (firstn a l) -> In x (firstn (a + b) l).
Proof. revert l. induction a as [|a IH]; intros l H; [destruct H|]. destruct l as [|y l]; [destruct H|]. destruct H as [->|H]; [left; reflexivity | right; apply IH, H]. Qed.
Lemma in_combine_nth {A B} (x : A) (y : B) l l' : In (x, y) (combine l l') -> exists k, nth_error l k = Some x /\ nth_error l' k = Some y.
Proof.
  revert l'. induction l as [|a l IH]; intros l' H; [destruct H|]. destruct l' as [|b l']; [destruct H|]. destruct H as [E|H]; [injection E as -> ->; exists 0%nat; auto|].
  destruct (IH l' H) as [k K]. exists (S k). exact K.
Qed.
Lemma emerge_ok K U d s s1 : Inv K U s -> emerge K U d s = Ok s1 ->
  length (S_ s1) = ncells K /\ length (IDs s1) = ncells K /\
  (forall i, (i < ncells K)%nat -> get false (S_ s1) i = (get false (S_ s) i && negb (B2 d i)) || emerged d s i) /\
  (forall i, (i < ncells K)%nat -> emerged d s i = false -> resolved d s i = false -> get 0%Z (IDs s1) i = get 0%Z (IDs s) i) /\
  (forall i, (i < ncells K)%nat -> resolved d s i = true -> get 0%Z (IDs s1) i = 0%Z) /\
  start_index s1 = (start_index s + length (where_ (ncells K) (emerged d s)))%nat /\
  (forall i, (i < ncells K)%nat -> emerged d s i = true -> In (get 0%Z (IDs s1) i) (firstn (start_index s1) (ran_IDs K))) /\
  ((start_index s1 <= length (ran_IDs K))%nat -> forall i, (i < ncells K)%nat -> emerged d s i = true ->
     exists k, nth_error (where_ (ncells K) (emerged d s)) k = Some i /\ nth_error (firstn (length (where_ (ncells K) (emerged d s))) (skipn (start_index s) (ran_IDs K))) k = Some (get 0%Z (IDs s1) i)) /\
  n_conflict s1 = (n_conflict s + Z.of_nat (length (where_ (ncells K) (emerged d s))) - Z.of_nat (length (where_ (ncells K) (resolved d s))))%Z /\
  (exists p, p_emerge K U = Some p).
Proof.
  intros V E. unfold emerge in E. destruct (p_emerge K U) as [p|]; [|discriminate]. destruct (negb _); [discriminate|].
  fold (emerged d s) in E. fold (resolved d s) in E.
  change (fun i => negb (get false (S_ s) i) && B1 d i) with (emerged d s) in E. change (fun i => get false (S_ s) i && B2 d i) with (resolved d s) in E.
  set (w2 := where_ (ncells K) (emerged d s)) in *. set (w3 := where_ (ncells K) (resolved d s)) in *. set (ids0 := firstn (length w2) (skipn (start_index s) (ran_IDs K))) in *.
  assert (X : exists ids, length ids = length w2 /\ (forall z, In z ids -> In z (firstn (start_index s + length w2) (ran_IDs K))) /\ ((start_index s + length w2 <= length (ran_IDs K))%nat -> ids = ids0) /\
     E = E /\ s1 = mk (puts (puts (S_ s) (map (fun i => (i, true)) w2)) (map (fun i => (i, false)) w3)) (puts (puts (IDs s) (combine w2 ids)) (map (fun i => (i, 0%Z)) w3))
           (n_conflict s + Z.of_nat (length w2) - Z.of_nat (length w3)) (start_index s + length w2)).
  { destruct (Nat.eqb_spec (length ids0) (length w2)) as [L|L].
    - cbn [bind] in E. exists ids0. split; [exact L|]. split; [intros z Z; apply in_firstn_skipn, Z|]. split; [reflexivity|]. split; [reflexivity|]. congruence.
    - destruct (Nat.eqb_spec (length ids0) 1) as [L1|L1]; [|discriminate]. cbn [bind] in E. exists (repeat (hd 0%Z ids0) (length w2)). split; [apply repeat_length|]. split.
      + intros z Z. apply repeat_spec in Z. subst z. apply in_firstn_skipn. fold ids0. destruct ids0; [discriminate | left; reflexivity].
      + split; [|split; [reflexivity | congruence]]. intro H. exfalso. apply L. unfold ids0. rewrite firstn_length, skipn_length. lia. }
  destruct X as (ids & L1 & L2 & L3 & _ & ->). clear E. cbn [S_ IDs start_index n_conflict].
  destruct V as [v1 v2 v3 v4 v5 v6].
  assert (M2 : forall i, (i < ncells K)%nat -> existsb (Nat.eqb i) w2 = emerged d s i) by (intros i I; unfold w2; rewrite mem_where; destruct (Nat.ltb_spec i (ncells K)); [reflexivity | lia]).
  assert (M3 : forall i, (i < ncells K)%nat -> existsb (Nat.eqb i) w3 = resolved d s i) by (intros i I; unfold w3; rewrite mem_where; destruct (Nat.ltb_spec i (ncells K)); [reflexivity | lia]).
  assert (ID1 : forall i, (i < ncells K)%nat -> emerged d s i = true -> exists k, nth_error w2 k = Some i /\ nth_error ids k = Some (get 0%Z (puts (IDs s) (combine w2 ids)) i)).
  { intros i I H. destruct (puts_get 0%Z (combine w2 ids) (IDs s) i ltac:(lia)) as [[v [A B]]|[A _]].
    - rewrite B. apply in_combine_nth in A. exact A.
    - exfalso. assert (J : In i w2) by (unfold w2, where_; apply filter_In; split; [apply in_seq; lia | exact H]). apply In_nth_error in J. destruct J as [k J].
      assert (k < length w2)%nat by (apply nth_error_Some; congruence). destruct (nth_error ids k) as [v|] eqn:N; [|apply nth_error_None in N; lia].
      apply (A v). clear -J N. revert ids k J N. generalize w2. induction w0 as [|a w IH]; intros [|b ids] [|k] J N; cbn in *; try discriminate; [injection J as ->; injection N as ->; left; reflexivity | right; eapply IH; eassumption]. }
  assert (ID0 : forall i, (i < ncells K)%nat -> emerged d s i = false -> get 0%Z (puts (IDs s) (combine w2 ids)) i = get 0%Z (IDs s) i).
  { intros i I H. destruct (puts_get 0%Z (combine w2 ids) (IDs s) i ltac:(lia)) as [[v [A B]]|[_ B]]; [|exact B]. exfalso. apply in_combine_l in A. unfold w2, where_ in A. apply filter_In in A. destruct A. congruence. }
  assert (RE : forall i, emerged d s i = true -> resolved d s i = false) by (intro i; unfold emerged, resolved; destruct (get false (S_ s) i); [discriminate | reflexivity]).
  assert (G3 : forall i, (i < ncells K)%nat -> get 0%Z (puts (puts (IDs s) (combine w2 ids)) (map (fun i => (i, 0%Z)) w3)) i = if resolved d s i then 0%Z else get 0%Z (puts (IDs s) (combine w2 ids)) i).
  { intros i I. rewrite puts_const by (rewrite puts_length; lia). rewrite M3 by exact I. reflexivity. }
  split; [|split; [|split; [|split; [|split; [|split; [|split; [|split; [|split]]]]]]]].
  - rewrite !puts_length. exact v1.
  - rewrite !puts_length. exact v2.
  - intros i I. rewrite puts_const by (rewrite puts_length; lia). rewrite puts_const by lia. rewrite M2, M3 by exact I. unfold emerged, resolved. destruct (get false (S_ s) i), (B1 d i), (B2 d i); reflexivity.
  - intros i I H1 H2. rewrite G3, H2 by exact I. apply ID0; assumption.
  - intros i I H. rewrite G3, H by exact I. reflexivity.
  - reflexivity.
  - intros i I H. rewrite G3 by exact I. rewrite (RE i H). destruct (ID1 i I H) as (k & _ & N). apply L2. eapply nth_error_In. exact N.
  - intros H i I M. rewrite G3 by exact I. rewrite (RE i M). destruct (ID1 i I M) as (k & A & B). exists k. split; [exact A|]. fold w2. fold ids0. rewrite <- (L3 H). exact B.
  - reflexivity.
  - eauto.
Qed.
Lemma conflicts_ext K s s' : (forall i, (i < ncells K)%nat -> get false (S_ s) i = get false (S_ s') i) -> conflicts K s = conflicts K s'.
Proof. intro H. unfold conflicts. f_equal. apply filter_ext_in. intros i I. apply in_seq in I. apply H. lia. Qed.
Lemma inv_emerge K U d s s1 : field_ok K U -> admissible K U d -> Inv K U s -> emerge K U d s = Ok s1 -> Inv K U s1.
Proof.
  intros (F1 & F2 & F3) [A1 _] V E. destruct (emerge_ok K U d s s1 V E) as (G1 & G2 & G3 & G4 & G5 & G6 & G7 & _ & G8 & [p P]). destruct V as [v1 v2 v3 v4 v5 v6].
  assert (PU : forall i, (i < ncells K)%nat -> emerged d s i = true -> 0 < get 0 U i).
  { intros i I H. unfold emerged in H. apply andb_true_iff in H. destruct H as [_ H]. specialize (A1 p i P H). destruct (Qlt_le_dec 0 (get 0 U i)) as [L|L]; [exact L|].
    exfalso. apply A1. eapply p_zero; [exact P | lia |]. pose proof (F2 i). lra. }
  constructor; [exact G1 | exact G2 | | | |].
  - intros i I H. unfold in_conflict in H. rewrite G3 in H by exact I. apply orb_true_iff in H. destruct H as [H|H]; [|apply PU; assumption]. apply andb_true_iff in H. apply v3; [exact I | apply H].
  - rewrite G8, v4. unfold conflicts. change (filter (get false (S_ s)) (seq 0 (ncells K))) with (where_ (ncells K) (get false (S_ s))). change (filter (get false (S_ s1)) (seq 0 (ncells K))) with (where_ (ncells K) (get false (S_ s1))).
    symmetry. apply cnt_lin. intros i I. rewrite G3 by exact I. unfold emerged, resolved. destruct (get false (S_ s) i), (B1 d i), (B2 d i); reflexivity.
  - intros i I H. unfold in_conflict in H. rewrite G3 in H by exact I. destruct (resolved d s i) eqn:R; [apply G5; assumption|]. destruct (emerged d s i) eqn:M; [rewrite orb_true_r in H; congruence|].
    rewrite (G4 i I M R). apply v5; [exact I|]. unfold in_conflict. intro S. rewrite S in H. unfold resolved in R. rewrite S in R. cbn in R. rewrite R in H. cbn in H. congruence.
  - intros i I H. unfold in_conflict in H. rewrite G3 in H by exact I. destruct (emerged d s i) eqn:M; [apply G7; assumption|]. rewrite orb_false_r in H. apply andb_true_iff in H. destruct H as [H1 H2].
    assert (R : resolved d s i = false) by (unfold resolved; rewrite H1; apply negb_true_iff in H2; exact H2). rewrite (G4 i I M R), G6. apply firstn_more, v6; assumption.
Qed.

(* ---------- spreading ---------- *)
Lemma spread_ok K U d s s1 : field_ok K U -> Inv K U s -> spread_conflicts K U d s = Ok s1 ->
  length (S_ s1) = ncells K /\ length (IDs s1) = ncells K /\ start_index s1 = start_index s /\ n_conflict s1 = Z.of_nat (conflicts K s1) /\
  (forall i, (i < ncells K)%nat -> get false (S_ s) i = true -> get false (S_ s1) i = true /\ get 0%Z (IDs s1) i = get 0%Z (IDs s) i) /\
  (forall i, (i < ncells K)%nat -> get false (S_ s) i = false -> get false (S_ s1) i = true ->
     exists j js k, (j < ncells K)%nat /\ get false (S_ s) j = true /\ adjacent K j i /\ get 0%Z (IDs s1) i = get 0%Z (IDs s) j /\
       mapM (neighbor K j) dirs = Ok js /\ (k < length js)%nat /\ get 0%nat js k = i /\ B3 d j k = true) /\
  (forall i, (i < ncells K)%nat -> get false (S_ s) i = false -> get false (S_ s1) i = false -> get 0%Z (IDs s1) i = get 0%Z (IDs s) i).
Proof.
  intros F V E. pose proof (i_n _ _ _ V) as N. pose proof (i_U _ _ _ V) as VU. pose proof (i_S _ _ _ V) as LS. pose proof (i_IDs _ _ _ V) as LI.
  unfold spread_conflicts in E. destruct (Nat.eqb_spec (length (where_ (ncells K) (get false (S_ s)))) 0) as [Z|Z].
  { injection E as <-. repeat split; try assumption; try congruence. }
  set (w1 := where_ (ncells K) (get false (S_ s))) in *. destruct (mapM (fun i => mapM (neighbor K i) dirs) w1) as [nb|e] eqn:M; [|discriminate]. cbn [bind] in E.
  destruct (negb _); [discriminate|]. set (w2 := concat _) in E. injection E as <-. cbn [S_ IDs start_index n_conflict].
  destruct (mapM_ok _ _ _ M) as [ML MH].
  assert (W : forall i v, In (i, v) w2 -> get false (S_ s) i = false /\ exists j js k, (j < ncells K)%nat /\ get false (S_ s) j = true /\ v = get 0%Z (IDs s) j /\
     mapM (neighbor K j) dirs = Ok js /\ (k < length js)%nat /\ get 0%nat js k = i /\ B3 d j k = true).
  { intros i v I. unfold w2 in I. apply in_concat in I. destruct I as [l [I1 I2]]. apply in_map_iff in I1. destruct I1 as [[j js] [<- I1]].
    apply in_map_iff in I2. destruct I2 as [[k t] [Q I2]]. cbn in Q. injection Q as -> <-. apply filter_In in I2. destruct I2 as [I2 I3]. cbn in I3. apply andb_true_iff in I3. destruct I3 as [I3 I4].
    apply negb_true_iff in I3. split; [exact I3|]. apply in_combine_nth in I1. destruct I1 as (a & A1 & A2). apply in_combine_nth in I2. destruct I2 as (b & B_1 & B_2).
    assert (La : (a < length w1)%nat) by (apply nth_error_Some; congruence). assert (Lb : (b < length js)%nat) by (apply nth_error_Some; congruence).
    assert (Lb8 : (b < 8)%nat) by (change 8%nat with (length dirs); apply nth_error_Some; congruence).
    assert (k = b) as -> by (unfold dirs in B_1; apply (nth_error_nth _ _ 0%nat) in B_1; rewrite seq_nth in B_1 by exact Lb8; cbn in B_1; congruence).
    specialize (MH a 0%nat [] eq_refl La). rewrite (nth_error_nth _ _ 0%nat A1), (nth_error_nth _ _ [] A2) in MH.
    assert (J : In j w1) by (eapply nth_error_In; exact A1). unfold w1, where_ in J. apply filter_In in J. destruct J as [J1 J2]. apply in_seq in J1.
    exists j, js, b. repeat split; try assumption; try lia. unfold get. apply nth_error_nth. exact B_2. }
  assert (S1 : forall i, (i < ncells K)%nat -> get false (puts (S_ s) (map (fun q => (fst q, true)) w2)) i = get false (S_ s) i || existsb (fun q => Nat.eqb i (fst q)) w2).
  { intros i I. destruct (puts_get false (map (fun q => (fst q, true)) w2) (S_ s) i ltac:(lia)) as [[v [A B]]|[A B]]; rewrite B.
    - apply in_map_iff in A. destruct A as [q [Q A]]. injection Q as <- <-. replace (existsb _ w2) with true; [rewrite orb_true_r; reflexivity|]. symmetry. apply existsb_exists. exists q. split; [exact A | apply Nat.eqb_refl].
    - replace (existsb _ w2) with false; [rewrite orb_false_r; reflexivity|]. symmetry. apply not_true_iff_false. intro H. apply existsb_exists in H. destruct H as [q [I1 I2]]. apply Nat.eqb_eq in I2. apply (A true). apply in_map_iff. exists q. split; [congruence | exact I1]. }
  repeat split.
  - rewrite puts_length. exact LS.
  - rewrite puts_length. exact LI.
  - rewrite N. change (conflicts K s) with (length w1). rewrite (count_where _ (ncells K)) by (rewrite puts_length; exact LS). unfold conflicts. cbn [S_]. unfold where_. lia.
  - intros. rewrite S1 by assumption. rewrite H0. reflexivity.
  - destruct (puts_get 0%Z w2 (IDs s) i ltac:(lia)) as [[v [A B]]|[_ B]]; [|exact B]. destruct (W i v A) as [C _]. congruence.
  - intros i I H H'. rewrite S1, H in H' by exact I. cbn in H'. apply existsb_exists in H'. destruct H' as [[i' v'] [A1 A2]]. cbn in A2. apply Nat.eqb_eq in A2. subst i'.
    destruct (puts_get 0%Z w2 (IDs s) i ltac:(lia)) as [[v [A B]]|[A _]]; [|destruct (A v' A1)].
    destruct (W i v A) as (_ & j & js & k & W1 & W2 & W3 & W4 & W5 & W6 & W7). exists j, js, k.
    assert (Bj : border K j = false). { destruct (border K j) eqn:Bd; [|reflexivity]. destruct F as (_ & _ & F3). pose proof (F3 j W1 Bd). pose proof (VU j W1 W2). lra. }
    destruct (mapM_ok _ _ _ W4) as [L8 H8]. assert (k < 8)%nat by (change 8%nat with (length dirs); lia). specialize (H8 k 0%nat 0%nat eq_refl ltac:(change (length dirs) with 8%nat; lia)). unfold dirs in H8. rewrite seq_nth in H8 by lia. cbn [Nat.add] in H8.
    destruct (neighbor_ok K j k W1 Bj ltac:(lia)) as (t & T1 & T2 & T3). unfold get in W6. rewrite W6, T1 in H8. injection H8 as ->. repeat split; try assumption; try (apply T3). congruence.
  - intros i I H H'. rewrite S1, H in H' by exact I. cbn in H'. destruct (puts_get 0%Z w2 (IDs s) i ltac:(lia)) as [[v [A B]]|[_ B]]; [|exact B].
    exfalso. assert (X : existsb (fun q => Nat.eqb i (fst q)) w2 = true) by (apply existsb_exists; exists (i, v); split; [exact A | apply Nat.eqb_refl]). congruence.
Qed.
Lemma inv_spread K U d s s1 : field_ok K U -> admissible K U d -> Inv K U s -> spread_conflicts K U d s = Ok s1 -> Inv K U s1.
Proof.
  intros F [_ A2] V E. destruct (spread_ok K U d s s1 F V E) as (G1 & G2 & G3 & G4 & G5 & G6 & G7). destruct V as [v1 v2 v3 v4 v5 v6].
  constructor; [exact G1 | exact G2 | | exact G4 | |].
  - intros i I H. destruct (get false (S_ s) i) eqn:S; [apply v3; assumption|]. destruct (G6 i I S H) as (j & js & k & W1 & W2 & W3 & W4 & W5 & W6 & W7 & W8).
    specialize (A2 j js k W5 W6 W8). destruct (Qlt_le_dec 0 (get 0 U i)) as [L|L]; [exact L|]. exfalso. apply A2. apply pn_zero; [rewrite map_length; exact W6|].
    unfold get at 1. rewrite (nth_indep _ 0 (get 0 U 0%nat)) by (rewrite map_length; exact W6). rewrite (map_nth (get 0 U)). unfold get in W7. rewrite W7. destruct F as (_ & F2 & _). pose proof (F2 i). unfold get in *. lra.
  - intros i I H. unfold in_conflict in H. apply not_true_is_false in H. destruct (get false (S_ s) i) eqn:S; [destruct (G5 i I S); congruence|]. rewrite (G7 i I S H). apply v5; [exact I | unfold in_conflict; congruence].
  - intros i I H. rewrite G3. destruct (get false (S_ s) i) eqn:S; [destruct (G5 i I S) as [_ ->]; apply v6; assumption|].
    destruct (G6 i I S H) as (j & js & k & W1 & W2 & W3 & -> & _). apply v6; assumption.
Qed.
Lemma inv_update K U d s s1 : field_ok K U -> admissible K U d -> Inv K U s -> update K U d s = Ok s1 -> Inv K U s1.
Proof.
  intros F A V E. unfold update in E. destruct (emerge K U d s) as [s0|e] eqn:M; [|discriminate]. cbn in E. pose proof (inv_emerge _ _ _ _ _ F A V M) as V0.
  destruct (spread K); [eapply inv_spread; eassumption | injection E as <-; exact V0].
Qed.
Lemma inv_run K U ds : field_ok K U -> Forall (admissible K U) ds -> forall s s1, Inv K U s -> run K U ds s = Ok s1 -> Inv K U s1.
Proof.
  intros F A. induction A as [|d ds A _ IH]; intros s s1 V E; cbn in E; [injection E as <-; exact V|]. destruct (update K U d s) as [s0|e] eqn:M; [|discriminate]. cbn in E.
  eapply IH; [eapply inv_update; eassumption | exact E].
Qed.
(* the states of a run from the start, with the field of a file or of ones *)
Definition reachable (K : conf) (f : option (list Q)) (s : state) : Prop :=
  exists ds, Forall (admissible K (initialize_U K f)) ds /\ run K (initialize_U K f) ds (initial K) = Ok s.
Lemma inv_reachable K f s : reachable K f s -> Inv K (initialize_U K f) s.
Proof. intros (ds & A & E). eapply inv_run; [apply field_initial | exact A | apply inv_initial | exact E]. Qed.

(* ---------- theorems ---------- *)
(* conflicts exist only where the unrest U is positive *)
Theorem C82_only_where_unrest K f s i : reachable K f s -> (i < ncells K)%nat -> in_conflict s i -> 0 < get 0 (initialize_U K f) i.
Proof. intros R I H. exact (i_U _ _ _ (inv_reachable _ _ _ R) i I H). Qed.
Print Assumptions C82_only_where_unrest.
(* never in the first or last row or column, never where the file is 0 or negative *)
Theorem C82_never_outside K f s i : reachable K f s -> (i < ncells K)%nat -> in_conflict s i ->
  (0 < row K i < ny K - 1)%nat /\ (0 < col K i < nx K - 1)%nat /\ (forall l, f = Some l -> 0 < get 0 l i).
Proof.
  intros R I H. pose proof (C82_only_where_unrest K f s i R I H) as P. unfold initialize_U in P. rewrite get_tab in P by exact I. destruct (border K i) eqn:B; [lra|].
  unfold border in B. rewrite !orb_false_iff, !Nat.eqb_neq in B. destruct (rowcol K i I) as (_ & R1 & R2 & _). split; [lia|]. split; [lia|]. intros l ->.
  destruct (Q.max_spec (get 0 l i) 0) as [[L M]|[L M]]; rewrite M in P; lra.
Qed.
Print Assumptions C82_never_outside.
(* the counter is the number of cells in conflict *)
Theorem C82_counter K f s : reachable K f s -> n_conflict s = Z.of_nat (conflicts K s).
Proof. intro R. exact (i_n _ _ _ (inv_reachable _ _ _ R)). Qed.
Print Assumptions C82_counter.
(* IDs: 0 outside conflicts, one of the IDs given out so far inside *)
Theorem C82_ids K f s i : reachable K f s -> (i < ncells K)%nat ->
  (~ in_conflict s i -> get 0%Z (IDs s) i = 0%Z) /\ (in_conflict s i -> In (get 0%Z (IDs s) i) (firstn (start_index s) (ran_IDs K))).
Proof. intros R I. pose proof (inv_reachable _ _ _ R) as V. split; [apply (i_zero _ _ _ V i I) | apply (i_id _ _ _ V i I)]. Qed.
Print Assumptions C82_ids.
(* one step: who is in conflict afterwards, and why *)
Theorem C82_step K f d s s1 i : reachable K f s -> admissible K (initialize_U K f) d -> update K (initialize_U K f) d s = Ok s1 -> (i < ncells K)%nat -> in_conflict s1 i ->
  (in_conflict s i /\ B2 d i = false /\ get 0%Z (IDs s1) i = get 0%Z (IDs s) i) \/
  (~ in_conflict s i /\ B1 d i = true) \/
  (spread K = true /\ exists j, (j < ncells K)%nat /\ adjacent K j i /\ in_conflict s1 j /\ get 0%Z (IDs s1) i = get 0%Z (IDs s1) j /\
     ((in_conflict s j /\ B2 d j = false) \/ (~ in_conflict s j /\ B1 d j = true))).
Proof.
  intros R A E I H. pose proof (inv_reachable _ _ _ R) as V. pose proof (field_initial K f) as F. set (U := initialize_U K f) in *. unfold update in E. destruct (emerge K U d s) as [s0|e] eqn:M; [|discriminate]. cbn in E.
  destruct (emerge_ok K U d s s0 V M) as (_ & _ & G3 & G4 & G5 & _ & _ & _ & _ & _). pose proof (inv_emerge _ _ _ _ _ F A V M) as V0.
  assert (C : forall j, (j < ncells K)%nat -> in_conflict s0 j -> (in_conflict s j /\ B2 d j = false /\ get 0%Z (IDs s0) j = get 0%Z (IDs s) j) \/ (~ in_conflict s j /\ B1 d j = true)).
  { intros j J Hj. unfold in_conflict in *. rewrite G3 in Hj by exact J. specialize (G4 j J). unfold emerged, resolved in *. destruct (get false (S_ s) j); [left; destruct (B2 d j); [discriminate|]; auto | right; split; [discriminate | exact Hj]]. }
  destruct (spread K) eqn:Sp.
  - destruct (spread_ok K U d s0 s1 F V0 E) as (_ & _ & _ & _ & S5 & S6 & _). destruct (get false (S_ s0) i) eqn:S.
    + destruct (S5 i I S) as [_ Q]. rewrite Q. destruct (C i I S) as [X|X]; [left; exact X | right; left; exact X].
    + right; right. split; [reflexivity|]. destruct (S6 i I S H) as (j & js & k & W1 & W2 & W3 & W4 & _). exists j. destruct (S5 j W1 W2) as [X1 X2]. repeat split; try assumption; try (apply W3); [congruence|].
      destruct (C j W1 W2) as [(Y1 & Y2 & _)|Y]; [left; auto | right; exact Y].
  - injection E as <-. destruct (C i I H) as [X|X]; [left; exact X | right; left; exact X].
Qed.
Print Assumptions C82_step.
(* conflicts that are not resolved stay, with their ID; drawn cells start; resolved cells without spreading end *)
Theorem C82_persist K f d s s1 i : reachable K f s -> admissible K (initialize_U K f) d -> update K (initialize_U K f) d s = Ok s1 -> (i < ncells K)%nat ->
  (in_conflict s i -> B2 d i = false -> in_conflict s1 i /\ get 0%Z (IDs s1) i = get 0%Z (IDs s) i) /\
  (~ in_conflict s i -> B1 d i = true -> in_conflict s1 i) /\
  (spread K = false -> in_conflict s i -> B2 d i = true -> ~ in_conflict s1 i).
Proof.
  intros R A E I. pose proof (inv_reachable _ _ _ R) as V. pose proof (field_initial K f) as F. set (U := initialize_U K f) in *. unfold update in E. destruct (emerge K U d s) as [s0|e] eqn:M; [|discriminate]. cbn in E.
  destruct (emerge_ok K U d s s0 V M) as (_ & _ & G3 & G4 & G5 & _ & _ & _ & _ & _). pose proof (inv_emerge _ _ _ _ _ F A V M) as V0. specialize (G3 i I). specialize (G4 i I). unfold emerged, resolved, in_conflict in *.
  destruct (spread K) eqn:Sp.
  - destruct (spread_ok K U d s0 s1 F V0 E) as (_ & _ & _ & _ & S5 & _ & _). specialize (S5 i I). split; [|split; [|discriminate]].
    + intros H1 H2. rewrite H1, H2 in *. cbn in *. destruct (S5 G3) as [X Y]. split; [exact X|]. rewrite Y. apply G4; reflexivity.
    + intros H1 H2. apply not_true_is_false in H1. rewrite H1, H2 in *. cbn in *. apply S5. exact G3.
  - injection E as <-. split; [|split].
    + intros H1 H2. rewrite H1, H2 in *. cbn in *. split; [exact G3 | apply G4; reflexivity].
    + intros H1 H2. apply not_true_is_false in H1. rewrite H1, H2 in *. exact G3.
    + intros _ H1 H2. rewrite G3, H1, H2. cbn. discriminate.
Qed.
Print Assumptions C82_persist.
(* as long as IDs are left, every conflict that emerges gets an ID of its own, different from all IDs in use *)
Lemma NoDup_app_split {A} (l1 l2 : list A) : NoDup (l1 ++ l2) -> NoDup l1 /\ NoDup l2 /\ forall x, In x l1 -> ~ In x l2.
Proof.
  induction l1 as [|a l1 IH]; intro H; cbn in *; [split; [constructor|]; split; [exact H | intros x []]|]. inversion H as [|x l N D]; subst. destruct (IH D) as (A1 & A2 & A3).
  split; [constructor; [intro; apply N; apply in_or_app; left; assumption | exact A1]|]. split; [exact A2|]. intros x [<-|X]; [intro; apply N; apply in_or_app; right; assumption | apply A3, X].
Qed.
Theorem C82_fresh K f d s s1 i j : NoDup (ran_IDs K) -> reachable K f s -> admissible K (initialize_U K f) d -> update K (initialize_U K f) d s = Ok s1 -> (start_index s1 <= length (ran_IDs K))%nat ->
  (i < ncells K)%nat -> (j < ncells K)%nat -> i <> j -> ~ in_conflict s i -> B1 d i = true ->
  (in_conflict s j -> get 0%Z (IDs s1) i <> get 0%Z (IDs s) j) /\ (~ in_conflict s j -> B1 d j = true -> get 0%Z (IDs s1) i <> get 0%Z (IDs s1) j).
Proof.
  intros ND R A E L I J D H1 H2. pose proof (inv_reachable _ _ _ R) as V. pose proof (field_initial K f) as F. set (U := initialize_U K f) in *. unfold update in E. destruct (emerge K U d s) as [s0|e] eqn:M; [|discriminate]. cbn in E.
  destruct (emerge_ok K U d s s0 V M) as (_ & _ & G3 & _ & _ & G6 & _ & G8 & _ & _). pose proof (inv_emerge _ _ _ _ _ F A V M) as V0.
  assert (X : start_index s1 = start_index s0 /\ forall t, (t < ncells K)%nat -> get false (S_ s0) t = true -> get 0%Z (IDs s1) t = get 0%Z (IDs s0) t).
  { destruct (spread K) eqn:Sp; [|injection E as <-; auto]. destruct (spread_ok K U d s0 s1 F V0 E) as (_ & _ & S3 & _ & S5 & _ & _). split; [exact S3|]. intros t T1 T2. apply S5; assumption. }
  destruct X as [X1 X2]. rewrite X1 in L. specialize (G8 L).
  assert (EM : forall t, ~ in_conflict s t -> B1 d t = true -> emerged d s t = true) by (intros t T1 T2; unfold emerged, in_conflict in *; apply not_true_is_false in T1; rewrite T1, T2; reflexivity).
  assert (ST : forall t, (t < ncells K)%nat -> emerged d s t = true -> get 0%Z (IDs s1) t = get 0%Z (IDs s0) t) by (intros t T1 T2; apply X2; [exact T1|]; rewrite G3, T2 by exact T1; apply orb_true_r).
  set (w := where_ (ncells K) (emerged d s)) in *. destruct (G8 i I (EM i H1 H2)) as (k & K1 & K2). rewrite (ST i I (EM i H1 H2)).
  assert (ND2 : NoDup (firstn (start_index s) (ran_IDs K)) /\ NoDup (skipn (start_index s) (ran_IDs K)) /\ forall x, In x (firstn (start_index s) (ran_IDs K)) -> ~ In x (skipn (start_index s) (ran_IDs K))) by (apply NoDup_app_split; rewrite firstn_skipn; exact ND).
  destruct ND2 as (N1 & N2 & N3). split.
  - intros C Q. apply (N3 (get 0%Z (IDs s) j) (i_id _ _ _ V j J C)). rewrite <- Q. apply nth_error_In in K2. rewrite <- (firstn_skipn (length w) (skipn (start_index s) (ran_IDs K))). apply in_or_app. left. exact K2.
  - intros C1 C2 Q. destruct (G8 j J (EM j C1 C2)) as (k' & K1' & K2'). rewrite (ST j J (EM j C1 C2)) in Q. rewrite <- Q, <- K2 in K2'.
    assert (N4 : NoDup (firstn (length w) (skipn (start_index s) (ran_IDs K)))) by (rewrite <- (firstn_skipn (length w) (skipn (start_index s) (ran_IDs K))) in N2; apply NoDup_app_split in N2; apply N2).
    rewrite NoDup_nth_error in N4. assert (k' = k) by (apply N4; [apply nth_error_Some; congruence | exact K2']). subst k'. congruence.
Qed.
Print Assumptions C82_fresh.
(* ---------- what stops a run ---------- *)
Lemma lmax_in l : l <> [] -> exists x, In x l /\ lmax l == x.
Proof.
  destruct l as [|a l]; [congruence|]. intros _. cbn [lmax]. revert a. induction l as [|b l IH]; intro a; [exists a; split; [left; reflexivity | reflexivity]|].
  cbn [fold_left]. destruct (IH (Qmax a b)) as (x & [<-|X] & E); [|exists x; split; [right; right; exact X | exact E]].
  destruct (Q.max_spec a b) as [[_ M]|[_ M]]; [exists b | exists a]; (split; [cbn; auto | rewrite E; exact M]).
Qed.
Lemma in_get (l : list Q) x : In x l -> exists i, (i < length l)%nat /\ get 0 l i = x.
Proof. intro H. destruct (In_nth _ _ 0 H) as (i & I & E). exists i. split; [exact I | exact E]. Qed.
Lemma get_in (l : list Q) i : (i < length l)%nat -> In (get 0 l i) l.
Proof. intro H. apply nth_In. exact H. Qed.
Lemma scaled_ok c x m : 0 <= c <= 1 -> 0 <= x -> x <= m -> 0 < m -> 0 <= c / m * x <= 1.
Proof.
  intros C X M P. assert (E : c / m * x == c * (x / m)) by (field; lra). rewrite E. assert (0 <= x / m) by (apply Qle_shift_div_l; lra). assert (x / m <= 1) by (apply Qle_shift_div_r; lra). nra.
Qed.
(* with probabilities between 0 and 1, unrest somewhere and enough IDs left every step works: no other error can happen *)
Theorem C82_runs K f d s : reachable K f s -> admissible K (initialize_U K f) d ->
  0 <= c_emerge K <= 1 -> 0 <= c_spread K <= 1 -> 0 <= p_resolve K <= 1 -> (exists i, (i < ncells K)%nat /\ 0 < get 0 (initialize_U K f) i) ->
  (start_index s + length (filter (fun i => negb (get false (S_ s) i) && B1 d i) (seq 0 (ncells K))) <= length (ran_IDs K))%nat ->
  exists s1, update K (initialize_U K f) d s = Ok s1.
Proof.
  intros R A C1 C2 C3 (i0 & I0 & P0) L. pose proof (inv_reachable _ _ _ R) as V. pose proof (field_initial K f) as F. set (U := initialize_U K f) in *.
  destruct F as (F1 & F2 & F3). assert (M : 0 < lmax U) by (pose proof (lmax_ge U (get 0 U i0) (get_in U i0 ltac:(lia))); lra).
  assert (Em : exists s0, emerge K U d s = Ok s0).
  { unfold emerge. destruct (p_emerge K U) as [p|] eqn:P; unfold p_emerge in P; destruct (Qeq_bool (lmax U) 0) eqn:Q; try discriminate; [|apply Qeq_bool_iff in Q; lra]. injection P as <-.
    replace (negb _) with false.
    - change (filter (fun i => negb (get false (S_ s) i) && B1 d i) (seq 0 (ncells K))) with (where_ (ncells K) (fun i => negb (get false (S_ s) i) && B1 d i)) in L. cbv zeta.
      rewrite (proj2 (Nat.eqb_eq (length (firstn _ _)) _)) by (rewrite firstn_length, skipn_length; lia). cbn [bind]. eauto.
    - symmetry. apply negb_false_iff, andb_true_iff. split; [|unfold okp; apply andb_true_iff; rewrite !Qle_bool_iff; exact C3]. apply forallb_forall. intros y Y. apply in_map_iff in Y. destruct Y as (x & <- & X).
      unfold okp. apply andb_true_iff. rewrite !Qle_bool_iff. destruct (in_get U x X) as (i & I & G). apply scaled_ok; [exact C1 | rewrite <- G; apply F2 | apply lmax_ge; exact X | exact M]. }
  destruct Em as [s0 Em]. unfold update. rewrite Em. cbn [bind]. destruct (spread K); [|eauto]. pose proof (inv_emerge _ _ _ _ _ (conj F1 (conj F2 F3)) A V Em) as V0. destruct V0 as [v1 v2 v3 v4 v5 v6].
  unfold spread_conflicts. destruct (Nat.eqb _ 0); [eauto|].
  assert (NB : forall i, In i (where_ (ncells K) (get false (S_ s0))) -> exists js, mapM (neighbor K i) dirs = Ok js).
  { intros i I. unfold where_ in I. apply filter_In in I. destruct I as [I H]. apply in_seq in I. apply mapM_total. intros k Hk. unfold dirs in Hk. apply in_seq in Hk.
    assert (B : border K i = false). { destruct (border K i) eqn:Bd; [|reflexivity]. pose proof (F3 i ltac:(lia) Bd). pose proof (v3 i ltac:(lia) H). lra. }
    destruct (neighbor_ok K i k ltac:(lia) B ltac:(lia)) as (j & J & _). eauto. }
  destruct (mapM_total (fun i => mapM (neighbor K i) dirs) _ NB) as [nb Enb]. rewrite Enb. cbn [bind]. replace (negb _) with false; [eauto|]. symmetry. apply negb_false_iff. apply forallb_forall. intros p Hp. apply in_map_iff in Hp. destruct Hp as (js & <- & _).
  apply forallb_forall. intros y Y. unfold okp. apply andb_true_iff. rewrite !Qle_bool_iff. unfold pn in Y. destruct (Qltb 0 (lmax (map (get 0 U) js))) eqn:Lt.
  - apply Qltb_lt in Lt. apply in_map_iff in Y. destruct Y as (x & <- & X). assert (E : c_spread K * x / lmax (map (get 0 U) js) == c_spread K / lmax (map (get 0 U) js) * x) by (field; lra). rewrite E.
    apply scaled_ok; [exact C2 | | apply lmax_ge; exact X | exact Lt]. apply in_map_iff in X. destruct X as (t & <- & _). apply F2.
  - apply in_map_iff in Y. destruct Y as (x & <- & X). lra.
Qed.
Print Assumptions C82_runs.
(* no index is out of range, whatever the parameters *)
Theorem C82_no_index_error K f d s : reachable K f s -> admissible K (initialize_U K f) d -> update K (initialize_U K f) d s <> Raise IndexError.
Proof.
  intros R A. pose proof (inv_reachable _ _ _ R) as V. pose proof (field_initial K f) as F. set (U := initialize_U K f) in *. unfold update. destruct (emerge K U d s) as [s0|e] eqn:Em; cbn [bind].
  - destruct (spread K); [|discriminate]. pose proof (inv_emerge _ _ _ _ _ F A V Em) as V0. destruct V0 as [v1 v2 v3 v4 v5 v6]. destruct F as (F1 & F2 & F3). unfold spread_conflicts. destruct (Nat.eqb _ 0); [discriminate|].
    assert (NB : forall i, In i (where_ (ncells K) (get false (S_ s0))) -> exists js, mapM (neighbor K i) dirs = Ok js).
    { intros i I. unfold where_ in I. apply filter_In in I. destruct I as [I H]. apply in_seq in I. apply mapM_total. intros k Hk. unfold dirs in Hk. apply in_seq in Hk.
      assert (B : border K i = false). { destruct (border K i) eqn:Bd; [|reflexivity]. pose proof (F3 i ltac:(lia) Bd). pose proof (v3 i ltac:(lia) H). lra. }
      destruct (neighbor_ok K i k ltac:(lia) B ltac:(lia)) as (j & J & _). eauto. }
    destruct (mapM_total (fun i => mapM (neighbor K i) dirs) _ NB) as [nb Enb]. rewrite Enb. cbn [bind]. destruct (negb _); discriminate.
  - intro E. injection E as ->. unfold emerge in Em. destruct (p_emerge K U); [|discriminate]. destruct (negb _); [discriminate|]. cbv zeta in Em. destruct (Nat.eqb _ _); [discriminate|]. destruct (Nat.eqb _ 1); discriminate.
Qed.
Print Assumptions C82_no_index_error.
(* a field without unrest (a file of zeros, or a grid with at most two rows or columns) stops at the first step *)
Theorem C82_no_unrest_refuted K f d : (forall i, (i < ncells K)%nat -> get 0 (initialize_U K f) i == 0) -> update K (initialize_U K f) d (initial K) = Raise ValueError.
Proof.
  intro H. unfold update, emerge, p_emerge. assert (E : lmax (initialize_U K f) == 0).
  { destruct (initialize_U K f) as [|a l] eqn:Q; [reflexivity|]. destruct (lmax_in (a :: l) ltac:(discriminate)) as (x & X & ->). rewrite <- Q in X. destruct (in_get _ _ X) as (i & I & <-). rewrite Q in I. rewrite <- Q in I. destruct (field_initial K f) as (L & _). rewrite L in I. rewrite Q. apply H. exact I. }
  apply Qeq_bool_iff in E. rewrite E. reflexivity.
Qed.
Print Assumptions C82_no_unrest_refuted.
Theorem C82_thin_refuted K f d : (nx K <= 2)%nat \/ (ny K <= 2)%nat -> update K (initialize_U K f) d (initial K) = Raise ValueError.
Proof.
  intro T. apply C82_no_unrest_refuted. intros i I. apply (proj2 (proj2 (field_initial K f)) i I). destruct (rowcol K i I) as (_ & R & C & _). unfold border. rewrite !orb_true_iff, !Nat.eqb_eq. lia.
Qed.
Print Assumptions C82_thin_refuted.
(* when fewer IDs are left than conflicts emerge the step fails, or (exactly one left) all of them share it *)
Theorem C82_supply_refuted K f d s : reachable K f s -> admissible K (initialize_U K f) d ->
  let n2 := length (filter (fun i => negb (get false (S_ s) i) && B1 d i) (seq 0 (ncells K))) in
  let left := (length (ran_IDs K) - start_index s)%nat in (left < n2)%nat ->
  (left <> 1%nat -> update K (initialize_U K f) d s = Raise ValueError) /\
  (left = 1%nat -> forall s1 i j, update K (initialize_U K f) d s = Ok s1 -> (i < ncells K)%nat -> (j < ncells K)%nat -> emerged d s i = true -> emerged d s j = true -> get 0%Z (IDs s1) i = get 0%Z (IDs s1) j).
Proof.
  intros R A n2 left L. pose proof (inv_reachable _ _ _ R) as V. pose proof (field_initial K f) as F. set (U := initialize_U K f) in *. split.
  - intro L1. unfold update, emerge. destruct (p_emerge K U); [|reflexivity]. destruct (negb _); [reflexivity|]. cbv zeta. change (where_ (ncells K) (fun i => negb (get false (S_ s) i) && B1 d i)) with (filter (fun i => negb (get false (S_ s) i) && B1 d i) (seq 0 (ncells K))). fold n2.
    assert (LL : length (firstn n2 (skipn (start_index s) (ran_IDs K))) = left) by (rewrite firstn_length, skipn_length; unfold left in *; lia). rewrite LL.
    destruct (Nat.eqb_spec left n2); [lia|]. destruct (Nat.eqb_spec left 1); [lia|]. reflexivity.
  - intros L1 s1 i j E I J Hi Hj. unfold update in E. destruct (emerge K U d s) as [s0|e] eqn:Em; [|discriminate]. cbn [bind] in E.
    destruct (emerge_ok K U d s s0 V Em) as (_ & _ & G3 & _). pose proof (inv_emerge _ _ _ _ _ F A V Em) as V0.
    assert (X2 : forall t, (t < ncells K)%nat -> emerged d s t = true -> get 0%Z (IDs s1) t = get 0%Z (IDs s0) t).
    { intros t T1 T2. destruct (spread K) eqn:Sp; [|injection E as <-; reflexivity]. destruct (spread_ok K U d s0 s1 F V0 E) as (_ & _ & _ & _ & S5 & _ & _). apply S5; [exact T1|]. rewrite G3, T2 by exact T1. apply orb_true_r. }
    rewrite (X2 i I Hi), (X2 j J Hj). clear X2 E. unfold emerge in Em. destruct (p_emerge K U); [|discriminate]. destruct (negb _); [discriminate|]. cbv zeta in Em.
    change (fun i => negb (get false (S_ s) i) && B1 d i) with (emerged d s) in Em. change (fun i => get false (S_ s) i && B2 d i) with (resolved d s) in Em. change (filter (fun i => negb (get false (S_ s) i) && B1 d i) (seq 0 (ncells K))) with (where_ (ncells K) (emerged d s)) in n2.
    set (w2 := where_ (ncells K) (emerged d s)) in *. assert (LL : length (firstn (length w2) (skipn (start_index s) (ran_IDs K))) = 1%nat) by (rewrite firstn_length, skipn_length; unfold left, n2 in *; lia). rewrite LL in Em.
    destruct (Nat.eqb_spec 1 (length w2)); [unfold n2 in *; lia|]. cbn [Nat.eqb bind] in Em. injection Em as <-. cbn [IDs].
    set (x := hd 0%Z _). assert (V2 : forall t, (t < ncells K)%nat -> emerged d s t = true -> get 0%Z (puts (puts (IDs s) (combine w2 (repeat x (length w2)))) (map (fun i => (i, 0%Z)) (where_ (ncells K) (resolved d s)))) t = x).
    { intros t T1 T2. rewrite puts_const by (rewrite puts_length, (i_IDs _ _ _ V); exact T1). rewrite mem_where. replace (resolved d s t) with false by (unfold emerged, resolved in *; destruct (get false (S_ s) t); [discriminate | reflexivity]). rewrite andb_false_r.
      destruct (puts_get 0%Z (combine w2 (repeat x (length w2))) (IDs s) t ltac:(rewrite (i_IDs _ _ _ V); exact T1)) as [[v [P Q]]|[P _]].
      - rewrite Q. apply in_combine_r in P. apply repeat_spec in P. exact P.
      - exfalso. assert (W : In t w2) by (unfold w2, where_; apply filter_In; split; [apply in_seq; lia | exact T2]). apply (P x). clearbody x. clear -W x. clearbody w2. induction w2 as [|a w IH]; [destruct W|]. cbn. destruct W as [->|W]; [left; reflexivity | right; apply IH; exact W]. }
    rewrite (V2 i I Hi), (V2 j J Hj). reflexivity.
Qed.
Print Assumptions C82_supply_refuted.
(* the reported fraction divides by (nx-1)(ny-1) cells: it cannot reach 1 *)
Theorem C82_fraction_refuted K f s : reachable K f s -> (3 <= nx K)%nat -> (3 <= ny K)%nat ->
  fraction K s <= inject_Z (Z.of_nat ((nx K - 2) * (ny K - 2))) / inject_Z (Z.of_nat ((nx K - 1) * (ny K - 1))) /\ fraction K s < 1.
Proof.
  intros R X Y. assert (B : (conflicts K s <= (nx K - 2) * (ny K - 2))%nat).
  { unfold conflicts. set (l := filter _ _). assert (I : incl l (map (fun p => (fst p * nx K + snd p)%nat) (list_prod (seq 1 (ny K - 2)) (seq 1 (nx K - 2))))).
    - intros i Hi. unfold l in Hi. apply filter_In in Hi. destruct Hi as [I H]. apply in_seq in I. destruct (C82_never_outside K f s i R ltac:(lia) H) as (A1 & A2 & _). destruct (rowcol K i ltac:(lia)) as (_ & _ & _ & E).
      apply in_map_iff. exists (row K i, col K i). split; [symmetry; exact E|]. apply in_prod; apply in_seq; lia.
    - apply NoDup_incl_length in I; [|apply NoDup_filter, seq_NoDup]. rewrite map_length, prod_length, !seq_length in I. lia. }
  unfold fraction. rewrite (C82_counter K f s R). assert (P : 0 < inject_Z (Z.of_nat ((nx K - 1) * (ny K - 1)))) by (change 0 with (inject_Z 0); rewrite <- Zlt_Qlt; nia).
  assert (Q : inject_Z (Z.of_nat (conflicts K s)) <= inject_Z (Z.of_nat ((nx K - 2) * (ny K - 2)))) by (rewrite <- Zle_Qle; lia).
  split.
  - apply Qmult_le_compat_r; [exact Q|]. apply Qlt_le_weak, Qinv_lt_0_compat, P.
  - apply Qlt_shift_div_r; [exact P|]. rewrite Qmult_1_l. apply Qle_lt_trans with (1 := Q). rewrite <- Zlt_Qlt. nia.
Qed.
Print Assumptions C82_fraction_refuted.
(* the IDs include 0, the value that means "no conflict" *)
Theorem C82_id_zero_refuted r : exists K d s1, ran_IDs K = 0%Z :: r /\ admissible K (initialize_U K None) d /\ update K (initialize_U K None) d (initial K) = Ok s1 /\ in_conflict s1 4 /\ get 0%Z (IDs s1) 4 = 0%Z.
Proof.
  exists (mkConf 3 3 1 1 0 true (0%Z :: r)), (mkDraws (fun i => Nat.eqb i 4) (fun _ => false) (fun _ _ => false)).
  eexists. split; [reflexivity|]. split; [|split; [|split]].
  - split; [|intros i js k _ _ H; discriminate]. intros p i P H. cbn in H. apply Nat.eqb_eq in H. subst i. vm_compute in P. injection P as <-. vm_compute. discriminate.
  - vm_compute. reflexivity.
  - reflexivity.
  - reflexivity.
Qed.
Print Assumptions C82_id_zero_refuted.
(* cases: a 4 x 4 grid; cell 5 emerges and spreads to cell 6, then 5 is resolved while 9 emerges *)
Definition Kx : conf := mkConf 4 4 (1 # 2) (1 # 2) (1 # 3) true [12%Z; 7%Z; 3%Z].
Definition d1 : draws := mkDraws (fun i => Nat.eqb i 5) (fun _ => false) (fun i k => Nat.eqb i 5 && Nat.eqb k 4).
Definition d2 : draws := mkDraws (fun i => Nat.eqb i 9) (fun i => Nat.eqb i 5) (fun _ _ => false).
Example C82_case : reachable Kx None (mk (map (fun i => Nat.eqb i 6 || Nat.eqb i 9) (seq 0 16)) (map (fun i => if Nat.eqb i 6 then 12%Z else if Nat.eqb i 9 then 7%Z else 0%Z) (seq 0 16)) 2 2).
Proof.
  exists [d1; d2]. split; [|vm_compute; reflexivity]. constructor; [|constructor; [|constructor]].
  - split.
    + intros p i P H. cbn in H. apply Nat.eqb_eq in H. subst i. vm_compute in P. injection P as <-. vm_compute. discriminate.
    + intros i js k E L H. cbn in H. apply andb_true_iff in H. destruct H as [H1 H2]. apply Nat.eqb_eq in H1. apply Nat.eqb_eq in H2. subst i k. vm_compute in E. injection E as <-. vm_compute. discriminate.
  - split; [|intros i js k _ _ H; discriminate]. intros p i P H. cbn in H. apply Nat.eqb_eq in H. subst i. vm_compute in P. injection P as <-. vm_compute. discriminate.
Qed.
(* three cells emerge together with one ID left: they share it; two steps later nothing is left *)
Definition K1 : conf := mkConf 4 4 1 1 0 false [12%Z].
Definition d3 : draws := mkDraws (fun i => Nat.eqb i 5 || Nat.eqb i 6) (fun _ => false) (fun _ _ => false).
Example C82_shared_case : admissible K1 (initialize_U K1 None) d3 /\ exists s1, update K1 (initialize_U K1 None) d3 (initial K1) = Ok s1 /\ in_conflict s1 5 /\ in_conflict s1 6 /\ get 0%Z (IDs s1) 5 = 12%Z /\ get 0%Z (IDs s1) 6 = 12%Z /\
  update K1 (initialize_U K1 None) (mkDraws (fun i => Nat.eqb i 9) (fun _ => false) (fun _ _ => false)) s1 = Raise ValueError.
Proof.
  split; [|eexists; split; [vm_compute; reflexivity|]; vm_compute; auto].
  split; [|intros i js k _ _ H; discriminate]. intros p i P H. cbn in H. apply orb_true_iff in H. rewrite !Nat.eqb_eq in H. vm_compute in P. injection P as <-. destruct H; subst i; vm_compute; discriminate.
Qed.
Example C82_fraction_case : fraction (mkConf 3 3 1 1 0 true [1%Z]) (mk (map (fun i => Nat.eqb i 4) (seq 0 9)) (repeat 0%Z 9) 1 1) == 1 # 4.
Proof. vm_compute. reflexivity. Qed.
