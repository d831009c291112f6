(* Lemmas about the slope tools. *)
From Coq Require Import ZArith QArith Qminmax Lqa List Bool Arith Lia.
From Verif Require Import Base Slope_Model Slope_Spec.
Import ListNotations.
Local Open Scope Q_scope.

Lemma lt_b_t x y : lt_b x y = true <-> x < y.
Proof.
  unfold lt_b. rewrite negb_true_iff. split; intros H.
  - apply Qnot_le_lt. intros L. apply Qle_bool_iff in L. congruence.
  - destruct (Qle_bool y x) eqn:E; [|reflexivity]. apply Qle_bool_iff in E. exfalso. lra.
Qed.
Lemma lt_b_f x y : lt_b x y = false <-> y <= x.
Proof.
  unfold lt_b. rewrite negb_false_iff. apply Qle_bool_iff.
Qed.
Lemma qle_f x y : Qle_bool x y = false <-> y < x.
Proof.
  split; intros H.
  - apply Qnot_le_lt. intros L. apply Qle_bool_iff in L. congruence.
  - destruct (Qle_bool x y) eqn:E; [|reflexivity]. apply Qle_bool_iff in E. exfalso. lra.
Qed.
Lemma qeq_f x y : Qeq_bool x y = false <-> ~ x == y.
Proof.
  split; intros H.
  - intros E. apply Qeq_bool_iff in E. congruence.
  - destruct (Qeq_bool x y) eqn:E; [|reflexivity]. apply Qeq_bool_iff in E. contradiction.
Qed.
Lemma div_pos x y : 0 < x -> 0 < y -> 0 < x / y.
Proof. intros X Y. apply Qlt_shift_div_l; [exact Y|]. lra. Qed.

Section P.
Variable T : topo.
Hypothesis G : d8_grid T.

Lemma par0 : par T 0%nat = 0%nat.
Proof. apply (d8_out T G). apply (d8_corner T G). Qed.
Lemma anc_range k i : (i < ncell T)%nat -> (anc T k i < ncell T)%nat.
Proof. intros I. induction k as [|k IH]; [exact I|]. apply (d8_range T G). exact IH. Qed.
Lemma anc_zero k j i : (j <= k)%nat -> anc T j i = 0%nat -> anc T k i = 0%nat.
Proof.
  induction k as [|k IH]; intros L Z; [assert (j = 0)%nat by lia; subst; exact Z|].
  destruct (Nat.eq_dec j (S k)) as [->|N]; [exact Z|]. cbn [anc]. rewrite (IH ltac:(lia) Z). apply par0.
Qed.
Lemma anc_add j k i : anc T j (anc T k i) = anc T (j + k) i.
Proof. induction j as [|j IH]; [reflexivity|]. cbn [anc Nat.add]. rewrite IH. reflexivity. Qed.
Lemma plen_pos k i : (i < ncell T)%nat -> (1 <= k)%nat -> 0 < plen T k i.
Proof.
  intros I K. destruct k as [|k]; [lia|]. clear K. induction k as [|k IH].
  - cbn. generalize (d8_ds T G i I). lra.
  - change (plen T (S (S k)) i) with (plen T (S k) i + ds T (anc T (S k) i)).
    generalize (d8_ds T G _ (anc_range (S k) i I)). lra.
Qed.

(* ---------- get_new_slope_grid ---------- *)
Lemma drop_pos i k : noflow T i = false -> (0 < drop T i (anc T k i) <-> lower_at T i k).
Proof.
  intros F. unfold drop, lower_at. rewrite F, orb_false_r.
  destruct (Qle_bool (z T (anc T k i)) (nodata T)) eqn:E.
  - apply Qle_bool_iff in E. split; [lra|]. intros [A _]. lra.
  - apply qle_f in E. split; [intros L; split; [exact E|lra]|intros [_ L]; lra].
Qed.
Lemma drop_val i k : noflow T i = false -> lower_at T i k -> drop T i (anc T k i) = z T i - z T (anc T k i).
Proof.
  intros F [A _]. unfold drop. rewrite F, orb_false_r.
  destruct (Qle_bool (z T (anc T k i)) (nodata T)) eqn:E; [|reflexivity]. apply Qle_bool_iff in E. lra.
Qed.
Lemma drop_noflow i p : noflow T i = true -> drop T i p = 0.
Proof. intros F. unfold drop. rewrite F, orb_true_r. reflexivity. Qed.

(* the slope found after [n] passes *)
Inductive found (i n : nat) : Q -> Prop :=
| f_none q : q == 0 -> (noflow T i = true \/ forall j, (1 <= j <= n)%nat -> ~ lower_at T i j) -> found i n q
| f_some q k : noflow T i = false -> first_lower T i k -> (k <= n)%nat -> q == mean_slope T i k -> found i n q.
Definition inv (n : nat) (l : list cellst) : Prop :=
  length l = ncell T /\ forall i, (i < ncell T)%nat ->
    c_pid (get cs0 l i) = anc T (S n) i /\ c_dist (get cs0 l i) == plen T (S n) i /\ found i n (c_slope (get cs0 l i)).

Lemma mean_pos i k : (i < ncell T)%nat -> first_lower T i k -> 0 < mean_slope T i k.
Proof.
  intros I [K [[_ L] _]]. unfold mean_slope. apply div_pos; [lra|]. apply plen_pos; assumption.
Qed.
Lemma good_iff n l i : inv n l -> (i < ncell T)%nat -> good T i (get cs0 l i) = true <-> (noflow T i = false /\ first_lower T i (S n)).
Proof.
  intros [_ I] Hi. destruct (I i Hi) as [P [D F]]. unfold good. rewrite andb_true_iff, Qeq_bool_iff, lt_b_t, P.
  destruct (noflow T i) eqn:N.
  - rewrite (drop_noflow i _ N). split; [intros [_ X]; lra|intros [X _]; discriminate].
  - rewrite (drop_pos i (S n) N). split.
    + intros [Z L]. split; [reflexivity|]. destruct F as [q E W|q k _ FL Kn E].
      * destruct W as [W|W]; [congruence|]. split; [lia|]. split; [exact L|]. intros j J. apply W. lia.
      * exfalso. generalize (mean_pos i k Hi FL). lra.
    + intros [_ [K [L W]]]. split; [|exact L]. destruct F as [q E _|q k _ FL Kn E]; [exact E|].
      exfalso. destruct FL as [K1 [L1 _]]. apply (W k); [lia|exact L1].
Qed.
Lemma inv_pass n l : inv n l -> inv (S n) (tab (ncell T) (fun i => pass T i (get cs0 l i))).
Proof.
  intros I. split; [apply tab_length|]. intros i Hi. rewrite (get_tab cs0 _ _ i Hi).
  assert (GI := good_iff n l i I Hi). destruct I as [_ I]. destruct (I i Hi) as [P [D F]].
  unfold pass. cbn [c_pid c_dist c_slope]. rewrite P.
  split; [reflexivity|]. split; [change (plen T (S (S n)) i) with (plen T (S n) i + ds T (anc T (S n) i)); rewrite D; reflexivity|].
  destruct (good T i (get cs0 l i)) eqn:E.
  - destruct (proj1 GI eq_refl) as [N FL]. apply f_some with (S n); [exact N|exact FL|lia|].
    rewrite (drop_val i (S n) N (proj1 (proj2 FL))), D. reflexivity.
  - destruct F as [q E0 W|q k N FL Kn E0]; [|apply f_some with k; [exact N|exact FL|lia|exact E0]].
    apply f_none; [exact E0|]. destruct (noflow T i) eqn:N; [left; reflexivity|]. right.
    destruct W as [W|W]; [congruence|]. intros j J L. destruct (Nat.eq_dec j (S n)) as [->|Nj]; [|apply (W j); [lia|exact L]].
    assert (false = true); [apply GI|discriminate]. split; [reflexivity|]. split; [lia|]. split; [exact L|]. intros j J'. apply W. lia.
Qed.
Lemma inv_init : inv 0 (tab (ncell T) (fun i => mkCs (par T i) (ds T i) 0)).
Proof.
  split; [apply tab_length|]. intros i Hi. rewrite (get_tab cs0 _ _ i Hi). cbn [c_pid c_dist c_slope].
  split; [reflexivity|]. split; [cbn; ring|]. apply f_none; [reflexivity|]. right. intros j J. lia.
Qed.
(* how the loop ends *)
Lemma slope_loop_ok left start n l r : inv n l -> slope_loop T left start l = Ok r ->
  exists m, (n < m <= n + S left)%nat /\ inv m r /\
    (m = n + S left \/ (forall i, (i < ncell T)%nat -> noflow T i = false /\ first_lower T i m) \/
     (forall i, (i < ncell T)%nat -> anc T (S m) i = 0))%nat.
Proof.
  revert start n l. induction left as [|left IH]; intros start n l I; cbn [slope_loop];
    set (l' := tab (ncell T) (fun i => pass T i (get cs0 l i)));
    (destruct (start && negb (existsb (fun c => lt_b 0 (c_slope c)) l')); [discriminate|]).
  - intros E. injection E as <-. exists (S n). split; [lia|]. split; [apply inv_pass; exact I|]. left. lia.
  - assert (I' := inv_pass n l I). fold l' in I'.
    destruct (forallb (fun i => good T i (get cs0 l i)) (seq 0 (ncell T))) eqn:GA;
      [|destruct (forallb (fun c => (c_pid c =? 0)%nat) l') eqn:PV]; cbn [orb].
    + intros E. injection E as <-. exists (S n). split; [lia|]. split; [exact I'|]. right. left. intros i Hi.
      apply (good_iff n l i I Hi). rewrite forallb_forall in GA. apply GA. apply in_seq. lia.
    + intros E. injection E as <-. exists (S n). split; [lia|]. split; [exact I'|]. right. right. intros i Hi.
      rewrite forallb_forall in PV. destruct I' as [Len I']. destruct (I' i Hi) as [P _]. rewrite <- P.
      apply Nat.eqb_eq. apply PV. apply nth_In. rewrite Len. exact Hi.
    + intros E. destruct (IH false (S n) l' I' E) as [m [M [Im W]]]. exists m. split; [lia|]. split; [exact Im|].
      destruct W as [W|[W|W]]; [left; lia|right; left; exact W|right; right; exact W].
Qed.
Lemma new_slope_ok l : get_new_slope_grid T = Ok l ->
  length l = ncell T /\ exists m, (1 <= m <= 4 * nx T + 1)%nat /\ (forall i, (i < ncell T)%nat -> found i m (get 0 l i)) /\
    (m = 4 * nx T + 1 \/ (forall i, (i < ncell T)%nat -> noflow T i = false /\ first_lower T i m) \/
     (forall i, (i < ncell T)%nat -> anc T (S m) i = 0))%nat.
Proof.
  unfold get_new_slope_grid. destruct (slope_loop T (4 * nx T) true _) as [r| | | |] eqn:E; try discriminate.
  intros X. injection X as <-. destruct (slope_loop_ok _ _ 0 _ r inv_init E) as [m [M [[Len I] W]]].
  split; [rewrite map_length; exact Len|]. exists m. split; [lia|]. split.
  - intros i Hi. destruct (I i Hi) as [_ [_ F]]. replace (get 0 (map c_slope r) i) with (c_slope (get cs0 r i)); [exact F|].
    unfold get. rewrite <- (map_nth c_slope). reflexivity.
  - destruct W as [W|W]; [left; lia|right; exact W].
Qed.
Lemma slope_loop_err left start n l : inv n l -> 
  match slope_loop T left start l with Ok _ => True
  | ValueError => start = true /\ forall i, (i < ncell T)%nat -> found i (S n) 0 | _ => False end.
Proof.
  revert start n l. induction left as [|left IH]; intros start n l I; cbn [slope_loop];
    set (l' := tab (ncell T) (fun i => pass T i (get cs0 l i)));
    assert (I' := inv_pass n l I); fold l' in I';
    (destruct (start && negb (existsb (fun c => lt_b 0 (c_slope c)) l')) eqn:S0;
     [apply andb_true_iff in S0; destruct S0 as [-> S0]; split; [reflexivity|]; intros i Hi;
      apply negb_true_iff in S0; destruct I' as [Len I']; destruct (I' i Hi) as [_ [_ F]];
      assert (NP : lt_b 0 (c_slope (get cs0 l' i)) = false);
      [destruct (lt_b 0 (c_slope (get cs0 l' i))) eqn:Y; [|reflexivity]; exfalso;
       assert (existsb (fun c => lt_b 0 (c_slope c)) l' = true); [|congruence]; apply existsb_exists;
       exists (get cs0 l' i); split; [apply nth_In; rewrite Len; exact Hi|exact Y]|];
      apply lt_b_f in NP; destruct F as [q Q0 W|q k N FL Kn Q0];
      [apply f_none; [reflexivity|exact W]|exfalso; generalize (mean_pos i k Hi FL); lra]|]).
  - exact Logic.I.
  - destruct (_ || _); [exact Logic.I|]. assert (Y := IH false (S n) l' I'). destruct (slope_loop T left false l'); try exact Y. destruct Y. discriminate.
Qed.
End P.
