(* Lemmas about the chains of get_new_slope_grid2 and about smooth_dem. *)
From Coq Require Import ZArith QArith Qminmax Lqa List Bool Arith Lia.
From Verif Require Import Base Slope_Model Slope_Spec Slope_Proofs.
Import ListNotations.
Local Open Scope Q_scope.

Section P.
Variable T : topo.
Hypothesis G : d8_grid T.

Lemma d8_drop_pos i : 0 < d8_drop T i <-> steep T i.
Proof.
  unfold d8_drop, steep, known. destruct (noflow T i) eqn:N.
  - rewrite orb_true_r. split; [lra|]. intros [X _]. discriminate.
  - rewrite orb_false_r. destruct (Qle_bool (z T i) (nodata T)) eqn:E1.
    + apply Qle_bool_iff in E1. cbn [orb]. split; [lra|]. intros [_ [X _]]. lra.
    + apply qle_f in E1. cbn [orb]. destruct (Qle_bool (z T (par T i)) (nodata T)) eqn:E2.
      * apply Qle_bool_iff in E2. split; [lra|]. intros [_ [_ [X _]]]. lra.
      * apply qle_f in E2. split; [intros L; repeat split; try assumption; lra|]. intros [_ [_ [_ X]]]. lra.
Qed.
Lemma d8_drop_val i : steep T i -> d8_drop T i = z T i - z T (par T i).
Proof.
  intros [N [A [B _]]]. unfold d8_drop, known in *. rewrite N, orb_false_r.
  destruct (Qle_bool (z T i) (nodata T)) eqn:E1; [apply Qle_bool_iff in E1; lra|].
  destruct (Qle_bool (z T (par T i)) (nodata T)) eqn:E2; [apply Qle_bool_iff in E2; lra|]. reflexivity.
Qed.
Lemma slope_steep i : (i < ncell T)%nat -> (lt_b 0 (d8_slope T i) = true <-> steep T i).
Proof.
  intros I. rewrite <- d8_drop_pos, lt_b_t. unfold d8_slope. destruct (noflow T i) eqn:N.
  - split; [lra|]. intros L. apply d8_drop_pos in L. destruct L as [X _]. congruence.
  - destruct (lt_b 0 (d8_drop T i)) eqn:E.
    + apply lt_b_t in E. split; [intros _; exact E|]. intros _. apply div_pos; [exact E|]. apply (d8_ds T G i I).
    + apply lt_b_f in E. split; lra.
Qed.
Lemma slope_flat i : (i < ncell T)%nat -> (Qeq_bool (d8_slope T i) 0 = true <-> flat T i).
Proof.
  intros I. rewrite Qeq_bool_iff. unfold d8_slope, flat. destruct (noflow T i) eqn:N.
  - split; [lra|]. intros [X _]. discriminate.
  - destruct (lt_b 0 (d8_drop T i)) eqn:E.
    + apply lt_b_t in E. assert (P := div_pos _ _ E (d8_ds T G i I)). split; [lra|]. intros [_ X]. exfalso. apply X.
      apply d8_drop_pos in E. destruct E as [_ E]. exact E.
    + apply lt_b_f in E. split; [|reflexivity]. intros _. split; [reflexivity|]. intros X.
      assert (steep T i) as S by (split; assumption). apply d8_drop_pos in S. lra.
Qed.
Lemma slope_noflow i : (i < ncell T)%nat -> (lt_b (d8_slope T i) 0 = true <-> noflow T i = true).
Proof.
  intros I. rewrite lt_b_t. unfold d8_slope. destruct (noflow T i) eqn:N; [split; [reflexivity|lra]|].
  destruct (lt_b 0 (d8_drop T i)) eqn:E; [|split; [lra|discriminate]].
  apply lt_b_t in E. assert (P := div_pos _ _ E (d8_ds T G i I)). split; [lra|discriminate].
Qed.
Lemma three_ways i : (i < ncell T)%nat -> steep T i \/ flat T i \/ noflow T i = true.
Proof.
  intros I. destruct (noflow T i) eqn:N; [auto|]. destruct (lt_b 0 (d8_slope T i)) eqn:E.
  - left. apply slope_steep; assumption.
  - right. left. split; [exact N|]. intros X. assert (S : steep T i) by (split; assumption).
    apply (slope_steep i I) in S. congruence.
Qed.
Lemma steep_not_flat i : steep T i -> flat T i -> False.
Proof. intros [_ S] [_ F]. exact (F S). Qed.
Lemma slope_val i : steep T i -> d8_slope T i = (z T i - z T (par T i)) / ds T i.
Proof.
  intros S. assert (P := proj2 (d8_drop_pos i) S). unfold d8_slope. rewrite (d8_drop_val i S) in *.
  destruct S as [N _]. rewrite N. apply lt_b_t in P. rewrite P. reflexivity.
Qed.
Lemma slope_flat0 i : flat T i -> d8_slope T i = 0.
Proof.
  intros [N F]. unfold d8_slope. rewrite N. destruct (lt_b 0 (d8_drop T i)) eqn:E; [|reflexivity].
  apply lt_b_t in E. apply d8_drop_pos in E. destruct E as [_ E]. contradiction.
Qed.

Lemma starts_in s : In s (starts T) <-> begins T s.
Proof.
  unfold starts, begins. rewrite filter_In, in_seq. split.
  - intros [R B]. assert (I : (s < ncell T)%nat) by lia. split; [exact I|]. apply orb_true_iff in B.
    destruct B as [B|B]; [left; unfold normal in B|right; unfold special in B]; apply andb_true_iff in B; destruct B as [B1 B2].
    + split; [apply slope_steep; assumption|]. apply slope_flat; [apply (d8_range T G s I)|exact B2].
    + split; [exact B1|]. apply slope_flat; assumption.
  - intros [I B]. split; [lia|]. apply orb_true_iff. unfold normal, special. rewrite !andb_true_iff.
    destruct B as [[S F]|[H F]].
    + left. split; [apply slope_steep; assumption|]. apply slope_flat; [apply (d8_range T G s I)|exact F].
    + right. split; [exact H|]. apply slope_flat; assumption.
Qed.

Lemma anc_noflow k i : noflow T (anc T k i) = true -> forall j, (k <= j)%nat -> noflow T (anc T j i) = true.
Proof.
  intros N j J. destruct (Nat.eq_dec j k) as [->|D]; [exact N|].
  assert (Z : anc T (S k) i = 0%nat) by (cbn [anc]; apply (d8_out T G); exact N).
  rewrite (anc_zero T G j (S k) i ltac:(lia) Z). apply (d8_corner T G).
Qed.
Lemma chain_end_unique s k k' : chain_end T s k -> chain_end T s k' -> k = k'.
Proof.
  intros [K [S F]] [K' [S' F']]. destruct (Nat.lt_trichotomy k k') as [L|[L|L]]; [|exact L|]; exfalso.
  - apply (steep_not_flat _ S). apply F'. lia.
  - apply (steep_not_flat _ S'). apply F. lia.
Qed.

(* never rising elevations make the slope of a chain positive *)
Lemma z_falls k i : never_rises T -> (i < ncell T)%nat -> (forall j, (j < k)%nat -> noflow T (anc T j i) = false) ->
  z T (anc T k i) <= z T i.
Proof.
  intros R I. induction k as [|k IH]; intros F; [cbn; lra|].
  assert (L : z T (anc T k i) <= z T i) by (apply IH; intros j J; apply F; lia).
  assert (M := R (anc T k i) (anc_range T G k i I) (F k ltac:(lia))). cbn [anc]. lra.
Qed.
Lemma chain_flow s k : begins T s -> chain_end T s k -> forall j, (j <= k)%nat -> noflow T (anc T j s) = false.
Proof.
  intros B [K [S F]] j J. destruct (noflow T (anc T j s)) eqn:N; [|reflexivity].
  assert (X := anc_noflow j s N k J). destruct S as [Y _]. congruence.
Qed.
Lemma chain_slope_pos s k : never_rises T -> begins T s -> chain_end T s k -> 0 < chain_slope T s k.
Proof.
  intros R B E. assert (FL := chain_flow s k B E). destruct B as [I _].
  assert (Z := z_falls k s R I ltac:(intros j J; apply FL; lia)). destruct E as [K [[_ [_ [_ St]]] _]].
  unfold chain_slope, mean_slope. apply div_pos; [|apply plen_pos; [exact G|exact I|lia]].
  replace (k + 1)%nat with (S k) by lia. cbn [anc]. lra.
Qed.

(* ---------- the slopes after some chains have been resolved ---------- *)
Definition covers (s k i : nat) : Prop := exists j, (j <= k)%nat /\ i = anc T j s.
Definition vinv (D : nat -> nat -> Prop) (sl : list Q) : Prop :=
  length sl = ncell T /\ forall i, (i < ncell T)%nat -> noflow T i = false ->
    (steep T i -> get 0 sl i <= d8_slope T i) /\
    (forall s k, D s k -> covers s k i -> get 0 sl i <= chain_slope T s k) /\
    (get 0 sl i == d8_slope T i \/ exists s k, D s k /\ covers s k i /\ (get 0 sl i == chain_slope T s k \/ get 0 sl i == 99999 /\ 99999 <= chain_slope T s k)) /\
    (steep T i \/ (exists s k, D s k /\ covers s k i) -> 0 < get 0 sl i) /\ 0 <= get 0 sl i.
Lemma vinv_iff D D' sl : (forall s k, D s k <-> D' s k) -> vinv D sl -> vinv D' sl.
Proof.
  intros E [L V]. split; [exact L|]. intros i I N. destruct (V i I N) as [A [B [C [P Z]]]].
  split; [exact A|]. split; [intros s k X; apply B, E, X|]. split; [|split; [|exact Z]].
  - destruct C as [C|[s [k [X C]]]]; [left; exact C|right; exists s, k; split; [apply E, X|exact C]].
  - intros [X|[s [k [X Y]]]]; apply P; [left; exact X|right; exists s, k; split; [apply E, X|exact Y]].
Qed.
Lemma put_get new ready sl old : length sl = length old -> forall i, (i < length old)%nat ->
  get 0 (fold_left (fun s j => set s j (lowered new (get 0 old j))) ready sl) i =
  if existsb (Nat.eqb i) ready then lowered new (get 0 old i) else get 0 sl i.
Proof.
  revert sl. induction ready as [|j r IH]; intros sl L i I; [reflexivity|]. cbn [fold_left existsb].
  rewrite IH by (rewrite ?set_length; assumption). destruct (existsb (Nat.eqb i) r); [rewrite orb_true_r; reflexivity|].
  rewrite orb_false_r. destruct (Nat.eqb_spec i j) as [->|N].
  - apply get_set_same. rewrite L. exact I.
  - apply get_set_other. congruence.
Qed.
Lemma put_length new ready sl old : length (fold_left (fun s j => set s j (lowered new (get 0 old j))) ready sl) = length sl.
Proof. revert sl. induction ready as [|j r IH]; intros sl; [reflexivity|]. cbn [fold_left]. rewrite IH. apply set_length. Qed.
Lemma lowered_pos new s : 0 < new -> 0 < lowered new s.
Proof.
  intros N. unfold lowered. destruct (Qle_bool (Qmax 0 s) 0) eqn:E.
  - apply Q.min_glb_lt; [exact N|reflexivity].
  - apply qle_f in E. apply Q.min_glb_lt; [exact N|exact E].
Qed.
Lemma lowered_le new s : lowered new s <= new.
Proof. unfold lowered. apply Q.le_min_l. Qed.
Lemma lowered_val new s : 0 <= s -> (0 < s /\ lowered new s == Qmin new s) \/ (s == 0 /\ lowered new s == Qmin new 99999).
Proof.
  intros S. assert (M : Qmax 0 s == s) by (apply Q.max_r; exact S). unfold lowered.
  destruct (Qle_bool (Qmax 0 s) 0) eqn:E.
  - apply Qle_bool_iff in E. right. split; [lra|reflexivity].
  - apply qle_f in E. left. split; [lra|]. rewrite M. reflexivity.
Qed.
Lemma lowered_ext new new' s : new == new' -> lowered new s == lowered new' s.
Proof. intros E. unfold lowered. rewrite E. reflexivity. Qed.

Lemma put_vinv D s k new sl ready : vinv D sl -> 0 < new -> new == chain_slope T s k ->
  (forall i, (i < ncell T)%nat -> (existsb (Nat.eqb i) ready = true <-> covers s k i)) ->
  vinv (fun s' k' => D s' k' \/ (s' = s /\ k' = k)) (put_slope new ready sl).
Proof.
  intros [L V] P E C. unfold put_slope. split; [rewrite put_length; exact L|]. intros i I N.
  rewrite (put_get new ready sl sl eq_refl i) by (rewrite L; exact I). destruct (V i I N) as [A [B [At [Po Z]]]].
  specialize (C i I). destruct (existsb (Nat.eqb i) ready) eqn:X.
  - assert (Cv := proj1 C eq_refl). clear C X. set (v := get 0 sl i) in *.
    assert (LE := lowered_le new v). assert (LP := lowered_pos new v P).
    assert (LV := lowered_val new v Z). repeat split.
    + intros S. destruct LV as [[_ W]|[W _]]; [|exfalso; generalize (Po (or_introl S)); lra].
      rewrite W. generalize (Q.le_min_r new v) (A S). lra.
    + intros s' k' [D'|[-> ->]] Cv'; [|lra]. specialize (B s' k' D' Cv').
      destruct LV as [[_ W]|[W _]]; [rewrite W; generalize (Q.le_min_r new v); lra|].
      exfalso. assert (0 < v) by (apply Po; right; exists s', k'; split; assumption). lra.
    + destruct LV as [[_ W]|[_ W]].
      * destruct (Qlt_le_dec v new) as [Q|Q].
        -- assert (M : Qmin new v == v) by (apply Q.min_r; lra).
           destruct At as [At|[s' [k' [D' [Cv' At]]]]]; [left; lra|]. right. exists s', k'. split; [left; exact D'|]. split; [exact Cv'|].
           destruct At as [At|At]; [left; lra|right; lra].
        -- assert (M : Qmin new v == new) by (apply Q.min_l; lra). right. exists s, k. split; [right; split; reflexivity|].
           split; [exact Cv|]. left. lra.
      * right. exists s, k. split; [right; split; reflexivity|]. split; [exact Cv|]. destruct (Qlt_le_dec 99999 new) as [Q|Q].
        -- assert (M : Qmin new 99999 == 99999) by (apply Q.min_r; lra). right. lra.
        -- assert (M : Qmin new 99999 == new) by (apply Q.min_l; lra). left. lra.
    + intros _. exact LP.
    + lra.
  - assert (NC : ~ covers s k i) by (intros Y; apply C in Y; discriminate). repeat split; try assumption.
    + intros s' k' [D'|[-> ->]] Cv'; [exact (B s' k' D' Cv')|contradiction].
    + destruct At as [At|[s' [k' [D' At]]]]; [left; exact At|right; exists s', k'; split; [left; exact D'|exact At]].
    + intros [S|[s' [k' [[D'|[-> ->]] Cv']]]]; [apply Po; left; exact S| |contradiction].
      apply Po. right. exists s', k'. split; assumption.
Qed.

(* ---------- one pass over the chains ---------- *)
Definition cinv (t : nat) (c : chain) : Prop :=
  begins T (ch_start c) /\ ch_cur c = anc T (S t) (ch_start c) /\
  if ch_done c then exists k, (2 <= k <= S t)%nat /\ ~ flat T (anc T k (ch_start c)) /\ forall j, (2 <= j < k)%nat -> flat T (anc T j (ch_start c))
  else ch_dist c == plen T (S t) (ch_start c) /\ ch_path c = map (fun j => anc T j (ch_start c)) (seq 0 (t + 2)) /\
       forall j, (2 <= j <= S t)%nat -> flat T (anc T j (ch_start c)).

Lemma row_covers t s : forall i, existsb (Nat.eqb i) (firstn (t + 2 + 1) (map (fun j => anc T j s) (seq 0 (t + 2)) ++ [anc T (S (S t)) s])) = true
  <-> covers s (t + 2) i.
Proof.
  intros i. replace (map (fun j => anc T j s) (seq 0 (t + 2)) ++ [anc T (S (S t)) s]) with (map (fun j => anc T j s) (seq 0 (t + 2 + 1))).
  - rewrite firstn_all2 by (rewrite map_length, seq_length; lia). rewrite existsb_exists. unfold covers. split.
    + intros [x [X E]]. apply Nat.eqb_eq in E. subst x. apply in_map_iff in X. destruct X as [j [E J]]. apply in_seq in J.
      exists j. split; [lia|symmetry; exact E].
    + intros [j [J E]]. exists i. split; [|apply Nat.eqb_refl]. apply in_map_iff. exists j. split; [symmetry; exact E|apply in_seq; lia].
  - rewrite seq_app, map_app. cbn [seq map]. replace (0 + (t + 2))%nat with (S (S t)) by lia. reflexivity.
Qed.

Lemma chain_pass_ok D t c sl c' sl' : never_rises T -> cinv t c -> vinv D sl -> chain_pass T (t + 2) c sl = (c', sl') ->
  ch_start c' = ch_start c /\ cinv (S t) c' /\
  vinv (fun s k => D s k \/ (s = ch_start c /\ k = t + 2 /\ chain_end T s k)%nat) sl'.
Proof.
  intros R [B [Cu C]] V. set (s := ch_start c) in *. assert (I : (s < ncell T)%nat) by apply (proj1 B).
  assert (Ik : (anc T (S (S t)) s < ncell T)%nat) by (apply (anc_range T G); exact I).
  unfold chain_pass. fold s. rewrite Cu. change (par T (anc T (S t) s)) with (anc T (S (S t)) s).
  destruct (ch_done c) eqn:Dn.
  - intros E. injection E as <- <-. split; [reflexivity|]. destruct C as [k [K [NF F]]]. split.
    + split; [exact B|]. split; [reflexivity|]. cbn [ch_done ch_start]. exists k. split; [lia|]. split; assumption.
    + apply (vinv_iff D); [|exact V]. intros s' k'. split; [auto|]. intros [X|[-> [-> CE]]]; [exact X|].
      exfalso. apply NF. destruct CE as [_ [_ F']]. apply F'. lia.
  - destruct C as [Di [Pa F]]. destruct (lt_b 0 (d8_slope T (anc T (S (S t)) s))) eqn:Pos.
    + apply (slope_steep _ Ik) in Pos. assert (CE : chain_end T s (t + 2)).
      { replace (t + 2)%nat with (S (S t)) by lia. split; [lia|]. split; [exact Pos|]. intros j J. apply F. lia. }
      intros E. injection E as <- <-. split; [reflexivity|]. split.
      * split; [exact B|]. split; [reflexivity|]. cbn [ch_done ch_start]. exists (S (S t)). split; [lia|].
        split; [exact (steep_not_flat _ Pos)|]. intros j J. apply F. lia.
      * assert (Ew : (z T s - z T (par T (anc T (S (S t)) s))) / (ch_dist c + ds T (anc T (S t) s) + ds T (anc T (S (S t)) s))
                     == chain_slope T s (t + 2)).
        { unfold chain_slope, mean_slope. replace (t + 2 + 1)%nat with (S (S (S t))) by lia. rewrite Di. reflexivity. }
        eapply vinv_iff; [|eapply (put_vinv D s (t + 2))].
        -- intros s' k'. cbv beta. split; (intros [X|X]; [left; exact X|right]).
           ++ destruct X as [-> ->]. split; [reflexivity|]. split; [reflexivity|exact CE].
           ++ destruct X as [-> [-> _]]. split; reflexivity.
        -- exact V.
        -- rewrite Ew. apply chain_slope_pos; assumption.
        -- exact Ew.
        -- intros i _. rewrite Pa. apply row_covers.
    + assert (NP : ~ steep T (anc T (S (S t)) s)) by (intros X; apply (slope_steep _ Ik) in X; congruence).
      assert (NE : ~ chain_end T s (t + 2)).
      { intros [_ [X _]]. apply NP. replace (S (S t)) with (t + 2)%nat by lia. exact X. }
      assert (V' : vinv (fun s' k => D s' k \/ s' = s /\ k = (t + 2)%nat /\ chain_end T s' k) sl).
      { apply (vinv_iff D); [|exact V]. intros s' k'. split; [auto|]. intros [X|[-> [-> CE]]]; [exact X|]. contradiction. }
      destruct (lt_b (d8_slope T (anc T (S (S t)) s)) 0) eqn:Neg.
      * apply (slope_noflow _ Ik) in Neg. intros E. injection E as <- <-. split; [reflexivity|]. split; [|exact V'].
        split; [exact B|]. split; [reflexivity|]. cbn [ch_done ch_start]. exists (S (S t)). split; [lia|].
        split; [intros [X _]; congruence|]. intros j J. apply F. lia.
      * assert (Fl : flat T (anc T (S (S t)) s)).
        { destruct (three_ways _ Ik) as [X|[X|X]]; [contradiction|exact X|]. apply (slope_noflow _ Ik) in X. congruence. }
        intros E. injection E as <- <-. split; [reflexivity|]. split; [|exact V'].
        split; [exact B|]. split; [reflexivity|]. cbn [ch_done ch_start ch_dist ch_path]. split; [|split].
        -- change (plen T (S (S t)) s) with (plen T (S t) s + ds T (anc T (S t) s)). rewrite Di. reflexivity.
        -- rewrite Pa. replace (S t + 2)%nat with (t + 2 + 1)%nat by lia. rewrite (seq_app (t + 2)), map_app. cbn [seq map].
           replace (0 + (t + 2))%nat with (S (S t)) by lia. reflexivity.
        -- intros j J. destruct (Nat.eq_dec j (S (S t))) as [->|N]; [exact Fl|apply F; lia].
Qed.
Lemma chains_pass_ok t cs : never_rises T -> Forall (cinv t) cs -> forall D sl cs' sl', vinv D sl ->
  chains_pass T (t + 2) cs sl = (cs', sl') ->
  map ch_start cs' = map ch_start cs /\ Forall (cinv (S t)) cs' /\
  vinv (fun s k => D s k \/ (In s (map ch_start cs) /\ k = t + 2 /\ chain_end T s k)%nat) sl'.
Proof.
  intros R. induction cs as [|c cs IH]; intros F D sl cs' sl' V E; cbn [chains_pass] in E.
  - injection E as <- <-. split; [reflexivity|]. split; [constructor|]. apply (vinv_iff D); [|exact V]. intros s k. cbn. intuition.
  - inversion F as [|? ? Fc Fr]; subst. destruct (chain_pass T (t + 2) c sl) as [c1 s1] eqn:E1.
    destruct (chains_pass T (t + 2) cs s1) as [r1 s2] eqn:E2. injection E as <- <-.
    destruct (chain_pass_ok D t c sl c1 s1 R Fc V E1) as [St [Ci V1]].
    destruct (IH Fr _ s1 r1 s2 V1 E2) as [St2 [Ci2 V2]]. split; [cbn [map]; rewrite St, St2; reflexivity|].
    split; [constructor; assumption|]. eapply vinv_iff; [|exact V2]. intros s k. cbv beta. cbn [map In]. split.
    + intros [[X|[-> X]]|[X Y]]; auto.
    + intros [X|[[<-|X] Y]]; auto.
Qed.

Definition Dt (t s k : nat) : Prop := begins T s /\ chain_end T s k /\ (k <= S t)%nat.
Definition all_end (t : nat) : Prop := forall s k, begins T s -> chain_end T s k -> (k <= S t)%nat.

Lemma chain_loop_ok left t cs sl r : never_rises T -> Forall (cinv t) cs -> map ch_start cs = starts T -> vinv (Dt t) sl ->
  (left + t = maxlen T)%nat -> chain_loop T left (t + 2) cs sl = Ok r -> exists m, vinv (Dt m) r /\ all_end m.
Proof.
  intros R. revert t cs sl. induction left as [|left IH]; intros t cs sl F St V L; cbn [chain_loop];
    (destruct (Nat.leb_spec (maxlen T) (t + 2 - 1)) as [X|X]; [discriminate|]); [exfalso; lia|].
  destruct (existsb _ cs && _); [discriminate|].
  destruct (existsb (fun c => Qeq_bool (d8_slope T (par T (ch_cur c))) 0) cs) eqn:NB; cbn [andb];
    [destruct (Nat.leb_spec (maxlen T) (t + 2)) as [X'|X']; [discriminate|]|];
    destruct (chains_pass T (t + 2) cs sl) as [cs' sl'] eqn:E;
    destruct (chains_pass_ok t cs R F _ _ _ _ V E) as [St' [F' V']]; rewrite St in *;
    (assert (V2 : vinv (Dt (S t)) sl');
     [eapply vinv_iff; [|exact V']; intros s k; unfold Dt; cbv beta; split;
       [intros [[A [B K]]|[A [-> B]]]; [split; [exact A|split; [exact B|lia]]|split; [apply starts_in; exact A|split; [exact B|lia]]]
       |intros [A [B K]]; destruct (Nat.eq_dec k (t + 2)) as [->|N];
         [right; split; [apply starts_in; exact A|split; [reflexivity|exact B]]|left; split; [exact A|split; [exact B|lia]]]]|]);
    (assert (Fin : forallb ch_done cs' = true \/ forallb (fun c => (ch_cur c =? 0)%nat) cs' = true -> all_end (S t));
     [rewrite Forall_forall in F'; rewrite !forallb_forall; intros W s k B CE; assert (Is := proj2 (starts_in s) B);
      rewrite <- St' in Is; apply in_map_iff in Is; destruct Is as [c [Es Ic]]; destruct (F' c Ic) as [_ [Cu C]]; rewrite Es in *;
      destruct (le_lt_dec k (S (S t))) as [K|K]; [exact K|]; exfalso; destruct W as [W|W];
      [rewrite (W c Ic) in C; destruct C as [k' [K' [NF _]]]; apply NF; destruct CE as [_ [_ Fl]]; apply Fl; lia
      |specialize (W c Ic); apply Nat.eqb_eq in W; rewrite W in Cu; symmetry in Cu;
       assert (Z := anc_zero T G k (S (S t)) s ltac:(lia) Cu); destruct CE as [_ [[NN _] _]]; rewrite Z, (d8_corner T G) in NN; discriminate]|]).
  - destruct (forallb ch_done cs') eqn:A1; [|destruct (forallb (fun c => (ch_cur c =? 0)%nat) cs') eqn:A2]; cbn [orb].
    + intros Y. injection Y as <-. exists (S t). split; [exact V2|apply Fin; left; reflexivity].
    + intros Y. injection Y as <-. exists (S t). split; [exact V2|apply Fin; right; reflexivity].
    + intros Y. replace (t + 2 + 1)%nat with (S t + 2)%nat in Y by lia. apply (IH (S t) cs' sl' F' St' V2 ltac:(lia) Y).
  - assert (A1 : forallb ch_done cs' = true).
    { rewrite Forall_forall in F'. apply forallb_forall. intros c Ic. destruct (F' c Ic) as [B [Cu C]].
      destruct (ch_done c) eqn:Dn; [reflexivity|]. exfalso. destruct C as [_ [_ Fl]]. specialize (Fl (S (S t)) ltac:(lia)).
      assert (Is : In (ch_start c) (map ch_start cs)) by (rewrite St, <- St'; apply in_map; exact Ic).
      apply in_map_iff in Is. destruct Is as [c0 [Es Ic0]]. assert (F0 := proj1 (Forall_forall _ _) F c0 Ic0). destruct F0 as [_ [Cu0 _]].
      assert (Y : existsb (fun c => Qeq_bool (d8_slope T (par T (ch_cur c))) 0) cs = true); [|congruence].
      apply existsb_exists. exists c0. split; [exact Ic0|]. rewrite Cu0, Es. apply slope_flat; [|exact Fl].
      change (anc T (S (S t)) (ch_start c) < ncell T)%nat. apply (anc_range T G). exact (proj1 B). }
    rewrite A1. cbn [orb]. intros Y. injection Y as <-. exists (S t). split; [exact V2|apply Fin; left; exact A1].
Qed.

Lemma init_cinv : Forall (cinv 0) (map (new_chain T) (starts T)).
Proof.
  apply Forall_forall. intros c C. apply in_map_iff in C. destruct C as [s [<- S0]]. apply starts_in in S0.
  unfold cinv, new_chain. cbn [ch_start ch_cur ch_done ch_dist ch_path]. split; [exact S0|]. split; [reflexivity|].
  split; [cbn; ring|]. split; [reflexivity|]. intros j J. lia.
Qed.
Lemma init_starts : map ch_start (map (new_chain T) (starts T)) = starts T.
Proof. rewrite map_map. cbn [new_chain ch_start]. apply map_id. Qed.
Lemma init_vinv : vinv (Dt 0) (tab (ncell T) (d8_slope T)).
Proof.
  split; [apply tab_length|]. intros i I N. rewrite (get_tab 0 _ _ i I). assert (W := three_ways i I).
  assert (Z : 0 <= d8_slope T i).
  { destruct W as [W|[W|W]]; [apply (slope_steep i I) in W; apply lt_b_t in W; lra|rewrite (slope_flat0 i W); lra|congruence]. }
  assert (ND : forall s k, ~ Dt 0 s k) by (intros s k [_ [[K _] K']]; lia).
  split; [intros _; lra|]. split; [intros s k X; destruct (ND s k X)|]. split; [left; reflexivity|]. split; [|exact Z].
  intros [X|[s [k [X _]]]]; [apply (slope_steep i I) in X; apply lt_b_t in X; exact X|destruct (ND s k X)].
Qed.
Lemma grid2_ok l : never_rises T -> get_new_slope_grid2 T = Ok l ->
  length l = ncell T /\ exists m sl, vinv (Dt m) sl /\ all_end m /\ forall i, (i < ncell T)%nat -> get 0 l i = if noflow T i then 0 else get 0 sl i.
Proof.
  intros R. unfold get_new_slope_grid2. destruct (forallb _ _); [discriminate|]. destruct (negb _); [discriminate|].
  destruct (starts T) as [|s0 ss] eqn:S0; [discriminate|]. rewrite <- S0.
  destruct (chain_loop T (maxlen T) 2 (map (new_chain T) (starts T)) (tab (ncell T) (d8_slope T))) as [sl| | | |] eqn:E; try discriminate.
  destruct (three_positive _); [|discriminate]. intros X. injection X as <-. split; [apply tab_length|].
  destruct (chain_loop_ok (maxlen T) 0 _ _ sl R init_cinv init_starts init_vinv (Nat.add_0_r _) E) as [m [V A]].
  exists m, sl. split; [exact V|]. split; [exact A|]. intros i I. rewrite get_tab by exact I. reflexivity.
Qed.

(* no chain runs past the rows of the table if all end two steps before *)
Lemma chain_loop_no_index left t cs sl : never_rises T -> Forall (cinv t) cs -> map ch_start cs = starts T -> vinv (Dt t) sl ->
  (left + t = maxlen T)%nat -> (exists c, In c cs /\ ch_done c = false) ->
  (forall s, begins T s -> exists k, (2 <= k <= maxlen T - 2)%nat /\ ~ flat T (anc T k s)) ->
  exists r, chain_loop T left (t + 2) cs sl = Ok r.
Proof.
  intros R. revert t cs sl. induction left as [|left IH]; intros t cs sl F St V L [c [Ic Dc]] W; cbn [chain_loop];
    (assert (B := proj1 (Forall_forall _ _) F c Ic); destruct B as [B [_ C]]; rewrite Dc in C; destruct C as [_ [_ Fl]];
     destruct (W _ B) as [k [K NF]]; assert (Tk : (t + 2 <= k)%nat);
     [destruct (le_lt_dec (t + 2) k) as [Y|Y]; [exact Y|]; exfalso; apply NF, Fl; lia|]).
  - exfalso. lia.
  - destruct (Nat.leb_spec (maxlen T) (t + 2 - 1)) as [X|X]; [exfalso; lia|].
    destruct (Nat.leb_spec (maxlen T) (t + 2 + 1)) as [X1|X1]; [exfalso; lia|]. rewrite andb_false_r.
    destruct (Nat.leb_spec (maxlen T) (t + 2)) as [X2|X2]; [exfalso; lia|]. rewrite andb_false_r.
    destruct (chains_pass T (t + 2) cs sl) as [cs' sl'] eqn:E.
    destruct (chains_pass_ok t cs R F _ _ _ _ V E) as [St' [F' V']]. rewrite St in *.
    destruct (forallb ch_done cs') eqn:A1; [eexists; reflexivity|]. destruct (forallb (fun c => (ch_cur c =? 0)%nat) cs'); [eexists; reflexivity|].
    cbn [orb].
    assert (ND : exists c', In c' cs' /\ ch_done c' = false).
    { clear - A1. induction cs' as [|a l IHl]; [discriminate|]. cbn [forallb] in A1. destruct (ch_done a) eqn:Da.
      - destruct (IHl A1) as [x [X Y]]. exists x. split; [right; exact X|exact Y].
      - exists a. split; [left; reflexivity|exact Da]. }
    assert (NB : existsb (fun c => Qeq_bool (d8_slope T (par T (ch_cur c))) 0) cs = true).
    { destruct ND as [c' [Ic' Dc']]. assert (B' := proj1 (Forall_forall _ _) F' c' Ic'). destruct B' as [B' [_ C']]. rewrite Dc' in C'.
      destruct C' as [_ [_ Fl']]. assert (Is : In (ch_start c') (map ch_start cs)) by (rewrite St, <- St'; apply in_map; exact Ic').
      apply in_map_iff in Is. destruct Is as [c0 [Es Ic0]]. assert (F0 := proj1 (Forall_forall _ _) F c0 Ic0). destruct F0 as [_ [Cu0 _]].
      apply existsb_exists. exists c0. split; [exact Ic0|]. rewrite Cu0, Es. apply slope_flat; [|apply (Fl' (S (S t))); lia].
      change (anc T (S (S t)) (ch_start c') < ncell T)%nat. apply (anc_range T G). exact (proj1 B'). }
    rewrite NB. replace (t + 2 + 1)%nat with (S t + 2)%nat by lia. apply IH; try assumption; [|lia].
    eapply vinv_iff; [|exact V']. intros s k'. unfold Dt. cbv beta. split.
    + intros [[A [B1 K']]|[A [-> B1]]]; [split; [exact A|split; [exact B1|lia]]|split; [apply starts_in; exact A|split; [exact B1|lia]]].
    + intros [A [B1 K']]. destruct (Nat.eq_dec k' (t + 2)) as [->|N];
        [right; split; [apply starts_in; exact A|split; [reflexivity|exact B1]]|left; split; [exact A|split; [exact B1|lia]]].
Qed.

(* every flat cell has a chain above it *)
Lemma bound_all : (forall i, (i < ncell T)%nat -> exists k, noflow T (anc T k i) = true) ->
  exists B, forall i, (i < ncell T)%nat -> noflow T (anc T B i) = true.
Proof.
  intros H. assert (Q : forall n, (n <= ncell T)%nat -> exists B, forall i, (i < n)%nat -> noflow T (anc T B i) = true).
  { induction n as [|n IH]; intros N; [exists 0%nat; intros i I; lia|]. destruct (IH ltac:(lia)) as [B HB]. destruct (H n N) as [k K].
    exists (Nat.max B k). intros i I. destruct (Nat.eq_dec i n) as [->|D].
    - apply (anc_noflow k n K). lia.
    - apply (anc_noflow B i); [apply HB; lia|lia]. }
  apply (Q (ncell T) (le_n _)).
Qed.
Lemma chain_above : (forall i, (i < ncell T)%nat -> exists k, noflow T (anc T k i) = true) ->
  (forall i, (i < ncell T)%nat -> head T i = false -> exists u, (u < ncell T)%nat /\ noflow T u = false /\ par T u = i) ->
  forall i, (i < ncell T)%nat -> flat T i ->
  exists s m, begins T s /\ anc T m s = i /\ (forall a, (1 <= a <= m)%nat -> flat T (anc T a s)) /\ (m = 0%nat -> head T i = true).
Proof.
  intros Dr Hd i0 I0 F0. destruct (bound_all Dr) as [B HB].
  assert (Q : forall d n j, (d + n = B)%nat -> (j < ncell T)%nat -> anc T n j = i0 -> (forall a, (a <= n)%nat -> flat T (anc T a j)) ->
    exists s m, begins T s /\ anc T m s = i0 /\ (forall a, (1 <= a <= m)%nat -> flat T (anc T a s)) /\ (m = 0%nat -> head T i0 = true)).
  { induction d as [|d IH]; intros n j L J A Fl.
    - exfalso. assert (X := HB j J). replace B with n in X by lia. destruct (Fl n (le_n _)) as [Y _]. congruence.
    - assert (Fj := Fl 0%nat ltac:(lia)). cbn in Fj. destruct (head T j) eqn:Hj.
      + exists j, n. split; [split; [exact J|right; split; assumption]|]. split; [exact A|]. split; [intros a Ha; apply Fl; lia|].
        intros ->. cbn in A. subst. exact Hj.
      + destruct (Hd j J Hj) as [u [U [Nu Pu]]].
        assert (AU : forall a, anc T (S a) u = anc T a j).
        { intros a. replace (S a) with (a + 1)%nat by lia. rewrite <- anc_add. cbn [anc]. rewrite Pu. reflexivity. }
        assert (FU : forall a, (1 <= a <= S n)%nat -> flat T (anc T a u)).
        { intros a Ha. destruct a as [|a]; [lia|]. rewrite AU. apply Fl. lia. }
        destruct (three_ways u U) as [X|[X|X]]; [| |congruence].
        * exists u, (S n). split; [split; [exact U|left; split; [exact X|rewrite Pu; exact Fj]]|].
          split; [rewrite AU; exact A|]. split; [exact FU|discriminate].
        * apply (IH (S n) u ltac:(lia) U); [rewrite AU; exact A|]. intros a Ha. destruct a as [|a]; [exact X|apply FU; lia]. }
  apply (Q B 0%nat i0 ltac:(lia) I0 eq_refl). intros a Ha. assert (a = 0)%nat by lia. subst. exact F0.
Qed.

(* ---------- smooth_dem ---------- *)
Definition fixed (i : nat) : Prop := par T i = 0%nat \/ par T (par T i) = 0%nat.
Definition last_child (c p : nat) : Prop := (c < ncell T)%nat /\ par T c = p /\ forall j, (c < j < ncell T)%nat -> par T j <> p.
Lemma smooth_fold zz n acc p : (n <= ncell T)%nat -> length acc = ncell T -> (p < ncell T)%nat ->
  let r := fold_left (fun acc i => set acc (par T i) ((get 0 zz i + get 0 zz (gpar T i)) / 2)) (seq 0 n) acc in
  length r = ncell T /\
  ((forall i, (i < n)%nat -> par T i <> p) /\ get 0 r p = get 0 acc p \/
   exists c, (c < n)%nat /\ par T c = p /\ (forall j, (c < j < n)%nat -> par T j <> p) /\
     get 0 r p = (get 0 zz c + get 0 zz (par T p)) / 2).
Proof.
  intros N L P. induction n as [|n IH]; [cbn; split; [exact L|left; split; [intros i I; lia|reflexivity]]|].
  destruct (IH ltac:(lia)) as [Lr H]. cbv zeta in *. rewrite seq_S, fold_left_app. cbn [fold_left Nat.add].
  split; [rewrite set_length; exact Lr|]. destruct (Nat.eq_dec (par T n) p) as [E|E].
  - right. exists n. split; [lia|]. split; [exact E|]. split; [intros j J; lia|]. rewrite E.
    rewrite get_set_same by (rewrite Lr; exact P). unfold gpar. rewrite E. reflexivity.
  - rewrite get_set_other by exact E. destruct H as [[A B]|[c [C [Pc [Lc V]]]]].
    + left. split; [|exact B]. intros i I. destruct (Nat.eq_dec i n) as [->|D]; [exact E|apply A; lia].
    + right. exists c. split; [lia|]. split; [exact Pc|]. split; [|exact V]. intros j J.
      destruct (Nat.eq_dec j n) as [->|D]; [exact E|apply Lc; lia].
Qed.
Lemma smooth_step_length zz : length (smooth_step T zz) = ncell T.
Proof. apply tab_length. Qed.
Lemma smooth_fixed zz i : (i < ncell T)%nat -> fixed i -> get 0 (smooth_step T zz) i = z T i.
Proof.
  intros I F. unfold smooth_step. rewrite get_tab by exact I. unfold gpar.
  destruct F as [F|F]; rewrite F, Nat.eqb_refl; [|rewrite orb_true_r]; reflexivity.
Qed.
Lemma smooth_free zz i : length zz = ncell T -> (i < ncell T)%nat -> ~ fixed i ->
  (forall c, (c < ncell T)%nat -> par T c <> i) /\ get 0 (smooth_step T zz) i = get 0 zz i \/
  exists c, last_child c i /\ get 0 (smooth_step T zz) i = (get 0 zz c + get 0 zz (par T i)) / 2.
Proof.
  intros L I F. unfold smooth_step. rewrite get_tab by exact I.
  replace (((par T i =? 0)%nat || (gpar T i =? 0)%nat)) with false.
  - destruct (smooth_fold zz (ncell T) zz i (le_n _) L I) as [_ H]. cbv zeta in H. destruct H as [[A B]|[c [C [P [Lc V]]]]].
    + left. split; assumption.
    + right. exists c. split; [split; [exact C|split; assumption]|exact V].
  - symmetry. apply orb_false_iff. unfold fixed, gpar in *. split; apply Nat.eqb_neq; intros X; apply F; auto.
Qed.
Lemma smooth_length n : length (smooth_dem T n) = ncell T.
Proof. destruct n; apply tab_length. Qed.
Lemma smooth_succ n : smooth_dem T (S n) = smooth_step T (smooth_dem T n).
Proof. reflexivity. Qed.
Lemma smooth_fixed_n n i : (i < ncell T)%nat -> fixed i -> get 0 (smooth_dem T n) i = z T i.
Proof. intros I F. destruct n as [|n]; [apply (get_tab 0 _ (z T) i I)|rewrite smooth_succ; apply smooth_fixed; assumption]. Qed.
Lemma fixed_dec i : fixed i \/ ~ fixed i.
Proof. unfold fixed. destruct (Nat.eq_dec (par T i) 0); [auto|]. destruct (Nat.eq_dec (par T (par T i)) 0); [auto|]. right. tauto. Qed.
Lemma smooth_range n lo hi : (forall i, (i < ncell T)%nat -> lo <= z T i <= hi) ->
  forall i, (i < ncell T)%nat -> lo <= get 0 (smooth_dem T n) i <= hi.
Proof.
  intros B. induction n as [|n IH]; intros i I; [change (smooth_dem T 0) with (tab (ncell T) (z T)); rewrite get_tab by exact I; apply B, I|].
  rewrite smooth_succ. destruct (fixed_dec i) as [F|F]; [rewrite smooth_fixed by assumption; apply B, I|].
  destruct (smooth_free _ i (smooth_length n) I F) as [[_ E]|[c [[C [P _]] E]]]; rewrite E; [apply IH, I|].
  assert (A := IH c C). assert (A' := IH (par T i) (d8_range T G i I)).
  split; [apply Qle_shift_div_l|apply Qle_shift_div_r]; lra.
Qed.
Lemma smooth_never_rises n : never_rises T ->
  (forall i j, (i < ncell T)%nat -> (j < ncell T)%nat -> noflow T i = false -> noflow T j = false -> par T i = par T j -> i = j) ->
  forall i, (i < ncell T)%nat -> noflow T i = false -> get 0 (smooth_dem T n) (par T i) <= get 0 (smooth_dem T n) i.
Proof.
  intros R U. induction n as [|n IH]; intros i I N.
  { change (smooth_dem T 0) with (tab (ncell T) (z T)). assert (Ip := d8_range T G i I).
    rewrite !get_tab by assumption. apply R; assumption. }
  assert (FX := smooth_fixed_n n). rewrite smooth_succ. set (zz := smooth_dem T n) in *. assert (Lz : length zz = ncell T) by apply smooth_length.
  assert (Ip := d8_range T G i I). assert (Ipp := d8_range T G _ Ip).
  assert (Flow : forall c, par T c <> 0%nat -> noflow T c = false).
  { intros c C. destruct (noflow T c) eqn:X; [|reflexivity]. exfalso. apply C. apply (d8_out T G). exact X. }
  destruct (fixed_dec i) as [F|F].
  - assert (Fp : fixed (par T i)).
    { destruct F as [F|F]; [rewrite F; left; apply (par0 T G)|left; exact F]. }
    rewrite !smooth_fixed by assumption. apply R; assumption.
  - assert (N0 : par T i <> 0%nat) by (intros X; apply F; left; exact X).
    assert (M0 : par T (par T i) <> 0%nat) by (intros X; apply F; right; exact X).
    assert (Li := IH i I N). assert (Np := Flow (par T i) M0). assert (Lp := IH _ Ip Np). fold zz in Li, Lp.
    assert (Ci : exists x, get 0 (smooth_step T zz) i == (x + get 0 zz (par T i)) / 2 /\ get 0 zz i <= x \/ get 0 (smooth_step T zz) i == get 0 zz i /\ x == 0).
    { destruct (smooth_free zz i Lz I F) as [[_ E]|[c [[C [P _]] E]]].
      - exists 0. right. rewrite E. split; reflexivity.
      - exists (get 0 zz c). left. split; [rewrite E; reflexivity|]. 
        assert (Nc : noflow T c = false) by (apply Flow; rewrite P; intros X; apply N0; rewrite X; apply (par0 T G)).
        assert (Lc := IH c C Nc). fold zz in Lc. rewrite P in Lc. exact Lc. }
    assert (HALF : forall a b, (a + b) / 2 == a * (1#2) + b * (1#2)) by (intros a b; field).
    assert (Up : get 0 (smooth_step T zz) (par T i) == get 0 zz (par T i) \/
                 get 0 (smooth_step T zz) (par T i) == (get 0 zz i + get 0 zz (par T (par T i))) / 2).
    { destruct (fixed_dec (par T i)) as [Fp|Fp].
      - left. rewrite smooth_fixed by assumption. rewrite FX by assumption. reflexivity.
      - right. destruct (smooth_free zz (par T i) Lz Ip Fp) as [[A _]|[c [[C [P _]] E]]]; [destruct (A i I eq_refl)|].
        assert (c = i); [|subst; rewrite E; reflexivity].
        apply U; try assumption. apply Flow. rewrite P. exact N0. }
    destruct Ci as [x [[E Lx]|[E _]]]; destruct Up as [E'|E']; rewrite E, E'; rewrite ?HALF; lra.
Qed.
End P.
