(* Walks along flow codes, parents and contributing areas. *)
From Coq Require Import ZArith QArith Qminmax List Bool Lia Lqa ZifyBool Permutation.
From Verif Require Import Base D8_Model D8_Spec D8_Proofs.
Import ListNotations.
Local Open Scope Z_scope.

Section Walks.
Variable G : geom.
Hypothesis HG : geom_ok G.
Variable d : list Z.

Lemma walk_app m m' i : walk G d (m + m') i =
  match walk G d m i with None => None | Some j => walk G d m' j end.
Proof.
  revert i. induction m as [|m IH]; intros i; cbn; [reflexivity|].
  destruct (next G d i); [apply IH|reflexivity].
Qed.

Lemma walk_snoc m i j x : walk G d m i = Some x -> next G d x = Some j -> walk G d (S m) i = Some j.
Proof.
  intros H1 H2. replace (S m) with (m + 1)%nat by lia. rewrite walk_app, H1. cbn. rewrite H2. reflexivity.
Qed.

Lemma walk_last m i j : walk G d (S m) i = Some j ->
  exists x, walk G d m i = Some x /\ next G d x = Some j.
Proof.
  replace (S m) with (m + 1)%nat by lia. rewrite walk_app. destruct (walk G d m i) as [x|]; [|discriminate].
  cbn. destruct (next G d x) eqn:E; [|discriminate]. intros H. exists x. split; [reflexivity|congruence].
Qed.

Lemma next_spec i j : next G d i = Some j <-> exists k, (k < 8)%nat /\ get 0 d i = g k /\ j = nbr G k i.
Proof.
  unfold next. split.
  - intros H. destruct (offset_some (get 0 d i)) as (k & Hk & E).
    { unfold target in H. destruct (offset (get 0 d i)); [discriminate|congruence]. }
    exists k. split; [exact Hk|]. split; [exact E|]. rewrite E, target_g in H by exact Hk. congruence.
  - intros (k & Hk & E & ->). rewrite E. apply target_g. exact Hk.
Qed.

Lemma next_lt i j : next G d i = Some j -> (j < ncells G)%nat.
Proof. intros H. apply next_spec in H. destruct H as (k & Hk & _ & ->). apply nbr_lt. exact HG. Qed.

Lemma walk_lt m i j : (i < ncells G)%nat -> walk G d m i = Some j -> (j < ncells G)%nat.
Proof.
  revert i. induction m as [|m IH]; intros i Hi; cbn.
  - intros H. inversion H. subst. exact Hi.
  - destruct (next G d i) eqn:E; [|discriminate]. intros H. apply (IH _ (next_lt _ _ E) H).
Qed.

Lemma walk_prefix m m' i j : walk G d m i = Some j -> (m' <= m)%nat -> exists x, walk G d m' i = Some x.
Proof.
  intros H Hm. replace m with (m' + (m - m'))%nat in H by lia. rewrite walk_app in H.
  destruct (walk G d m' i) as [x|]; [eauto|discriminate].
Qed.

Lemma NoDup_tab {A} n (f : nat -> A) :
  (forall a b, (a < b < n)%nat -> f a <> f b) -> NoDup (tab n f).
Proof.
  unfold tab. intros H.
  assert (Hl : forall s, (forall a b, (s <= a)%nat -> (a < b < s + n)%nat -> f a <> f b) -> NoDup (map f (seq s n))).
  { clear H. induction n as [|n IH]; intros s H; cbn; [constructor|]. constructor.
    - intros Hin. apply in_map_iff in Hin. destruct Hin as (x & E & Hx). apply in_seq in Hx.
      apply (H s x); [lia|lia|congruence].
    - apply IH. intros a b Ha Hb. apply H; lia. }
  apply Hl. intros a b _ Hb. apply H. lia.
Qed.

Lemma walk_bound i m j : acyclic G d -> (i < ncells G)%nat -> walk G d m i = Some j -> (m < ncells G)%nat.
Proof.
  intros Ha Hi Hw.
  set (f := fun t => match walk G d t i with Some x => x | None => 0%nat end).
  assert (Hf : forall t, (t <= m)%nat -> walk G d t i = Some (f t)).
  { intros t Ht. unfold f. destruct (walk_prefix _ t _ _ Hw Ht) as (x & ->). reflexivity. }
  assert (Hnd : NoDup (tab (S m) f)).
  { apply NoDup_tab. intros a b Hab E.
    assert (Hfa : (f a < ncells G)%nat) by (apply (walk_lt a i); [exact Hi|apply Hf; lia]).
    assert (Hcyc : walk G d (b - a) (f a) = Some (f a)).
    { pose proof (Hf b ltac:(lia)) as Hb. replace b with (a + (b - a))%nat in Hb at 1 by lia.
      rewrite walk_app, (Hf a) in Hb by lia. rewrite Hb. congruence. }
    apply Ha in Hcyc; [lia|exact Hfa]. }
  apply NoDup_bounded_length with (n := ncells G) in Hnd.
  - rewrite tab_length in Hnd. lia.
  - intros x Hx. unfold tab in Hx. apply in_map_iff in Hx. destruct Hx as (t & <- & Ht). apply in_seq in Ht.
    apply (walk_lt t i); [exact Hi|apply Hf; lia].
Qed.

(* acyclic: every walk ends, in fewer steps than there are cells *)
Lemma walk_ends i : acyclic G d -> (i < ncells G)%nat ->
  exists m j, (m < ncells G)%nat /\ walk G d m i = Some j /\ next G d j = None.
Proof.
  intros Ha Hi.
  assert (Hs : forall s m j, walk G d m i = Some j -> (ncells G - m <= s)%nat ->
     exists m' j', walk G d m' i = Some j' /\ next G d j' = None).
  { induction s as [|s IH]; intros m j Hw Hm.
    - pose proof (walk_bound i m j Ha Hi Hw). lia.
    - destruct (next G d j) as [x|] eqn:E; [|eauto].
      apply (IH (S m) x); [|lia]. eapply walk_snoc; eassumption. }
  destruct (Hs (ncells G) 0%nat i) as (m & j & Hw & Hn); [reflexivity|lia|].
  exists m, j. split; [eapply walk_bound; eassumption|]. auto.
Qed.

(* a strict order decreasing along the codes forbids cycles *)
Lemma acyclic_by_order (R : nat -> nat -> Prop) :
  (forall a b c, R a b -> R b c -> R a c) -> (forall a, ~ R a a) ->
  (forall i j, (i < ncells G)%nat -> next G d i = Some j -> R j i) -> acyclic G d.
Proof.
  intros Ht Hir Hs i m Hi Hw. destruct m as [|m]; [reflexivity|]. exfalso.
  assert (Hd : forall m i j, (i < ncells G)%nat -> walk G d (S m) i = Some j -> R j i).
  { induction m0 as [|m0 IH]; intros a b Hab H.
    - cbn in H. destruct (next G d a) eqn:E; [|discriminate]. inversion H; subst. apply Hs; assumption.
    - apply walk_last in H. destruct H as (x & Hx & Hn). specialize (IH _ _ Hab Hx).
      apply Ht with x; [|exact IH]. apply Hs; [|exact Hn]. apply (walk_lt _ _ _ Hab Hx). }
  apply (Hir i). apply (Hd m i i Hi Hw).
Qed.

End Walks.

(* ------------------------------------------------------------------ final flow grid *)

Section Final.
Variable G : geom.
Hypothesis HG : geom_ok G.

Lemma get_final d i : get 0 (map final_code d) i = final_code (get 0 d i).
Proof. unfold get. rewrite <- (map_nth final_code d 0 i). reflexivity. Qed.

Lemma is_open_spec O dem i : is_open G dem O i <->
  (exists z, elev dem i = Some z /\ (DEM_nodata O < z)%Q) /\ ~ closed_side G O i.
Proof.
  unfold is_open, closed_side, on_LR, on_TB, left_edge, right_edge, top_edge, bottom_edge, row, col.
  split; intros [H1 H2]; (split; [exact H1|]).
  - destruct H2 as [HL HT]. intros [[E H]|[E H]].
    + specialize (HL E). lia.
    + specialize (HT E). lia.
  - split; intros E; destruct (LR_PERIODIC O); destruct (TB_PERIODIC O); try discriminate; split; lia.
Qed.

Lemma start_code_open O dem i m : is_open G dem O i -> max_slope G dem i = Some m ->
  ((0 < m)%Q -> start_code G O dem i = raw_code G dem i) /\
  ((m == 0)%Q -> LINK_FLATS O = true -> start_code G O dem i = - raw_code G dem i).
Proof.
  intros [(z & Hz & Hnz) [HL HT]] Hm. unfold start_code. rewrite Hm, Hz.
  assert (Qle_bool z (DEM_nodata O) = false) as -> by (apply Qleb_gt; exact Hnz).
  assert (negb (LR_PERIODIC O) && (left_edge G i || right_edge G i) = false) as ->.
  { destruct (LR_PERIODIC O); [reflexivity|]. destruct (HL eq_refl) as [-> ->]. reflexivity. }
  assert (negb (TB_PERIODIC O) && (top_edge G i || bottom_edge G i) = false) as ->.
  { destruct (TB_PERIODIC O); [reflexivity|]. destruct (HT eq_refl) as [-> ->]. reflexivity. }
  cbn [oeqb oltb oleb]. split.
  - intros H.
    assert (Qeq_bool m 0 = false) as -> by (apply Qeqb_neq; lra).
    assert (Qltb m 0 = false) as -> by (apply Qltb_ge; lra).
    assert (Qle_bool m 0 = false) as -> by (apply Qleb_gt; lra).
    destruct (LINK_FLATS O); reflexivity.
  - intros H ->.
    assert (Qeq_bool m 0 = true) as -> by (apply Qeq_bool_iff; exact H).
    assert (Qltb m 0 = false) as -> by (apply Qltb_ge; lra). lia.
Qed.

Lemma raw_code_nonzero dem i m : max_slope G dem i = Some m -> 0 < raw_code G dem i <= 255.
Proof.
  intros Hm. destruct (code_of_bits (fun k => oeqb (slope G dem i k) (max_slope G dem i))) as [Hr _].
  rewrite <- raw_code_is in Hr. split; [|lia].
  destruct (max_slope_attained _ _ _ _ Hm) as (k & s & Hk & Hs & E).
  rewrite raw_code_is. apply code_of_pos. exists k. split; [exact Hk|]. apply oeqb_some. exists s, m. auto.
Qed.

Lemma Inv_acyclic O dem d rho t : Inv G O dem d rho t -> acyclic G (map final_code d).
Proof.
  intros HI.
  apply (acyclic_by_order G HG _ (fun j i => exists zj zi, elev dem j = Some zj /\ elev dem i = Some zi /\
     ((zj < zi)%Q \/ ((zj == zi)%Q /\ (rho j < rho i)%nat)))).
  - intros a b c (za & zb & Ea & Eb & H1) (zb' & zc & Eb' & Ec & H2). rewrite Eb in Eb'. inversion Eb'; subst zb'.
    exists za, zc. split; [exact Ea|]. split; [exact Ec|].
    destruct H1 as [H1|[H1 H1']], H2 as [H2|[H2 H2']]; [left; lra|left; lra|left; lra|right; split; [lra|lia]].
  - intros a (z & z' & E & E' & H). rewrite E in E'. inversion E'; subst. destruct H as [H|[_ H]]; [lra|lia].
  - intros i j Hi Hn. apply next_spec in Hn. destruct Hn as (k & Hk & E & ->).
    rewrite get_final, final_code_spec in E. pose proof (g_range k Hk).
    destruct (is_gk (get 0 d i)); [|lia].
    destruct (inv_pos _ _ _ _ _ _ HI i k Hi Hk E) as (m & Hs & Hc).
    destruct (steep_slope G dem i k m HG Hk Hs) as (zi & zj & Ei & Ej & Em).
    exists zj, zi. split; [exact Ej|]. split; [exact Ei|]. pose proof (dist_pos G HG k Hk) as Hdp.
    destruct Hc as [Hc|(Hc & _ & _ & Hr)].
    + left. assert (0 < m * dist G k)%Q by (apply Qmult_lt_0_compat; assumption). lra.
    + right. split; [|exact Hr]. rewrite Hc in Em. lra.
Qed.

Theorem flow_grid_codes O dem :
  exists d, update_flow_grid G O dem = Some d /\ code_grid G d /\
  (forall i, (i < ncells G)%nat -> get 0 d i <> 0 ->
     exists j z zj, next G d i = Some j /\ (j < ncells G)%nat /\
       elev dem i = Some z /\ (DEM_nodata O < z)%Q /\ elev dem j = Some zj /\ (zj <= z)%Q /\
       (forall c j', target G i c = Some j' -> exists z', elev dem j' = Some z' /\
          ((z - z') / step_length G c <= (z - zj) / step_length G (get 0%Z d i))%Q)) /\
  (forall i, (i < ncells G)%nat -> closed_side G O i -> get 0 d i = 0) /\
  (forall i z, (i < ncells G)%nat -> BREAK_TIES O = true -> ~ closed_side G O i ->
     elev dem i = Some z -> (DEM_nodata O < z)%Q ->
     (forall c j, target G i c = Some j -> elev dem j <> None) ->
     (exists c j zj, target G i c = Some j /\ elev dem j = Some zj /\ (zj < z)%Q) ->
     get 0 d i <> 0) /\
  acyclic G d.
Proof.
  destruct (update_flow_grid_inv G HG O dem) as (d & rho & t & Hu & HI & Hfx & Hst).
  exists (map final_code d). split; [exact Hu|].
  assert (Hcode : forall i, (i < ncells G)%nat -> get 0 (map final_code d) i <> 0 ->
     exists k, (k < 8)%nat /\ get 0 d i = g k /\ get 0 (map final_code d) i = g k).
  { intros i Hi Hne. rewrite get_final in *. rewrite final_code_spec in *. destruct (is_gk (get 0 d i)) eqn:E; [|congruence].
    apply is_gk_spec in E. destruct E as (k & Hk & E). exists k. auto. }
  repeat apply conj.
  - rewrite map_length. apply (inv_len _ _ _ _ _ _ HI).
  - intros i Hi. destruct (Z.eq_dec (get 0 (map final_code d) i) 0) as [E|E]; [left; exact E|right].
    destruct (Hcode i Hi E) as (k & Hk & _ & ->). unfold is_code. rewrite offset_g by exact Hk. discriminate.
  - intros i Hi Hne. destruct (Hcode i Hi Hne) as (k & Hk & Ed & Ef).
    destruct (inv_pos _ _ _ _ _ _ HI i k Hi Hk Ed) as (m & Hs & Hc).
    destruct (steep_slope G dem i k m HG Hk Hs) as (zi & zj & Ei & Ej & Em).
    pose proof (dist_pos G HG k Hk) as Hdp.
    assert (Hm0 : (0 <= m)%Q) by (destruct Hc as [?|[? _]]; lra).
    exists (nbr G k i), zi, zj.
    split. { apply next_spec. exists k. auto. }
    split. { apply nbr_lt. exact HG. }
    split; [exact Ei|].
    assert (Hop : is_open G dem O i).
    { apply (inv_open _ _ _ _ _ _ HI i Hi). pose proof (g_range k Hk). lia. }
    split. { destruct Hop as [(z & Hz & Hl) _]. congruence. }
    split; [exact Ej|]. split.
    { assert (0 <= m * dist G k)%Q by (apply Qmult_le_0_compat; lra). lra. }
    intros c j' Ht. destruct (offset_some c) as (k' & Hk' & ->).
    { unfold target in Ht. destruct (offset c); [discriminate|congruence]. }
    rewrite target_g in Ht by exact Hk'. inversion Ht; subst j'.
    destruct Hs as [Hm _]. destruct (max_slope_some _ _ _ _ Hm k' Hk') as (s & Hs' & Hle).
    unfold slope in Hs'. rewrite Ei in Hs'. destruct (elev dem (nbr G k' i)) as [z'|]; [|discriminate].
    exists z'. split; [reflexivity|]. inversion Hs'; subst s. rewrite step_length_g by exact Hk'.
    rewrite Ef, step_length_g by exact Hk. rewrite Em.
    assert (m * dist G k / dist G k == m)%Q as -> by (field; lra). exact Hle.
  - intros i Hi Hcl. destruct (Z.eq_dec (get 0 (map final_code d) i) 0) as [E|E]; [exact E|exfalso].
    destruct (Hcode i Hi E) as (k & Hk & Ed & _).
    assert (Hop : is_open G dem O i).
    { apply (inv_open _ _ _ _ _ _ HI i Hi). pose proof (g_range k Hk). lia. }
    apply is_open_spec in Hop. apply Hop. exact Hcl.
  - intros i z Hi HB Hcl Hz Hnz Hall (c & j & zj & Htg & Hj & Hlt).
    assert (Hop : is_open G dem O i) by (apply is_open_spec; split; [exists z; auto|exact Hcl]).
    destruct (max_slope_defined G dem i) as (m & Hm).
    { intros k Hk. unfold slope. rewrite Hz. specialize (Hall (g k) _ (target_g G k i Hk)).
      destruct (elev dem (nbr G k i)); [discriminate|congruence]. }
    assert (Hm0 : (0 < m)%Q).
    { destruct (offset_some c) as (k & Hk & ->).
      { unfold target in Htg. destruct (offset c); [discriminate|congruence]. }
      rewrite target_g in Htg by exact Hk. inversion Htg; subst j.
      destruct (max_slope_some _ _ _ _ Hm k Hk) as (s & Hs & Hle).
      unfold slope in Hs. rewrite Hz, Hj in Hs. inversion Hs; subst s.
      apply Qlt_le_trans with ((z - zj) / dist G k)%Q; [|exact Hle].
      pose proof (dist_pos G HG k Hk). apply Qlt_shift_div_l; [assumption|lra]. }
    destruct (start_code_open O dem i m Hop Hm) as [Hsc _]. specialize (Hsc Hm0).
    pose proof (raw_code_nonzero dem i m Hm) as Hrc.
    rewrite get_final, Hst; [|exact Hi|lia]. rewrite HB, Hsc.
    destruct (resolve_spec (raw_code G dem i)) as (k & Hk & -> & _); [lia|].
    rewrite final_code_g by exact Hk. pose proof (g_range k Hk). lia.
  - eapply Inv_acyclic. exact HI.
Qed.

Theorem flats_linked O dem : BREAK_TIES O = true -> LINK_FLATS O = true ->
  exists d, update_flow_grid G O dem = Some d /\
  forall i z, (i < ncells G)%nat -> ~ on_LR G i -> ~ on_TB G i ->
    elev dem i = Some z -> (DEM_nodata O < z)%Q ->
    (forall c j, target G i c = Some j -> exists zj, elev dem j = Some zj /\ (z <= zj)%Q) ->
    get 0 d i = 0 ->
    forall c j zj, target G i c = Some j -> elev dem j = Some zj -> (zj == z)%Q ->
    get 0 d j = 0 \/ next G d j = Some i.
Proof.
  intros HB HL.
  destruct (update_flow_grid_inv G HG O dem) as (d & rho & t & Hu & HI & Hfx & Hst).
  specialize (Hfx HL). exists (map final_code d). split; [exact Hu|].
  intros i z Hi HnLR HnTB Hz Hnz Hall H0 c j zj Htg Hj Heq.
  assert (Hop : is_open G dem O i).
  { apply is_open_spec. split; [exists z; auto|]. intros [[_ H]|[_ H]]; contradiction. }
  destruct (max_slope_defined G dem i) as (m & Hm).
  { intros k Hk. unfold slope. rewrite Hz. destruct (Hall (g k) _ (target_g G k i Hk)) as (z' & -> & _). discriminate. }
  assert (Hslope : forall k, (k < 8)%nat -> exists z', elev dem (nbr G k i) = Some z' /\ (z <= z')%Q /\
      slope G dem i k = Some ((z - z') / dist G k)%Q).
  { intros k Hk. unfold slope. rewrite Hz. destruct (Hall (g k) _ (target_g G k i Hk)) as (z' & E & Hle).
    rewrite E. exists z'. auto. }
  assert (Hmle : (m <= 0)%Q).
  { destruct (max_slope_attained _ _ _ _ Hm) as (k & s & Hk & Hs & E).
    destruct (Hslope k Hk) as (z' & E' & Hle & Hs'). rewrite Hs' in Hs. inversion Hs; subst s.
    rewrite <- E. pose proof (dist_pos G HG k Hk). apply Qle_shift_div_r; [assumption|lra]. }
  destruct (offset_some c) as (k & Hk & ->).
  { unfold target in Htg. destruct (offset c); [discriminate|congruence]. }
  rewrite target_g in Htg by exact Hk. inversion Htg; subst j. clear Htg.
  destruct (Hslope k Hk) as (z' & E' & _ & Hs'). rewrite Hj in E'. inversion E'; subst z'.
  assert (Hsk : ((z - zj) / dist G k == 0)%Q).
  { pose proof (dist_pos G HG k Hk). rewrite Heq. field. lra. }
  assert (Hm0 : (m == 0)%Q).
  { destruct (max_slope_some _ _ _ _ Hm k Hk) as (s & Hs & Hle). rewrite Hs' in Hs. inversion Hs; subst s.
    rewrite Hsk in Hle. lra. }
  destruct (start_code_open O dem i m Hop Hm) as [_ Hsc]. specialize (Hsc Hm0 HL).
  pose proof (raw_code_nonzero dem i m Hm) as Hrc.
  rewrite get_final in H0.
  assert (Hneg : get 0 d i < 0).
  { destruct (Z_lt_le_dec (get 0 d i) 0) as [H|H]; [exact H|exfalso].
    destruct (Z.eq_dec (get 0 d i) 0) as [E|E].
    - apply (inv_zero _ _ _ _ _ _ HI i Hi) in E. lia.
    - destruct (inv_ties _ _ _ _ _ _ HI HB i Hi ltac:(lia)) as (k' & Hk' & E'').
      rewrite E'', final_code_g in H0 by exact Hk'. pose proof (g_range k' Hk'). lia. }
  destruct (inv_neg _ _ _ _ _ _ HI i Hi Hneg) as [(_ & m' & Hm' & Hlt)|(Eraw & _)].
  { rewrite Hm in Hm'. inversion Hm'; subst m'. lra. }
  pose proof (Hfx i Hi) as Hfi. unfold fixable in Hfi.
  assert (Hflat : is_flat G d i = true).
  { unfold is_flat, not_edge, left_edge, right_edge, top_edge, bottom_edge, row, col.
    unfold on_LR, on_TB in *. lia. }
  rewrite Hflat, andb_true_l in Hfi.
  assert (Hnv : valid G d i k = false).
  { destruct (valid G d i k) eqn:Ev; [exfalso|reflexivity].
    assert (0 < ready_code G d i); [|lia]. rewrite ready_code_is. apply code_of_pos. exists k.
    split; [exact Hk|]. rewrite Ev. rewrite allowed_spec by lia. cbn [andb].
    replace (-1 * get 0 d i) with (raw_code G dem i) by lia.
    apply raw_code_bit; [exact Hk|]. exists m. split; [exact Hm|].
    eexists. split; [exact Hs'|]. rewrite Hsk, Hm0. reflexivity. }
  unfold valid in Hnv. unfold next. rewrite get_final.
  destruct (Z_lt_le_dec 0 (get 0 d (nbr G k i))) as [Hp|Hn].
  - right. assert (E : get 0 d (nbr G k i) = h k) by lia. rewrite E, h_opp by exact Hk.
    rewrite final_code_g by (apply opp_lt; exact Hk). rewrite target_g by (apply opp_lt; exact Hk).
    rewrite nbr_opp; auto.
  - left. rewrite final_code_spec. destruct (is_gk (get 0 d (nbr G k i))) eqn:E; [|reflexivity].
    apply is_gk_spec in E. destruct E as (k' & Hk' & E). pose proof (g_range k' Hk'). lia.
Qed.

(* ------------------------------------------------------------------ parents *)

Lemma inc_map_table k : (k < 8)%nat -> get 0 (inc_map G) (Z.to_nat (g k)) = drow k * nx G + dcol k.
Proof.
  intros Hk.
  assert (H : forall a0 a1 a2 a3 a4 a5 a6 a7,
    get 0 (fold_left (fun a kv => set a (Z.to_nat (fst kv)) (snd kv))
             (combine code_list [a0; a1; a2; a3; a4; a5; a6; a7]) (repeat 0 129)) (Z.to_nat (g k)) =
    nth k [a0; a1; a2; a3; a4; a5; a6; a7] 0).
  { intros. by_dir Hk; vm_compute; reflexivity. }
  unfold inc_map. rewrite H. by_dir Hk; unfold drow, dcol; cbn [nth]; lia.
Qed.

Lemma mod_shift r a m : 0 < m -> 0 <= r < m -> -1 <= a <= 1 ->
  (r + a) mod m = if (r =? 0) && (a =? -1) then r + a + m else if (r =? m - 1) && (a =? 1) then r + a - m else r + a.
Proof.
  intros Hm Hr Ha.
  destruct ((r =? 0) && (a =? -1)) eqn:E1.
  - replace (r + a) with (r + a + m + (-1) * m) by lia. rewrite Z.mod_add by lia. rewrite Z.mod_small; lia.
  - destruct ((r =? m - 1) && (a =? 1)) eqn:E2.
    + replace (r + a) with (r + a - m + 1 * m) at 1 by lia. rewrite Z.mod_add by lia. rewrite Z.mod_small; lia.
    + rewrite Z.mod_small; lia.
Qed.

Lemma drow_range k : (k < 8)%nat -> -1 <= drow k <= 1.
Proof. intros Hk. by_dir Hk; cbv; split; discriminate. Qed.
Lemma dcol_range k : (k < 8)%nat -> -1 <= dcol k <= 1.
Proof. intros Hk. by_dir Hk; cbv; split; discriminate. Qed.

Lemma mem_E k : (k < 8)%nat -> mem (g k) [1; 2; 4] = (dcol k =? 1).
Proof. intros Hk. by_dir Hk; reflexivity. Qed.
Lemma mem_W k : (k < 8)%nat -> mem (g k) [16; 32; 64] = (dcol k =? -1).
Proof. intros Hk. by_dir Hk; reflexivity. Qed.
Lemma mem_N k : (k < 8)%nat -> mem (g k) [1; 64; 128] = (drow k =? -1).
Proof. intros Hk. by_dir Hk; reflexivity. Qed.
Lemma mem_S k : (k < 8)%nat -> mem (g k) [4; 8; 16] = (drow k =? 1).
Proof. intros Hk. by_dir Hk; reflexivity. Qed.

Lemma parent_spec O d i : (i < ncells G)%nat -> (closed_side G O i -> get 0 d i = 0) ->
  (forall j, next G d i = Some j -> parent_ID G O d i = Z.of_nat j) /\
  (get 0 d i = 0 -> parent_ID G O d i = 0).
Proof.
  intros Hi Hcl. pose proof (nx_pos G HG) as Hnx. pose proof (ny_pos G HG) as Hny.
  pose proof (row_range G HG i Hi) as Hrow. pose proof (col_range G HG i) as Hcol.
  split.
  - intros j Hn. apply next_spec in Hn. destruct Hn as (k & Hk & E & ->).
    pose proof (g_range k Hk) as Hg. pose proof (drow_range k Hk) as Hdr. pose proof (dcol_range k Hk) as Hdc.
    assert (HLR : LR_PERIODIC O = false -> col G i <> 0 /\ col G i <> nx G - 1).
    { intros El. unfold closed_side, on_LR in Hcl. fold (col G i) in Hcl.
      destruct (Z.eq_dec (col G i) 0); [lia|]. destruct (Z.eq_dec (col G i) (nx G - 1)); lia. }
    assert (HTB : TB_PERIODIC O = false -> row G i <> 0 /\ row G i <> ny G - 1).
    { intros El. unfold closed_side, on_TB in Hcl. fold (row G i) in Hcl.
      destruct (Z.eq_dec (row G i) 0); [lia|]. destruct (Z.eq_dec (row G i) (ny G - 1)); lia. }
    clear Hcl.
    unfold nbr, flat. rewrite Z2Nat.id.
    2:{ pose proof (Z.mod_pos_bound (row G i + drow k) (ny G) Hny).
        pose proof (Z.mod_pos_bound (col G i + dcol k) (nx G) Hnx). nia. }
    rewrite !mod_shift by assumption.
    unfold parent_ID, left_edge, right_edge, top_edge, bottom_edge. rewrite E, inc_map_table by exact Hk.
    rewrite mem_E, mem_W, mem_N, mem_S by exact Hk.
    assert (Z.of_nat i = row G i * nx G + col G i) as ->.
    { unfold row, col. pose proof (Z.div_mod (Z.of_nat i) (nx G)). lia. }
    assert (g k <=? 0 = false) as -> by lia.
    generalize dependent (row G i). generalize dependent (col G i).
    generalize dependent (drow k). generalize dependent (dcol k).
    intros b Hb a Ha c Hc HLR r Hr HTB.
    destruct (LR_PERIODIC O).
    + destruct (TB_PERIODIC O).
      * destruct (c =? nx G - 1) eqn:E1, (b =? 1) eqn:E2, (c =? 0) eqn:E3, (b =? -1) eqn:E4,
          (r =? 0) eqn:E5, (a =? -1) eqn:E6, (r =? ny G - 1) eqn:E7, (a =? 1) eqn:E8; cbn [andb];
          try lia; nia.
      * specialize (HTB eq_refl).
        assert (r =? 0 = false) as -> by lia. assert (r =? ny G - 1 = false) as -> by lia.
        destruct (c =? nx G - 1) eqn:E1, (b =? 1) eqn:E2, (c =? 0) eqn:E3, (b =? -1) eqn:E4; cbn [andb orb];
          try lia; nia.
    + specialize (HLR eq_refl).
      assert (c =? 0 = false) as -> by lia. assert (c =? nx G - 1 = false) as -> by lia. cbn [andb orb].
      destruct (TB_PERIODIC O).
      * destruct (r =? 0) eqn:E5, (a =? -1) eqn:E6, (r =? ny G - 1) eqn:E7, (a =? 1) eqn:E8; cbn [andb];
          try lia; nia.
      * specialize (HTB eq_refl).
        assert (r =? 0 = false) as -> by lia. assert (r =? ny G - 1 = false) as -> by lia. cbn [andb orb]. nia.
  - intros E. unfold parent_ID. rewrite E. reflexivity.
Qed.

Lemma nbr_inj k i i' : (k < 8)%nat -> (i < ncells G)%nat -> (i' < ncells G)%nat ->
  nbr G k i = nbr G k i' -> i = i'.
Proof.
  intros Hk Hi Hi' E. rewrite <- (nbr_opp G HG k i Hk Hi), <- (nbr_opp G HG k i' Hk Hi'). congruence.
Qed.

Theorem parent_grid O d : (forall i, (i < ncells G)%nat -> closed_side G O i -> get 0 d i = 0) ->
  let p := update_parent_ID_grid G O d in
  length p = ncells G /\
  (forall i, (i < ncells G)%nat ->
     (forall j, next G d i = Some j -> get 0 p i = Z.of_nat j) /\ (get 0 d i = 0 -> get 0 p i = 0)) /\
  (forall i i', (i < ncells G)%nat -> (i' < ncells G)%nat -> is_code (get 0 d i) ->
     get 0 d i = get 0 d i' -> get 0 p i = get 0 p i' -> i = i').
Proof.
  intros Hcl p. split; [apply tab_length|].
  assert (Hp : forall i, (i < ncells G)%nat ->
     (forall j, next G d i = Some j -> get 0 p i = Z.of_nat j) /\ (get 0 d i = 0 -> get 0 p i = 0)).
  { intros i Hi. unfold p, update_parent_ID_grid. rewrite get_tab by exact Hi. apply parent_spec; auto. }
  split; [exact Hp|].
  intros i i' Hi Hi' Hc E Ep. destruct (offset_some _ Hc) as (k & Hk & Ek).
  assert (H1 : next G d i = Some (nbr G k i)) by (apply next_spec; exists k; auto).
  assert (H2 : next G d i' = Some (nbr G k i')) by (apply next_spec; exists k; repeat split; auto; congruence).
  apply (Hp i Hi) in H1. apply (Hp i' Hi') in H2. apply (nbr_inj k); auto. lia.
Qed.

End Final.
