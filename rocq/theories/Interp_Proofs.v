From Coq Require Import ZArith QArith Qabs Qminmax List Bool Lia Lqa.
From Verif Require Import Base Interp_Model Interp_Spec.
Import ListNotations.
Local Open Scope Q_scope.

Lemma load_alloc_old h a l : (l < length h)%nat -> load (h ++ [a]) l = load h l.
Proof. intros H. unfold load, get. apply app_nth1. exact H. Qed.
Lemma load_alloc_new h a : load (h ++ [a]) (length h) = a.
Proof. unfold load, get. rewrite app_nth2 by lia. rewrite Nat.sub_diag. reflexivity. Qed.
Lemma load_set_same h l a : (l < length h)%nat -> load (set h l a) l = a.
Proof. apply get_set_same. Qed.
Lemma load_set_other h l m a : l <> m -> load (set h l a) m = load h m.
Proof. apply get_set_other. Qed.

Definition mk (z : bool) (w : list Q) : arr := {| a_0d := z; a_vals := w |}.

Lemma spread_mk z n w : shape_ok z n -> length w = n -> spread n (mk z w) = Some w.
Proof.
  intros [N Z] L. unfold spread, mk. cbn [a_0d a_vals]. rewrite L.
  destruct (z || (n =? 1)%nat) eqn:E.
  - assert (n = 1%nat) by (apply orb_true_iff in E; destruct E as [E|E]; [apply Z; exact E|apply Nat.eqb_eq; exact E]).
    clear E. rewrite H. rewrite H in L. destruct w as [|x [|y w]]; cbn in L; try lia. reflexivity.
  - rewrite Nat.eqb_refl. reflexivity.
Qed.

Lemma bin_mk op z n x y :
  shape_ok z n -> length x = n -> length y = n ->
  bin op (mk z x) (mk z y) = Some (mk z (tab n (fun i => op (get 0 x i) (get 0 y i)))).
Proof.
  intros S Lx Ly. unfold bin. cbn [a_0d a_vals mk].
  assert (E : (if z || (length x =? 1)%nat then length y else length x) = n)
    by (destruct (z || (length x =? 1)%nat); assumption).
  rewrite E. rewrite !(spread_mk z n) by assumption. rewrite andb_diag. reflexivity.
Qed.

(* overwrite leaves in the (possibly new) target the contents of the source *)
Lemma overwrite_spec h x y z n wx wy :
  shape_ok z n -> (x < length h)%nat -> (y < length h)%nat ->
  load h x = mk z wx -> load h y = mk z wy -> length wx = n -> length wy = n ->
  let '(h', x') := overwrite h x y in
  (length h <= length h')%nat /\ (x' < length h')%nat /\
  load h' x' = mk z wy /\
  (z = true -> x' = length h) /\ (z = false -> x' = x) /\
  (forall l, (l < length h)%nat -> l <> x -> load h' l = load h l) /\
  (forall l, (l < length h)%nat -> z = true -> load h' l = load h l).
Proof.
  intros S Hx Hy Lx Ly Nx Ny. unfold overwrite. rewrite Lx, Ly. cbn [a_0d a_vals mk].
  destruct z.
  - cbn. rewrite app_length. cbn. split; [lia|]. split; [lia|]. split; [apply load_alloc_new|].
    split; [reflexivity|]. split; [discriminate|].
    split; intros l Hl _; apply load_alloc_old; exact Hl.
  - rewrite Nx. change {| a_0d := false; a_vals := wy |} with (mk false wy). rewrite (spread_mk false n wy S Ny). rewrite set_length.
    split; [lia|]. split; [exact Hx|]. split; [apply load_set_same; exact Hx|].
    split; [discriminate|]. split; [reflexivity|].
    split; [|discriminate]. intros l Hl N. apply load_set_other. congruence.
Qed.

(* state invariant: the provider holds w since time t; al: the interpolator's v2 is the provider's array *)
Definition Inv (z : bool) (n : nat) (w : list Q) (t : Q) (al : bool) (s : sys) : Prop :=
  let '(h, p, d) := s in
  (p < length h)%nat /\ (v1 d < length h)%nat /\ (v2 d < length h)%nat /\
  load h p = mk z w /\ length w = n /\
  v1 d <> p /\ v1 d <> v2 d /\ (exists u, load h (v1 d) = mk z u /\ length u = n) /\
  load h (v2 d) = mk z w /\ t2 d = t /\ (al = true -> v2 d = p) /\ (al = false -> v2 d <> p).

Lemma init_inv z n w t : shape_ok z n -> length w = n -> Inv z n w t true (sys_init z w t).
Proof.
  intros S L. cbn. unfold load, get. cbn.
  split; [lia|]. split; [lia|]. split; [lia|]. split; [reflexivity|]. split; [exact L|].
  split; [lia|]. split; [lia|]. split; [exists w; split; [reflexivity|exact L]|].
  split; [reflexivity|]. split; [reflexivity|]. split; [reflexivity|discriminate].
Qed.

Lemma min_nonzero_iff n u w :
  length u = n -> length w = n ->
  min_nonzero (tab n (fun i => Qabs (get 0 w i - get 0 u i))) = true <-> all_changed n u w.
Proof.
  intros Lu Lw. unfold min_nonzero, all_changed. rewrite forallb_forall. split.
  - intros H i Hi E. specialize (H (Qabs (get 0 w i - get 0 u i))).
    assert (I : In (Qabs (get 0 w i - get 0 u i)) (tab n (fun i => Qabs (get 0 w i - get 0 u i)))).
    { unfold tab. apply in_map_iff. exists i. split; [reflexivity|]. apply in_seq. lia. }
    specialize (H I). apply negb_true_iff in H. apply Qeq_bool_neq in H. apply H.
    rewrite <- E. assert (K : get 0 u i - get 0 u i == 0) by ring. rewrite K. reflexivity.
  - intros H x Hx. unfold tab in Hx. apply in_map_iff in Hx. destruct Hx as (i & <- & Hi). apply in_seq in Hi.
    apply negb_true_iff. destruct (Qeq_bool _ 0) eqn:E; [|reflexivity]. exfalso.
    apply Qeq_bool_iff in E. apply (H i); [lia|].
    pose proof (Qle_Qabs (get 0 w i - get 0 u i)). pose proof (Qle_Qabs (- (get 0 w i - get 0 u i))).
    rewrite Qabs_opp in H1. lra.
Qed.

(* what the interpolator returns after an update from contents u at told to contents w at t *)
Definition answers (n : nat) (u w : list Q) (told t : Q) (s : sys) : Prop :=
  forall x, length (sys_values s x) = n /\
    ((all_changed n u w /\ ~ t == told) ->
       forall i, (i < n)%nat -> get 0 (sys_values s x) i == line told (get 0 u i) t (get 0 w i) x) /\
    (~ (all_changed n u w /\ ~ t == told) ->
       forall i, (i < n)%nat -> get 0 (sys_values s x) i == get 0 w i).

Lemma update_spec h p d z n u w vs told t al :
  shape_ok z n -> (p < length h)%nat -> (v1 d < length h)%nat -> (v2 d < length h)%nat ->
  load h p = mk z vs -> length vs = n ->
  v1 d <> p -> v1 d <> v2 d -> (load h (v1 d) = mk z w) -> length w = n ->
  load h (v2 d) = mk z u -> length u = n -> t2 d = told ->
  (al = true -> v2 d = p) -> (al = false -> v2 d <> p) ->
  exists h' d', tid_update h d p t = Some (h', d') /\
    Inv z n vs t (al && negb z) (h', p, d') /\ t1 d' = told /\ t2 d' = t /\
    answers n u vs told t (h', p, d').
Proof.
  intros S Hp H1 H2 Lp Np D1 D2 L1 N1 L2 N2 Ht A1 A2. unfold tid_update.
  pose proof (overwrite_spec h (v1 d) (v2 d) z n w u S H1 H2 L1 L2 N1 N2) as O1.
  destruct (overwrite h (v1 d) (v2 d)) as [h1 nv1].
  destruct O1 as (G1 & B1 & C1 & Zt1 & Zf1 & K1 & K1').
  assert (P1 : load h1 p = mk z vs) by (rewrite K1 by auto; exact Lp).
  assert (Q1 : load h1 (v2 d) = mk z u).
  { rewrite K1 by auto. exact L2. }
  pose proof (overwrite_spec h1 (v2 d) p z n u vs S ltac:(lia) ltac:(lia) Q1 P1 N2 Np) as O2.
  destruct (overwrite h1 (v2 d) p) as [h2 nv2].
  destruct O2 as (G2 & B2 & C2 & Zt2 & Zf2 & K2 & K2').
  assert (E1 : nv1 <> p /\ nv1 <> v2 d).
  { destruct z; [rewrite (Zt1 eq_refl); lia|rewrite (Zf1 eq_refl); auto]. }
  assert (P2 : load h2 p = mk z vs).
  { destruct (Nat.eq_dec p (v2 d)) as [E|E].
    - destruct z; [rewrite K2' by (auto; lia); exact P1|]. rewrite <- (Zf2 eq_refl) in E. rewrite E. exact C2.
    - rewrite K2 by (auto; lia). exact P1. }
  assert (R2 : load h2 nv1 = mk z u).
  { rewrite K2; [exact C1|lia|apply E1]. }
  assert (E2 : nv1 <> nv2).
  { destruct z; [rewrite (Zt2 eq_refl); lia|rewrite (Zf2 eq_refl); apply E1]. }
  assert (AL : (al && negb z = true -> nv2 = p) /\ (al && negb z = false -> nv2 <> p)).
  { destruct z; cbn.
    - rewrite andb_false_r. split; [discriminate|]. intros _. rewrite (Zt2 eq_refl). lia.
    - rewrite andb_true_r, (Zf2 eq_refl). split; assumption. }
  rewrite P2, R2. rewrite (bin_mk _ z n) by assumption. cbn [a_vals mk]. rewrite tab_length.
  assert (NZ : (n =? 0)%nat = false) by (apply Nat.eqb_neq; destruct S; lia). rewrite NZ.
  destruct (min_nonzero (tab n (fun i => Qabs (get 0 vs i - get 0 u i))) && negb (Qeq_bool t (t2 d))) eqn:M.
  - apply andb_true_iff in M. destruct M as [M1 M2]. apply (min_nonzero_iff n u vs N2 Np) in M1.
    apply negb_true_iff, Qeq_bool_neq in M2. rewrite Ht in *.
    rewrite (bin_mk _ z n) by assumption. rewrite (bin_mk _ z n) by (try assumption; apply tab_length).
    cbn [alloc a_vals mk]. eexists _, _. split; [reflexivity|].
    assert (Lold : forall l, (l < length h2)%nat -> forall b, load (h2 ++ [b]) l = load h2 l)
      by (intros; apply load_alloc_old; assumption).
    split; [|split; [reflexivity|split; [reflexivity|]]].
    + unfold Inv. cbn [v1 v2 t2]. rewrite app_length. cbn [length].
      rewrite !Lold by lia. split; [lia|]. split; [lia|]. split; [lia|]. split; [exact P2|]. split; [exact Np|].
      split; [apply E1|]. split; [exact E2|]. split; [exists u; auto|]. split; [exact C2|]. split; [reflexivity|exact AL].
    + unfold answers. intros x. unfold sys_values, get_values. cbn [ca cb].
      rewrite load_alloc_new. cbn [a_vals mk]. rewrite !tab_length. split; [reflexivity|]. split.
      * intros _ i Hi. rewrite !get_tab by exact Hi. unfold line. field. intros K. apply M2. lra.
      * intros K. exfalso. apply K. split; assumption.
  - eexists _, _. split; [reflexivity|]. split; [|split; [exact Ht|split; [reflexivity|]]].
    + unfold Inv. cbn [v1 v2 t2]. split; [lia|]. split; [lia|]. split; [lia|]. split; [exact P2|]. split; [exact Np|].
      split; [apply E1|]. split; [exact E2|]. split; [exists u; auto|]. split; [exact C2|]. split; [reflexivity|exact AL].
    + unfold answers. intros x. unfold sys_values, get_values. cbn [ca cb]. rewrite P2. cbn [a_vals mk].
      rewrite map_length. split; [exact Np|]. split.
      * intros [K1c K2c]. exfalso. apply (min_nonzero_iff n u vs N2 Np) in K1c. rewrite K1c in M. cbn in M.
        apply negb_false_iff, Qeq_bool_iff in M. rewrite Ht in M. contradiction.
      * intros _ i Hi. unfold get.
        rewrite (nth_indep _ 0 (0 * x + 0)) by (rewrite map_length; lia).
        rewrite (map_nth (fun y => 0 * x + y)). ring.
Qed.

Lemma step_spec s z n w t al st vs t' :
  shape_ok z n -> Inv z n w t al s -> length vs = n ->
  exists s', sys_step s st vs t' = Some s' /\
    Inv z n vs t' (al && (match st with InPlace => true | Rebind => false end) && negb z) s' /\
    answers n (if al && (match st with InPlace => true | Rebind => false end) then vs else w) vs t t' s'.
Proof.
  intros S I L. destruct s as [[h p] d].
  destruct I as (Hp & H1 & H2 & Lp & Np & D1 & D2 & (u1 & L1 & N1) & L2 & Ht & A1 & A2).
  unfold sys_step, provider_set. rewrite Lp. cbn [a_0d mk].
  destruct st.
  - (* in place *)
    rewrite andb_true_r.
    set (h1 := set h p {| a_0d := z; a_vals := vs |}).
    assert (P : load h1 p = mk z vs) by (apply load_set_same; exact Hp).
    assert (V1 : load h1 (v1 d) = mk z u1) by (unfold h1; rewrite load_set_other by auto; exact L1).
    destruct al.
    + specialize (A1 eq_refl).
      destruct (update_spec h1 p d z n vs u1 vs t t' true S) as (h' & d' & E & I' & _ & _ & An);
        unfold h1 in *; try rewrite set_length; auto; try congruence.
      rewrite E. eexists. split; [reflexivity|]. split; [exact I'|exact An].
    + specialize (A2 eq_refl).
      assert (V2 : load h1 (v2 d) = mk z w) by (unfold h1; rewrite load_set_other by auto; exact L2).
      destruct (update_spec h1 p d z n w u1 vs t t' false S) as (h' & d' & E & I' & _ & _ & An);
        unfold h1 in *; try rewrite set_length; auto; try congruence.
      rewrite E. eexists. split; [reflexivity|]. split; [exact I'|exact An].
  - rewrite andb_false_r. cbn [alloc].
    set (h1 := h ++ [{| a_0d := z; a_vals := vs |}]).
    assert (Len : length h1 = Datatypes.S (length h)) by (unfold h1; rewrite app_length; cbn; lia).
    assert (P : load h1 (length h) = mk z vs) by apply load_alloc_new.
    assert (V1 : load h1 (v1 d) = mk z u1) by (unfold h1; rewrite load_alloc_old by auto; exact L1).
    assert (V2 : load h1 (v2 d) = mk z w) by (unfold h1; rewrite load_alloc_old by auto; exact L2).
    destruct (update_spec h1 (length h) d z n w u1 vs t t' false S) as (h' & d' & E & I' & _ & _ & An);
      auto; try lia; try discriminate.
    rewrite E. eexists. split; [reflexivity|]. split; [exact I'|exact An].
Qed.

(* is the interpolator still looking at the provider's array after this history? *)
Definition still_shared (z : bool) (hist : list (style * list Q * Q)) : bool :=
  match hist with
  | [] => true
  | _ => negb z && forallb (fun e => match fst (fst e) with InPlace => true | Rebind => false end) hist
  end.

Lemma run_app s h1 h2 :
  sys_run s (h1 ++ h2) = match sys_run s h1 with Some s' => sys_run s' h2 | None => None end.
Proof.
  revert s. induction h1 as [|[[st vs] t] h1 IH]; intros s; cbn; [reflexivity|].
  destruct (sys_step s st vs t); [apply IH|reflexivity].
Qed.

Lemma run_inv z n w t hist :
  shape_ok z n -> length w = n -> sized n hist ->
  exists s, sys_run (sys_init z w t) hist = Some s /\
    Inv z n (last_val w hist) (last_time t hist) (still_shared z hist) s.
Proof.
  intros S L. induction hist as [|[[st vs] t'] hist IH] using rev_ind; intros Sz.
  - eexists. split; [reflexivity|]. cbn. apply (init_inv z n w t S L).
  - destruct IH as (s & R & I); [intros e He; apply Sz; apply in_app_iff; left; exact He|].
    rewrite run_app, R. cbn [sys_run].
    assert (Lv : length vs = n).
    { apply (Sz (st, vs, t')). apply in_app_iff. right. left. reflexivity. }
    destruct (step_spec s z n _ _ _ st vs t' S I Lv) as (s' & E & I' & _). rewrite E.
    exists s'. split; [reflexivity|].
    unfold last_val, last_time. rewrite !last_last. cbn [fst snd].
    assert (SH : still_shared z (hist ++ [(st, vs, t')]) =
                 still_shared z hist && (match st with InPlace => true | Rebind => false end) && negb z).
    { destruct hist as [|e hist]; cbn [app]; unfold still_shared; cbn [forallb fst].
      - destruct st, z; reflexivity.
      - rewrite forallb_app. cbn [forallb fst].
        destruct (match fst (fst e) with InPlace => true | Rebind => false end), z,
          (forallb (fun e0 => match fst (fst e0) with InPlace => true | Rebind => false end) hist), st; reflexivity. }
    rewrite SH. exact I'.
Qed.

(* complete description after a history with at least one step *)
Lemma run_answers z n w t hist st vs t' :
  shape_ok z n -> length w = n -> sized n (hist ++ [(st, vs, t')]) ->
  exists s, sys_run (sys_init z w t) (hist ++ [(st, vs, t')]) = Some s /\
    answers n (if still_shared z hist && (match st with InPlace => true | Rebind => false end) then vs else last_val w hist)
            vs (last_time t hist) t' s /\
    sys_provider s = vs.
Proof.
  intros S L Sz.
  destruct (run_inv z n w t hist S L) as (s & R & I); [intros e He; apply Sz; apply in_app_iff; left; exact He|].
  assert (Lv : length vs = n).
  { apply (Sz (st, vs, t')). apply in_app_iff. right. left. reflexivity. }
  destruct (step_spec s z n _ _ _ st vs t' S I Lv) as (s' & E & I' & An).
  exists s'. rewrite run_app, R. cbn [sys_run]. rewrite E. split; [reflexivity|]. split; [exact An|].
  destruct s' as [[h p] d]. destruct I' as (_ & _ & _ & K & _). cbn. rewrite K. reflexivity.
Qed.

Lemma still_shared_false z hist :
  (rebound hist \/ (z = true /\ hist <> [])) -> still_shared z hist = false.
Proof.
  intros H. destruct hist as [|e hist]; [destruct H as [(vs & t & [])|[_ K]]; congruence|].
  unfold still_shared. destruct H as [(vs & t & Hin)|[-> _]]; [|reflexivity].
  destruct (forallb _ (e :: hist)) eqn:F; [|apply andb_false_r].
  rewrite forallb_forall in F. specialize (F _ Hin). discriminate.
Qed.

Lemma still_shared_true z hist :
  ~ rebound hist -> (z = false \/ hist = []) -> still_shared z hist = true.
Proof.
  intros H K. destruct hist as [|e hist]; [reflexivity|].
  destruct K as [->|K]; [|discriminate]. unfold still_shared. cbn [negb andb].
  apply forallb_forall. intros [[st vs] t] Hin. destruct st; [reflexivity|].
  exfalso. apply H. exists vs, t. exact Hin.
Qed.

Lemma all_changed_irrefl n w : (0 < n)%nat -> ~ all_changed n w w.
Proof. intros N H. apply (H 0%nat N). reflexivity. Qed.

Lemma line_ends s u t w : ~ t == s -> line s u t w s == u /\ line s u t w t == w.
Proof. intros N. unfold line. split; field; intros K; apply N; lra. Qed.

Lemma line_between s u t w x : s < t -> s <= x -> x <= t -> between u w (line s u t w x).
Proof.
  intros A B C. unfold line, between.
  assert (F0 : 0 <= (x - s) / (t - s)) by (apply Qle_shift_div_l; lra).
  assert (F1 : (x - s) / (t - s) <= 1) by (apply Qle_shift_div_r; lra).
  set (f := (x - s) / (t - s)) in *.
  destruct (Qlt_le_dec w u) as [K|K]; [right|left]; nra.
Qed.
