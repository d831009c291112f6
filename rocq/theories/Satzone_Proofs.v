From Coq Require Import ZArith QArith Qminmax Qabs List Bool Lia Lqa.
From Verif Require Import Base Field Snow_Proofs D8_Spec Chan_Model Chan_Spec Chan_Proofs Satzone_Model Satzone_Spec.
Import ListNotations.
Local Open Scope Q_scope.

(* recursive forms *)
Lemma qsum_S0 n f : qsum (S n) f == f 0%nat + qsum n (fun k => f (S k)).
Proof. unfold qsum. cbn [seq]. rewrite qsuml_cons. apply Qplus_comp; [reflexivity|]. rewrite <- seq_shift.
  generalize (seq 0 n). induction l as [|a l IH]; [reflexivity|]. cbn [map]. rewrite !qsuml_cons, IH. reflexivity. Qed.
Lemma stored_cons l lt y yt : stored (l :: lt) (y :: yt) == qs l * y + stored lt yt.
Proof. unfold stored. cbn [length]. rewrite qsum_S0. reflexivity. Qed.
Lemma wetted_cons y yt : wetted (y :: yt) == y + wetted yt.
Proof. unfold wetted. cbn [length]. rewrite qsum_S0. reflexivity. Qed.
Lemma thickness_cons l lt : thickness (l :: lt) == th l + thickness lt.
Proof. unfold thickness. cbn [length]. rewrite qsum_S0. reflexivity. Qed.

Definition okl (ls : list layer) : Prop := Forall (fun l => 0 <= th l /\ 0 < qs l) ls.
Definition bnd (ls : list layer) (ys : list Q) : Prop := Forall2 (fun l y => 0 <= y /\ y <= th l) ls ys.
Definition full (ls : list layer) (ys : list Q) : Prop := Forall2 (fun l y => y == th l) ls ys.
Definition empty (ys : list Q) : Prop := Forall (fun y => y == 0) ys.
Fixpoint packed (ls : list layer) (ys : list Q) : Prop :=
  match ls, ys with l :: lt, y :: yt => (0 < y -> full lt yt) /\ packed lt yt | _, _ => True end.

Lemma okl_of ls : layers_ok ls -> okl ls.
Proof.
  intros [_ H]. apply Forall_forall. intros l Hl. destruct (In_nth ls l lay0 Hl) as (k & Hk & <-). apply (H k Hk).
Qed.
Lemma Forall2_get {A} (P : A -> Q -> Prop) (d : A) ls ys : Forall2 P ls ys <->
  length ys = length ls /\ forall k, (k < length ls)%nat -> P (get d ls k) (get 0 ys k).
Proof.
  split.
  - intros H. induction H as [|a b l1 l2 H1 H2 [IH1 IH2]]; [split; [reflexivity|cbn; lia]|]. split; [cbn; lia|].
    intros [|k] Hk; cbn in *; [exact H1|]. apply IH2. lia.
  - revert ys. induction ls as [|a l IH]; intros [|b ys] [H1 H2]; cbn in H1; try lia; constructor.
    + apply (H2 0%nat). cbn. lia.
    + apply IH. split; [lia|]. intros k Hk. apply (H2 (S k)). cbn. lia.
Qed.
Lemma bnd_iff ls ys : bounded ls ys <-> bnd ls ys.
Proof. unfold bnd. rewrite (Forall2_get _ lay0). reflexivity. Qed.
Lemma packed_iff ls ys : length ys = length ls -> (no_perched ls ys <-> packed ls ys).
Proof.
  revert ys. induction ls as [|l lt IH]; intros [|y yt] E; cbn in E; try lia.
  - split; intros _; [exact I|]. intros k j H1 H2. cbn in H2. lia.
  - cbn [packed]. rewrite <- IH by lia. split.
    + intros H. split.
      * intros Hy. apply (Forall2_get _ lay0). split; [lia|]. intros k Hk. apply (H 0%nat (S k)); cbn; [lia|lia|exact Hy].
      * intros k j H1 H2 H3. apply (H (S k) (S j)); cbn; [lia|lia|exact H3].
    + intros [H1 H2] k j Hkj Hj Hk. destruct j as [|j]; [lia|]. cbn in Hj |- *. destruct k as [|k].
      * cbn in Hk. specialize (H1 Hk). apply (Forall2_get _ lay0) in H1. apply H1. lia.
      * apply (H2 k j); [lia|lia|exact Hk].
Qed.

(* ---------------------------------------------------------------- initialisation *)
Lemma init_length h b ls : length (init_y h b ls) = length ls.
Proof. revert b. induction ls as [|l t IH]; intros b; cbn; [reflexivity|]. rewrite IH. reflexivity. Qed.
Lemma init_bnd h b ls : okl ls -> bnd ls (init_y h b ls).
Proof.
  intros H. revert b. induction H as [|l t [H1 H2] _ IH]; intros b; cbn [init_y]; constructor; [|apply IH].
  split; [|apply Q.le_min_r]. apply Q.min_glb; [apply Q.le_max_r|exact H1].
Qed.
Lemma init_full h b ls : okl ls -> b <= h -> full ls (init_y h b ls).
Proof.
  intros H. revert b. induction H as [|l t [H1 H2] _ IH]; intros b Hb; cbn [init_y]; constructor; [|apply IH; lra].
  rewrite Q.min_r; [reflexivity|]. rewrite Q.max_l by lra. lra.
Qed.
Lemma init_packed h b ls : okl ls -> packed ls (init_y h b ls).
Proof.
  intros H. revert b. induction H as [|l t [H1 H2] F IH]; intros b; cbn [init_y packed]; [exact I|]. split; [|apply IH].
  intros Hp. apply init_full; [exact F|].
  destruct (Qlt_le_dec h (b - th l)) as [L|L]; [|exact L].
  rewrite Q.min_l in Hp; rewrite Q.max_r in *; lra.
Qed.
Lemma thickness_nonneg ls : okl ls -> 0 <= thickness ls.
Proof. intros H. induction H as [|l t [H1 H2] _ IH]; [change (thickness []) with 0; lra|]. rewrite thickness_cons. lra. Qed.
Lemma init_wetted h b ls : okl ls -> wetted (init_y h b ls) == Qmin (Qmax (h - (b - thickness ls)) 0) (thickness ls).
Proof.
  intros H. revert b. induction H as [|l t [H1 H2] F IH]; intros b.
  - cbn [init_y]. change (thickness []) with 0. change (wetted []) with 0. rewrite Q.min_r; [reflexivity|apply Q.le_max_r].
  - cbn [init_y]. rewrite wetted_cons, IH, thickness_cons. pose proof (thickness_nonneg t F) as T.
    generalize dependent (thickness t). intros T HT.
    qcase; lra.
Qed.
Lemma elev_after e ls : elev_after_init e ls == e - thickness ls.
Proof.
  revert e. induction ls as [|l t IH]; intros e; cbn [elev_after_init].
  - change (thickness []) with 0. ring.
  - rewrite IH, thickness_cons. ring.
Qed.

(* ---------------------------------------------------------------- rising *)
Lemma Qmin_zero dz q : 0 <= dz -> 0 < q -> Qmin (dz * q) 0 == 0.
Proof. intros H1 H2. apply Q.min_r. nra. Qed.
Lemma Qltb_comp a b c d : a == c -> b == d -> Qltb a b = Qltb c d.
Proof.
  intros E1 E2. destruct (Qltb a b) eqn:L; symmetry.
  - apply Qltb_lt in L. apply Qltb_lt. lra.
  - apply Qltb_ge in L. apply Qltb_ge. lra.
Qed.
Definition same (ys ys' : list Q) : Prop := Forall2 Qeq ys ys'.
Lemma same_refl ys : same ys ys.
Proof. induction ys; constructor; [reflexivity|assumption]. Qed.

Lemma rise_zero ls ys h d : okl ls -> bnd ls ys -> d == 0 ->
  exists ys' h' d', rise ls ys h d = (ys', h', d') /\ same ys' ys /\ h' == h /\ d' == 0.
Proof.
  intros Ho Hb. induction Hb as [|l y lt yt [B1 B2] Hb IH]; intros Hd; cbn [rise].
  - exists [], h, d. split; [reflexivity|]. split; [constructor|]. split; [reflexivity|exact Hd].
  - inversion Ho as [|? ? [O1 O2] Ho' E]; subst. destruct (IH Ho' Hd) as (yt' & h' & d' & -> & S & Eh & Ed).
    assert (A : Qmin ((th l - y) * qs l) 0 == 0) by (apply Qmin_zero; [lra|exact O2]).
    rewrite (Qltb_comp _ _ _ _ A Ed). change (Qltb 0 0) with false. cbv iota.
    assert (Z : d' / qs l == 0) by (rewrite Ed; field; lra).
    exists (y + d' / qs l :: yt'), (h' + d' / qs l), 0. split; [reflexivity|]. split; [constructor; [lra|exact S]|]. split; [lra|reflexivity].
Qed.
Lemma rise_pos ls ys h d : okl ls -> bnd ls ys -> 0 < d ->
  exists h' d', rise ls ys h d = (map th ls, h', d') /\ h' == h + (thickness ls - wetted ys) /\ d' == d.
Proof.
  intros Ho Hb. induction Hb as [|l y lt yt [B1 B2] Hb IH]; intros Hd; cbn [rise].
  - exists h, d. split; [reflexivity|]. change (thickness []) with 0. change (wetted []) with 0. split; [ring|reflexivity].
  - inversion Ho as [|? ? [O1 O2] Ho' E]; subst. destruct (IH Ho' Hd) as (h' & d' & -> & Eh & Ed).
    assert (A : Qmin ((th l - y) * qs l) 0 == 0) by (apply Qmin_zero; [lra|exact O2]).
    rewrite (Qltb_comp _ _ _ _ A Ed). assert (T : Qltb 0 d = true) by (apply Qltb_lt; exact Hd). rewrite T. cbv iota.
    exists (h' + (th l - y)), (d' - Qmin ((th l - y) * qs l) 0). split; [reflexivity|].
    rewrite thickness_cons, wetted_cons, A, Ed, Eh. split; ring.
Qed.

(* ---------------------------------------------------------------- falling *)
Lemma stored_nonneg ls ys : okl ls -> bnd ls ys -> 0 <= stored ls ys.
Proof.
  intros Ho Hb. induction Hb as [|l y lt yt [B1 B2] Hb IH]; [change (stored [] []) with 0; lra|].
  inversion Ho as [|? ? [O1 O2] Ho' E]; subst. rewrite stored_cons. specialize (IH Ho'). nra.
Qed.
Lemma fall_zero ls ys h d : okl ls -> bnd ls ys -> d == 0 ->
  exists ys' h' d', fall ls ys h d = (ys', h', d') /\ same ys' ys /\ h' == h /\ d' == 0.
Proof.
  intros Ho Hb. revert h d. induction Hb as [|l y lt yt [B1 B2] Hb IH]; intros h d Hd; cbn [fall].
  - exists [], h, d. split; [reflexivity|]. split; [constructor|]. split; [reflexivity|exact Hd].
  - inversion Ho as [|? ? [O1 O2] Ho' E]; subst.
    assert (T : Qltb (y * qs l) (Qabs d) = false).
    { apply Qltb_ge. rewrite Hd. change (Qabs 0) with 0. nra. }
    rewrite T. assert (Z : d / qs l == 0) by (rewrite Hd; field; lra).
    destruct (IH Ho' (h + d / qs l) 0 (Qeq_refl 0)) as (yt' & h' & d' & -> & S & Eh & Ed).
    exists (y + d / qs l :: yt'), h', d'. split; [reflexivity|]. split; [constructor; [lra|exact S]|]. split; [lra|exact Ed].
Qed.
Lemma full_same ls ys ys' : same ys' ys -> full ls ys -> full ls ys'.
Proof.
  intros S. revert ls. induction S as [|a b t t' E S IH]; intros ls F; inversion F; subst; constructor; [lra|apply IH; assumption].
Qed.
Lemma packed_same ls ys ys' : same ys' ys -> packed ls ys -> packed ls ys'.
Proof.
  intros S. revert ls. induction S as [|a b t t' E S IH]; intros [|l lt] P; cbn [packed] in *; try exact I.
  destruct P as [P1 P2]. split; [|apply IH; exact P2]. intros H. eapply full_same; [exact S|]. apply P1. lra.
Qed.
Lemma bnd_same ls ys ys' : same ys' ys -> bnd ls ys -> bnd ls ys'.
Proof.
  intros S. revert ls. induction S as [|a b t t' E S IH]; intros ls F; inversion F; subst; constructor; [lra|apply IH; assumption].
Qed.
Lemma wetted_same ys ys' : same ys' ys -> wetted ys' == wetted ys.
Proof. intros S. induction S as [|a b t t' E S IH]; [reflexivity|]. rewrite !wetted_cons, E, IH. reflexivity. Qed.
Lemma stored_same ls ys ys' : same ys' ys -> length ys = length ls -> stored ls ys' == stored ls ys.
Proof.
  intros S. revert ls. induction S as [|a b t t' E S IH]; intros [|l lt] L; cbn in L; try lia; [reflexivity|].
  rewrite !stored_cons, E, IH by lia. reflexivity.
Qed.

Lemma div_bound1 d q y : 0 < q -> - d <= y * q -> 0 <= y + d / q.
Proof.
  intros Hq H. assert (E : d / q * q == d) by (field; lra). generalize dependent (d / q). intros e E.
  destruct (Qlt_le_dec (y + e) 0) as [L|L]; [|exact L]. nra.
Qed.
Lemma div_bound2 d q : 0 < q -> d <= 0 -> d / q <= 0.
Proof.
  intros Hq H. assert (E : d / q * q == d) by (field; lra). generalize dependent (d / q). intros e E.
  destruct (Qlt_le_dec 0 e) as [L|L]; [|exact L]. nra.
Qed.
(* enough water: storage falls by what is taken, the table by the lost thickness *)
Lemma fall_enough ls ys h d : okl ls -> bnd ls ys -> d <= 0 -> - d <= stored ls ys ->
  exists ys' h' d', fall ls ys h d = (ys', h', d') /\ bnd ls ys' /\ (packed ls ys -> packed ls ys') /\
    stored ls ys' == stored ls ys + d /\ h' - h == wetted ys' - wetted ys /\ d' == 0.
Proof.
  intros Ho Hb. revert h d. induction Hb as [|l y lt yt [B1 B2] Hb IH]; intros h d Hd Hs; cbn [fall].
  - assert (Z : stored [] [] == 0) by reflexivity. rewrite Z in Hs.
    exists [], h, d. split; [reflexivity|]. split; [constructor|]. split; [auto|].
    change (wetted []) with 0. split; [rewrite Z; lra|]. split; [ring|lra].
  - inversion Ho as [|? ? [O1 O2] Ho' E]; subst. rewrite stored_cons in Hs.
    destruct (Qltb (y * qs l) (Qabs d)) eqn:T.
    + apply Qltb_lt in T. rewrite Qabs_neg in T by exact Hd.
      destruct (IH Ho' (h - y) (d + y * qs l)) as (yt' & h' & d' & -> & B & P & St & Eh & Ed); [lra|lra|].
      exists (0 :: yt'), h', d'. split; [reflexivity|]. split; [constructor; [lra|exact B]|]. split.
      { cbn [packed]. intros [_ P2]. split; [intros X; discriminate X|]. apply P. exact P2. }
      rewrite !stored_cons, !wetted_cons, St. split; [ring|]. split; [lra|exact Ed].
    + apply Qltb_ge in T. rewrite Qabs_neg in T by exact Hd.
      destruct (fall_zero lt yt (h + d / qs l) 0 Ho' Hb (Qeq_refl 0)) as (yt' & h' & d' & -> & S & Eh & Ed).
      assert (Em : d / qs l * qs l == d) by (field; lra).
      assert (E1 : 0 <= y + d / qs l) by (apply (div_bound1 d (qs l) y); assumption).
      assert (E2 : d / qs l <= 0) by (apply (div_bound2 d (qs l)); assumption).
      exists (y + d / qs l :: yt'), h', d'. split; [reflexivity|]. split; [constructor; [lra|eapply bnd_same; eassumption]|]. split.
      { cbn [packed]. intros [P1 P2]. split; [|eapply packed_same; eassumption].
        intros X. eapply full_same; [exact S|]. apply P1. lra. }
      assert (Ly : length yt = length lt) by (symmetry; clear -Hb; induction Hb; cbn; congruence).
      rewrite !stored_cons, !wetted_cons, (wetted_same _ _ S), (stored_same lt _ _ S) by exact Ly.
      split; [lra|]. split; [lra|exact Ed].
Qed.
(* not enough water: everything drains *)
Lemma fall_short ls ys h d : okl ls -> bnd ls ys -> d <= 0 -> stored ls ys < - d ->
  exists ys' h' d', fall ls ys h d = (ys', h', d') /\ length ys' = length ls /\ empty ys' /\
    h' == h - wetted ys /\ d' == d + stored ls ys.
Proof.
  intros Ho Hb. revert h d. induction Hb as [|l y lt yt [B1 B2] Hb IH]; intros h d Hd Hs; cbn [fall].
  - change (stored [] []) with 0 in *. exists [], h, d. split; [reflexivity|]. split; [reflexivity|]. split; [constructor|].
    change (wetted []) with 0. split; ring.
  - inversion Ho as [|? ? [O1 O2] Ho' E]; subst. rewrite stored_cons in Hs. pose proof (stored_nonneg lt yt Ho' Hb) as N.
    assert (T : Qltb (y * qs l) (Qabs d) = true). { apply Qltb_lt. rewrite Qabs_neg by exact Hd. lra. }
    rewrite T. destruct (IH Ho' (h - y) (d + y * qs l)) as (yt' & h' & d' & -> & L & Em & Eh & Ed); [lra|lra|].
    exists (0 :: yt'), h', d'. split; [reflexivity|]. split; [cbn; lia|]. split; [constructor; [reflexivity|exact Em]|].
    rewrite stored_cons, wetted_cons. split; lra.
Qed.
Lemma bnd_map_th ls : okl ls -> bnd ls (map th ls).
Proof. intros H. induction H as [|l t [H1 H2] _ IH]; constructor; [lra|exact IH]. Qed.
Lemma full_map_th ls : full ls (map th ls).
Proof. induction ls; constructor; [reflexivity|assumption]. Qed.
Lemma packed_full ls ys : full ls ys -> packed ls ys.
Proof. intros F. induction F as [|l y lt yt E F IH]; cbn [packed]; auto. Qed.
Lemma packed_empty ls ys : empty ys -> packed ls ys.
Proof.
  intros F. revert ls. induction F as [|y yt E F IH]; intros [|l lt]; cbn [packed]; try exact I. split; [|apply IH]. intros H. lra.
Qed.
Lemma bnd_empty ls ys : okl ls -> length ys = length ls -> empty ys -> bnd ls ys.
Proof.
  intros H. revert ys. induction H as [|l t [H1 H2] _ IH]; intros [|y yt] L F; cbn in L; try lia; constructor;
    inversion F; subst; [lra|]. apply IH; [lia|assumption].
Qed.
Lemma wetted_map_th ls : wetted (map th ls) == thickness ls.
Proof. induction ls as [|l t IH]; [reflexivity|]. cbn [map]. rewrite wetted_cons, thickness_cons, IH. reflexivity. Qed.

(* ---------------------------------------------------------------- one update *)
Lemma uwt_rise ls ys h d : okl ls -> bnd ls ys -> 0 < d ->
  exists ys' h', update_water_table ls ys h d = (ys', h') /\ full ls ys' /\ bnd ls ys' /\
    h' == h + (thickness ls - wetted ys) + d.
Proof.
  intros Ho Hb Hd. unfold update_water_table.
  assert (T1 : Qltb d 0 = false) by (apply Qltb_ge; lra). assert (T2 : Qltb 0 d = true) by (apply Qltb_lt; exact Hd).
  rewrite T1, T2. destruct (rise_pos ls ys h d Ho Hb Hd) as (h1 & d1 & -> & E1 & E2).
  rewrite (Qltb_comp 0 d1 0 d (Qeq_refl 0) E2), T2.
  destruct (fall_zero ls (map th ls) (h1 + d1) 0 Ho (bnd_map_th ls Ho) (Qeq_refl 0)) as (y2 & h2 & d2 & -> & S & E3 & E4).
  rewrite (Qltb_comp d2 0 0 0 E4 (Qeq_refl 0)). change (Qltb 0 0) with false. cbv iota.
  exists y2, h2. split; [reflexivity|]. split; [eapply full_same; [exact S|apply full_map_th]|].
  split; [eapply bnd_same; [exact S|apply bnd_map_th; exact Ho]|]. rewrite E3, E1, E2. reflexivity.
Qed.
Lemma rise_zero' ls ys h : okl ls -> bnd ls ys ->
  exists ys' h' d', rise ls ys h 0 = (ys', h', d') /\ same ys' ys /\ h' == h /\ d' == 0 /\
    (if Qltb 0 d' then h' + d' else h') == h.
Proof.
  intros Ho Hb. destruct (rise_zero ls ys h 0 Ho Hb (Qeq_refl 0)) as (ys' & h' & d' & E & S & Eh & Ed).
  exists ys', h', d'. rewrite (Qltb_comp 0 d' 0 0 (Qeq_refl 0) Ed). change (Qltb 0 0) with false. auto.
Qed.
Lemma qltb_pick d : d <= 0 -> (if Qltb d 0 then 0 else d) == 0.
Proof. intros H. destruct (Qltb d 0) eqn:E; [reflexivity|]. apply Qltb_ge in E. lra. Qed.
Lemma qltb_pick0 d : d <= 0 -> (if Qltb 0 d then 0 else d) = d.
Proof. intros H. destruct (Qltb 0 d) eqn:E; [|reflexivity]. apply Qltb_lt in E. lra. Qed.
Lemma bnd_length ls ys : bnd ls ys -> length ys = length ls.
Proof. intros H. induction H; cbn; congruence. Qed.

Lemma uwt_fall ls ys h d : okl ls -> bnd ls ys -> d <= 0 -> - d <= stored ls ys ->
  exists ys' h', update_water_table ls ys h d = (ys', h') /\ bnd ls ys' /\ (packed ls ys -> packed ls ys') /\
    stored ls ys' == stored ls ys + d /\ h' - h == wetted ys' - wetted ys.
Proof.
  intros Ho Hb Hd Hs. unfold update_water_table.
  destruct (rise_zero ls ys h _ Ho Hb (qltb_pick d Hd)) as (y1 & h1 & d1 & -> & S & E1 & E2).
  rewrite (Qltb_comp 0 d1 0 0 (Qeq_refl 0) E2). change (Qltb 0 0) with false. cbv iota. rewrite (qltb_pick0 d Hd).
  pose proof (bnd_same _ _ _ S Hb) as Hb1. pose proof (stored_same ls _ _ S (bnd_length _ _ Hb)) as Es.
  destruct (fall_enough ls y1 h1 d Ho Hb1 Hd) as (y2 & h2 & d2 & -> & B & P & St & Eh & Ed); [lra|].
  rewrite (Qltb_comp d2 0 0 0 Ed (Qeq_refl 0)). change (Qltb 0 0) with false. cbv iota.
  exists y2, h2. split; [reflexivity|]. split; [exact B|]. split.
  { intros X. apply P. eapply packed_same; eassumption. }
  split; [lra|]. rewrite <- (wetted_same _ _ S). lra.
Qed.
Lemma uwt_drain ls ys h d : okl ls -> bnd ls ys -> d <= 0 -> stored ls ys < - d ->
  exists ys' h', update_water_table ls ys h d = (ys', h') /\ bnd ls ys' /\ empty ys' /\
    h' == h - wetted ys + (d + stored ls ys) / qs (last ls lay0).
Proof.
  intros Ho Hb Hd Hs. unfold update_water_table.
  destruct (rise_zero ls ys h _ Ho Hb (qltb_pick d Hd)) as (y1 & h1 & d1 & -> & S & E1 & E2).
  rewrite (Qltb_comp 0 d1 0 0 (Qeq_refl 0) E2). change (Qltb 0 0) with false. cbv iota. rewrite (qltb_pick0 d Hd).
  pose proof (bnd_same _ _ _ S Hb) as Hb1. pose proof (stored_same ls _ _ S (bnd_length _ _ Hb)) as Es.
  destruct (fall_short ls y1 h1 d Ho Hb1 Hd) as (y2 & h2 & d2 & -> & L & Em & Eh & Ed); [lra|].
  assert (T : Qltb d2 0 = true) by (apply Qltb_lt; lra). rewrite T.
  eexists y2, _. split; [reflexivity|]. split; [apply bnd_empty; assumption|]. split; [exact Em|].
  pose proof (wetted_same _ _ S) as Ew. rewrite Ed, Eh, E1, Ew, Es. reflexivity.
Qed.
Lemma uwt_inv ls ys h d : okl ls -> bnd ls ys -> packed ls ys ->
  exists ys' h', update_water_table ls ys h d = (ys', h') /\ bnd ls ys' /\ packed ls ys'.
Proof.
  intros Ho Hb Hp. destruct (Qlt_le_dec 0 d) as [L|L].
  - destruct (uwt_rise ls ys h d Ho Hb L) as (y' & h' & E & F & B & _). exists y', h'.
    split; [exact E|]. split; [exact B|]. apply packed_full. exact F.
  - destruct (Qlt_le_dec (stored ls ys) (- d)) as [M|M].
    + destruct (uwt_drain ls ys h d Ho Hb L M) as (y' & h' & E & B & F & _). exists y', h'.
      split; [exact E|]. split; [exact B|]. apply packed_empty. exact F.
    + destruct (uwt_fall ls ys h d Ho Hb L M) as (y' & h' & E & B & P & _). exists y', h'. auto.
Qed.
Lemma wt_run_inv ls ds : forall s, okl ls -> bnd ls (fst s) -> packed ls (fst s) ->
  bnd ls (fst (wt_run ls s ds)) /\ packed ls (fst (wt_run ls s ds)).
Proof.
  induction ds as [|d t IH]; intros s Ho Hb Hp; cbn [wt_run fold_left]; [auto|].
  apply IH; [exact Ho|..]; destruct (uwt_inv ls (fst s) (snd s) d Ho Hb Hp) as (y' & h' & -> & B & P); [exact B|exact P].
Qed.
(* withdrawals that the storage can cover *)
Definition total_of (ds : list Q) : Q := qsuml (fun d => d) ds.
Lemma wt_run_fall ls ds : forall s, okl ls -> bnd ls (fst s) -> Forall (fun d => d <= 0) ds ->
  - total_of ds <= stored ls (fst s) ->
  let s' := wt_run ls s ds in
  stored ls (fst s') == stored ls (fst s) + total_of ds /\ snd s' - snd s == wetted (fst s') - wetted (fst s).
Proof.
  induction ds as [|d t IH]; intros s Ho Hb Hd Hs; cbn [wt_run fold_left].
  - change (total_of []) with 0. split; ring.
  - inversion Hd; subst. unfold total_of in Hs. rewrite qsuml_cons in Hs. fold (total_of t) in Hs.
    assert (Ht : total_of t <= 0).
    { clear -H2. induction H2 as [|a l H _ IH]; [change (total_of []) with 0; lra|]. unfold total_of. rewrite qsuml_cons. fold (total_of l). lra. }
    destruct (uwt_fall ls (fst s) (snd s) d Ho Hb H1) as (y' & h' & E & B & _ & St & Eh); [lra|].
    rewrite E. specialize (IH (y', h') Ho B H2). cbn [fst snd] in IH.
    destruct IH as [I1 I2]; [lra|]. unfold wt_run in *. unfold total_of at 1. rewrite qsuml_cons. fold (total_of t).
    split; [rewrite I1, St; ring|lra].
Qed.

(* ---------------------------------------------------------------- the grid *)
Section Grid.
Variable G : D8_Model.geom.
Hypothesis HG : geom_ok G.
Notation n := (D8_Model.ncells G).
Variables (d8 : list Z) (O : D8_Model.opts).
Hypothesis Hclosed : forall i, (i < n)%nat -> closed_side G O i -> get 0%Z d8 i = 0%Z.
Notation pid := (D8_Model.update_parent_ID_grid G O d8).
Variable lays : nat -> list layer.
Variables (da ds dw : nat -> Q) (dt : Q).
Hypothesis Hda : forall i, (i < n)%nat -> 0 < da i.

Lemma dzw_spec Rg Qg i : (i < n)%nat ->
  get 0 (update_dzw G d8 pid da dt Rg Qg) i * da i == fat Rg i * da i * dt + dt * inflow G d8 Qg i - dt * get 0 Qg i.
Proof.
  intros Hi. unfold update_dzw. rewrite get_tab by exact Hi.
  destruct (route_inflow_spec G HG d8 O Hclosed dt Qg (tab n (fun i => fat Rg i * da i * dt))) as [_ H]; [apply tab_length|].
  rewrite (H i Hi), get_tab by exact Hi. pose proof (Hda i Hi). field. lra.
Qed.
Lemma dzw_total Rg Qg :
  qsum n (fun i => get 0 (update_dzw G d8 pid da dt Rg Qg) i * da i) ==
  dt * qsum n (fun i => fat Rg i * da i) - dt * qsum n (fun i => if has_parent G d8 i then 0 else get 0 Qg i).
Proof.
  transitivity (qsum n (fun i => dt * (fat Rg i * da i) + (dt * inflow G d8 Qg i + (- dt) * get 0 Qg i))).
  { apply qsum_ext. intros i Hi. rewrite (dzw_spec Rg Qg i Hi). ring. }
  rewrite !qsum_plus, !qsum_scale, (total_inflow G HG d8 Qg).
  assert (E : qsum n (fun i => get 0 Qg i) == qsum n (fun i => if has_parent G d8 i then get 0 Qg i else 0) +
              qsum n (fun i => if has_parent G d8 i then 0 else get 0 Qg i)).
  { rewrite <- qsum_plus. apply qsum_ext. intros i _. destruct (has_parent G d8 i); ring. }
  rewrite E. ring.
Qed.
End Grid.

Section Inv.
Variable G : D8_Model.geom.
Notation n := (D8_Model.ncells G).
Variables (d8 pid : list Z).
Variable lays : nat -> list layer.
Variables (da ds dw : nat -> Q) (dt : Q).
Notation gw_update := (gw_update G d8 pid lays da ds dw dt).
Notation gw_run := (gw_run G d8 pid lays da ds dw dt).
Hypothesis Hl : forall i, (i < n)%nat -> okl (lays i).

Definition ginv (s : gw) : Prop := forall i, (i < n)%nat -> bnd (lays i) (get [] (y s) i) /\ packed (lays i) (get [] (y s) i).
Lemma ginv_init h0 e : ginv (gw_init G lays h0 e).
Proof.
  intros i Hi. unfold gw_init. cbn [y]. rewrite !get_tab by exact Hi. split; [apply init_bnd|apply init_packed]; apply Hl; exact Hi.
Qed.
Lemma y_update s Rg i : (i < n)%nat -> get [] (y (gw_update s Rg)) i =
  fst (update_water_table (lays i) (get [] (y s) i) (get 0 (h_table s) i)
         (get 0 (update_dzw G d8 pid da dt Rg (update_Q_gw G pid lays ds dw s)) i)).
Proof. intros Hi. unfold Satzone_Model.gw_update. cbn [y]. rewrite !get_tab by exact Hi. reflexivity. Qed.
Lemma ginv_update s Rg : ginv s -> ginv (gw_update s Rg).
Proof.
  intros H i Hi. destruct (H i Hi) as [B P]. rewrite y_update by exact Hi.
  edestruct (uwt_inv (lays i) _ (get 0 (h_table s) i)
    (get 0 (update_dzw G d8 pid da dt Rg (update_Q_gw G pid lays ds dw s)) i) (Hl i Hi) B P) as (y' & h' & -> & B' & P').
  split; assumption.
Qed.
Lemma ginv_run Rgs : forall s, ginv s -> ginv (gw_run s Rgs).
Proof. induction Rgs as [|R t IH]; intros s H; cbn; [exact H|]. apply IH. apply ginv_update. exact H. Qed.

(* lateral flow *)
Lemma fold_terms (f : layer * Q -> Q) l a : fold_left (fun q ly => q + f ly) l a == a + qsuml f l.
Proof.
  revert a. induction l as [|x t IH]; intros a; cbn [fold_left]; [rewrite qsuml_nil; ring|]. rewrite IH, qsuml_cons. ring.
Qed.
Lemma combine_sum (f : layer -> Q -> Q) : forall ls ys, length ys = length ls ->
  qsuml (fun ly => f (fst ly) (snd ly)) (combine ls ys) == qsum (length ls) (fun k => f (get lay0 ls k) (get 0 ys k)).
Proof.
  induction ls as [|l t IH]; intros [|y yt] E; cbn in E; try lia; cbn [combine length]; [reflexivity|].
  rewrite qsuml_cons, qsum_S0, IH by lia. reflexivity.
Qed.
Lemma Q_gw_spec s i : ginv s -> (i < n)%nat -> get 0 (update_Q_gw G pid lays ds dw s) i ==
  Qmin (get 0 (Q_gw s) i) 0 +
  qsum (length (lays i)) (fun k => Ks (get lay0 (lays i) k) * Sh pid ds s i * dw i * get 0 (get [] (y s) i) k).
Proof.
  intros H Hi. unfold update_Q_gw. rewrite get_tab by exact Hi.
  rewrite (fold_terms (fun ly => Ks (fst ly) * Sh pid ds s i * dw i * snd ly)).
  rewrite (combine_sum (fun l y => Ks l * Sh pid ds s i * dw i * y)); [reflexivity|].
  apply bnd_length. apply H. exact Hi.
Qed.

(* seepage *)
Lemma seep_get h hl e i : (i < n)%nat -> get 0 (seep_rate G d8 dt h hl e) i ==
  if existsb (Nat.eqb i) (noflow_IDs G d8) then 0
  else Qmax ((if Qltb (get 0 e i) (get 0 h i) then 1 else 0) * ((get 0 h i - get 0 hl i) / dt)) 0.
Proof.
  intros Hi. unfold seep_rate. rewrite get_tab by exact Hi.
  assert (HL : forall p, In p (noflow_IDs G d8) -> (p < n)%nat).
  { intros p Hp. unfold noflow_IDs in Hp. apply filter_In in Hp. destruct Hp as [Hp _]. apply in_seq in Hp. lia. }
  destruct (existsb (Nat.eqb i) (noflow_IDs G d8)) eqn:E.
  - apply existsb_exists in E. destruct E as (x & Hx & E). apply Nat.eqb_eq in E. subst x.
    rewrite fancy_set_in; [reflexivity| |exact Hx]. intros p Hp. rewrite tab_length. apply HL. exact Hp.
  - rewrite fancy_set_out; [rewrite get_tab by exact Hi; reflexivity|]. intros Hx.
    assert (existsb (Nat.eqb i) (noflow_IDs G d8) = true); [|congruence]. apply existsb_exists. exists i.
    split; [exact Hx|apply Nat.eqb_refl].
Qed.
Lemma seep_nonneg h hl e i : (i < n)%nat -> 0 <= get 0 (seep_rate G d8 dt h hl e) i.
Proof. intros Hi. rewrite seep_get by exact Hi. destruct (existsb _ _); [lra|apply Q.le_max_r]. Qed.
Lemma seep_pos h hl e i : 0 < dt -> (i < n)%nat -> 0 < get 0 (seep_rate G d8 dt h hl e) i ->
  get 0 e i < get 0 h i /\ get 0 (seep_rate G d8 dt h hl e) i * dt == get 0 h i - get 0 hl i.
Proof.
  intros Ht Hi Hp. rewrite seep_get in Hp |- * by exact Hi. destruct (existsb _ _); [lra|].
  destruct (Qltb (get 0 e i) (get 0 h i)) eqn:E.
  - apply Qltb_lt in E. split; [exact E|].
    destruct (Qlt_le_dec 0 (1 * ((get 0 h i - get 0 hl i) / dt))) as [L|L].
    + rewrite Q.max_l by lra. field. lra.
    + rewrite Q.max_r in Hp by exact L. lra.
  - rewrite Q.max_r in Hp; [lra|]. lra.
Qed.
Lemma run_volume Rgs : forall s, (forall i, (i < n)%nat -> 0 <= da i) -> 0 <= dt ->
  vol_GW s <= vol_GW (gw_run s Rgs).
Proof.
  induction Rgs as [|R t IH]; intros s Ha Ht; cbn [Satzone_Model.gw_run fold_left]; [lra|].
  eapply Qle_trans; [|apply IH; assumption].
  unfold Satzone_Model.gw_update at 1. cbn [vol_GW].
  match goal with |- _ <= _ + ?q => assert (0 <= q); [|lra] end.
  apply qsum_nonneg. intros i Hi. apply Qmult_le_0_compat; [apply Qmult_le_0_compat|exact Ht].
  - apply seep_nonneg. exact Hi.
  - apply Ha. exact Hi.
Qed.
Lemma elev_run Rgs : forall s, elev (gw_run s Rgs) = elev s.
Proof. induction Rgs as [|R t IH]; intros s; cbn [Satzone_Model.gw_run fold_left]; [reflexivity|]. etransitivity; [apply IH|]. reflexivity. Qed.
End Inv.
