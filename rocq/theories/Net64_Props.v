(** C111: the water of the channel network in double precision over a run. *)

From Coq Require Import ZArith QArith Reals Lia Lra List Bool Permutation.
From Flocq Require Import Core.
From Verif Require Import Base D8_Spec D8_Proofs D8_Walk Clock_Model Clock_Props Vol64_Model Vol64_Props Interp64_Model Interp64_Props Net64_Model.
From Verif Require D8_Model Chan_Model Chan_Spec Chan_Proofs.
Import ListNotations.
Local Open Scope R_scope.
Local Existing Instance prec53.

(** ** What is asked *)

Section Spec.
Variable G : D8_Model.geom.
Notation n := (D8_Model.ncells G).
Variable d8 : list Z.
(** does cell j flow to cell i; does it flow at all *)
Definition flows_to (j i : nat) : bool := match next G d8 j with Some k => Nat.eqb k i | None => false end.
Definition flows (j : nat) : bool := match next G d8 j with Some _ => true | None => false end.
(** the sum over the cells of the grid *)
Definition over (f : nat -> R) : R := rsumf f (seq 0 n).

(** the volume of cell i with exact additions, not yet cut at zero: what it held, what comes from
    its hillslope, what its neighbours send, what it sends *)
Definition expected (dt : R) (lat v q : list R) (i : nat) : R :=
  get 0 v i + get 0 lat i + over (fun j => if flows_to j i then fmul dt (get 0 q j) else 0) - fmul dt (get 0 q i).
Definition made_up (dt : R) (lat v q : list R) (i : nat) : R := Rmax 0 (- expected dt lat v q i).

(** water in the channels, on the hillslopes and gone over the edges *)
Definition stock (s : state) : R := over (get 0 (vol s)) + over (get 0 (vol_stored s)) + vol_edge s.
End Spec.

(** ** The sums of the code *)

(** at most m numbers are added in an order of depth at most h *)
Definition summation (order : list R -> tree) (m h : nat) : Prop := forall l, l <> [] -> (length l <= m)%nat -> Permutation (leaves (order l)) l /\ (depth (order l) <= h)%nat.

Lemma npsum_close order m h l : summation order m h -> (length l <= m)%nat -> Forall is_double l -> is_double (npsum order l) /\ close h (npsum order l) (rsum l) (asum l).
Proof.
  intros S Len D. destruct l as [|x l].
  - split; [apply dbl_0|]. cbn. split; [rewrite Rminus_0_r, Rabs_R0; unfold asum; cbn; lra|rewrite Rabs_R0; unfold asum; cbn; lra].
  - destruct (S (x :: l) ltac:(discriminate) Len) as [P H]. cbn [npsum]. set (L := x :: l) in *. clearbody L. clear Len.
    assert (D' : Forall is_double (leaves (order L))) by (apply Forall_forall; intros y Y; apply (proj1 (Forall_forall _ _) D); now apply (Permutation_in _ P)).
    split; [now apply fsum_double|]. rewrite <- (rsum_perm _ _ P). unfold asum. rewrite <- (rsum_perm _ _ (Permutation_map Rabs P)).
    eapply close_mono; [exact H|]. now apply fsum_close.
Qed.

Lemma fancy_add_get a (src : list nat) (p : nat -> nat) (x : nat -> R) :
  NoDup (map p src) -> (forall j, In j src -> (p j < length a)%nat) ->
  length (fancy_add a (map p src) (map x src)) = length a /\
  forall i, get 0 (fancy_add a (map p src) (map x src)) i = fold_left fadd (map x (filter (fun j => Nat.eqb (p j) i) src)) (get 0 a i).
Proof.
  intros Hnd Hl. unfold fancy_add.
  assert (H : forall src acc, NoDup (map p src) -> (forall j, In j src -> (p j < length acc)%nat) ->
     (forall j, In j src -> get 0 acc (p j) = get 0 a (p j)) ->
     let r := fold_left (fun acc px => set acc (fst px) (fadd (get 0 a (fst px)) (snd px))) (combine (map p src) (map x src)) acc in
     length r = length acc /\ forall i, get 0 r i = fold_left fadd (map x (filter (fun j => Nat.eqb (p j) i) src)) (get 0 acc i)).
  { clear. induction src as [|j src IH]; intros acc Hnd Hl Hsame.
    - cbv zeta; cbn [map combine fold_left filter]. split; reflexivity.
    - cbn [map combine fold_left fst snd]. inversion Hnd as [|? ? Hni Hnd']; subst.
      destruct (IH (set acc (p j) (fadd (get 0 a (p j)) (x j)))) as [H1 H2]; [exact Hnd'| | |].
      { intros k Hk. rewrite set_length. apply Hl. right. exact Hk. }
      { intros k Hk. rewrite get_set_other; [apply Hsame; right; exact Hk|].
        intros E. apply Hni. rewrite E. apply in_map. exact Hk. }
      rewrite set_length in H1. split; [exact H1|]. intros i. rewrite H2. cbn [filter].
      destruct (Nat.eqb (p j) i) eqn:E.
      + apply Nat.eqb_eq in E. subst i. rewrite get_set_same by (apply Hl; left; reflexivity). cbn [map fold_left].
        now rewrite (Hsame j) by (left; reflexivity).
      + apply Nat.eqb_neq in E. now rewrite get_set_other by congruence. }
  destruct (H src a Hnd Hl (fun _ _ => eq_refl)) as [H1 H2]. split; assumption.
Qed.

Section Grid.
Variable G : D8_Model.geom.
Hypothesis HG : geom_ok G.
Notation n := (D8_Model.ncells G).
Variables (d8 : list Z) (O : D8_Model.opts).
Hypothesis Hclosed : forall i, (i < n)%nat -> closed_side G O i -> get 0%Z d8 i = 0%Z.
Hypothesis Hcodes : code_grid G d8.
Notation pid := (D8_Model.update_parent_ID_grid G O d8).
Variables (da : nat -> R) (dt : R) (order : list R -> tree) (h : nat).
Hypothesis Horder : summation order n h.
Notation over := (over G).
Notation expected := (expected G d8 dt).
Notation made_up := (made_up G d8 dt).

(** the cells that flow to i, in the order of the eight directions *)
Definition tribs (i : nat) : list nat := flat_map (fun k => filter (fun j => Nat.eqb (D8_Model.nbr G k j) i) (D8_Model.flow_from G d8 k)) D8_Model.dirs.

Lemma route_spec q v : length v = n ->
  length (route_inflow G d8 pid dt q v) = n /\
  forall i, get 0 (route_inflow G d8 pid dt q v) i = fold_left fadd (map (fun j => fmul dt (get 0 q j)) (tribs i)) (get 0 v i).
Proof.
  intros Hv. unfold route_inflow, tribs.
  assert (H : forall ks v, (forall k, In k ks -> (k < 8)%nat) -> length v = n ->
    let r := fold_left (fun v k => fancy_add v (D8_Model.flow_to G d8 pid k) (map (fun i => fmul dt (get 0 q i)) (D8_Model.flow_from G d8 k))) ks v in
    length r = n /\ forall i, get 0 r i = fold_left fadd (map (fun j => fmul dt (get 0 q j))
        (flat_map (fun k => filter (fun j => Nat.eqb (D8_Model.nbr G k j) i) (D8_Model.flow_from G d8 k)) ks)) (get 0 v i)).
  { clear v Hv. induction ks as [|k ks IH]; intros v Hk Hv; cbn [fold_left].
    - split; [exact Hv|]. reflexivity.
    - assert (Hk0 : (k < 8)%nat) by (apply Hk; left; reflexivity). rewrite (Chan_Proofs.flow_to_map G HG d8 O Hclosed) by exact Hk0.
      destruct (fancy_add_get v (D8_Model.flow_from G d8 k) (D8_Model.nbr G k) (fun i => fmul dt (get 0 q i))) as [H1 H2].
      { apply (Chan_Proofs.flow_to_NoDup G HG). exact Hk0. } { intros j _. rewrite Hv. apply nbr_lt. exact HG. }
      destruct (IH (fancy_add v (map (D8_Model.nbr G k) (D8_Model.flow_from G d8 k)) (map (fun i => fmul dt (get 0 q i)) (D8_Model.flow_from G d8 k)))) as [H3 H4].
      { intros k' Hk'. apply Hk. right. exact Hk'. } { rewrite H1. exact Hv. }
      split; [exact H3|]. intros i. rewrite H4, H2. cbn [flat_map]. now rewrite map_app, fold_left_app. }
  apply H; [intros k; apply In_dirs|exact Hv].
Qed.

Lemma flow_from_in k j : In j (D8_Model.flow_from G d8 k) <-> (j < n)%nat /\ get 0%Z d8 j = D8_Model.g k.
Proof. unfold D8_Model.flow_from. rewrite filter_In, in_seq, Z.eqb_eq. intuition lia. Qed.

Lemma tribs_network : network n (next G d8) tribs.
Proof.
  intros i Hi.
  assert (M : forall ks, (forall k, In k ks -> (k < 8)%nat) -> forall j, In j (flat_map (fun k => filter (fun j => Nat.eqb (D8_Model.nbr G k j) i) (D8_Model.flow_from G d8 k)) ks) <->
     exists k, In k ks /\ (j < n)%nat /\ get 0%Z d8 j = D8_Model.g k /\ D8_Model.nbr G k j = i).
  { intros ks K j. rewrite in_flat_map. split.
    - intros (k & I & J). exists k. apply filter_In in J as [J E]. apply flow_from_in in J. apply Nat.eqb_eq in E. tauto.
    - intros (k & I & J & E & F). exists k. split; [exact I|]. apply filter_In. rewrite flow_from_in, Nat.eqb_eq. tauto. }
  assert (K8 : forall k, In k D8_Model.dirs -> (k < 8)%nat) by (intros k; apply In_dirs).
  assert (ONE : forall k, (k < 8)%nat -> NoDup (filter (fun j => Nat.eqb (D8_Model.nbr G k j) i) (D8_Model.flow_from G d8 k)) /\ (length (filter (fun j => Nat.eqb (D8_Model.nbr G k j) i) (D8_Model.flow_from G d8 k)) <= 1)%nat).
  { intros k Hk. assert (ND : NoDup (D8_Model.flow_from G d8 k)) by (apply NoDup_filter, seq_NoDup). split; [now apply NoDup_filter|].
    pose proof (NoDup_filter (fun j => Nat.eqb (D8_Model.nbr G k j) i) ND) as N2. remember (filter _ _) as l eqn:L.
    assert (S : forall a, In a l -> (a < n)%nat /\ D8_Model.nbr G k a = i) by (intros a A; subst l; apply filter_In in A as [A B]; apply flow_from_in in A; apply Nat.eqb_eq in B; tauto).
    destruct l as [|a [|b l]]; cbn; try lia. exfalso. destruct (S a ltac:(now left)) as [A1 A2]. destruct (S b ltac:(right; now left)) as [B1 B2].
    assert (a = b) by (apply (nbr_inj G HG k); auto; congruence). subst b. inversion N2 as [|? ? X]. apply X. now left. }
  refine (conj _ (conj _ _)).
  - unfold tribs. assert (W : forall ks, NoDup ks -> (forall k, In k ks -> (k < 8)%nat) ->
      NoDup (flat_map (fun k => filter (fun j => Nat.eqb (D8_Model.nbr G k j) i) (D8_Model.flow_from G d8 k)) ks)).
    { induction ks as [|k ks IH]; intros N K; [constructor|]. inversion N as [|? ? X Y]; subst. cbn [flat_map].
      assert (K' : forall k', In k' ks -> (k' < 8)%nat) by (intros; apply K; now right).
      specialize (IH Y K'). destruct (ONE k (K k (or_introl eq_refl))) as [N1 _].
      assert (DIS : forall j, In j (filter (fun j => Nat.eqb (D8_Model.nbr G k j) i) (D8_Model.flow_from G d8 k)) -> ~ In j (flat_map (fun k => filter (fun j => Nat.eqb (D8_Model.nbr G k j) i) (D8_Model.flow_from G d8 k)) ks)).
      { intros j A B. apply filter_In in A as [A _]. apply flow_from_in in A. apply (M ks K') in B as (k' & I & _ & E & _).
        apply X. replace k with k'; [exact I|]. apply g_inj; [now apply K'|apply K; now left|]. destruct A. congruence. }
      revert N1 DIS. generalize (filter (fun j => Nat.eqb (D8_Model.nbr G k j) i) (D8_Model.flow_from G d8 k)). clear - IH.
      induction l as [|a l IHl]; intros N1 DIS; [exact IH|]. inversion N1; subst. cbn. constructor.
      - intros A. apply in_app_or in A as [A|A]; [contradiction|]. apply (DIS a); [now left|exact A].
      - apply IHl; [assumption|]. intros j J. apply DIS. now right. }
    apply W; [repeat constructor; cbn; intuition discriminate|exact K8].
  - unfold tribs. assert (W : forall ks, (forall k, In k ks -> (k < 8)%nat) ->
      (length (flat_map (fun k => filter (fun j => Nat.eqb (D8_Model.nbr G k j) i) (D8_Model.flow_from G d8 k)) ks) <= length ks)%nat).
    { induction ks as [|k ks IH]; intros K; [cbn; lia|]. cbn [flat_map length]. rewrite app_length. destruct (ONE k (K k (or_introl eq_refl))) as [_ L].
      specialize (IH ltac:(intros; apply K; now right)). lia. }
    exact (W D8_Model.dirs K8).
  - intros j. unfold tribs. rewrite (M _ K8). rewrite next_spec. split.
    + intros (k & I & J & E & F). split; [exact J|]. exists k. split; [now apply K8|]. split; [exact E|congruence].
    + intros (J & k & K & E & F). exists k. split; [now apply In_dirs|]. split; [exact J|]. split; [exact E|congruence].
Qed.

Lemma inflow_tribs (w : nat -> R) i : (i < n)%nat -> rsumf w (tribs i) = over (fun j => if flows_to G d8 j i then w j else 0).
Proof.
  intros Hi. destruct (tribs_network i Hi) as (D & _ & M). unfold over. rewrite <- rsumf_filter. unfold rsumf. apply rsum_perm, Permutation_map.
  apply NoDup_Permutation; [exact D|apply NoDup_filter, seq_NoDup|]. intros j. rewrite M, filter_In, in_seq. unfold flows_to. split.
  - intros [A ->]. rewrite Nat.eqb_refl. split; [lia|reflexivity].
  - intros [A B]. split; [lia|]. destruct (next G d8 j); [|discriminate]. apply Nat.eqb_eq in B. now subst.
Qed.

Lemma close_weak m c x a b : close m c x a -> a <= b -> close m c x b.
Proof. intros [A B] H. split; [|lra]. eapply Rle_trans; [exact A|]. apply Rmult_le_compat_l; [apply err_pos|exact H]. Qed.
Lemma get_double l i : Forall is_double l -> is_double (get 0 l i).
Proof. intros D. destruct (nth_in_or_default i l 0) as [I|E]; [now apply (proj1 (Forall_forall _ _) D)|]. unfold get. rewrite E. apply dbl_0. Qed.
Lemma tab_double m f : (forall i, (i < m)%nat -> is_double (f i)) -> Forall is_double (tab m f).
Proof. intros H. apply Forall_forall. intros x X. unfold tab in X. apply in_map_iff in X as (i & <- & I). apply in_seq in I. apply H. lia. Qed.

Lemma runoff_double r : Forall is_double (runoff G da dt r).
Proof. apply tab_double. intros; apply dbl_rnd. Qed.

Lemma hillslope_spec att w st : Forall is_double w -> Forall is_double st ->
  let '(lat, st') := hillslope G dt att w st in
  Forall is_double lat /\ Forall is_double st' /\
  (forall i, (i < n)%nat -> close 2 (get 0 st' i) (get 0 st i + get 0 w i - get 0 lat i) (Rabs (get 0 st i) + Rabs (get 0 w i) + Rabs (get 0 lat i))) /\
  ((forall i, (i < n)%nat -> 0 <= get 0 st i) -> forall i, (i < n)%nat -> 0 <= get 0 st' i).
Proof.
  intros W S. unfold hillslope. destruct att as [nd|].
  - set (s := tab n (fun i => fadd (get 0 st i) (get 0 w i))). set (t := fmul 86400 nd).
    set (sides := tab n (fun i => Rmin (fmul (fdiv (get 0 s i) t) dt) (get 0 s i))).
    assert (Ds : Forall is_double s) by (apply tab_double; intros; apply dbl_rnd).
    assert (Dl : Forall is_double sides).
    { apply tab_double. intros i _. unfold Rmin. destruct (Rle_dec _ _); [apply dbl_rnd|now apply get_double]. }
    assert (P : forall i, (i < n)%nat -> 0 <= fsub (get 0 s i) (get 0 sides i)).
    { intros i Hi. apply rnd_pos. unfold sides. rewrite get_tab by exact Hi. pose proof (Rmin_r (fmul (fdiv (get 0 s i) t) dt) (get 0 s i)). lra. }
    refine (conj Dl (conj _ (conj _ _))).
    + apply tab_double. intros i Hi. rewrite Rmax_left by now apply P. apply dbl_rnd.
    + intros i Hi. rewrite get_tab by exact Hi. rewrite Rmax_left by now apply P.
      assert (E : get 0 s i = fadd (get 0 st i) (get 0 w i)) by (unfold s; now rewrite get_tab by exact Hi).
      unfold fsub, Rminus. rewrite <- (Rabs_Ropp (get 0 sides i)).
      apply close_add; [now apply get_double|apply dbl_opp; now apply get_double| |apply close_mono with 0%nat; [lia|apply close_refl]].
      rewrite E. apply close_add; try (now apply get_double); apply close_refl.
    + intros _ i Hi. rewrite get_tab by exact Hi. apply Rmax_r.
  - refine (conj W (conj S (conj _ (fun H => H)))). intros i _. replace (get 0 st i + get 0 w i - get 0 w i) with (get 0 st i) by ring.
    apply close_weak with (Rabs (get 0 st i)); [apply close_mono with 0%nat; [lia|apply close_refl]|]. pose proof (Rabs_pos (get 0 w i)). lra.
Qed.

(** the sizes of the terms of [expected] *)
Definition term_sizes (lat v q : list R) (i : nat) : R :=
  Rabs (get 0 v i) + Rabs (get 0 lat i) + over (fun j => if flows_to G d8 j i then Rabs (fmul dt (get 0 q j)) else 0) + Rabs (fmul dt (get 0 q i)).

Lemma flow_volume_spec att r q v st : length v = n -> Forall is_double v -> Forall is_double st ->
  let lat := fst (hillslope G dt att (runoff G da dt r) st) in
  let '(v', st') := update_flow_volume G d8 pid da dt att r q v st in
  st' = snd (hillslope G dt att (runoff G da dt r) st) /\ length v' = n /\ Forall is_double v' /\
  forall i, (i < n)%nat -> 0 <= get 0 v' i /\ Rabs (get 0 v' i - Rmax (expected lat v q i) 0) <= err 10 * term_sizes lat v q i.
Proof.
  intros L D Ds. unfold update_flow_volume. pose proof (hillslope_spec att (runoff G da dt r) st (runoff_double r) Ds) as H.
  destruct (hillslope G dt att (runoff G da dt r) st) as [lat st']. destruct H as (Dl & _). cbn [fst snd].
  set (v1 := tab n (fun i => fadd (get 0 v i) (get 0 lat i))).
  destruct (route_spec q v1) as [_ R]; [apply tab_length|].
  refine (conj eq_refl (conj (tab_length _ _) (conj _ _))).
  - apply tab_double. intros i _. unfold Rmax. destruct (Rle_dec _ _); [apply dbl_0|apply dbl_rnd].
  - intros i Hi. rewrite get_tab by exact Hi. split; [apply Rmax_r|]. rewrite R.
    assert (E1 : get 0 v1 i = fadd (get 0 v i) (get 0 lat i)) by (unfold v1; now rewrite get_tab by exact Hi). rewrite E1.
    assert (C1 : close 1 (fadd (get 0 v i) (get 0 lat i)) (get 0 v i + get 0 lat i) (Rabs (get 0 v i) + Rabs (get 0 lat i))).
    { apply close_add; try (now apply get_double); apply close_refl. }
    set (l := map (fun j => fmul dt (get 0 q j)) (tribs i)).
    assert (Dt : Forall is_double l) by (apply Forall_forall; intros x I; apply in_map_iff in I; destruct I as (p & <- & _); apply dbl_rnd).
    destruct (fold_close _ _ _ _ _ (dbl_rnd _) C1 Dt) as [C2 D2]. fold (fadd (get 0 v i) (get 0 lat i)) in C2, D2.
    assert (LEN : (length l <= 8)%nat) by (unfold l; rewrite map_length; apply (tribs_network i Hi)).
    set (f := fold_left fadd l (fadd (get 0 v i) (get 0 lat i))) in *.
    assert (C3 : close 10 (rnd (f + - fmul (get 0 q i) dt)) (get 0 v i + get 0 lat i + rsum l + - fmul (get 0 q i) dt) (Rabs (get 0 v i) + Rabs (get 0 lat i) + asum l + Rabs (- fmul (get 0 q i) dt))).
    { apply close_add; [exact D2|apply dbl_opp, dbl_rnd|apply close_mono with (length l + 1)%nat; [lia|exact C2]|apply close_mono with 0%nat; [lia|apply close_refl]]. }
    destruct C3 as [C3 _]. unfold fsub, Rminus at 2.
    assert (E2 : rsum l = over (fun j => if flows_to G d8 j i then fmul dt (get 0 q j) else 0)) by (rewrite <- (inflow_tribs (fun j => fmul dt (get 0 q j)) i Hi); reflexivity).
    assert (E3 : asum l = over (fun j => if flows_to G d8 j i then Rabs (fmul dt (get 0 q j)) else 0)).
    { rewrite <- (inflow_tribs (fun j => Rabs (fmul dt (get 0 q j))) i Hi). unfold asum, l, rsumf. now rewrite map_map. }
    unfold term_sizes, Net64_Props.expected. rewrite <- E2, <- E3. rewrite Rabs_Ropp in C3. rewrite (fmul_comm dt (get 0 q i)).
    eapply Rle_trans; [|exact C3]. set (A := rnd _). unfold Rminus at 2. set (B := get 0 v i + _ + _ + _).
    unfold Rmax. destruct (Rle_dec A 0), (Rle_dec B 0); unfold Rabs; repeat destruct Rcase_abs; lra.
Qed.

Lemma over_plus f g : over (fun i => f i + g i) = over f + over g. Proof. apply rsumf_plus. Qed.
Lemma over_ext f g : (forall i, (i < n)%nat -> f i = g i) -> over f = over g.
Proof. intros H. apply rsumf_ext. intros i I. apply in_seq in I. apply H. lia. Qed.
Lemma over_le f g : (forall i, (i < n)%nat -> f i <= g i) -> over f <= over g.
Proof. intros H. apply rsumf_le. intros i I. apply in_seq in I. apply H. lia. Qed.
Lemma over_scal c f : over (fun i => c * f i) = c * over f. Proof. apply rsumf_scal. Qed.
Lemma over_dist f g e : (forall i, (i < n)%nat -> Rabs (f i - g i) <= e i) -> Rabs (over f - over g) <= over e.
Proof.
  intros H. unfold Net64_Props.over. assert (K : forall l, (forall i, In i l -> (i < n)%nat) -> Rabs (rsumf f l - rsumf g l) <= rsumf e l).
  { induction l as [|i l IH]; intros I; [unfold rsumf; cbn; rewrite Rminus_0_r, Rabs_R0; lra|].
    change (Rabs (f i + rsumf f l - (g i + rsumf g l)) <= e i + rsumf e l).
    replace (f i + rsumf f l - (g i + rsumf g l)) with ((f i - g i) + (rsumf f l - rsumf g l)) by ring.
    eapply Rle_trans; [apply Rabs_triang|]. apply Rplus_le_compat; [apply H, I; now left|apply IH; intros; apply I; now right]. }
  apply K. intros i I. apply in_seq in I. lia.
Qed.

(** each discharge is given to one cell, and cells that do not flow have none *)
Lemma exchange_all w : (forall j, (j < n)%nat -> flows G d8 j = false -> w j = 0) ->
  over (fun i => over (fun j => if flows_to G d8 j i then w j else 0)) = over w.
Proof.
  intros Z. pose proof (exchange n (next G d8) tribs w tribs_network) as E. unfold cells in E.
  transitivity (rsumf (fun i => rsumf w (tribs i)) (seq 0 n)).
  { apply over_ext. intros i Hi. symmetry. now apply inflow_tribs. }
  rewrite E, rsumf_filter. replace (rsumf (fun x => if leaves_grid n (next G d8) x then w x else 0) (seq 0 n)) with 0; [unfold over; ring|].
  symmetry. transitivity (rsumf (fun _ => 0) (seq 0 n)); [|apply rsumf_0]. apply rsumf_ext. intros j J. apply in_seq in J. unfold leaves_grid. destruct (next G d8 j) as [k|] eqn:N.
  - assert (K : (k < n)%nat) by (eapply next_lt; eassumption). apply Nat.ltb_lt in K. now rewrite K.
  - apply Z; [lia|]. unfold flows. now rewrite N.
Qed.

(** one update: the sizes of everything that is held or moved, and the water made up *)
Definition moved (att : option R) (s : state) (x : list R * list R) : R :=
  let w := runoff G da dt (fst x) in
  let lat := fst (hillslope G dt att w (vol_stored s)) in
  over (fun i => Rabs (get 0 (vol s) i) + Rabs (get 0 (vol_stored s) i) + 2 * Rabs (get 0 w i) + 2 * Rabs (get 0 lat i) + 2 * Rabs (fmul dt (get 0 (snd x) i)))
  + Rabs (vol_R s) + Rabs (vol_edge s) + over (get 0 (fst (update_flow_volume G d8 pid da dt att (fst x) (snd x) (vol s) (vol_stored s)))).
Definition step_made_up (att : option R) (s : state) (x : list R * list R) : R :=
  over (made_up (fst (hillslope G dt att (runoff G da dt (fst x)) (vol_stored s))) (vol s) (snd x)).

Record ok (s : state) : Prop := {
  ok_len : length (vol s) = n; ok_vol : Forall is_double (vol s); ok_st : Forall is_double (vol_stored s);
  ok_R : is_double (vol_R s); ok_edge : is_double (vol_edge s) }.
(** cells that do not flow have no discharge *)
Definition still (x : list R * list R) : Prop := forall j, (j < n)%nat -> flows G d8 j = false -> get 0 (snd x) j = 0.

Lemma noflow_iff i : (i < n)%nat -> (get 0%Z d8 i <=? 0)%Z = negb (flows G d8 i).
Proof.
  intros Hi. unfold flows. destruct Hcodes as [_ C]. destruct (next G d8 i) as [j|] eqn:N; cbn [negb].
  - apply next_spec in N as (k & K & E & _). pose proof (g_range k K). apply Z.leb_gt. lia.
  - apply Z.leb_le. destruct (C i Hi) as [Z|Z]; [lia|]. unfold next, target in N. unfold is_code in Z.
    destruct (offset (get 0%Z d8 i)) as [[a b]|]; [discriminate|congruence].
Qed.

Lemma rsum_map_over (l : list R) : length l = n -> rsum l = over (get 0 l).
Proof. intros L. rewrite <- (tab_get 0 l) at 1. rewrite L. reflexivity. Qed.

Lemma update_spec att s x : ok s -> still x ->
  let s' := update G d8 pid da dt order att s x in
  ok s' /\ (forall i, (i < n)%nat -> 0 <= get 0 (vol s') i) /\
  Rabs ((stock G s' - vol_R s') - (stock G s - vol_R s) - step_made_up att s x) <= err (h + 10) * moved att s x.
Proof.
  intros [L D Ds DR DE] Hx. destruct x as [r q]. unfold still in Hx. cbn [snd] in Hx. unfold update, step_made_up, moved. cbn [fst snd].
  set (w := runoff G da dt r). set (lat := fst (hillslope G dt att w (vol_stored s))).
  assert (Dw : Forall is_double w) by apply runoff_double.
  pose proof (hillslope_spec att w (vol_stored s) Dw Ds) as H1. pose proof (flow_volume_spec att r q (vol s) (vol_stored s) L D Ds) as H2.
  fold w in H2. fold lat in H2. destruct (update_flow_volume G d8 pid da dt att r q (vol s) (vol_stored s)) as [v st'].
  destruct (hillslope G dt att w (vol_stored s)) as [lat' st'']. cbn [fst snd] in *. subst lat. destruct H2 as (-> & Lv & Dv & Hv). destruct H1 as (Dl & Dst & Hst & _).
  set (nf := map (get 0 v) (Chan_Model.noflow_IDs G d8)).
  assert (Dn : Forall is_double nf) by (apply Forall_forall; intros y Y; apply in_map_iff in Y as (i & <- & _); now apply get_double).
  assert (Ln : (length nf <= n)%nat).
  { unfold nf. rewrite map_length. unfold Chan_Model.noflow_IDs. rewrite <- (seq_length n 0) at 2. generalize (seq 0 n). clear. induction l as [|a l IH]; cbn; [lia|]. destruct (Z.leb _ _); cbn; lia. }
  assert (Lw0 : (length w <= n)%nat) by (unfold w, runoff; now rewrite tab_length).
  destruct (npsum_close order n h w Horder Lw0 Dw) as [Dsum Csum]. destruct (npsum_close order n h nf Horder Ln Dn) as [Dsn Csn].
  split; [|split].
  - constructor; cbn [vol vol_stored vol_R vol_edge]; [apply tab_length| |exact Dst|apply dbl_rnd|apply dbl_rnd].
    apply tab_double. intros i _. destruct (Z.leb _ _); [apply dbl_0|now apply get_double].
  - cbn [vol]. intros i Hi. rewrite get_tab by exact Hi. destruct (Z.leb _ _); [lra|apply (Hv i Hi)].
  - unfold stock. cbn [vol vol_stored vol_R vol_edge].
    assert (CR : close (S h) (fadd (vol_R s) (npsum order w)) (vol_R s + rsum w) (Rabs (vol_R s) + asum w)).
    { apply close_add; [exact DR|exact Dsum|apply close_mono with 0%nat; [lia|apply close_refl]|exact Csum]. }
    assert (CE : close (S h) (fadd (vol_edge s) (npsum order nf)) (vol_edge s + rsum nf) (Rabs (vol_edge s) + asum nf)).
    { apply close_add; [exact DE|exact Dsn|apply close_mono with 0%nat; [lia|apply close_refl]|exact Csn]. }
    assert (Lw : length w = n) by apply tab_length.
    assert (EW : rsum w = over (get 0 w)) by (apply rsum_map_over; exact Lw).
    assert (AW : asum w = over (fun i => Rabs (get 0 w i))).
    { unfold asum. rewrite <- (tab_get 0 w) at 1. rewrite Lw. unfold tab. rewrite map_map. reflexivity. }
    assert (EN : over (get 0 v) = over (get 0 (tab n (fun i => if (get 0%Z d8 i <=? 0)%Z then 0 else get 0 v i))) + rsum nf).
    { unfold nf. fold (rsumf (get 0 v) (Chan_Model.noflow_IDs G d8)). unfold Chan_Model.noflow_IDs. rewrite rsumf_filter. fold (over (fun x => if (get 0%Z d8 x <=? 0)%Z then get 0 v x else 0)).
      rewrite <- over_plus. apply over_ext. intros i Hi. rewrite get_tab by exact Hi. destruct (Z.leb _ _); ring. }
    assert (AN : asum nf <= over (get 0 v)).
    { unfold asum, nf. rewrite map_map. fold (rsumf (fun i => Rabs (get 0 v i)) (Chan_Model.noflow_IDs G d8)). unfold Chan_Model.noflow_IDs. rewrite rsumf_filter.
      apply over_le. intros i Hi. destruct (Hv i Hi) as [P _]. destruct (Z.leb _ _); [rewrite Rabs_pos_eq by exact P; lra|exact P]. }
    (* the cells *)
    assert (K1 : Rabs (over (get 0 v) - over (fun i => Rmax (expected lat' (vol s) q i) 0)) <= over (fun i => err 10 * term_sizes lat' (vol s) q i)) by (apply over_dist; intros i Hi; apply Hv; exact Hi).
    assert (K2 : Rabs (over (get 0 st'') - over (fun i => get 0 (vol_stored s) i + get 0 w i - get 0 lat' i)) <= over (fun i => err 2 * (Rabs (get 0 (vol_stored s) i) + Rabs (get 0 w i) + Rabs (get 0 lat' i)))).
    { apply over_dist. intros i Hi. apply (Hst i Hi). }
    rewrite over_scal in K1, K2.
    assert (X1 : over (fun i => Rmax (expected lat' (vol s) q i) 0) = over (get 0 (vol s)) + over (get 0 lat') + over (made_up lat' (vol s) q)).
    { rewrite (over_ext _ (fun i => (get 0 (vol s) i + get 0 lat' i) + ((over (fun j => if flows_to G d8 j i then fmul dt (get 0 q j) else 0) + -1 * fmul dt (get 0 q i)) + made_up lat' (vol s) q i))).
      - rewrite !over_plus, over_scal, exchange_all; [ring|]. intros j J F. rewrite (Hx j J F). unfold fmul. rewrite Rmult_0_r. apply rnd_0.
      - intros i Hi. unfold Net64_Props.made_up. set (e := expected lat' (vol s) q i).
        replace (get 0 (vol s) i + get 0 lat' i + (over (fun j => if flows_to G d8 j i then fmul dt (get 0 q j) else 0) + -1 * fmul dt (get 0 q i) + Rmax 0 (- e))) with (e + Rmax 0 (- e)) by (unfold e, Net64_Props.expected; ring).
        unfold Rmax. destruct (Rle_dec e 0), (Rle_dec 0 (- e)); lra. }
    assert (X2 : over (fun i => get 0 (vol_stored s) i + get 0 w i - get 0 lat' i) = over (get 0 (vol_stored s)) + over (get 0 w) - over (get 0 lat')).
    { rewrite (over_ext _ (fun i => (get 0 (vol_stored s) i + get 0 w i) + -1 * get 0 lat' i)) by (intros; ring). rewrite !over_plus, over_scal. ring. }
    assert (X3 : over (term_sizes lat' (vol s) q) = over (fun i => Rabs (get 0 (vol s) i)) + over (fun i => Rabs (get 0 lat' i)) + 2 * over (fun i => Rabs (fmul dt (get 0 q i)))).
    { unfold term_sizes. rewrite !over_plus, exchange_all; [ring|]. intros j J F. rewrite (Hx j J F). unfold fmul. rewrite Rmult_0_r, rnd_0. apply Rabs_R0. }
    rewrite X1, X3 in K1. rewrite X2, !over_plus in K2. rewrite !over_plus, !over_scal.
    destruct CR as [CR _]. destruct CE as [CE _]. rewrite EW, AW in CR.
    assert (NN : forall f, 0 <= over (fun i => Rabs (f i))) by (intros f; unfold Net64_Props.over; apply Rle_trans with (rsumf (fun _ : nat => 0) (seq 0 n)); [rewrite rsumf_0; lra|apply rsumf_le; intros; apply Rabs_pos]).
    pose proof (NN (get 0 (vol s))). pose proof (NN (get 0 (vol_stored s))). pose proof (NN (get 0 w)). pose proof (NN (get 0 lat')). pose proof (NN (fun i => fmul dt (get 0 q i))).
    pose proof (Rabs_pos (vol_R s)). pose proof (Rabs_pos (vol_edge s)).
    assert (NV : 0 <= over (get 0 v)) by (eapply Rle_trans; [|exact AN]; unfold asum; clear; induction nf as [|y l IH]; cbn; [lra|pose proof (Rabs_pos y); lra]).
    set (E := err (h + 10)).
    assert (M1 : err 10 <= E) by (apply err_mono; lia). assert (M2 : err 2 <= E) by (apply err_mono; lia). assert (M3 : err (S h) <= E) by (apply err_mono; lia).
    assert (UP : forall e a b, 0 <= a -> a <= b -> e <= E -> 0 <= e -> e * a <= E * b) by (intros; apply Rmult_le_compat; assumption).
    assert (B1 := UP (err 10) (over (fun i => Rabs (get 0 (vol s) i)) + over (fun i => Rabs (get 0 lat' i)) + 2 * over (fun i => Rabs (fmul dt (get 0 q i)))) _ ltac:(lra) (Rle_refl _) M1 (err_pos _)).
    assert (B2 := UP (err 2) (over (fun i => Rabs (get 0 (vol_stored s) i)) + over (fun i => Rabs (get 0 w i)) + over (fun i => Rabs (get 0 lat' i))) _ ltac:(lra) (Rle_refl _) M2 (err_pos _)).
    assert (B3 := UP (err (S h)) (Rabs (vol_R s) + over (fun i => Rabs (get 0 w i))) _ ltac:(lra) (Rle_refl _) M3 (err_pos _)).
    assert (B4 := UP (err (S h)) (Rabs (vol_edge s) + asum nf) (Rabs (vol_edge s) + over (get 0 v)) ltac:(apply Rplus_le_le_0_compat; [lra|]; unfold asum; clear; induction nf as [|y l IH]; cbn; [lra|pose proof (Rabs_pos y); lra]) ltac:(lra) M3 (err_pos _)).
    set (v'' := over (get 0 (tab n _))) in *.
    match goal with |- Rabs ?t <= _ => replace t with
      ((over (get 0 v) - (over (get 0 (vol s)) + over (get 0 lat') + over (made_up lat' (vol s) q)))
       + ((over (get 0 st'') - (over (get 0 (vol_stored s)) + over (get 0 w) - over (get 0 lat')))
       + ((fadd (vol_edge s) (npsum order nf) - (vol_edge s + rsum nf)) + - (fadd (vol_R s) (npsum order w) - (vol_R s + over (get 0 w)))))) by (rewrite EN; ring) end.
    eapply Rle_trans; [apply Rabs_triang|]. eapply Rle_trans; [apply Rplus_le_compat_l, Rabs_triang|].
    eapply Rle_trans; [apply Rplus_le_compat_l, Rplus_le_compat_l, Rabs_triang|]. rewrite Rabs_Ropp. lra.
Qed.
End Grid.

(** ** The theorems *)

Section Run.
Variable G : D8_Model.geom.
Variables (d8 pid : list Z) (da : nat -> R) (dt : R) (order : list R -> tree) (att : option R).
Fixpoint run_made_up (s : state) (xs : list (list R * list R)) : R :=
  match xs with [] => 0 | x :: t => step_made_up G d8 da dt att s x + run_made_up (update G d8 pid da dt order att s x) t end.
End Run.
Fixpoint run_moved G d8 O da dt order att (s : state) (xs : list (list R * list R)) : R :=
  match xs with [] => 0 | x :: t => moved G d8 O da dt att s x + run_moved G d8 O da dt order att (update G d8 (D8_Model.update_parent_ID_grid G O d8) da dt order att s x) t end.

(** The runoff of a cell is the rate times its area times the step, up to (1 + 2^-53)^2 - 1 of it. *)
Theorem C111_runoff : forall G da dt r i, (i < D8_Model.ncells G)%nat -> normal (get 0 r i * da i) -> normal (get 0 r i * da i * dt) ->
  Rabs (get 0 (runoff G da dt r) i - get 0 r i * da i * dt) <= err 2 * Rabs (get 0 r i * da i * dt).
Proof. intros G da dt r i Hi N1 N2. unfold runoff. rewrite get_tab by exact Hi. now apply volume_close. Qed.
Print Assumptions C111_runoff.

(** After one update the volume of every cell is what it held plus what came from its hillslope and
    from the cells that flow to it minus what it sends, or zero if that is negative, up to
    (1 + 2^-53)^10 - 1 of the sizes of these terms. *)
Theorem C111_cell : forall G O d8 da dt att r q v st i, geom_ok G ->
  (forall i, (i < D8_Model.ncells G)%nat -> closed_side G O i -> get 0%Z d8 i = 0%Z) ->
  length v = D8_Model.ncells G -> Forall is_double v -> Forall is_double st -> (i < D8_Model.ncells G)%nat ->
  let lat := fst (hillslope G dt att (runoff G da dt r) st) in
  let v' := fst (update_flow_volume G d8 (D8_Model.update_parent_ID_grid G O d8) da dt att r q v st) in
  0 <= get 0 v' i /\ Rabs (get 0 v' i - Rmax (expected G d8 dt lat v q i) 0) <= err 10 * term_sizes G d8 dt lat v q i.
Proof.
  intros G O d8 da dt att r q v st i HG HC L D Ds Hi. pose proof (flow_volume_spec G HG d8 O HC da dt 0%nat att r q v st L D Ds) as H.
  cbv zeta in *. destruct (update_flow_volume G d8 _ da dt att r q v st) as [v' st']. cbn [fst]. now apply H.
Qed.
Print Assumptions C111_cell.

(** With attenuation: what is on the hillslope, plus the runoff, minus what it gives to the channel,
    stays, up to (1 + 2^-53)^2 - 1 of the sizes; it is not negative, and a hillslope with water
    gives at most what it has. *)
Theorem C111_hillslope : forall G dt n_days w st i, Forall is_double w -> Forall is_double st -> (i < D8_Model.ncells G)%nat ->
  let '(lat, st') := hillslope G dt (Some n_days) w st in
  0 <= get 0 st' i /\ get 0 lat i <= fadd (get 0 st i) (get 0 w i) /\
  Rabs (get 0 st' i + get 0 lat i - (get 0 st i + get 0 w i)) <= err 2 * (Rabs (get 0 st i) + Rabs (get 0 w i) + Rabs (get 0 lat i)) /\
  (0 <= dt -> 0 <= n_days -> 0 <= get 0 st i + get 0 w i -> 0 <= get 0 lat i).
Proof.
  intros G dt nd w st i W S Hi. pose proof (hillslope_spec G dt (Some nd) w st W S) as H. cbn [hillslope] in *. destruct H as (_ & _ & C & _).
  destruct (C i Hi) as [C1 _]. clear C. refine (conj _ (conj _ (conj _ _))).
  - rewrite get_tab by exact Hi. apply Rmax_r.
  - rewrite (get_tab 0 _ (fun i => Rmin _ _)) by exact Hi. rewrite (get_tab 0 _ (fun i => fadd _ _)) by exact Hi. apply Rmin_r.
  - match goal with |- Rabs (?a + ?b - ?c) <= _ => replace (a + b - c) with (a - (c - b)) by ring end. exact C1.
  - intros T N P. rewrite (get_tab 0 _ (fun i => Rmin _ _)) by exact Hi. rewrite (get_tab 0 _ (fun i => fadd _ _)) by exact Hi.
    assert (Q : 0 <= fadd (get 0 st i) (get 0 w i)) by (apply rnd_pos; exact P). apply Rmin_glb; [|exact Q].
    apply rnd_pos, Rmult_le_pos; [|exact T]. apply rnd_pos. assert (F : 0 <= fmul 86400 nd) by (apply rnd_pos; lra).
    destruct F as [F|F]; [apply Rmult_le_pos; [exact Q|left; now apply Rinv_0_lt_compat]|]. rewrite <- F. unfold Rdiv. rewrite Rinv_0. lra.
Qed.
Print Assumptions C111_hillslope.

(** Over any number of updates, with or without attenuation and whatever the runoffs and the
    discharges: the water in the channels, on the hillslopes and gone over the edges grows by the
    reported total of runoff plus the water made up where a cell sends more than it has, up to
    (1 + 2^-53)^(h + 10) - 1 of all that is held and moved; h is the depth of the orders of summation. *)
Theorem C111_run : forall G O d8 da dt order h att xs s, geom_ok G ->
  (forall i, (i < D8_Model.ncells G)%nat -> closed_side G O i -> get 0%Z d8 i = 0%Z) ->
  summation order (D8_Model.ncells G) h -> ok G s -> Forall (still G d8) xs ->
  let pid := D8_Model.update_parent_ID_grid G O d8 in
  let s' := run G d8 pid da dt order att s xs in
  ok G s' /\ 0 <= run_made_up G d8 pid da dt order att s xs /\
  Rabs ((stock G s' - stock G s) - (vol_R s' - vol_R s) - run_made_up G d8 pid da dt order att s xs) <= err (h + 10) * run_moved G d8 O da dt order att s xs.
Proof.
  intros G O d8 da dt order h att xs s HG HC HO. cbv zeta. revert s. induction xs as [|x xs IH]; intros s K F; cbn [run fold_left run_made_up run_moved].
  - refine (conj K (conj (Rle_refl 0) _)). replace (stock G s - stock G s - (vol_R s - vol_R s) - 0) with 0 by ring. rewrite Rabs_R0. lra.
  - inversion F as [|? ? F1 F2]; subst. destruct (update_spec G HG d8 O HC da dt order h HO att s x K F1) as (K' & _ & E).
    destruct (IH _ K' F2) as (A & B & C). fold (run G d8 (D8_Model.update_parent_ID_grid G O d8) da dt order att (update G d8 (D8_Model.update_parent_ID_grid G O d8) da dt order att s x) xs).
    refine (conj A (conj _ _)).
    + apply Rplus_le_le_0_compat; [|exact B]. unfold step_made_up, over. apply Rle_trans with (rsumf (fun _ : nat => 0) (seq 0 (D8_Model.ncells G))); [rewrite rsumf_0; lra|].
      apply rsumf_le. intros i _. apply Rmax_l.
    + set (s1 := update _ _ _ _ _ _ _ _ _) in *. set (s2 := run _ _ _ _ _ _ _ _ _) in *. set (m1 := step_made_up _ _ _ _ _ _ _) in *. set (m2 := run_made_up _ _ _ _ _ _ _ _ _) in *.
      replace (stock G s2 - stock G s - (vol_R s2 - vol_R s) - (m1 + m2)) with ((stock G s2 - stock G s1 - (vol_R s2 - vol_R s1) - m2) + (stock G s1 - vol_R s1 - (stock G s - vol_R s) - m1)) by ring.
      eapply Rle_trans; [apply Rabs_triang|]. lra.
Qed.
Print Assumptions C111_run.

(** After any positive number of updates no volume is negative. *)
Theorem C111_nonneg : forall G O d8 da dt order h att xs x s i, geom_ok G ->
  (forall i, (i < D8_Model.ncells G)%nat -> closed_side G O i -> get 0%Z d8 i = 0%Z) ->
  summation order (D8_Model.ncells G) h -> ok G s -> Forall (still G d8) (xs ++ [x]) -> (i < D8_Model.ncells G)%nat ->
  0 <= get 0 (vol (run G d8 (D8_Model.update_parent_ID_grid G O d8) da dt order att s (xs ++ [x]))) i.
Proof.
  intros G O d8 da dt order h att xs x s i HG HC HO K F Hi. apply Forall_app in F as [F1 F2]. inversion F2; subst. unfold run. rewrite fold_left_app. cbn [fold_left].
  apply (update_spec G HG d8 O HC da dt order h HO att _ x); [|assumption|exact Hi].
  apply (C111_run G O d8 da dt order h att xs s HG HC HO K F1).
Qed.
Print Assumptions C111_nonneg.

(** The cells that do not flow are empty after every update: what reaches them counts as gone. *)
Theorem C111_edges : forall G d8 pid da dt order att s x i, code_grid G d8 -> (i < D8_Model.ncells G)%nat -> flows G d8 i = false ->
  get 0 (vol (update G d8 pid da dt order att s x)) i = 0.
Proof.
  intros G d8 pid da dt order att s [r q] i C Hi F. unfold update. destruct (update_flow_volume G d8 pid da dt att r q (vol s) (vol_stored s)) as [v st]. cbn [vol].
  rewrite get_tab by exact Hi. now rewrite (noflow_iff G d8 C i Hi), F.
Qed.
Print Assumptions C111_edges.

(** ** A case: 3 x 3 cells of 4 m3, the middle one flows east *)
Definition G3 : D8_Model.geom := D8_Model.mkGeom 3 3 1%Q 1%Q (3#2)%Q.
Definition O3 : D8_Model.opts := D8_Model.mkOpts true true false false (-(9999#1))%Q.
Definition d3 : list Z := [0; 0; 0;  0; 2; 0;  0; 0; 0]%Z.
Fixpoint chain (l : list R) : tree := match l with [] => Leaf 0 | [x] => Leaf x | x :: r => Node (Leaf x) (chain r) end.
Lemma chain_leaves l : l <> [] -> leaves (chain l) = l.
Proof. induction l as [|x [|y l] IH]; intros H; [congruence|reflexivity|]. cbn [chain leaves]. cbn [app]. f_equal. apply IH. discriminate. Qed.
Lemma chain_depth l : (depth (chain l) <= length l)%nat.
Proof.
  induction l as [|x [|y l] IH]; [apply le_n|apply le_S, le_n|]. change (S (Nat.max 0 (depth (chain (y :: l)))) <= S (length (y :: l)))%nat. lia.
Qed.
Definition s3 : state := mkSt (repeat 4 9) (repeat 0 9) 0 0.
Definition x3 : list R * list R := (repeat 2 9, [0; 0; 0; 0; 1; 0; 0; 0; 0]).

Lemma zadd a b : (Z.abs (a + b) <= 2 ^ 53)%Z -> fadd (IZR a) (IZR b) = IZR (a + b).
Proof. intros H. unfold fadd. rewrite <- plus_IZR. now apply rnd_IZR. Qed.
Lemma zsub a b : (Z.abs (a - b) <= 2 ^ 53)%Z -> fsub (IZR a) (IZR b) = IZR (a - b).
Proof. intros H. unfold fsub. rewrite <- minus_IZR. now apply rnd_IZR. Qed.
Lemma zmul a b : (Z.abs (a * b) <= 2 ^ 53)%Z -> fmul (IZR a) (IZR b) = IZR (a * b).
Proof. intros H. unfold fmul. rewrite <- mult_IZR. now apply rnd_IZR. Qed.
Lemma zmax a : (0 <= a)%Z -> Rmax (IZR a) 0 = IZR a.
Proof. intros H. apply Rmax_left. now apply IZR_le. Qed.
Ltac zs := repeat first [rewrite zadd by (vm_compute; congruence) | rewrite zsub by (vm_compute; congruence) | rewrite zmul by (vm_compute; congruence)];
  cbn [Z.add Z.sub Z.opp Z.mul Pos.add Pos.mul Z.pos_sub Pos.succ Pos.pred_double Pos.add_carry].

Example C111_case :
  geom_ok G3 /\ (forall i, (i < D8_Model.ncells G3)%nat -> closed_side G3 O3 i -> get 0%Z d3 i = 0%Z) /\ code_grid G3 d3 /\
  summation chain (D8_Model.ncells G3) 9 /\ ok G3 s3 /\ Forall (still G3 d3) [x3] /\
  update G3 d3 (D8_Model.update_parent_ID_grid G3 O3 d3) (fun _ => 1) 1 chain None s3 x3 = mkSt [0; 0; 0; 0; 5; 0; 0; 0; 0] (repeat 0 9) 18 49 /\
  stock G3 s3 = 36 /\ stock G3 (mkSt [0; 0; 0; 0; 5; 0; 0; 0; 0] (repeat 0 9) 18 49) = 54.
Proof.
  assert (N : D8_Model.ncells G3 = 9%nat) by (vm_compute; reflexivity).
  assert (I : forall z, (Z.abs z <= 2 ^ 53)%Z -> is_double (IZR z)) by (intros z H; rewrite <- (rnd_IZR z H); apply dbl_rnd).
  split; [repeat split; reflexivity|]. split; [|split; [|split; [|split; [|split; [|split; [|split]]]]]].
  - intros i Hi Hs. rewrite N in Hi. do 9 (destruct i as [|i]; [first [reflexivity |
      exfalso; destruct Hs as [[_ [H|H]]|[_ [H|H]]]; vm_compute in H; discriminate H]|]). lia.
  - split; [reflexivity|]. rewrite N. intros i Hi. do 9 (destruct i as [|i]; [first [left; reflexivity | right; discriminate]|]). lia.
  - intros l H L. rewrite chain_leaves by exact H. split; [reflexivity|]. rewrite N in L. pose proof (chain_depth l). lia.
  - constructor; cbn [s3 vol vol_stored vol_R vol_edge]; [symmetry; exact N| | |apply dbl_0|apply dbl_0].
    + apply Forall_forall. intros y Y. apply repeat_spec in Y. subst. apply I. vm_compute. congruence.
    + apply Forall_forall. intros y Y. apply repeat_spec in Y. subst. apply dbl_0.
  - constructor; [|constructor]. intros j Hj F. rewrite N in Hj. do 9 (destruct j as [|j]; [first [reflexivity | vm_compute in F; discriminate F]|]). lia.
  - set (p := D8_Model.update_parent_ID_grid G3 O3 d3).
    assert (F0 : D8_Model.flow_from G3 d3 0 = []) by (vm_compute; reflexivity). assert (T0 : D8_Model.flow_to G3 d3 p 0 = []) by (vm_compute; reflexivity).
    assert (F1 : D8_Model.flow_from G3 d3 1 = [4%nat]) by (vm_compute; reflexivity). assert (T1 : D8_Model.flow_to G3 d3 p 1 = [5%nat]) by (vm_compute; reflexivity).
    assert (F2 : D8_Model.flow_from G3 d3 2 = []) by (vm_compute; reflexivity). assert (T2 : D8_Model.flow_to G3 d3 p 2 = []) by (vm_compute; reflexivity).
    assert (F3 : D8_Model.flow_from G3 d3 3 = []) by (vm_compute; reflexivity). assert (T3 : D8_Model.flow_to G3 d3 p 3 = []) by (vm_compute; reflexivity).
    assert (F4 : D8_Model.flow_from G3 d3 4 = []) by (vm_compute; reflexivity). assert (T4 : D8_Model.flow_to G3 d3 p 4 = []) by (vm_compute; reflexivity).
    assert (F5 : D8_Model.flow_from G3 d3 5 = []) by (vm_compute; reflexivity). assert (T5 : D8_Model.flow_to G3 d3 p 5 = []) by (vm_compute; reflexivity).
    assert (F6 : D8_Model.flow_from G3 d3 6 = []) by (vm_compute; reflexivity). assert (T6 : D8_Model.flow_to G3 d3 p 6 = []) by (vm_compute; reflexivity).
    assert (F7 : D8_Model.flow_from G3 d3 7 = []) by (vm_compute; reflexivity). assert (T7 : D8_Model.flow_to G3 d3 p 7 = []) by (vm_compute; reflexivity).
    assert (NF : Chan_Model.noflow_IDs G3 d3 = [0; 1; 2; 3; 5; 6; 7; 8]%nat) by (vm_compute; reflexivity).
    clearbody p.
    assert (W : runoff G3 (fun _ => 1) 1 (repeat 2 9) = repeat 2 9).
    { unfold runoff. rewrite N. unfold tab, volume. cbn [seq map repeat get nth]. zs. reflexivity. }
    unfold update, x3, s3, update_flow_volume. rewrite W. cbn [hillslope vol vol_stored vol_R vol_edge]. rewrite NF, N.
    unfold route_inflow, D8_Model.dirs. cbn [fold_left]. rewrite F0, F1, F2, F3, F4, F5, F6, F7, T0, T1, T2, T3, T4, T5, T6, T7.
    unfold tab, fancy_add, npsum. cbn [seq map repeat get nth combine fold_left fst snd set chain fsum d3 Z.leb Z.compare]. zs.
    rewrite !zmax by (vm_compute; congruence). zs. reflexivity.
  - unfold stock, over. rewrite N. unfold rsumf. cbn [s3 vol vol_stored vol_edge seq map rsum repeat get nth]. ring.
  - unfold stock, over. rewrite N. unfold rsumf. cbn [vol vol_stored vol_edge seq map rsum repeat get nth]. ring.
Qed.
