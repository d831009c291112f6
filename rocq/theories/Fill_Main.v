From Coq Require Import ZArith QArith Qminmax List Bool Lia Lqa ZifyBool Permutation.
From Verif Require Import Base Fill_Model Fill_Spec Fill_Proofs.
From Verif Require D8_Proofs.
Import ListNotations.
Local Open Scope Q_scope.

Section Main.
Variables nx ny : nat.
Hypothesis Hnx : (1 <= nx)%nat.
Hypothesis Hny : (1 <= ny)%nat.
Notation n := (nx * ny)%nat.
Notation start_cell := (Fill_Spec.start_cell nx ny).
Notation edge_cell := (Fill_Spec.edge_cell nx ny).
Notation forgotten := (Fill_Spec.forgotten nx ny).

Lemma fold_set_get {A} (d v : A) ids : forall l, (forall j, In j ids -> (j < length l)%nat) ->
  length (fold_left (fun C ID => set C ID v) ids l) = length l /\
  (forall i, In i ids -> get d (fold_left (fun C ID => set C ID v) ids l) i = v) /\
  (forall i, ~ In i ids -> get d (fold_left (fun C ID => set C ID v) ids l) i = get d l i).
Proof.
  induction ids as [|a ids IH]; intros l Hl; cbn [fold_left].
  - repeat split; auto. intros i [].
  - destruct (IH (set l a v)) as (H1 & H2 & H3).
    { intros j Hj. rewrite set_length. apply Hl. right. exact Hj. }
    rewrite set_length in H1. split; [exact H1|]. split.
    + intros i Hi. destruct (in_dec Nat.eq_dec i ids) as [Hin|Hin]; [apply H2; exact Hin|].
      destruct Hi as [<-|Hi]; [|contradiction]. rewrite H3 by exact Hin. apply get_set_same. apply Hl. left. reflexivity.
    + intros i Hi. rewrite H3 by (intros H; apply Hi; right; exact H).
      apply get_set_other. intros ->. apply Hi. left. reflexivity.
Qed.

Definition row_bad (nodata : Q) (dem : list Q) (r : nat) : bool :=
  existsb (fun c => Qle_bool (at_rc nx dem r c) nodata) (seq 0 nx).

Lemma closed_init_spec nodata dem : length (closed_init nx ny nodata dem) = n /\
  forall i, (i < n)%nat ->
    get OPEN (closed_init nx ny nodata dem) i = if Nat.ltb i ny && row_bad nodata dem i then CLOSED else OPEN.
Proof.
  unfold closed_init. fold (row_bad nodata dem).
  assert (H : forall m s C, length C = n -> (s + m <= n)%nat ->
    let C' := fold_left (fun C r => if row_bad nodata dem r then set C r CLOSED else C) (seq s m) C in
    length C' = n /\ forall i, (i < n)%nat -> get OPEN C' i =
      if (Nat.leb s i && Nat.ltb i (s + m)) && row_bad nodata dem i then CLOSED else get OPEN C i).
  { induction m as [|m IH]; intros s C HC Hb; cbn [seq fold_left].
    - split; [exact HC|]. intros i Hi. destruct (Nat.leb s i) eqn:E1, (Nat.ltb i (s + 0)) eqn:E2; cbn [andb]; try reflexivity. lia.
    - set (C1 := if row_bad nodata dem s then set C s CLOSED else C).
      assert (HC1 : length C1 = n) by (unfold C1; destruct (row_bad nodata dem s); [rewrite set_length|]; exact HC).
      destruct (IH (S s) C1 HC1) as [H1 H2]; [lia|]. split; [exact H1|].
      intros i Hi. rewrite H2 by exact Hi.
      destruct (Nat.eq_dec i s) as [->|Hne].
      + assert (Nat.leb (S s) s = false) as -> by lia. assert (Nat.leb s s = true) as -> by lia.
        assert (Nat.ltb s (s + S m) = true) as -> by lia. cbn [andb]. unfold C1.
        destruct (row_bad nodata dem s); [apply get_set_same; lia|reflexivity].
      + assert (Hg : get OPEN C1 i = get OPEN C i).
        { unfold C1. destruct (row_bad nodata dem s); [apply get_set_other; congruence|reflexivity]. }
        rewrite Hg.
        assert (Nat.leb (S s) i && Nat.ltb i (S s + m) = Nat.leb s i && Nat.ltb i (s + S m)) as -> by lia. reflexivity. }
  assert (Hrep : forall m i, get OPEN (repeat OPEN m) i = OPEN).
  { intros m i. unfold get. apply nth_repeat. }
  destruct (H ny 0%nat (repeat OPEN (npix nx ny))) as [H1 H2].
  { apply repeat_length. } { nia. }
  split; [exact H1|]. intros i Hi. specialize (H2 i Hi). cbn [Nat.leb andb] in H2. rewrite Hrep in H2. exact H2.
Qed.

Lemma row_bad_spec nodata dem r :
  row_bad nodata dem r = true <-> exists c, (c < nx)%nat /\ get 0 dem (r * nx + c) <= nodata.
Proof.
  unfold row_bad. rewrite existsb_exists. split.
  - intros (c & Hc & H). apply in_seq in Hc. apply Qle_bool_iff in H. exists c. split; [lia|exact H].
  - intros (c & Hc & H). exists c. split; [apply in_seq; lia|]. apply Qle_bool_iff. exact H.
Qed.

Lemma start_IDs_lt dem IDs : get_start_pixels nx ny dem = Some IDs -> forall i, In i IDs -> (i < n)%nat.
Proof.
  unfold get_start_pixels. destruct (Nat.leb _ _); [|discriminate]. intros H. inversion H; subst. clear H.
  intros i Hi. rewrite !in_app_iff in Hi. destruct Hi as [Hi|[Hi|[Hi|[Hi|Hi]]]].
  - apply filter_In in Hi. destruct Hi as [Hi _]. apply in_seq in Hi. nia.
  - apply in_map_iff in Hi. destruct Hi as (r & <- & Hi). apply filter_In in Hi. destruct Hi as [Hi _]. apply in_seq in Hi. nia.
  - apply in_map_iff in Hi. destruct Hi as (r & <- & Hi). apply filter_In in Hi. destruct Hi as [Hi _]. apply in_seq in Hi. nia.
  - apply in_map_iff in Hi. destruct Hi as (r & <- & Hi). apply filter_In in Hi. destruct Hi as [Hi _]. apply in_seq in Hi. nia.
  - apply in_flat_map in Hi. destruct Hi as (r & Hr & Hi). apply in_flat_map in Hi. destruct Hi as (c & Hc & Hi).
    apply in_seq in Hr. apply in_seq in Hc.
    cbv zeta in Hi. match type of Hi with context [if ?b then _ else _] => destruct b end; [|destruct Hi]. destruct Hi as [<-|[]]. nia.
Qed.

Lemma lower_bound (l : list Q) : exists L, forall q, In q l -> L <= q.
Proof.
  induction l as [|a l (L & HL)]; [exists 0; intros q []|].
  exists (Qmin a L). intros q [<-|Hq]; [apply Q.le_min_l|].
  eapply Qle_trans; [apply Q.le_min_r|apply HL; exact Hq].
Qed.

Definition usable nodata dem (IDs : list nat) (v : nat) : Prop := In v IDs \/ ~ wrongly_closed nx ny nodata dem v.

(* The general theorem about fill_pits, for every DEM. *)
Theorem fill_general nodata dem0 IDs : length dem0 = n ->
  let dem := clean dem0 in
  get_start_pixels nx ny dem = Some IDs ->
  exists dem', fill_pits nx ny nodata dem0 = Some (Done dem') /\ length dem' = n /\
    (forall c, (c < n)%nat -> get 0 dem c <= get 0 dem' c) /\
    (forall c, In c IDs -> get 0 dem' c = get 0 dem c) /\
    (forall c, (c < n)%nat ->
       ((exists l, route (id_adjacent nx ny) (fun s => In s IDs) (usable nodata dem IDs) c l) /\
        minimax (id_adjacent nx ny) (fun s => In s IDs) (usable nodata dem IDs) (get 0 dem) c (get 0 dem' c) /\
        exists l, route (id_adjacent nx ny) (fun s => In s IDs) (usable nodata dem IDs) c l /\
                  non_ascending (get 0 dem') l)
       \/ ((forall l, ~ route (id_adjacent nx ny) (fun s => In s IDs) (usable nodata dem IDs) c l) /\
           get 0 dem' c = get 0 dem c)).
Proof.
  intros Hlen dem HIDs. unfold fill_pits. fold dem. rewrite HIDs.
  assert (Hdl : length dem = n) by (unfold dem, clean; rewrite map_length; exact Hlen).
  pose proof (start_IDs_lt dem IDs HIDs) as HIDlt.
  destruct (closed_init_spec nodata dem) as [HC0l HC0].
  set (C0 := closed_init nx ny nodata dem) in *.
  destruct (fold_set_get OPEN ON_HEAP IDs C0) as (HC1l & HC1i & HC1o).
  { intros j Hj. rewrite HC0l. apply HIDlt. exact Hj. }
  set (C := fold_left (fun C ID => set C ID ON_HEAP) IDs C0) in *.
  set (h := map (fun ID => (get 0 dem ID, ID)) IDs).
  set (mem := fun i => if in_dec Nat.eq_dec i IDs then true else false).
  set (blocked := fun i => negb (mem i) && (Nat.ltb i ny && row_bad nodata dem i)).
  assert (Hmem : forall i, mem i = true <-> In i IDs).
  { intros i. unfold mem. destruct (in_dec Nat.eq_dec i IDs); split; intros; auto; discriminate. }
  assert (Hblk : forall i, blocked i = false <-> usable nodata dem IDs i).
  { intros i. unfold blocked, usable, wrongly_closed. rewrite <- row_bad_spec, <- Hmem.
    destruct (mem i), (Nat.ltb i ny) eqn:El, (row_bad nodata dem i); cbn [negb andb];
      split; intros H; try discriminate; try reflexivity; auto; try (right; intros [? ?]; (discriminate || lia)).
    destruct H as [H|H]; [discriminate|]. exfalso. apply H. split; [lia|reflexivity]. }
  assert (Hsb : forall s, In s IDs -> (s < n)%nat /\ blocked s = false).
  { intros s Hs. split; [apply HIDlt; exact Hs|]. apply Hblk. left. exact Hs. }
  destruct (lower_bound (map fst h)) as (L & HL).
  assert (HCo : forall i, (i < n)%nat -> get OPEN C i = if mem i then ON_HEAP else if blocked i then CLOSED else OPEN).
  { intros i Hi. destruct (mem i) eqn:E.
    - apply HC1i. apply Hmem. exact E.
    - rewrite HC1o by (intros H; apply Hmem in H; congruence). rewrite HC0 by exact Hi.
      unfold blocked. rewrite E. reflexivity. }
  assert (Hr0 : forall i, (i < n)%nat -> reached blocked C i <-> In i IDs).
  { intros i Hi. unfold reached. rewrite HCo by exact Hi. rewrite <- Hmem. split.
    - intros [H1 H2]. destruct (mem i); [reflexivity|]. rewrite H2 in H1. congruence.
    - intros E. rewrite E. split; [discriminate|]. apply Hblk. left. apply Hmem. exact E. }
  assert (HI : FInv nx ny dem (fun s => In s IDs) blocked dem C h L).
  { split.
    - exact Hdl.
    - rewrite HC1l. exact HC0l.
    - intros i Hi Hb. rewrite HCo by exact Hi. destruct (mem i) eqn:E; [unfold blocked in Hb; rewrite E in Hb; discriminate|].
      rewrite Hb. reflexivity.
    - reflexivity.
    - intros i Hi Hr. apply Hr0 in Hr; [|exact Hi]. exists [i]. split; [apply route_start; exact Hr|].
      split; [reflexivity|]. split; [exact I|]. intros x [<-|[]]. split; [exact Hi|]. apply Hr0; assumption.
    - intros p Hp. assert (HLp : L <= fst p) by (apply HL; apply in_map; exact Hp).
      apply in_map_iff in Hp. destruct Hp as (i & <- & Hi). cbn [fst snd] in *.
      split; [apply HIDlt; exact Hi|]. split; [apply Hr0; [apply HIDlt; exact Hi|exact Hi]|]. split; [reflexivity|exact HLp].
    - intros i Hi E. rewrite HCo in E by exact Hi. destruct (mem i) eqn:Em; [|destruct (blocked i); discriminate].
      apply in_map_iff. exists i. split; [reflexivity|apply Hmem; exact Em].
    - intros u v Hu Eu Hbu _. rewrite HCo in Eu by exact Hu. destruct (mem u); [discriminate|]. rewrite Hbu in Eu. discriminate.
    - intros v Hv _. apply Q.le_max_r.
    - intros s Hs. split; [apply Hr0; [apply HIDlt; exact Hs|exact Hs]|reflexivity]. }
  destruct (loop_inv nx ny Hnx Hny dem Hdl (fun s => In s IDs) blocked
              (length IDs + 8 * npix nx ny) dem C h L HI) as (dem' & C' & L' & Hrun & HF).
  { unfold h. rewrite map_length. pose proof (D8_Proofs.count_bound n (fun i => is_OPEN (get OPEN C i))).
    unfold n_open, npix. lia. }
  exists dem'. split; [rewrite Hrun; reflexivity|].
  destruct (final_inv nx ny dem (fun s => In s IDs) blocked Hsb dem' C' L' HF) as [HA HB].
  assert (Hroute : forall c l, route (id_adjacent nx ny) (fun s => In s IDs) (fun v => blocked v = false) c l <->
                               route (id_adjacent nx ny) (fun s => In s IDs) (usable nodata dem IDs) c l).
  { intros c l. split; induction 1; econstructor; try eassumption; apply Hblk; assumption. }
  assert (Hhd : forall c l, route (id_adjacent nx ny) (fun s => In s IDs) (fun v => blocked v = false) c l ->
                get 0 dem c <= highest (get 0 dem) l).
  { intros c l Hr. inversion Hr; subst; [cbn; lra|]. rewrite highest_cons by (eapply route_ne; eassumption).
    apply Q.le_max_l. }
  split; [apply (f_len _ _ _ _ _ _ _ _ _ HF)|]. split; [|split].
  - intros c Hc. destruct (HB c Hc) as [Hr|E]; [|rewrite E; lra].
    destruct (f_route _ _ _ _ _ _ _ _ _ HF c Hc Hr) as (l & Hl & Hz & _). rewrite Hz. apply Hhd. exact Hl.
  - intros c Hc. apply (f_start _ _ _ _ _ _ _ _ _ HF c Hc).
  - intros c Hc. destruct (reached_dec blocked C' c) as [Hr|Hr].
    + left. destruct (f_route _ _ _ _ _ _ _ _ _ HF c Hc Hr) as (l & Hl & Hz & Hna & _).
      apply Hroute in Hl. split; [exists l; exact Hl|]. split; [|exists l; auto].
      split; [exists l; auto|]. intros l' Hl'. apply Hroute in Hl'. apply (HA c l' Hl').
    + right. split; [|apply (f_same _ _ _ _ _ _ _ _ _ HF c Hc Hr)].
      intros l Hl. apply Hroute in Hl. apply Hr. apply (HA c l Hl).
Qed.

(* ---------------------------------------------------------------- nodata-free DEMs *)


Lemma rc_div r c : (c < nx)%nat -> ((r * nx + c) / nx = r /\ (r * nx + c) mod nx = c)%nat.
Proof.
  intros Hc. split.
  - rewrite Nat.add_comm, Nat.div_add by lia. rewrite Nat.div_small by lia. lia.
  - rewrite Nat.add_comm, Nat.mod_add by lia. apply Nat.mod_small. lia.
Qed.

Lemma filter_all {A} (f : A -> bool) l : (forall x, In x l -> f x = true) -> filter f l = l.
Proof.
  induction l as [|a l IH]; intros H; [reflexivity|]. cbn. rewrite (H a) by (left; reflexivity).
  f_equal. apply IH. intros x Hx. apply H. right. exact Hx.
Qed.

Lemma start_pixels_clean dem : length dem = n -> (forall i, (i < n)%nat -> START_NODATA < get 0 dem i) ->
  exists IDs, get_start_pixels nx ny dem = Some IDs /\ forall i, In i IDs <-> start_cell i.
Proof.
  intros Hl Hz.
  assert (Hab : forall r c, (r < ny)%nat -> (c < nx)%nat -> above (at_rc nx dem r c) = true).
  { intros r c Hr Hc. unfold above, at_rc. apply Qltb_lt. apply Hz. nia. }
  assert (Hint : interior_IDs nx ny dem = []).
  { assert (Hfm : forall {A B} (f : A -> list B) l, (forall x, In x l -> f x = []) -> flat_map f l = []).
    { intros A B f l. induction l as [|a l IH]; intros H; [reflexivity|]. cbn. rewrite H by (left; reflexivity).
      apply IH. intros x Hx. apply H. right. exact Hx. }
    unfold interior_IDs. apply Hfm. intros r Hr. apply Hfm. intros c Hc. apply in_seq in Hr. apply in_seq in Hc.
    assert (Hwin : forall a b, START_NODATA < win nx ny dem a b).
    { intros a b. unfold win, at_rc. apply Hz.
      pose proof (Z.mod_pos_bound a (Z.of_nat (ny - 2)) ltac:(lia)).
      pose proof (Z.mod_pos_bound b (Z.of_nat (nx - 2)) ltac:(lia)). nia. }
    assert (Hzs : Qle_bool (zs nx ny dem (Z.of_nat r) (Z.of_nat c)) START_NODATA = false).
    { apply Qleb_gt. unfold zs.
      assert (Hf : forall l a, START_NODATA < a -> (forall x, In x l -> START_NODATA < x) -> START_NODATA < fold_left Qmin l a).
      { induction l as [|x l IH]; intros a Ha Hx; [exact Ha|]. cbn [fold_left]. apply IH.
        - apply Q.min_glb_lt; [exact Ha|apply Hx; left; reflexivity].
        - intros y Hy. apply Hx. right. exact Hy. }
      apply Hf; [apply Hwin|]. intros x Hx. cbn [In] in Hx.
      repeat (destruct Hx as [<-|Hx]; [apply Hwin|]). destruct Hx. }
    cbv zeta. rewrite Hzs, andb_false_r, orb_false_r.
    assert (Qeq_bool (at_rc nx dem (r + 1) (c + 1)) CLOSED_BASIN = false) as ->; [|reflexivity].
    apply Qeqb_neq. assert (H : START_NODATA < at_rc nx dem (r + 1) (c + 1)) by (apply Hz; nia).
    unfold START_NODATA, CLOSED_BASIN in *. lra. }
  unfold get_start_pixels. rewrite Hint, app_nil_r.
  assert (Ht : top_IDs nx dem = seq 0 nx).
  { apply filter_all. intros c Hc. apply in_seq in Hc. apply Hab; lia. }
  assert (Hlft : left_IDs nx ny dem = map (fun r => (r * nx)%nat) (seq 0 (ny - 2))).
  { unfold left_IDs. rewrite filter_all; [reflexivity|]. intros r Hr. apply in_seq in Hr. apply Hab; lia. }
  assert (Hrgt : right_IDs nx ny dem = map (fun r => (r * nx + (nx - 1))%nat) (seq 0 (ny - 2))).
  { unfold right_IDs. rewrite filter_all; [reflexivity|]. intros r Hr. apply in_seq in Hr. apply Hab; lia. }
  assert (Hbot : bottom_IDs nx ny dem = map (fun c => (c + nx * (ny - 1))%nat) (seq 0 nx)).
  { unfold bottom_IDs. rewrite filter_all; [reflexivity|]. intros c Hc. apply in_seq in Hc. apply Hab; lia. }
  rewrite Ht, Hlft, Hrgt, Hbot.
  match goal with |- context [if ?b then _ else _] => assert (b = true) as -> end.
  { apply Nat.leb_le. rewrite !app_length, !map_length, !seq_length. lia. }
  eexists. split; [reflexivity|]. intros i. rewrite !in_app_iff, !in_map_iff. unfold Fill_Spec.start_cell. split.
  - intros [Hi|[(r & <- & Hi)|[(r & <- & Hi)|(c & <- & Hi)]]]; apply in_seq in Hi.
    + destruct (rc_div 0 i) as [H1 H2]; [lia|]. cbn [Nat.mul Nat.add] in *. rewrite H1, H2. split; [nia|left; reflexivity].
    + destruct (rc_div r 0) as [H1 H2]; [lia|]. rewrite Nat.add_0_r in *. rewrite H1, H2. split; [nia|right; right; split; [lia|left; reflexivity]].
    + destruct (rc_div r (nx - 1)) as [H1 H2]; [lia|]. rewrite H1, H2. split; [nia|right; right; split; [lia|right; reflexivity]].
    + destruct (rc_div (ny - 1) c) as [H1 H2]; [lia|].
      replace (c + nx * (ny - 1))%nat with ((ny - 1) * nx + c)%nat by lia. rewrite H1, H2. split; [nia|right; left; reflexivity].
  - intros [Hi Hc].
    assert (Ei : i = (i / nx * nx + i mod nx)%nat) by (pose proof (Nat.div_mod i nx); nia).
    assert (Hm : (i mod nx < nx)%nat) by (apply Nat.mod_upper_bound; lia).
    destruct Hc as [Hc|[Hc|[Hc [Hd|Hd]]]].
    + left. apply in_seq. nia.
    + right; right; right. exists (i mod nx)%nat. split; [nia|apply in_seq; lia].
    + right; left. exists (i / nx)%nat. split; [nia|apply in_seq; lia].
    + right; right; left. exists (i / nx)%nat. split; [nia|apply in_seq; lia].
Qed.

Lemma not_closed_clean nodata dem : (forall i, (i < n)%nat -> nodata < get 0 dem i) ->
  forall v, ~ wrongly_closed nx ny nodata dem v.
Proof.
  intros H v (Hv & c & Hc & Hle). assert (Hi : (v * nx + c < n)%nat) by nia. specialize (H _ Hi). lra.
Qed.

Lemma clean_some (z : list Q) : clean (map Some z) = z.
Proof. unfold clean. rewrite map_map. rewrite <- (map_id z) at 2. apply map_ext. reflexivity. Qed.

Lemma route_mono (adj : nat -> nat -> Prop) (st st' ok ok' : nat -> Prop) c l :
  (forall s, st s -> st' s) -> (forall s, ok s -> ok' s) -> route adj st ok c l -> route adj st' ok' c l.
Proof. intros H1 H2. induction 1; econstructor; eauto. Qed.

(* every cell has an ID route to a start cell *)
Lemma always_route (ok : nat -> Prop) c : (forall v, ok v) -> (c < n)%nat -> exists l, route (id_adjacent nx ny) start_cell ok c l.
Proof.
  intros Hok. induction c as [|c IH]; intros Hc.
  - exists [0%nat]. apply route_start. split; [exact Hc|]. left. apply Nat.div_small. lia.
  - destruct IH as (l & Hl); [lia|]. exists (S c :: l). apply route_step with c; [exact Hl| |apply Hok].
    split; [exact Hc|]. exists 0%Z, 1%Z. repeat split; try lia. discriminate.
Qed.

Theorem fill_minimax nodata (z : list Q) : length z = n -> START_NODATA <= nodata ->
  (forall i, (i < n)%nat -> nodata < get 0 z i) ->
  exists z', fill_pits nx ny nodata (map Some z) = Some (Done z') /\ length z' = n /\
    (forall c, start_cell c -> get 0 z' c = get 0 z c) /\
    (forall c, (c < n)%nat ->
       minimax (id_adjacent nx ny) start_cell (fun _ => True) (get 0 z) c (get 0 z' c) /\
       exists l, route (id_adjacent nx ny) start_cell (fun _ => True) c l /\ non_ascending (get 0 z') l).
Proof.
  intros Hl Hnd Hz.
  assert (Hz1 : forall i, (i < n)%nat -> START_NODATA < get 0 z i) by (intros i Hi; specialize (Hz i Hi); lra).
  destruct (start_pixels_clean z Hl Hz1) as (IDs & HIDs & Hst).
  destruct (fill_general nodata (map Some z) IDs) as (z' & H1 & H2 & H3 & H4 & H5).
  { rewrite map_length. exact Hl. } { rewrite clean_some. exact HIDs. }
  rewrite clean_some in *. exists z'. split; [exact H1|]. split; [exact H2|].
  split; [intros c Hc; apply H4; apply Hst; exact Hc|].
  assert (Hr : forall c l, route (id_adjacent nx ny) (fun s => In s IDs) (usable nodata z IDs) c l <->
                           route (id_adjacent nx ny) start_cell (fun _ => True) c l).
  { intros c l. split; apply route_mono; auto; try (intros s; apply Hst).
    intros s _. right. apply not_closed_clean. exact Hz. }
  intros c Hc. destruct (H5 c Hc) as [(_ & [(l & Hl1 & Hl2) Hm] & (l2 & Hn1 & Hn2))|[Hno _]].
  - split.
    + split; [exists l; split; [apply Hr; exact Hl1|exact Hl2]|]. intros l' Hl'. apply Hm. apply Hr. exact Hl'.
    + exists l2. split; [apply Hr; exact Hn1|exact Hn2].
  - exfalso. destruct (always_route (fun _ => True) c (fun _ => I) Hc) as (l & Hr'). apply (Hno l). apply Hr. exact Hr'.
Qed.

(* ---------------------------------------------------------------- true 8-neighbours *)

Lemma div_unique_nat i r c : (c < nx)%nat -> i = (r * nx + c)%nat -> (i / nx = r /\ i mod nx = c)%nat.
Proof. intros Hc ->. apply rc_div. exact Hc. Qed.

(* an ID neighbour that is not a true neighbour joins the first and last columns *)
Lemma adjacent_split i j : (i < n)%nat -> id_adjacent nx ny i j -> i <> j ->
  grid_adjacent nx ny i j \/
  ((i mod nx = 0 \/ i mod nx = nx - 1) /\ (j mod nx = 0 \/ j mod nx = nx - 1))%nat.
Proof.
  intros Hi (Hj & dr & dc & Hr & Hc & Hne & E) Hij.
  assert (Ei : i = (i / nx * nx + i mod nx)%nat) by (pose proof (Nat.div_mod i nx); nia).
  assert (Hmi : (i mod nx < nx)%nat) by (apply Nat.mod_upper_bound; lia).
  assert (Ej : j = (j / nx * nx + j mod nx)%nat) by (pose proof (Nat.div_mod j nx); nia).
  assert (Hmj : (j mod nx < nx)%nat) by (apply Nat.mod_upper_bound; lia).
  set (ri := (i / nx)%nat) in *. set (ci := (i mod nx)%nat) in *.
  set (rj := (j / nx)%nat) in *. set (cj := (j mod nx)%nat) in *.
  assert (E' : (Z.of_nat rj * Z.of_nat nx + Z.of_nat cj =
                (Z.of_nat ri + dr) * Z.of_nat nx + (Z.of_nat ci + dc))%Z) by nia.
  destruct (Z_lt_le_dec (Z.of_nat ci + dc) 0) as [Hlo|Hlo].
  - right. assert (ci = 0%nat) by lia. assert (dc = -1)%Z by lia.
    assert (Z.of_nat rj = Z.of_nat ri + dr - 1)%Z by nia. split; [left; assumption|right]. nia.
  - destruct (Z_lt_le_dec (Z.of_nat ci + dc) (Z.of_nat nx)) as [Hhi|Hhi].
    + left. assert (Z.of_nat rj = Z.of_nat ri + dr)%Z by nia. assert (Z.of_nat cj = Z.of_nat ci + dc)%Z by nia.
      split; [exact Hj|]. split; [exact Hij|]. fold ri rj ci cj. lia.
    + right. assert (Z.of_nat ci = Z.of_nat nx - 1)%Z by lia. assert (dc = 1)%Z by lia.
      assert (Z.of_nat rj = Z.of_nat ri + dr + 1)%Z by nia. split; [right; lia|left]. nia.
Qed.

Lemma grid_is_id i j : (i < n)%nat -> grid_adjacent nx ny i j -> id_adjacent nx ny i j.
Proof.
  intros Hi (Hj & Hij & Hr & Hc). split; [exact Hj|].
  assert (Ei : i = (i / nx * nx + i mod nx)%nat) by (pose proof (Nat.div_mod i nx); nia).
  assert (Ej : j = (j / nx * nx + j mod nx)%nat) by (pose proof (Nat.div_mod j nx); nia).
  exists (Z.of_nat (j / nx) - Z.of_nat (i / nx))%Z, (Z.of_nat (j mod nx) - Z.of_nat (i mod nx))%Z.
  split; [lia|]. split; [lia|]. split; [|nia].
  intros E. inversion E as [[E1 E2]]. apply Hij. nia.
Qed.

Lemma highest_last z adj st ok c l : route adj st ok c l -> z c <= highest z l.
Proof.
  intros Hr. inversion Hr; subst; [cbn; lra|]. rewrite highest_cons by (eapply route_ne; eassumption). apply Q.le_max_l.
Qed.


(* If neither forgotten cell is lower than all of its start neighbours, ID routes can be replaced by true ones. *)
Lemma unwrap (z : nat -> Q) c l :
  (forall b, forgotten b -> exists s, start_cell s /\ grid_adjacent nx ny s b /\ z s <= z b) ->
  route (id_adjacent nx ny) start_cell (fun _ => True) c l -> (c < n)%nat ->
  exists l', route (grid_adjacent nx ny) start_cell (fun _ => True) c l' /\ highest z l' <= highest z l.
Proof.
  intros Hb Hr. induction Hr as [s Hs|u l v Hr IH Hadj _]; intros Hc.
  - exists [s]. split; [apply route_start; exact Hs|cbn; lra].
  - assert (Hu : (u < n)%nat). { inversion Hr; subst; [apply H|apply H0]. }
    destruct (IH Hu) as (l' & Hl' & Hle).
    destruct (Nat.eq_dec u v) as [->|Huv].
    + exists l'. split; [exact Hl'|]. rewrite (highest_cons z v l) by (eapply route_ne; exact Hr).
      eapply Qle_trans; [exact Hle|apply Q.le_max_r].
    + destruct (adjacent_split u v Hu Hadj Huv) as [Hg|[_ Hcol]].
      * exists (v :: l'). split; [eapply route_step; [exact Hl'|exact Hg|exact I]|].
        rewrite !highest_cons by (eapply route_ne; eassumption). apply Q.max_le_compat_l. exact Hle.
      * (* v lies on the first or last column *)
        assert (Hvr : (v / nx < ny)%nat) by (apply Nat.div_lt_upper_bound; lia).
        destruct (Nat.eq_dec (v / nx) (ny - 1)) as [E1|E1].
        { exists [v]. split; [apply route_start; split; [exact Hc|right; left; exact E1]|].
          rewrite (highest_cons z v l) by (eapply route_ne; exact Hr). cbn [highest]. apply Q.le_max_l. }
        destruct (Nat.eq_dec (v / nx) 0) as [E0|E0].
        { exists [v]. split; [apply route_start; split; [exact Hc|left; exact E0]|].
          rewrite (highest_cons z v l) by (eapply route_ne; exact Hr). cbn [highest]. apply Q.le_max_l. }
        destruct (Nat.eq_dec (v / nx) (ny - 2)) as [E2|E2].
        { destruct (Hb v) as (s & Hs & Hgs & Hzs). { split; [exact Hc|]. split; [exact E2|]. split; [lia|exact Hcol]. }
          exists [v; s]. split; [eapply route_step; [apply route_start; exact Hs|exact Hgs|exact I]|].
          rewrite (highest_cons z v l) by (eapply route_ne; exact Hr). cbn [highest].
          rewrite Q.max_l by exact Hzs. apply Q.le_max_l. }
        exists [v]. split; [apply route_start; split; [exact Hc|right; right; split; [lia|exact Hcol]]|].
        rewrite (highest_cons z v l) by (eapply route_ne; exact Hr). cbn [highest]. apply Q.le_max_l.
Qed.

Theorem fill_minimax_grid nodata (z : list Q) : length z = n -> START_NODATA <= nodata ->
  (forall i, (i < n)%nat -> nodata < get 0 z i) ->
  (forall b, forgotten b -> exists s, start_cell s /\ grid_adjacent nx ny s b /\ get 0 z s <= get 0 z b) ->
  exists z', fill_pits nx ny nodata (map Some z) = Some (Done z') /\
    forall c, (c < n)%nat -> minimax (grid_adjacent nx ny) start_cell (fun _ => True) (get 0 z) c (get 0 z' c).
Proof.
  intros Hl Hnd Hz Hb. destruct (fill_minimax nodata z Hl Hnd Hz) as (z' & H1 & H2 & H3 & H4).
  exists z'. split; [exact H1|]. intros c Hc. destruct (H4 c Hc) as [[(l & Hr & Hh) Hmin] _].
  destruct (unwrap (get 0 z) c l Hb Hr Hc) as (l' & Hr' & Hle).
  assert (Hback : forall l, route (grid_adjacent nx ny) start_cell (fun _ => True) c l ->
                            route (id_adjacent nx ny) start_cell (fun _ => True) c l).
  { clear -Hnx Hny. intros l Hr. induction Hr as [s Hs|u l v Hr IH Hadj _]; [apply route_start; exact Hs|].
    eapply route_step; [exact IH| |exact I]. apply grid_is_id; [|exact Hadj]. inversion Hr; subst; [apply H|apply H0]. }
  split.
  - exists l'. split; [exact Hr'|]. apply Qle_antisym; [apply Hmin; apply Hback; exact Hr'|rewrite Hh; exact Hle].
  - intros l2 Hr2. apply Hmin. apply Hback. exact Hr2.
Qed.


Lemma edge_dec i : {edge_cell i} + {~ edge_cell i}.
Proof.
  unfold Fill_Spec.edge_cell. destruct (lt_dec i n); [|right; tauto].
  destruct (Nat.eq_dec (i / nx) 0); [left; tauto|]. destruct (Nat.eq_dec (i / nx) (ny - 1)); [left; tauto|].
  destruct (Nat.eq_dec (i mod nx) 0); [left; tauto|]. destruct (Nat.eq_dec (i mod nx) (nx - 1)); [left; tauto|].
  right. tauto.
Qed.

Lemma start_is_edge i : start_cell i -> edge_cell i.
Proof. intros [H1 H2]. split; [exact H1|]. tauto. Qed.

Lemma edge_not_forgotten i : edge_cell i -> ~ forgotten i -> start_cell i.
Proof.
  intros [H1 H2] Hf. split; [exact H1|].
  assert (Hr : (i / nx < ny)%nat) by (apply Nat.div_lt_upper_bound; lia).
  destruct H2 as [H2|[H2|H2]]; [left; exact H2|right; left; exact H2|].
  destruct (Nat.eq_dec (i / nx) 0) as [E|E]; [left; exact E|].
  destruct (Nat.eq_dec (i / nx) (ny - 1)) as [E1|E1]; [right; left; exact E1|].
  right; right. split; [|exact H2].
  destruct (Nat.eq_dec (i / nx) (ny - 2)) as [E2|E2]; [|lia].
  exfalso. apply Hf. split; [exact H1|]. split; [exact E2|]. split; [lia|exact H2].
Qed.

(* cutting an ID route at its first edge cell leaves a true 8-neighbour route to the edge *)
Lemma cut_route (z z' : nat -> Q) c l :
  route (id_adjacent nx ny) start_cell (fun _ => True) c l ->
  exists l', route (grid_adjacent nx ny) edge_cell (fun _ => True) c l' /\
    highest z l' <= highest z l /\ (non_ascending z' l -> non_ascending z' l').
Proof.
  induction 1 as [s Hs|u l v Hr IH Hadj _].
  - exists [s]. split; [apply route_start; apply start_is_edge; exact Hs|]. split; [cbn; lra|auto].
  - destruct IH as (l' & Hl' & Hh & Hn).
    assert (Hu : (u < n)%nat). { inversion Hr; subst; [apply H|apply H0]. }
    destruct (edge_dec v) as [He|He].
    { exists [v]. split; [apply route_start; exact He|]. split; [|intros _; exact I].
      rewrite (highest_cons z v l) by (eapply route_ne; exact Hr). cbn [highest]. apply Q.le_max_l. }
    destruct (Nat.eq_dec u v) as [->|Huv].
    { exists l'. split; [exact Hl'|]. rewrite highest_cons by (eapply route_ne; exact Hr). split.
      - eapply Qle_trans; [exact Hh|apply Q.le_max_r].
      - intros H. apply Hn. destruct (route_head _ _ _ _ _ Hr) as (t & ->). apply H. }
    destruct (adjacent_split u v Hu Hadj Huv) as [Hg|[_ Hcol]].
    + exists (v :: l'). split; [eapply route_step; [exact Hl'|exact Hg|exact I]|].
      rewrite !highest_cons by (eapply route_ne; eassumption). split; [apply Q.max_le_compat_l; exact Hh|].
      intros H. destruct (route_head _ _ _ _ _ Hr) as (t & ->). destruct (route_head _ _ _ _ _ Hl') as (t' & ->).
      destruct H as [H1 H2]. split; [exact H1|apply Hn; exact H2].
    + exfalso. apply He. split; [apply Hadj|]. tauto.
Qed.

Lemma grid_route_id (st : nat -> Prop) c l : (forall s, st s -> (s < n)%nat) ->
  route (grid_adjacent nx ny) st (fun _ => True) c l -> route (id_adjacent nx ny) st (fun _ => True) c l.
Proof.
  intros Hst Hr. induction Hr as [s Hs|u l v Hr IH Hadj _]; [apply route_start; exact Hs|].
  eapply route_step; [exact IH| |exact I]. apply grid_is_id; [|exact Hadj]. inversion Hr; subst; [apply Hst; assumption|apply H0].
Qed.

(* for every nodata-free DEM, with true 8-neighbours *)
Theorem fill_depression_free nodata (z : list Q) : length z = n -> START_NODATA <= nodata ->
  (forall i, (i < n)%nat -> nodata < get 0 z i) ->
  exists z', fill_pits nx ny nodata (map Some z) = Some (Done z') /\
    forall c, (c < n)%nat ->
      (exists l, route (grid_adjacent nx ny) edge_cell (fun _ => True) c l /\ non_ascending (get 0 z') l) /\
      (exists l, route (grid_adjacent nx ny) edge_cell (fun _ => True) c l /\ highest (get 0 z) l <= get 0 z' c) /\
      (forall l, route (grid_adjacent nx ny) start_cell (fun _ => True) c l -> get 0 z' c <= highest (get 0 z) l).
Proof.
  intros Hl Hnd Hz. destruct (fill_minimax nodata z Hl Hnd Hz) as (z' & H1 & H2 & H3 & H4).
  exists z'. split; [exact H1|]. intros c Hc. destruct (H4 c Hc) as [[(l & Hr & Hh) Hmin] (l2 & Hr2 & Hn2)].
  split; [|split].
  - destruct (cut_route (get 0 z) (get 0 z') c l2 Hr2) as (l' & Hl' & _ & Hn'). exists l'. auto.
  - destruct (cut_route (get 0 z) (get 0 z') c l Hr) as (l' & Hl' & Hh' & _). exists l'. split; [exact Hl'|]. lra.
  - intros l3 Hl3. apply Hmin. apply grid_route_id; [intros s Hs; apply Hs|exact Hl3].
Qed.

(* every filled elevation already occurs in the DEM *)
Lemma highest_in z l : l <> [] -> exists c, In c l /\ highest z l == z c.
Proof.
  induction l as [|a l IH]; intros H; [congruence|]. destruct l as [|b l].
  - exists a. split; [left; reflexivity|reflexivity].
  - destruct IH as (c & Hc & E); [discriminate|].
    rewrite highest_cons by discriminate. destruct (Q.max_spec (z a) (highest z (b :: l))) as [[_ H1]|[_ H1]].
    + exists c. split; [right; exact Hc|]. rewrite H1. exact E.
    + exists a. split; [left; reflexivity|exact H1].
Qed.

Lemma route_lt (st ok : nat -> Prop) c l : (forall s, st s -> (s < n)%nat) -> route (id_adjacent nx ny) st ok c l ->
  forall x, In x l -> (x < n)%nat.
Proof.
  intros Hs. induction 1 as [s H|u l v Hr IH Hadj Hok]; intros x [<-|Hx]; auto; [destruct Hx|apply Hadj].
Qed.

Theorem fill_safe nodata dem0 : length dem0 = n ->
  let dem := clean dem0 in
  get_start_pixels nx ny dem <> None ->
  exists IDs dem', get_start_pixels nx ny dem = Some IDs /\
    fill_pits nx ny nodata dem0 = Some (Done dem') /\ length dem' = n /\
    (forall c, (c < n)%nat -> get 0 dem c <= get 0 dem' c /\
                              exists j, (j < n)%nat /\ get 0 dem' c == get 0 dem j) /\
    (forall c, In c IDs -> get 0 dem' c = get 0 dem c).
Proof.
  intros Hl dem Hs. destruct (get_start_pixels nx ny dem) as [IDs|] eqn:E; [|congruence].
  destruct (fill_general nodata dem0 IDs Hl E) as (dem' & H1 & H2 & H3 & H4 & H5). fold dem in H3, H4, H5.
  exists IDs, dem'. split; [reflexivity|]. split; [exact H1|]. split; [exact H2|]. split; [|exact H4].
  intros c Hc. split; [apply H3; exact Hc|].
  destruct (H5 c Hc) as [(_ & [(l & Hr & Hh) _] & _)|[_ E']].
  - destruct (highest_in (get 0 dem) l) as (j & Hj & Ej); [eapply route_ne; exact Hr|].
    exists j. split; [|rewrite Hh; exact Ej].
    eapply route_lt; [|exact Hr|exact Hj]. intros s Hin. eapply start_IDs_lt; eassumption.
  - exists c. split; [exact Hc|]. rewrite E'. reflexivity.
Qed.

End Main.
