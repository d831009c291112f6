(* C80: soil layers, depths, stored water and the wetting front. *)
From Coq Require Import QArith Qminmax Lqa List Bool Arith Lia.
From Verif Require Import Base Layer_Model.
Import ListNotations.
Local Open Scope Q_scope.

(* ---------- specification ---------- *)
(* level k lies in layer j *)
Definition in_layer (nz_val : list nat) (j k : nat) : Prop := (list_sum (firstn j nz_val) <= k < list_sum (firstn (S j) nz_val))%nat.
(* thickness of the layers above layer j *)
Definition top_of (dz_val : list Q) (nz_val : list nat) (j : nat) : Q := qsum j (fun i => (Z.of_nat (get 0%nat nz_val i) # 1) * get 0 dz_val i).
(* the value of a parameter of a layer in the cell in row r and column c *)
Definition at_cell (v : val) (r c : nat) : Q := match v with Sc x => x | Gr g => get 0 (get [] g r) c end.
Definition level_value (p : profile) (k r c : nat) : Q :=
  match p with P1 l => get 0 l k | P3 l => get 0 (get [] (get [] l k) r) c end.
Definition shaped (ny nx : nat) (g : grid) : Prop := length g = ny /\ forall row, In row g -> length row = nx.
Definition shaped_val (ny nx : nat) (v : val) : Prop := match v with Sc _ => True | Gr g => shaped ny nx g end.
(* water in the soil: content times thickness times cell area *)
Definition water (ny nx nz : nat) (theta : nat -> nat -> nat -> Q) (thick : nat -> Q) (cell : nat -> nat -> Q) : Q :=
  qsum nz (fun k => qsum ny (fun r => qsum nx (fun c => theta k r c * thick k * cell r c))).
Definition thickness (dz : dzv) (k : nat) : Q := match dz with DzS d => d | DzV l => get 0 l k end.
Definition cell_area (da : area) (r c : nat) : Q := match da with DaS a => a | DaG g => get 0 (get [] g r) c end.

(* ---------- lists ---------- *)
Lemma ncumsum_get l : forall s j, (j < length l)%nat -> get 0%nat (ncumsum_from s l) j = (s + list_sum (firstn (S j) l))%nat.
Proof.
  induction l as [|x l IH]; intros s j J; [cbn in J; lia|]. destruct j as [|j].
  - cbn. lia.
  - cbn [ncumsum_from get nth]. unfold get in IH. rewrite IH by (cbn in J; lia). cbn. lia.
Qed.
Lemma starts_get l j : (j <= length l)%nat -> get 0%nat (starts l) j = list_sum (firstn j l).
Proof. intro J. destruct j as [|j]; [reflexivity|]. unfold starts. cbn [get nth]. apply (ncumsum_get l 0 j). lia. Qed.
Lemma sum_firstn_mono l i j : (i <= j)%nat -> (list_sum (firstn i l) <= list_sum (firstn j l))%nat.
Proof.
  intro H. revert i j H. induction l as [|x l IH]; intros i j H; [rewrite !firstn_nil; lia|].
  destruct i as [|i]; [cbn; lia|]. destruct j as [|j]; [lia|]. cbn. specialize (IH i j ltac:(lia)). unfold list_sum in IH. lia.
Qed.
Lemma sum_firstn_all l : list_sum (firstn (length l) l) = list_sum l.
Proof. rewrite firstn_all. reflexivity. Qed.
Lemma put_length {A} (var : list A) a b x : (a <= b)%nat -> (b <= length var)%nat -> length (put var a b x) = length var.
Proof. intros H K. unfold put. rewrite !app_length, firstn_length, repeat_length, skipn_length. lia. Qed.
Lemma put_get {A} (d : A) var a b x k : (a <= b)%nat -> (b <= length var)%nat ->
  get d (put var a b x) k = if (a <=? k)%nat && (k <? b)%nat then x else get d var k.
Proof.
  intros H K. unfold put, get.
  assert (F : length (firstn a var) = a) by (rewrite firstn_length; lia).
  destruct (Nat.leb_spec a k) as [L|L]; cbn [andb].
  - rewrite app_nth2 by lia. rewrite F. destruct (Nat.ltb_spec k b) as [M|M].
    + rewrite app_nth1 by (rewrite repeat_length; lia). 
      assert (R : forall n i, (i < n)%nat -> nth i (repeat x n) d = x) by (induction n; destruct i; cbn; intros; try lia; auto; apply IHn; lia).
      apply R. lia.
    + rewrite app_nth2 by (rewrite repeat_length; lia). rewrite repeat_length.
      replace (Nat.max a b) with b by lia.
      assert (E : nth k var d = nth (k - b) (skipn b var) d).
      { rewrite <- (firstn_skipn b var) at 1. rewrite app_nth2 by (rewrite firstn_length; lia). f_equal. rewrite firstn_length. lia. }
      rewrite E. f_equal. lia.
  - rewrite app_nth1 by lia. rewrite <- (firstn_skipn a var) at 2. rewrite app_nth1 by lia. reflexivity.
Qed.

(* ---------- layered variables ---------- *)
Lemma fill_get {A} (d : A) nz_val zero (conv : val -> A) vals j k : (j < length nz_val)%nat -> in_layer nz_val j k ->
  get d (fill nz_val zero conv vals) k = conv (get (Sc 0) vals j).
Proof.
  intros J L. unfold fill.
  assert (H : forall m, (m <= length nz_val)%nat ->
    let var := fold_left (fun var j => put var (get 0%nat (starts nz_val) j) (get 0%nat (starts nz_val) (S j)) (conv (get (Sc 0) vals j)))
                         (seq 0 m) (repeat zero (nz nz_val)) in
    length var = nz nz_val /\ ((j < m)%nat -> get d var k = conv (get (Sc 0) vals j))).
  { induction m as [|m IH]; intros M; cbn zeta.
    - cbn. rewrite repeat_length. split; [reflexivity | lia].
    - destruct (IH ltac:(lia)) as [Len Val]. cbn zeta in *. rewrite seq_S, fold_left_app. cbn [fold_left Nat.add].
      set (var := fold_left _ (seq 0 m) _) in *.
      rewrite !starts_get by lia.
      assert (A1 : (list_sum (firstn m nz_val) <= list_sum (firstn (S m) nz_val))%nat) by (apply sum_firstn_mono; lia).
      assert (A2 : (list_sum (firstn (S m) nz_val) <= nz nz_val)%nat) by (unfold nz; rewrite <- (sum_firstn_all nz_val); apply sum_firstn_mono; lia).
      split; [rewrite put_length by lia; exact Len|]. intro Hj. rewrite put_get by lia. unfold in_layer in L.
      destruct (Nat.eq_dec j m) as [->|N].
      + destruct (Nat.leb_spec (list_sum (firstn m nz_val)) k), (Nat.ltb_spec k (list_sum (firstn (S m) nz_val))); cbn [andb]; try lia; reflexivity.
      + assert (A3 : (list_sum (firstn (S j) nz_val) <= list_sum (firstn m nz_val))%nat) by (apply sum_firstn_mono; lia).
        destruct (Nat.leb_spec (list_sum (firstn m nz_val)) k); [lia|]. cbn [andb]. apply Val. lia. }
  exact (proj2 (H (length nz_val) (le_n _)) J).
Qed.
Lemma repeat_get {A} (d x : A) n i : (i < n)%nat -> get d (repeat x n) i = x.
Proof. unfold get. revert i. induction n as [|n IH]; intros i I; [lia|]. destruct i; [reflexivity|]. cbn. apply IH. lia. Qed.
Lemma cells_shaped ny nx g : shaped ny nx g -> cells g = (ny * nx)%nat.
Proof.
  intros [L R]. unfold cells. subst ny. induction g as [|a g IH]; [reflexivity|]. cbn [map list_sum fold_right length].
  rewrite (R a) by (left; reflexivity). unfold list_sum in IH. rewrite IH by (intros; apply R; right; assumption). lia.
Qed.
(* C80 every level of a layer gets the value of that layer, in every cell *)
Theorem C80_layered_values ny nx nz_val vals j k r c : (0 < ny)%nat -> (0 < nx)%nat ->
  length vals = length nz_val -> (forall v, In v vals -> shaped_val ny nx v) -> (j < length vals)%nat -> in_layer nz_val j k ->
  (r < ny)%nat -> (c < nx)%nat ->
  level_value (build_layered_var ny nx nz_val vals) k r c = at_cell (get (Sc 0) vals j) r c.
Proof.
  intros Hy Hx Len Sh J L R C. unfold build_layered_var.
  assert (In (get (Sc 0) vals j) vals) as I by (apply nth_In; exact J). pose proof (Sh _ I) as Sv.
  destruct (all_scalars vals) eqn:A; cbn [level_value].
  - rewrite (fill_get 0 nz_val 0 scalar_of vals j k) by (lia || assumption).
    unfold all_scalars in A. rewrite forallb_forall in A. specialize (A _ I). apply Nat.leb_le in A.
    destruct (get (Sc 0) vals j) as [x|g]; [reflexivity|]. cbn [vsize shaped_val scalar_of at_cell] in *.
    rewrite (cells_shaped ny nx g Sv) in A. assert (ny = 1%nat /\ nx = 1%nat) as [-> ->] by nia.
    destruct Sv as [L1 L2]. destruct g as [|row [|? ?]]; try discriminate. cbn in *. assert (r = 0%nat) by lia. subst r. assert (c = 0%nat) by lia. subst c.
    rewrite app_nil_r. specialize (L2 row (or_introl eq_refl)). destruct row as [|x [|? ?]]; try discriminate. reflexivity.
  - rewrite (fill_get [] nz_val (repeat (repeat 0 nx) ny) (grid_of ny nx) vals j k) by (lia || assumption).
    destruct (get (Sc 0) vals j) as [x|g]; cbn [grid_of at_cell]; [|reflexivity].
    rewrite (repeat_get [] (repeat x nx) ny r R). apply repeat_get, C.
Qed.
Print Assumptions C80_layered_values.
(* C80 the result is one-dimensional exactly when no layer has a grid of more than one cell *)
Theorem C80_layered_shape ny nx nz_val vals : (0 < ny)%nat -> (0 < nx)%nat -> (forall v, In v vals -> shaped_val ny nx v) ->
  (exists l, build_layered_var ny nx nz_val vals = P1 l) <-> (forall g, In (Gr g) vals -> (ny * nx = 1)%nat).
Proof.
  intros Hy Hx Sh. unfold build_layered_var. split.
  - intros [l E] g I. destruct (all_scalars vals) eqn:A; [|discriminate]. unfold all_scalars in A. rewrite forallb_forall in A.
    specialize (A _ I). cbn in A. apply Nat.leb_le in A. rewrite (cells_shaped ny nx g (Sh _ I)) in A. nia.
  - intro H. assert (all_scalars vals = true) as ->; [|eexists; reflexivity].
    apply forallb_forall. intros [x|g] I; [reflexivity|]. cbn. apply Nat.leb_le. rewrite (cells_shaped ny nx g (Sh _ I)), (H g I). lia.
Qed.
Print Assumptions C80_layered_shape.

(* ---------- depths ---------- *)
Lemma dz_vector_length dz_val nz_val : length dz_val = length nz_val -> length (dz_vector dz_val nz_val) = list_sum nz_val.
Proof.
  revert nz_val. induction dz_val as [|d ds IH]; intros [|n ns] L; try discriminate; [reflexivity|].
  cbn. rewrite app_length, repeat_length, IH by (cbn in L; lia). reflexivity.
Qed.
Lemma dz_vector_get dz_val nz_val j k : length dz_val = length nz_val -> (j < length nz_val)%nat -> in_layer nz_val j k ->
  get 0 (dz_vector dz_val nz_val) k = get 0 dz_val j.
Proof.
  revert nz_val j k. induction dz_val as [|d ds IH]; intros [|n ns] j k L J I; try (cbn in *; lia).
  cbn [dz_vector]. unfold get, in_layer in *. destruct j as [|j].
  - cbn in I. rewrite app_nth1 by (rewrite repeat_length; lia). apply (repeat_get 0 d n k). lia.
  - change (list_sum (firstn (S j) (n :: ns))) with (n + list_sum (firstn j ns))%nat in I.
    change (list_sum (firstn (S (S j)) (n :: ns))) with (n + list_sum (firstn (S j) ns))%nat in I.
    rewrite app_nth2 by (rewrite repeat_length; lia). rewrite repeat_length. cbn [nth]. apply IH; try (cbn in *; lia).
Qed.
Lemma cumsum_get l : forall s k, (k < length l)%nat -> get 0 (cumsum_from s l) k == s + qsum (S k) (get 0 l).
Proof.
  induction l as [|x l IH]; intros s k K; [cbn in K; lia|]. destruct k as [|k].
  - change (qsum 1 (get 0 (x :: l))) with (x + 0). change (get 0 (cumsum_from s (x :: l)) 0) with (s + x). lra.
  - cbn [cumsum_from get nth]. unfold get in IH. rewrite IH by (cbn in K; lia).
    assert (E : qsum (S (S k)) (get 0 (x :: l)) == x + qsum (S k) (get 0 l)).
    { unfold qsum. change (seq 0 (S (S k))) with (0%nat :: seq 1 (S k)). rewrite <- seq_shift, qsuml_cons, qsuml_map. reflexivity. }
    unfold get in E |- *. rewrite E. lra.
Qed.
Lemma cumsum_length l : forall s, length (cumsum_from s l) = length l.
Proof. induction l as [|x l IH]; intro s; [reflexivity|]. cbn. rewrite IH. reflexivity. Qed.
(* C80 the depth of a level is the sum of the spacings down to it *)
Theorem C80_depth_sum dz_val nz_val k : length dz_val = length nz_val -> (k < list_sum nz_val)%nat ->
  length (layer_z dz_val nz_val) = list_sum nz_val /\
  get 0 (layer_z dz_val nz_val) k == qsum (S k) (get 0 (dz_vector dz_val nz_val)).
Proof.
  intros L K. unfold layer_z. rewrite cumsum_length, dz_vector_length by exact L. split; [reflexivity|].
  rewrite cumsum_get by (rewrite dz_vector_length by exact L; exact K). lra.
Qed.
Print Assumptions C80_depth_sum.
Lemma qsum_layers dz_val nz_val j : length dz_val = length nz_val -> (j <= length nz_val)%nat ->
  forall k, (list_sum (firstn j nz_val) = k)%nat -> qsum k (get 0 (dz_vector dz_val nz_val)) == top_of dz_val nz_val j.
Proof.
  intros L. induction j as [|j IH]; intros J k E.
  - cbn in E. subst k. reflexivity.
  - assert (X : list_sum (firstn (S j) nz_val) = (list_sum (firstn j nz_val) + get 0 nz_val j)%nat).
    { clear - J. revert j J. induction nz_val as [|n ns IH]; intros j J; [cbn in J; lia|]. destruct j as [|j]; [cbn; lia|].
      change (list_sum (firstn (S (S j)) (n :: ns))) with (n + list_sum (firstn (S j) ns))%nat.
      change (list_sum (firstn (S j) (n :: ns))) with (n + list_sum (firstn j ns))%nat. rewrite IH by (cbn in J; lia). unfold get. cbn. lia. }
    set (k0 := list_sum (firstn j nz_val)) in *. specialize (IH ltac:(lia) k0 eq_refl).
    assert (Y : forall m, (m <= get 0 nz_val j)%nat -> qsum (k0 + m) (get 0 (dz_vector dz_val nz_val)) == top_of dz_val nz_val j + (Z.of_nat m # 1) * get 0 dz_val j).
    { induction m as [|m IHm]; intro M.
      - rewrite Nat.add_0_r, IH. change (Z.of_nat 0 # 1) with 0. lra.
      - replace (k0 + S m)%nat with (S (k0 + m)) by lia. rewrite qsum_S, IHm by lia.
        rewrite (dz_vector_get dz_val nz_val j (k0 + m)) by (lia || (unfold in_layer; rewrite X; fold k0; lia)).
        assert (Z1 : (Z.of_nat (S m) # 1) == (Z.of_nat m # 1) + 1) by (unfold Qeq; cbn; lia). rewrite Z1. lra. }
    subst k. rewrite X, Y by lia. unfold top_of. rewrite (qsum_S j). lra.
Qed.
(* C80 the depths of the levels of a layer lie within the layer: below its top, not below its bottom *)
Theorem C80_depth_in_layer dz_val nz_val j k : length dz_val = length nz_val -> (j < length nz_val)%nat -> in_layer nz_val j k ->
  (forall d, In d dz_val -> 0 < d) ->
  top_of dz_val nz_val j < get 0 (layer_z dz_val nz_val) k /\ get 0 (layer_z dz_val nz_val) k <= top_of dz_val nz_val (S j).
Proof.
  intros L J I P.
  assert (K : (k < list_sum nz_val)%nat).
  { unfold in_layer in I. pose proof (sum_firstn_mono nz_val (S j) (length nz_val) ltac:(lia)) as H. rewrite sum_firstn_all in H. lia. }
  destruct (C80_depth_sum dz_val nz_val k L K) as [_ E]. rewrite E.
  assert (Pos : forall i, (i < list_sum nz_val)%nat -> 0 < get 0 (dz_vector dz_val nz_val) i).
  { intros i Hi. assert (In (get 0 (dz_vector dz_val nz_val) i) (dz_vector dz_val nz_val)) as H by (apply nth_In; rewrite dz_vector_length by exact L; exact Hi).
    revert H. generalize (get 0 (dz_vector dz_val nz_val) i). clear - P. revert nz_val. induction dz_val as [|d ds IH]; intros [|n ns] x H; cbn in H; try contradiction.
    apply in_app_or in H. destruct H as [H|H]; [apply repeat_spec in H; subst; apply P; left; reflexivity|].
    apply (IH (fun d H => P d (or_intror H)) ns x H). }
  assert (Mono : forall a b, (a <= b)%nat -> (b <= list_sum nz_val)%nat -> qsum a (get 0 (dz_vector dz_val nz_val)) <= qsum b (get 0 (dz_vector dz_val nz_val))).
  { intros a b H. induction H as [|b H IH]; intro B; [lra|]. rewrite qsum_S. specialize (IH ltac:(lia)). specialize (Pos b ltac:(lia)). lra. }
  unfold in_layer in I.
  rewrite <- (qsum_layers dz_val nz_val j L ltac:(lia) _ eq_refl), <- (qsum_layers dz_val nz_val (S j) L ltac:(lia) _ eq_refl). split.
  - rewrite qsum_S. pose proof (Mono (list_sum (firstn j nz_val)) k ltac:(lia) ltac:(lia)). specialize (Pos k K). lra.
  - apply Mono; [lia|]. rewrite <- (sum_firstn_all nz_val). apply sum_firstn_mono. lia.
Qed.
Print Assumptions C80_depth_in_layer.
Lemma lmin_le l x : In x l -> lmin l <= x.
Proof.
  unfold lmin. generalize (hd 0 l). intro h. induction l as [|a l IH]; intros I; [contradiction|]. cbn. destruct I as [->|I].
  - apply Q.le_min_l.
  - eapply Qle_trans; [apply Q.le_min_r | apply IH, I].
Qed.
Lemma lmax_ge l x : In x l -> x <= lmax l.
Proof.
  unfold lmax. generalize (hd 0 l). intro h. induction l as [|a l IH]; intros I; [contradiction|]. cbn. destruct I as [->|I].
  - apply Q.le_max_l.
  - eapply Qle_trans; [apply IH, I | apply Q.le_max_r].
Qed.
(* C80 the spacing self.dz is that of the levels, whether kept as a number or as a vector *)
Theorem C80_spacing dz_val nz_val k : length dz_val = length nz_val -> (k < list_sum nz_val)%nat ->
  thickness (layer_dz dz_val nz_val) k == get 0 (dz_vector dz_val nz_val) k.
Proof.
  intros L K. unfold layer_dz. destruct (Qeq_bool (lmin dz_val) (lmax dz_val)) eqn:E; [|reflexivity]. cbn [thickness].
  apply Qeq_bool_iff in E. destruct dz_val as [|d ds]; [destruct nz_val; [cbn in K; lia | discriminate]|].
  assert (A : forall x, In x (d :: ds) -> x == d).
  { intros x I. pose proof (lmin_le _ _ I). pose proof (lmax_ge _ _ I). pose proof (lmin_le (d :: ds) d (or_introl eq_refl)).
    pose proof (lmax_ge (d :: ds) d (or_introl eq_refl)). lra. }
  cbn [hd]. symmetry. apply A.
  assert (In (get 0 (dz_vector (d :: ds) nz_val) k) (dz_vector (d :: ds) nz_val)) as H by (apply nth_In; rewrite dz_vector_length by exact L; exact K).
  revert H. generalize (get 0 (dz_vector (d :: ds) nz_val) k). generalize (d :: ds). clear. intro l. revert nz_val.
  induction l as [|a l IH]; intros [|n ns] x H; cbn in H; try contradiction.
  apply in_app_or in H. destruct H as [H|H]; [apply repeat_spec in H; left; auto | right; apply (IH ns x H)].
Qed.
Print Assumptions C80_spacing.

(* ---------- stored water ---------- *)
Lemma bc_eq f a b : length a = length b -> bc f a b = Ok (map (fun p => f (fst p) (snd p)) (combine a b)).
Proof. intro E. unfold bc. rewrite (proj2 (Nat.eqb_eq _ _) E). reflexivity. Qed.
Lemma total_combine {A B} (da : A) (db : B) f (a : list A) : forall b n, length a = n -> length b = n ->
  total (map (fun p => f (fst p) (snd p)) (combine a b)) == qsum n (fun i => f (get da a i) (get db b i)).
Proof.
  induction a as [|x a IH]; intros [|y b] n La Lb; cbn in La, Lb; subst; try discriminate; [reflexivity|].
  cbn [combine map]. unfold total. rewrite qsuml_cons. change (qsuml (fun x0 => x0) (map _ (combine a b))) with (total (map (fun p => f (fst p) (snd p)) (combine a b))).
  rewrite (IH b (length a)) by lia. unfold qsum. cbn [seq]. rewrite qsuml_cons. rewrite <- seq_shift, qsuml_map. reflexivity.
Qed.
Lemma total_map_get {A} (d : A) f (a : list A) : total (map f a) == qsum (length a) (fun i => f (get d a i)).
Proof.
  induction a as [|x a IH]; [reflexivity|]. cbn [map length]. unfold total. rewrite qsuml_cons.
  change (qsuml (fun x0 => x0) (map f a)) with (total (map f a)). rewrite IH. unfold qsum. cbn [seq]. rewrite qsuml_cons.
  rewrite <- seq_shift, qsuml_map. reflexivity.
Qed.
Lemma gsum_map ny nx f g : shaped ny nx g -> gsum (map (map f) g) == qsum ny (fun r => qsum nx (fun c => f (get 0 (get [] g r) c))).
Proof.
  intros [L R]. unfold gsum. rewrite map_map, (total_map_get []), L. apply qsum_ext. intros r H.
  rewrite (total_map_get 0). rewrite (R (get [] g r)) by (apply nth_In; lia). reflexivity.
Qed.
Definition shaped_dz (nz : nat) (dz : dzv) : Prop := match dz with DzS _ => True | DzV l => length l = nz end.
Definition shaped_da (ny nx : nat) (da : area) : Prop := match da with DaS _ => True | DaG g => shaped ny nx g end.
(* C80 the volume of soil water is the sum over levels and cells of content, thickness and area: one column per cell *)
Theorem C80_storage ny nx nz n_pixels da dz c : length c = nz -> (forall g, In g c -> shaped ny nx g) -> shaped_dz nz dz -> shaped_da ny nx da ->
  exists vol, total_storage true false n_pixels nz da dz (P3 c) = Ok vol /\
    vol == water ny nx nz (fun k r cl => get 0 (get [] (get [] c k) r) cl) (thickness dz) (cell_area da).
Proof.
  intros L Sh Sd Sa. unfold total_storage. cbn [negb].
  assert (Shk : forall k, (k < nz)%nat -> shaped ny nx (get [] c k)) by (intros k K; apply Sh, nth_In; exact (eq_ind_r (fun n => (k < n)%nat) K L)).
  destruct da as [a|g].
  - destruct dz as [d|l].
    + eexists. split; [reflexivity|]. rewrite (total_map_get []), L. apply qsum_ext. intros k K.
      rewrite (gsum_map ny nx) by (apply Shk, K). apply qsum_ext; intros r R. apply qsum_ext; intros cl C. cbn [thickness cell_area]. lra.
    + eexists. split; [reflexivity|].
      rewrite (total_combine [] 0 (fun g d => gsum (map (map (fun x => x * (a * d))) g)) c l nz) by (assumption || exact Sd).
      apply qsum_ext. intros k K. rewrite (gsum_map ny nx) by (apply Shk, K). apply qsum_ext; intros r R. apply qsum_ext; intros cl C. cbn [thickness cell_area]. lra.
  - assert (G : forall dzl, length dzl = nz -> (forall k, (k < nz)%nat -> get 0 dzl k = thickness dz k) ->
      total (map (fun p => gsum (map (fun r => map (fun t => fst t * (snd t * snd p)) (combine (fst r) (snd r))) (combine (fst p) g))) (combine c dzl))
      == water ny nx nz (fun k r cl => get 0 (get [] (get [] c k) r) cl) (thickness dz) (cell_area (DaG g))).
    { intros dzl Ld Th.
      rewrite (total_combine [] 0 (fun cg d => gsum (map (fun r => map (fun t => fst t * (snd t * d)) (combine (fst r) (snd r))) (combine cg g))) c dzl nz) by assumption.
      apply qsum_ext. intros k K. rewrite Th by exact K. destruct (Shk k K) as [Lk Rk]. destruct Sa as [Lg Rg].
      unfold gsum. rewrite map_map.
      rewrite (total_combine [] [] (fun a b => total (map (fun t => fst t * (snd t * thickness dz k)) (combine a b))) (get [] c k) g ny) by assumption.
      apply qsum_ext. intros r R.
      etransitivity; [apply (total_combine 0 0 (fun a b => a * (b * thickness dz k)) (get [] (get [] c k) r) (get [] g r) nx); [apply Rk | apply Rg]; apply nth_In; lia|].
      apply qsum_ext. intros cl C. cbn [cell_area]. lra. }
    destruct dz as [d|l].
    + eexists. split; [reflexivity|]. apply G; [apply repeat_length | intros; apply repeat_get; assumption].
    + eexists. split; [reflexivity|]. apply G; [exact Sd | reflexivity].
Qed.
Print Assumptions C80_storage.
(* ... and with one profile for all cells of a grid of equal cells *)
Theorem C80_storage_single ny nx nz a dz q : length q = nz -> (0 < nz)%nat -> shaped_dz nz dz ->
  exists vol, total_storage true true (ny * nx) nz (DaS a) dz (P1 q) = Ok vol /\
    vol == water ny nx nz (fun k _ _ => get 0 q k) (thickness dz) (cell_area (DaS a)).
Proof.
  intros L P Sd. unfold total_storage. cbn [negb].
  assert (X : exists Vw, bc Qmult q (match dz with DzS d => [a * d] | DzV l => map (fun d => a * d) l end) = Ok Vw /\
    total Vw == qsum nz (fun k => get 0 q k * (a * thickness dz k))).
  { destruct dz as [d|l].
    - destruct (Nat.eq_dec nz 1) as [E|E].
      + destruct q as [|x [|? ?]]; cbn in L; try lia. eexists. split; [reflexivity|]. subst nz. unfold qsum, total. cbn [combine map seq]. rewrite !qsuml_cons, !qsuml_nil. cbn. lra.
      + assert (bc Qmult q [a * d] = Ok (map (fun x => x * (a * d)) q)) as ->.
        { unfold bc. cbn [length]. destruct (Nat.eqb_spec (length q) 1); [lia|]. destruct q as [|x [|y q]]; cbn in *; try lia. reflexivity. }
        eexists. split; [reflexivity|]. rewrite (total_map_get 0), L. reflexivity.
    - rewrite bc_eq by (rewrite map_length; cbn in Sd; lia). eexists. split; [reflexivity|].
      rewrite (total_combine 0 0 Qmult q _ nz) by (rewrite ?map_length; cbn in Sd; lia). apply qsum_ext. intros k K. cbn [thickness].
      unfold get. rewrite (nth_indep (map (fun d => a * d) l) 0 (a * 0)) by (rewrite map_length; cbn in Sd; lia). rewrite (map_nth (fun d => a * d)). reflexivity. }
  destruct X as [Vw [-> E]]. cbn [bind]. eexists. split; [reflexivity|]. rewrite E. unfold water.
  transitivity (qsum nz (fun k => (Z.of_nat (ny * nx) # 1) * (get 0 q k * (a * thickness dz k)))); [rewrite qsum_scale; lra|].
  apply qsum_ext. intros k K. cbn [cell_area].
  assert (Cst : forall n x, qsum n (fun _ => x) == (Z.of_nat n # 1) * x).
  { intros n x. unfold qsum. rewrite qsuml_const, seq_length. reflexivity. }
  transitivity (qsum ny (fun _ => (Z.of_nat nx # 1) * (get 0 q k * thickness dz k * a))).
  - rewrite Cst. assert (M : (Z.of_nat (ny * nx) # 1) == (Z.of_nat ny # 1) * (Z.of_nat nx # 1)) by (unfold Qeq; cbn; lia). rewrite M. lra.
  - apply qsum_ext. intros r R. rewrite Cst. reflexivity.
Qed.
Print Assumptions C80_storage_single.
(* C80 refuted: one profile for all cells of a geographic grid (whose cell areas form a grid) *)
Theorem C80_storage_geographic_refuted ny nx nz n g d q : shaped ny nx g -> (0 < ny)%nat -> (1 < nx)%nat -> length q = nz -> (1 < nz)%nat -> nx <> nz ->
  total_storage true true n nz (DaG g) (DzS d) (P1 q) = Raise ValueError.
Proof.
  intros [L R] Hy Hx Lq Hz N. unfold total_storage. cbn [negb bind]. destruct g as [|row g]; [cbn in L; lia|]. cbn [map mapM].
  assert (B : bc Qmult q (map (fun a => a * d) row) = Raise ValueError).
  { unfold bc. rewrite map_length, (R row (or_introl eq_refl)), Lq. destruct (Nat.eqb_spec nz nx); [lia|].
    specialize (R row (or_introl eq_refl)). destruct q as [|x [|y q]]; cbn in Lq; try lia. destruct row as [|u [|w row]]; cbn in R; try lia. reflexivity. }
  rewrite B. reflexivity.
Qed.
Print Assumptions C80_storage_geographic_refuted.
(* ... and when it has as many columns as levels, contents are multiplied with the areas of unrelated cells: not the water in the soil *)
Theorem C80_storage_geographic_wrong_refuted : exists ny nx nz g d q vol, shaped ny nx g /\ length q = nz /\
  total_storage true true (ny * nx) nz (DaG g) (DzS d) (P1 q) = Ok vol /\
  ~ vol == water ny nx nz (fun k _ _ => get 0 q k) (thickness (DzS d)) (cell_area (DaG g)).
Proof.
  exists 1%nat, 2%nat, 2%nat, [[1; 2]], 1, [1 # 2; 1 # 4]. eexists. split; [split; [reflexivity | intros row [<-|[]]; reflexivity]|]. split; [reflexivity|].
  split; [reflexivity|]. vm_compute. discriminate.
Qed.
Print Assumptions C80_storage_geographic_wrong_refuted.
(* C80 refuted: initialize() of the other infiltration methods stops, whatever the input *)
Theorem C80_storage_methods_refuted single n nz da dz q : total_storage false single n nz da dz q = Raise AttributeError.
Proof. reflexivity. Qed.
Print Assumptions C80_storage_methods_refuted.
(* C80 refuted: a grid in a layer below the first is not seen by check_input_types and stops the initialization *)
Theorem C80_lower_grid_refuted ny nx nz_val x g rest : (1 < nx)%nat -> (0 < ny)%nat -> (1 < nz nz_val)%nat -> nx <> nz nz_val ->
  length nz_val = S (S (length rest)) -> (0 < hd 0 nz_val)%nat -> (forall v, In v (Sc x :: Gr g :: rest) -> shaped_val ny nx v) ->
  let qi := Sc x :: Gr g :: rest in
  check_input_types true [qi] = true /\
  initial_q ny nx (nz nz_val) (check_input_types true [qi]) (build_layered_var ny nx nz_val qi) = Raise ValueError.
Proof.
  intros Hx Hy Hz N Ln H0 Sh qi. split; [reflexivity|]. cbn [check_input_types forallb hd qi is_scalar andb initial_q].
  unfold build_layered_var.
  assert (A : all_scalars qi = false).
  { unfold all_scalars, qi. cbn [forallb vsize]. rewrite (cells_shaped ny nx g (Sh (Gr g) (or_intror (or_introl eq_refl)))).
    destruct (Nat.leb_spec (ny * nx) 1); [nia | reflexivity]. }
  rewrite A.
  pose proof (fill_get [] nz_val (repeat (repeat 0 nx) ny) (grid_of ny nx) qi 0 0 ltac:(lia)) as F.
  assert (In0 : in_layer nz_val 0 0) by (unfold in_layer; destruct nz_val as [|n r]; cbn in *; lia). specialize (F In0).
  destruct (fill nz_val (repeat (repeat 0 nx) ny) (grid_of ny nx) qi) as [|g0 c].
  - exfalso. cbn in F. destruct ny; [lia|]. discriminate.
  - cbn [get nth] in F. subst g0. cbn [get nth qi grid_of mapM]. destruct ny as [|ny']; [lia|]. cbn [repeat mapM].
    assert (B : bc Qplus (repeat 0 (nz nz_val)) (repeat x nx) = Raise ValueError).
    { unfold bc. rewrite !repeat_length. destruct (Nat.eqb_spec (nz nz_val) nx); [lia|]. destruct (nz nz_val) as [|[|m]]; try lia. destruct nx as [|[|n']]; try lia. reflexivity. }
    rewrite B. reflexivity.
Qed.
Print Assumptions C80_lower_grid_refuted.

(* ---------- wetting front ---------- *)
Definition decreasing_at (q : list Q) (k : nat) : Prop := (S k < length q)%nat /\ get 0 q (S k) < get 0 q k.
Lemma zdiff_pos q k : (k < length q)%nat -> (0 < zdiff q k <-> decreasing_at q k).
Proof.
  intro K. unfold zdiff, decreasing_at. destruct (Nat.eqb_spec (S k) (length q)) as [E|E].
  - split; [lra | intros [H _]; lia].
  - split; [intro H; split; [lia | lra] | intros [_ H]; lra].
Qed.
Lemma zw_fold q dz m n : (m < n)%nat -> 0 < zdiff q m -> zdiff q (S m) <= 0 -> (forall j, (m < j < n)%nat -> zdiff q j <= 0) ->
  fold_left (fun zw j => if Qltb 0 (zdiff q j) && Qle_bool (zdiff q (S j)) 0 then nmul j (dz_at dz j) else zw) (seq 0 n) 0 = nmul m (dz_at dz m).
Proof.
  intros H P N L. revert H L. induction n as [|n IH]; intros H L; [lia|]. rewrite seq_S, fold_left_app. cbn [fold_left Nat.add].
  destruct (Nat.eq_dec n m) as [->|E].
  - assert (Qltb 0 (zdiff q m) = true) as -> by (apply Qltb_lt, P). assert (Qle_bool (zdiff q (S m)) 0 = true) as -> by (apply Qle_bool_iff, N). reflexivity.
  - assert (Qltb 0 (zdiff q n) = false) as -> by (apply Qltb_ge, L; lia). cbn [andb]. apply IH; [lia|]. intros; apply L; lia.
Qed.
(* C80 with one column per cell, the front is put at the deepest level that is wetter than the one below *)
Theorem C80_front_cell q dz m : decreasing_at q m -> (forall k, (m < k)%nat -> ~ decreasing_at q k) -> Zw_cell q dz = nmul m (dz_at dz m).
Proof.
  intros D N. pose proof D as [Hm _]. unfold Zw_cell.
  assert (Np : forall k, (m < k)%nat -> (k < length q)%nat -> zdiff q k <= 0).
  { intros k K1 K2. destruct (Qlt_le_dec 0 (zdiff q k)) as [H|H]; [|exact H]. exfalso. apply (N k K1). apply zdiff_pos; assumption. }
  apply zw_fold; [lia | apply zdiff_pos; [lia | exact D] | apply Np; lia | intros j J; apply Np; lia].
Qed.
Print Assumptions C80_front_cell.
Theorem C80_front_cell_none q dz : (forall k, ~ decreasing_at q k) -> Zw_cell q dz = 0.
Proof.
  intro N. unfold Zw_cell.
  assert (H : forall n, (n <= length q - 1)%nat -> fold_left (fun zw j => if Qltb 0 (zdiff q j) && Qle_bool (zdiff q (S j)) 0 then nmul j (dz_at dz j) else zw) (seq 0 n) 0 = 0).
  { induction n as [|n IH]; intro H; [reflexivity|]. rewrite seq_S, fold_left_app. cbn [fold_left Nat.add].
    assert (Qltb 0 (zdiff q n) = false) as ->; [|apply IH; lia].
    apply Qltb_ge. destruct (Qlt_le_dec 0 (zdiff q n)) as [G|G]; [|exact G]. exfalso. apply (N n), zdiff_pos; [lia | exact G]. }
  apply H. lia.
Qed.
Print Assumptions C80_front_cell_none.
Lemma filter_one p n m : (m < n)%nat -> p m = true -> (forall k, (k < n)%nat -> k <> m -> p k = false) -> filter p (seq 0 n) = [m].
Proof.
  intros H P N. induction n as [|n IH]; [lia|]. rewrite seq_S, filter_app. cbn [filter Nat.add].
  destruct (Nat.eq_dec n m) as [->|E].
  - rewrite P. replace (filter p (seq 0 m)) with (@nil nat); [reflexivity|]. symmetry.
    assert (G : forall l, (forall k, In k l -> p k = false) -> filter p l = []) by (induction l as [|a l IHl]; intro A; [reflexivity | cbn; rewrite A by (left; reflexivity); apply IHl; intros; apply A; right; assumption]).
    apply G. intros k K. apply in_seq in K. apply N; lia.
  - rewrite (N n) by lia. rewrite app_nil_r. apply IH; [lia|]. intros; apply N; lia.
Qed.
(* C80 refuted: with one profile for all cells, a single sharp front is not found: its depth is reported as 0 *)
Theorem C80_front_single_refuted q dz m : decreasing_at q m -> (forall k, k <> m -> ~ decreasing_at q k) -> Zw_single q dz == 0.
Proof.
  intros D N. pose proof D as [Hm _].
  assert (I : filter (fun k => Qltb 0 (zdiff q k)) (seq 0 (length q)) = [m]).
  { apply filter_one; [lia | apply Qltb_lt, zdiff_pos; [lia | exact D]|].
    intros k K E. apply Qltb_ge. destruct (Qlt_le_dec 0 (zdiff q k)) as [G|G]; [|exact G]. exfalso. apply (N k E), zdiff_pos; assumption. }
  unfold Zw_single, Zw_index. rewrite I. cbn [last map].
  assert (M : lmax [get 0 q m] == get 0 q m) by (unfold lmax; cbn; apply Q.max_id).
  assert (M' : lmin [get 0 q m] == get 0 q m) by (unfold lmin; cbn; apply Q.min_id).
  assert (Up : forall j, (j <= m)%nat -> get 0 q (m - j) <= get 0 q m).
  { induction j as [|j IH]; intro J; [rewrite Nat.sub_0_r; lra|]. specialize (IH ltac:(lia)).
    destruct (Qlt_le_dec (get 0 q (m - j)) (get 0 q (m - S j))) as [G|G]; [|lra]. exfalso. apply (N (m - S j)%nat); [lia|]. split; [lia|].
    replace (S (m - S j)) with (m - j)%nat by lia. exact G. }
  replace (filter _ (seq 0 (m + 1))) with (@nil nat); [unfold nmul; cbn; lra|]. symmetry.
  assert (G : forall p l, (forall k, In k l -> p k = false) -> filter p l = @nil nat) by (intro p; induction l as [|a l IHl]; intro A; [reflexivity | cbn; rewrite A by (left; reflexivity); apply IHl; intros; apply A; right; assumption]).
  apply G. intros k K. apply in_seq in K. apply Qltb_ge. rewrite M, M'. specialize (Up (m - k)%nat ltac:(lia)). replace (m - (m - k))%nat with k in Up by lia. lra.
Qed.
Print Assumptions C80_front_single_refuted.
(* C80 the front is never above the surface or below the soil column *)
Lemma nmul_le k n d : (k <= n)%nat -> 0 <= d -> 0 <= nmul k d /\ nmul k d <= nmul n d.
Proof.
  intros H D. unfold nmul. assert (0 <= (Z.of_nat k # 1)) by (unfold Qle; cbn; lia). assert ((Z.of_nat k # 1) <= (Z.of_nat n # 1)) by (unfold Qle; cbn; lia). nra.
Qed.
Lemma last_in_le (l : list nat) n : (forall k, In k l -> (k <= n)%nat) -> (last l 0 <= n)%nat.
Proof. induction l as [|a l IH]; intro H; [cbn; lia|]. destruct l as [|b l]; [cbn; apply H; left; reflexivity|]. apply IH. intros; apply H; right; assumption. Qed.
Theorem C80_front_range q d : 0 <= d -> 0 <= Zw_single q d <= nmul (length q - 1) d /\ 0 <= Zw_cell q (DzS d) <= nmul (length q - 1) d.
Proof.
  intro D. split.
  - unfold Zw_single. apply nmul_le; [|exact D]. unfold Zw_index.
    set (idx := filter _ (seq 0 (length q))). destruct idx as [|i r] eqn:E; [lia|].
    assert (I : (last (i :: r) 0 <= length q - 1)%nat).
    { apply last_in_le. intros k K. rewrite <- E in K. apply filter_In in K. destruct K as [K _]. apply in_seq in K. lia. }
    apply last_in_le. intros k K. apply filter_In in K. destruct K as [K _]. apply in_seq in K. lia.
  - unfold Zw_cell.
    assert (H : forall l z, 0 <= z <= nmul (length q - 1) d -> (forall j, In j l -> (j <= length q - 1)%nat) ->
      0 <= fold_left (fun zw j => if Qltb 0 (zdiff q j) && Qle_bool (zdiff q (S j)) 0 then nmul j (dz_at (DzS d) j) else zw) l z <= nmul (length q - 1) d).
    { induction l as [|j l IH]; intros z Hz L; [exact Hz|]. cbn [fold_left]. apply IH; [|intros; apply L; right; assumption].
      destruct (Qltb 0 (zdiff q j) && Qle_bool (zdiff q (S j)) 0); [|exact Hz]. cbn [dz_at]. apply nmul_le; [apply L; left; reflexivity | exact D]. }
    apply H; [split; [lra | exact (proj1 (nmul_le (length q - 1) (length q - 1) d (le_n _) D))]|]. intros j J. apply in_seq in J. lia.
Qed.
Print Assumptions C80_front_range.
(* C80 refuted: with layers of different spacing the reported depth is that of no level of the column *)
Theorem C80_front_layers_refuted : exists dz_val nz_val q, length dz_val = length nz_val /\ length q = list_sum nz_val /\
  (exists m, decreasing_at q m /\ forall k, k <> m -> ~ decreasing_at q k) /\
  forall k, (k < list_sum nz_val)%nat -> ~ Zw_cell q (layer_dz dz_val nz_val) == get 0 (layer_z dz_val nz_val) k.
Proof.
  exists [1; 3], [2; 2]%nat, [4 # 10; 4 # 10; 4 # 10; 1 # 10]. split; [reflexivity|]. split; [reflexivity|]. split.
  - exists 2%nat. split; [split; [cbn; lia | cbv; reflexivity]|]. intros k K [A B]. cbn in A. destruct k as [|[|[|k]]]; try lia; cbv in B; discriminate.
  - intros k K. cbn in K. destruct k as [|[|[|[|k]]]]; try lia; vm_compute; discriminate.
Qed.
Print Assumptions C80_front_layers_refuted.

(* C80 the initial water content of every cell is the given profile; numbers and grids agree *)
Theorem C80_initial ny nx n flag l k r c : length l = n -> (k < n)%nat -> (r < ny)%nat -> (c < nx)%nat ->
  exists q, initial_q ny nx n flag (P1 l) = Ok q /\ level_value q k r c = get 0 l k.
Proof.
  intros L K R C. unfold initial_q. destruct flag; (eexists; split; [reflexivity|]); cbn [level_value]; [reflexivity|].
  unfold get. rewrite (nth_indep _ [] ((fun x => repeat (repeat x nx) ny) 0)) by (rewrite map_length, L; exact K).
  rewrite (map_nth (fun x => repeat (repeat x nx) ny)). rewrite (nth_indep _ [] (repeat (nth k l 0) nx)) by (rewrite repeat_length; exact R). rewrite nth_repeat. rewrite (nth_indep _ 0 (nth k l 0)) by (rewrite repeat_length; exact C). apply nth_repeat.
Qed.
Print Assumptions C80_initial.

(* ---------- input grids ---------- *)
Lemma lmin_In l : l <> [] -> exists x, In x l /\ lmin l == x.
Proof.
  destruct l as [|a l]; [congruence|]. intros _. unfold lmin. cbn [hd fold_right].
  assert (H : exists x, In x (a :: l) /\ fold_right Qmin a l == x).
  { induction l as [|b l IH]; [exists a; split; [left; reflexivity | reflexivity]|]. cbn. destruct IH as [x [I E]].
    destruct (Q.min_spec b (fold_right Qmin a l)) as [[_ M]|[_ M]].
    - exists b. split; [right; left; reflexivity | exact M].
    - exists x. split; [destruct I as [->|I]; [left; reflexivity | right; right; exact I]|]. rewrite M. exact E. }
  destruct H as [x [I E]]. destruct (Q.min_spec a (fold_right Qmin a l)) as [[_ M]|[_ M]].
  - exists a. split; [left; reflexivity | exact M].
  - exists x. split; [exact I|]. rewrite M. exact E.
Qed.
Lemma get_map_map f g r c : (r < length g)%nat -> (c < length (get [] g r))%nat -> get 0 (get [] (map (map f) g) r) c = f (get 0 (get [] g r) c).
Proof.
  intros R C. unfold get in *. rewrite (nth_indep (map (map f) g) [] (map f [])) by (rewrite map_length; exact R). rewrite map_nth.
  rewrite (nth_indep _ 0 (f 0)) by (rewrite map_length; exact C). apply map_nth.
Qed.
(* C80 a grid of conductivities read from a file is positive everywhere; valid values are kept, others get the smallest valid one *)
Theorem C80_Ks_positive g old v r c : read_Ks (Grid g) old = Ok v -> (r < length g)%nat -> (c < length (get [] g r))%nat ->
  0 < at_cell v r c /\ (0 < get 0 (get [] g r) c -> at_cell v r c = get 0 (get [] g r) c) /\
  (get 0 (get [] g r) c <= 0 -> (exists x, In x (concat g) /\ at_cell v r c == x) /\ forall x, In x (concat g) -> 0 < x -> at_cell v r c <= x).
Proof.
  intros E R C. unfold read_Ks in E. destruct (filter (fun x => Qltb 0 x) (concat g)) as [|a l] eqn:F; [discriminate|]. injection E as <-.
  cbn [at_cell]. rewrite get_map_map by assumption. set (x := get 0 (get [] g r) c).
  destruct (lmin_In (a :: l) ltac:(discriminate)) as [y [I Ey]]. pose proof I as I'. rewrite <- F in I'. apply filter_In in I'. destruct I' as [I1 I2]. apply Qltb_lt in I2.
  destruct (Qle_bool x 0) eqn:X.
  - apply Qle_bool_iff in X. split; [lra|]. split; [lra|]. intros _. split; [exists y; auto|]. intros z Z1 Z2. apply lmin_le. rewrite <- F. apply filter_In. split; [exact Z1 | apply Qltb_lt, Z2].
  - rewrite <- not_true_iff_false, Qle_bool_iff in X. split; [lra|]. split; [reflexivity|]. intro H. contradiction.
Qed.
Print Assumptions C80_Ks_positive.
(* C80 bubbling pressures and pore size indices are cut at -3 and 0.1 *)
Theorem C80_pB_lam_range g old r c : (r < length g)%nat -> (c < length (get [] g r))%nat ->
  exists pb la, read_pB (Grid g) old = Ok pb /\ read_lam (Grid g) old = Ok la /\
    at_cell pb r c == Qmax (-(3)) (get 0 (get [] g r) c) /\ at_cell la r c == Qmax (1 # 10) (get 0 (get [] g r) c).
Proof.
  intros R C. eexists _, _. split; [reflexivity|]. split; [reflexivity|]. cbn [at_cell]. rewrite !get_map_map by assumption. set (x := get 0 (get [] g r) c). split.
  - destruct (Qltb x (-(3))) eqn:E; [apply Qltb_lt in E; symmetry; apply Q.max_l; lra | apply Qltb_ge in E; symmetry; apply Q.max_r; lra].
  - destruct (Qltb x (1 # 10)) eqn:E; [apply Qltb_lt in E; symmetry; apply Q.max_l; lra | apply Qltb_ge in E; symmetry; apply Q.max_r; lra].
Qed.
Print Assumptions C80_pB_lam_range.
(* C80 refuted: the documented type Time_Series stops the run for these parameters *)
Theorem C80_time_series_refuted x old : read_Ks (Number x) old = Raise TypeError /\ read_pB (Number x) old = Raise TypeError /\ read_lam (Number x) old = Raise TypeError.
Proof. repeat split; reflexivity. Qed.
Print Assumptions C80_time_series_refuted.
(* C80 refuted: of a Grid_Sequence only the first grid is ever used *)
Theorem C80_sequence_refuted steps : forall s s', soil_run s steps = Ok s' -> Ks_used s' = Ks_used s.
Proof.
  induction steps as [|i r IH]; intros s s' E; cbn in E; [congruence|]. unfold soil_update in E.
  destruct (read_all i (Ks_list s)) as [vs|e]; [|discriminate]. cbn [bind] in E. rewrite (IH _ _ E). reflexivity.
Qed.
Print Assumptions C80_sequence_refuted.

(* ---------- cases ---------- *)
Example C80_layered_case : build_layered_var 1 2 [2; 1]%nat [Sc (1 # 2); Gr [[3; 4]]] = P3 [[[1 # 2; 1 # 2]]; [[1 # 2; 1 # 2]]; [[3; 4]]] /\
  build_layered_var 1 2 [2; 1]%nat [Sc 5; Sc 6] = P1 [5; 5; 6] /\ in_layer [2; 1]%nat 1 2.
Proof. split; [reflexivity|]. split; [reflexivity|]. unfold in_layer. cbn. lia. Qed.
Example C80_depth_case : layer_z [1; 3] [2; 2]%nat = [0 + 1; 0 + 1 + 1; 0 + 1 + 1 + 3; 0 + 1 + 1 + 3 + 3] /\ top_of [1; 3] [2; 2]%nat 1 == 2 /\ layer_dz [1; 3] [2; 2]%nat = DzV [1; 1; 3; 3] /\ layer_dz [2; 2] [2; 2]%nat = DzS 2.
Proof. repeat split; reflexivity. Qed.
Example C80_storage_case : exists v, total_storage true false 2 2 (DaG [[10; 20]]) (DzV [1; 2]) (P3 [[[1 # 2; 1 # 4]]; [[1 # 10; 0]]]) = Ok v /\ v == 12.
Proof. eexists. split; [reflexivity|]. reflexivity. Qed.
Example C80_front_case : Zw_cell [4 # 10; 4 # 10; 4 # 10; 1 # 10] (DzS 1) == 2 /\ Zw_single [4 # 10; 4 # 10; 4 # 10; 1 # 10] 1 == 0 /\
  Zw_single [4 # 10; 3 # 10; 2 # 10; 1 # 10] 1 == 1 /\ decreasing_at [4 # 10; 4 # 10; 4 # 10; 1 # 10] 2.
Proof. split; [reflexivity|]. split; [reflexivity|]. split; [reflexivity|]. split; [cbn; lia | reflexivity]. Qed.
Example C80_Ks_case : exists v, read_Ks (Grid [[-(1); 2]; [0; 3]]) (Sc 0) = Ok v /\ at_cell v 0 0 == 2 /\ at_cell v 1 0 == 2 /\ at_cell v 1 1 == 3.
Proof. eexists. split; [reflexivity|]. repeat split; reflexivity. Qed.
Example C80_sequence_case : exists s s', soil_init 1 2 [1]%nat [Sc 0] [Grid [[1; 2]]] = Ok s /\ soil_run s [[Grid [[5; 6]]]] = Ok s' /\
  Ks_list s' = [Gr [[5; 6]]] /\ Ks_used s' = P3 [[[1; 2]]].
Proof. eexists _, _. repeat split; reflexivity. Qed.
