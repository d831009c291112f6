(* C77: stacks of weather grids on the grid of the DEM, made from files of other sources. *)
From Coq Require Import QArith Qabs Lqa List Bool Arith Lia Permutation.
From Verif Require Import Base Regrid_Model.
Import ListNotations.
Local Open Scope Q_scope.

(* ---------- specification ---------- *)
(* the point (x, y) lies in the box *)
Definition in_box (b : box) (x y : Q) : Prop := xmin b <= x <= xmax b /\ ymin b <= y <= ymax b.
(* ... in the cell in row r (from the top) and column c of a north-up raster *)
Definition in_cell (d : raster) (r c : nat) (x y : Q) : Prop :=
  ulx d + Qn c * xres d <= x <= ulx d + Qn (c + 1) * xres d /\
  uly d + Qn (r + 1) * yres d <= y <= uly d + Qn r * yres d.
(* the middle of a cell of a raster *)
Definition centre_x (d : raster) (c : nat) : Q := ulx d + (Qn c + (1 # 2)) * xres d.
Definition centre_y (d : raster) (r : nat) : Q := uly d + (Qn r + (1 # 2)) * yres d.
Definition value (d : raster) (r c : nat) : Q := get 0 (cells d) (r * ncols d + c).

(* ---------- lemmas ---------- *)
Lemma Qn_S n : Qn (S n) == Qn n + 1.
Proof. unfold Qn. rewrite Nat2Z.inj_succ. unfold Z.succ. rewrite inject_Z_plus. reflexivity. Qed.
Lemma Qn_0 : Qn 0 == 0.
Proof. reflexivity. Qed.
Lemma Qn_nonneg n : 0 <= Qn n.
Proof. unfold Qn. change 0 with (inject_Z 0). rewrite <- Zle_Qle. lia. Qed.
Lemma Qn_le a b : (a <= b)%nat -> Qn a <= Qn b.
Proof. intro. unfold Qn. rewrite <- Zle_Qle. lia. Qed.
Lemma slots (a w x : Q) (n : nat) : 0 < w -> (0 < n)%nat ->
  (a <= x <= a + Qn n * w <-> exists c, (c < n)%nat /\ a + Qn c * w <= x <= a + Qn (c + 1) * w).
Proof.
  intros W P. split.
  - induction n as [|n IH]; [lia|]. intros [A B].
    destruct (Nat.eq_dec n 0) as [->|N].
    + exists 0%nat. split; [lia|]. split; [rewrite Qn_0; lra | exact B].
    + destruct (Qlt_le_dec (a + Qn n * w) x) as [L|L].
      * exists n. split; [lia|]. split; [lra|]. replace (n + 1)%nat with (S n) by lia. exact B.
      * destruct IH as [c [C D]]; [lia | lra |]. exists c. split; [lia | exact D].
  - intros [c [C [D E]]]. split.
    + pose proof (Qn_nonneg c). assert (0 <= Qn c * w) by nra. lra.
    + assert (Qn (c + 1) <= Qn n) by (apply Qn_le; lia). assert (Qn (c + 1) * w <= Qn n * w) by nra. lra.
Qed.
Lemma slots_down (a w y : Q) (n : nat) : w < 0 -> (0 < n)%nat ->
  (a + Qn n * w <= y <= a <-> exists r, (r < n)%nat /\ a + Qn (r + 1) * w <= y <= a + Qn r * w).
Proof.
  intros W P. destruct (slots (- a) (- w) (- y) n) as [F G]; [lra | exact P |]. split.
  - intros [A B]. destruct F as [c [C [D E]]]; [split; nra|]. exists c. split; [exact C|]. split; nra.
  - intros [r [C [D E]]]. destruct G as [H I]; [exists r; split; [exact C | split; nra]|]. split; nra.
Qed.

(* ---------- boxes ---------- *)
(* C77 the box of a north-up raster: it holds exactly the points of the raster's cells *)
Theorem C77_bounds d : 0 < xres d -> yres d < 0 -> (0 < ncols d)%nat -> (0 < nrows d)%nat ->
  forall x y, in_box (get_raster_bounds d) x y <-> exists r c, (r < nrows d)%nat /\ (c < ncols d)%nat /\ in_cell d r c x y.
Proof.
  intros X Y C R x y. unfold in_box, get_raster_bounds. cbn. unfold in_cell.
  rewrite (slots _ _ x _ X C), (slots_down _ _ y _ Y R). split.
  - intros [[c [A B]] [r [D E]]]. exists r, c. auto.
  - intros [r [c [A [B [D E]]]]]. split; [exists c | exists r]; auto.
Qed.
Print Assumptions C77_bounds.
(* C77 the cell size reported is positive, in both directions *)
Theorem C77_cellsize d : 0 < xres d -> ~ yres d == 0 ->
  0 < fst (get_raster_cellsize d) /\ 0 < snd (get_raster_cellsize d) /\ snd (get_raster_cellsize d) == Qabs (yres d).
Proof.
  intros X Y. unfold get_raster_cellsize. cbn. split; [exact X|]. destruct (Qltb (yres d) 0) eqn:E.
  - apply Qltb_lt in E. split; [lra|]. rewrite Qabs_neg; lra.
  - apply Qltb_ge in E. split; [lra|]. rewrite Qabs_pos; lra.
Qed.
Print Assumptions C77_cellsize.
(* C77 boxes are disjoint exactly when they have no point in common *)
Theorem C77_disjoint b1 b2 :
  xmin b1 <= xmax b1 -> ymin b1 <= ymax b1 -> xmin b2 <= xmax b2 -> ymin b2 <= ymax b2 ->
  (bounds_disjoint b1 b2 = true <-> forall x y, ~ (in_box b1 x y /\ in_box b2 x y)).
Proof.
  intros A B C D. unfold bounds_disjoint. rewrite !orb_true_iff, !Qltb_lt. unfold in_box. split.
  - intros [[[H|H]|H]|H] x y; intros [[[E F] [G I]] [[J K] [L M]]]; lra.
  - intro H.
    destruct (Qlt_le_dec (xmax b1) (xmin b2)) as [P|P]; [auto|].
    destruct (Qlt_le_dec (xmax b2) (xmin b1)) as [P'|P']; [auto|].
    destruct (Qlt_le_dec (ymax b2) (ymin b1)) as [R|R]; [auto|].
    destruct (Qlt_le_dec (ymax b1) (ymin b2)) as [R'|R']; [auto|]. exfalso.
    set (x := if Qlt_le_dec (xmin b1) (xmin b2) then xmin b2 else xmin b1).
    set (y := if Qlt_le_dec (ymin b1) (ymin b2) then ymin b2 else ymin b1).
    apply (H x y). subst x y.
    destruct (Qlt_le_dec (xmin b1) (xmin b2)), (Qlt_le_dec (ymin b1) (ymin b2)); split; split; split; lra.
Qed.
Print Assumptions C77_disjoint.
Theorem C77_disjoint_symmetric b1 b2 : bounds_disjoint b1 b2 = bounds_disjoint b2 b1.
Proof.
  unfold bounds_disjoint. destruct (Qltb (xmax b1) (xmin b2)), (Qltb (xmax b2) (xmin b1)), (Qltb (ymax b2) (ymin b1)), (Qltb (ymax b1) (ymin b2)); reflexivity.
Qed.
Print Assumptions C77_disjoint_symmetric.
(* C77 REFUTED "a file whose area overlaps the DEM is used": a raster stored with its first row in the south (yres > 0)
   is judged disjoint from every DEM that lies below its top edge -- even one that it covers *)
Theorem C77_south_up_refuted d b : 0 < yres d -> ymax b < uly d + Qn (nrows d) * yres d ->
  bounds_disjoint (get_raster_bounds d) b = true.
Proof.
  intros Y H. unfold bounds_disjoint, get_raster_bounds. cbn. rewrite !orb_true_iff, !Qltb_lt. auto.
Qed.
Print Assumptions C77_south_up_refuted.

(* ---------- the rotation of GPM files ---------- *)
(* C77 the turned raster: the value of column c and row r of the file is in row ncols-1-c and column r *)
Lemma div_mod_pos nr i j : (j < nr)%nat -> ((i * nr + j) / nr = i /\ (i * nr + j) mod nr = j)%nat.
Proof.
  intro J. split.
  - rewrite Nat.add_comm, Nat.div_add, Nat.div_small; lia.
  - rewrite Nat.add_comm, Nat.mod_add, Nat.mod_small; lia.
Qed.
Lemma rot90_get nr nc a r c : (r < nr)%nat -> (c < nc)%nat -> get 0 (rot90 nr nc a) ((nc - 1 - c) * nr + r) = get 0 a (r * nc + c).
Proof.
  intros R C. unfold rot90. rewrite get_tab by nia.
  destruct (div_mod_pos nr (nc - 1 - c) r R) as [E F]. rewrite E, F. cbv zeta. f_equal. lia.
Qed.
Theorem C77_gpm_values d r c : (r < nrows d)%nat -> (c < ncols d)%nat ->
  value (fix_gpm d None) (ncols d - 1 - c) r = value d r c.
Proof. intros R C. unfold value, fix_gpm. cbn. apply rot90_get; assumption. Qed.
Print Assumptions C77_gpm_values.
Theorem C77_gpm_shape d : length (cells (fix_gpm d None)) = (nrows d * ncols d)%nat /\
  ncols (fix_gpm d None) = nrows d /\ nrows (fix_gpm d None) = ncols d.
Proof. unfold fix_gpm. cbn. unfold rot90. rewrite tab_length. auto. Qed.
Print Assumptions C77_gpm_shape.
(* its box is that of the file with the axes exchanged *)
Theorem C77_gpm_box d : let b := get_raster_bounds d in let b' := get_raster_bounds (fix_gpm d None) in
  xmin b' == ymin b /\ xmax b' == ymax b /\ ymin b' == xmin b /\ ymax b' == xmax b.
Proof. unfold fix_gpm, get_raster_bounds. cbn. repeat split; ring. Qed.
Print Assumptions C77_gpm_box.
(* C77 what was at (X, Y) of the file is put at (bottom + top - Y, X): the first axis of the file becomes the second
   one, at its true place; the other axis is mirrored about the middle of the box *)
Theorem C77_gpm_place d r c : (r < nrows d)%nat -> (c < ncols d)%nat ->
  centre_y (fix_gpm d None) (ncols d - 1 - c) == centre_x d c /\
  centre_x (fix_gpm d None) r == ymin (get_raster_bounds d) + ymax (get_raster_bounds d) - centre_y d r.
Proof.
  intros R C. unfold centre_x, centre_y, fix_gpm, get_raster_bounds. cbn.
  assert (E : Qn (ncols d - 1 - c) == Qn (ncols d) - 1 - Qn c).
  { unfold Qn. rewrite !Nat2Z.inj_sub by lia. unfold Z.sub. rewrite !inject_Z_plus, !inject_Z_opp. reflexivity. }
  rewrite E. split; ring.
Qed.
Print Assumptions C77_gpm_place.
(* C77 REFUTED "turning the file keeps every value at its place": of the cells of the georeferenced file only those on
   the middle line do, unless the file's own georeferencing has that axis upside down *)
Theorem C77_gpm_place_refuted d r : ~ yres d == 0 -> ~ (2 * Qn r + 1 == Qn (nrows d)) ->
  ~ centre_x (fix_gpm d None) r == centre_y d r.
Proof.
  intros Y N. unfold centre_x, centre_y, fix_gpm, get_raster_bounds. cbn. intro H. apply N.
  assert (E : (2 * Qn r + 1 - Qn (nrows d)) * yres d == 0) by (ring_simplify in H; ring_simplify; lra).
  apply Qmult_integral in E. destruct E as [E|E]; [lra | contradiction].
Qed.
Print Assumptions C77_gpm_place_refuted.
(* ... and it does put them right when the reported rows run the other way (row r of the array is at the place of
   row nrows-1-r) *)
Theorem C77_gpm_flipped d r : (r < nrows d)%nat -> centre_x (fix_gpm d None) r == centre_y d (nrows d - 1 - r).
Proof.
  intro R. unfold centre_x, centre_y, fix_gpm, get_raster_bounds. cbn.
  assert (E : Qn (nrows d - 1 - r) == Qn (nrows d) - 1 - Qn r).
  { unfold Qn. rewrite !Nat2Z.inj_sub by lia. unfold Z.sub. rewrite !inject_Z_plus, !inject_Z_opp. reflexivity. }
  rewrite E. ring.
Qed.
Print Assumptions C77_gpm_flipped.
(* C77 the file's marker for missing values is forgotten: the turned raster has none, and the cells keep the number *)
Theorem C77_gpm_nodata_refuted d r c n : (r < nrows d)%nat -> (c < ncols d)%nat -> nodata d = Some n -> value d r c = n ->
  nodata (fix_gpm d None) = None /\ value (fix_gpm d None) (ncols d - 1 - c) r = n.
Proof. intros R C _ V. split; [reflexivity|]. rewrite C77_gpm_values by assumption. exact V. Qed.
Print Assumptions C77_gpm_nodata_refuted.

(* ---------- stacks ---------- *)
Section Stack.
Context {N : Type}.
Variable leb : N -> N -> bool.
Variable open : N -> raster.
Variable dem : box.
Variables nc nr : nat.
Variable warp : raster -> list Q.

Definition total_order : Prop :=
  (forall x y, leb x y = true \/ leb y x = true) /\
  (forall x y z, leb x y = true -> leb y z = true -> leb x z = true) /\
  (forall x y, leb x y = true -> leb y x = true -> x = y).
(* every name comes before all that follow *)
Fixpoint in_order (l : list N) : Prop :=
  match l with [] => True | x :: r => (forall y, In y r -> leb x y = true) /\ in_order r end.

Lemma insert_perm x l : Permutation (insert leb x l) (x :: l).
Proof.
  induction l as [|y r IH]; cbn; [reflexivity|]. destruct (leb x y); [reflexivity|].
  rewrite IH. apply perm_swap.
Qed.
Lemma sorted_perm l : Permutation (sorted leb l) l.
Proof. induction l as [|x r IH]; cbn; [reflexivity|]. rewrite insert_perm, IH. reflexivity. Qed.
Lemma insert_order : total_order -> forall x l, in_order l -> in_order (insert leb x l).
Proof.
  intros [T [TR AS]] x. induction l as [|y r IH]; cbn; [intuition|]. intros [A B].
  destruct (leb x y) eqn:E; cbn.
  - repeat split; [|exact A|exact B]. intros z [<-|Z]; [exact E|]. apply (TR x y z E). apply A, Z.
  - split; [|apply IH, B]. intros z Z. apply (Permutation_in z (insert_perm x r)) in Z. destruct Z as [<-|Z].
    + destruct (T x y) as [H|H]; [congruence | exact H].
    + apply A, Z.
Qed.
Lemma sorted_order : total_order -> forall l, in_order (sorted leb l).
Proof. intros T l. induction l as [|x r IH]; cbn; [exact I|]. apply insert_order; assumption. Qed.
Lemma order_unique : total_order -> forall l m, Permutation l m -> in_order l -> in_order m -> l = m.
Proof.
  intros [T [TR AS]]. induction l as [|x r IH]; intros m P A B.
  - apply Permutation_nil in P. subst. reflexivity.
  - destruct m as [|y s]; [apply Permutation_sym, Permutation_nil in P; discriminate|].
    destruct A as [A A'], B as [B B'].
    assert (E : x = y).
    { assert (H : In x (y :: s)) by (apply (Permutation_in x P); left; reflexivity).
      assert (H' : In y (x :: r)) by (apply (Permutation_in y (Permutation_sym P)); left; reflexivity).
      destruct H as [H|H]; [congruence|]. destruct H' as [H'|H']; [congruence|].
      apply AS; [apply A, H' | apply B, H]. }
    subst y. f_equal. apply IH; [apply Permutation_cons_inv in P; exact P | exact A' | exact B'].
Qed.
(* C77 the stack does not depend on the order in which the directory is listed, and the frames follow the order of names *)
Theorem C77_order : total_order -> forall x listing,
  Permutation (sorted leb listing) listing /\ in_order (sorted leb listing) /\
  (forall listing', Permutation listing listing' ->
     create_rts_from_nc_files dem nc nr warp leb open x listing' = create_rts_from_nc_files dem nc nr warp leb open x listing).
Proof.
  intros T x l. split; [apply sorted_perm|]. split; [apply sorted_order, T|]. intros l' P.
  unfold create_rts_from_nc_files. rewrite (order_unique T (sorted leb l') (sorted leb l)); [reflexivity| | |].
  - rewrite !sorted_perm. apply Permutation_sym, P.
  - apply sorted_order, T.
  - apply sorted_order, T.
Qed.
Print Assumptions C77_order.

(* what a file gives *)
Definition ds (x : option var) (f : N) : raster := match x with None => fix_gpm (open f) None | Some _ => open f end.
Definition away (x : option var) (f : N) : bool := bounds_disjoint (get_raster_bounds (ds x f)) dem.
Definition conv (x : option var) (f : N) (g : list Q) : list Q := match x with None => g | Some v => convert v (nodata (ds x f)) g end.

Fixpoint go (x : option var) (b : bool) (l : list N) : list (list Q) :=
  match l with [] => [] | f :: r => let b' := b || away x f in conv x f (if b' then zeros nc nr else warp (ds x f)) :: go x b' r end.
Lemma pass_frames x l a :
  frames (fold_left (nc_pass dem nc nr warp open x) l a) =
  frames a ++ go x (BAD_FILE a) l /\
  bad_count (fold_left (nc_pass dem nc nr warp open x) l a) = (bad_count a + length (filter (away x) l))%nat.
Proof.
  revert a. induction l as [|f r IH]; intro a; cbn [fold_left].
  - rewrite app_nil_r. cbn. split; [reflexivity | lia].
  - destruct (IH (nc_pass dem nc nr warp open x a f)) as [A B]. rewrite A, B. split.
    + unfold nc_pass. cbn [frames BAD_FILE go]. rewrite <- app_assoc. unfold away, conv, ds. destruct x; reflexivity.
    + cbn [nc_pass bad_count filter]. unfold away at 2, ds.
      destruct x as [v|]; match goal with |- context [if ?b then _ else _] => destruct b end; cbn; lia.
Qed.
Lemma stack_go x l : create_rts_from_nc_files dem nc nr warp leb open x l =
  (go x false (sorted leb l), length (filter (away x) (sorted leb l))).
Proof.
  unfold create_rts_from_nc_files. destruct (pass_frames x (sorted leb l) {| frames := []; bad_count := 0; BAD_FILE := false |}) as [A B].
  rewrite A, B. cbn. f_equal.
Qed.
Lemma go_length x b l : length (go x b l) = length l.
Proof. revert b. induction l; cbn; auto. Qed.
(* C77 one frame for each file, whatever the files; the number of files reported bad is that of those away from the DEM *)
Theorem C77_frame_count x l : let '(fr, bad) := create_rts_from_nc_files dem nc nr warp leb open x l in
  length fr = length l /\ bad = length (filter (away x) (sorted leb l)).
Proof.
  rewrite stack_go. rewrite go_length. split; [|reflexivity]. apply Permutation_length, sorted_perm.
Qed.
Print Assumptions C77_frame_count.
Lemma go_good x l : (forall f, In f l -> away x f = false) -> go x false l = map (fun f => conv x f (warp (ds x f))) l.
Proof.
  induction l as [|f r IH]; intro H; cbn; [reflexivity|]. rewrite (H f) by (left; reflexivity). cbn.
  f_equal. apply IH. intros g G. apply H. right. exact G.
Qed.
Lemma go_bad x l : go x true l = map (fun f => conv x f (zeros nc nr)) l.
Proof. induction l as [|f r IH]; cbn; [reflexivity|]. f_equal. exact IH. Qed.
Lemma go_app x l m : (forall f, In f l -> away x f = false) -> go x false (l ++ m) = map (fun f => conv x f (warp (ds x f))) l ++ go x false m.
Proof.
  induction l as [|f r IH]; intro H; cbn; [reflexivity|]. rewrite (H f) by (left; reflexivity). cbn.
  f_equal. apply IH. intros g G. apply H. right. exact G.
Qed.
(* C77 when every file overlaps the DEM, the stack holds each file's grid, warped and converted, in the order of names *)
Theorem C77_frames_good x l : (forall f, In f l -> away x f = false) ->
  fst (create_rts_from_nc_files dem nc nr warp leb open x l) = map (fun f => conv x f (warp (ds x f))) (sorted leb l).
Proof.
  intro H. rewrite stack_go. cbn. apply go_good. intros f F. apply H. apply (Permutation_in f (sorted_perm l)), F.
Qed.
Print Assumptions C77_frames_good.
(* C77 REFUTED "a file away from the DEM spoils its own frame only": from the first such file on, every frame is blank,
   whatever the later files hold *)
Theorem C77_bad_file_refuted x l before f after : sorted leb l = before ++ f :: after ->
  (forall g, In g before -> away x g = false) -> away x f = true ->
  fst (create_rts_from_nc_files dem nc nr warp leb open x l) =
    map (fun g => conv x g (warp (ds x g))) before ++ map (fun g => conv x g (zeros nc nr)) (f :: after).
Proof.
  intros E B A. rewrite stack_go. cbn [fst]. rewrite E, go_app by exact B. f_equal.
  cbn [go map]. rewrite A. cbn. f_equal. apply go_bad.
Qed.
Print Assumptions C77_bad_file_refuted.
End Stack.

(* C77 the conversions: cells marked as missing keep the mark, the others change unit *)
Theorem C77_units x nd g k : (k < length g)%nat ->
  let v := nth k g 0 in let w := nth k (convert x (Some nd) g) 0 in
  (v == nd -> w = v) /\
  (~ v == nd -> w == match x with Rain => 3600 * v | Temperature => v - (27315 # 100) | Albedo | Pressure => v / 100 | Other => v end).
Proof.
  intros K v w. subst v w.
  assert (M : forall f, nth k (map (keep (Some nd) f) g) 0 = keep (Some nd) f (nth k g 0)).
  { intro f. rewrite (nth_indep (map _ g) 0 (keep (Some nd) f 0)) by (rewrite map_length; exact K). apply (map_nth (keep (Some nd) f)). }
  destruct x; cbn [convert]; rewrite ?M; cbn [keep];
    (destruct (Qeq_bool (nth k g 0) nd) eqn:E;
     [apply Qeq_bool_iff in E; split; [reflexivity | intro; contradiction]
     |apply Qeq_bool_neq in E; split; [intro; contradiction | intros _; try reflexivity; ring]]) ||
    (split; reflexivity).
Qed.
Print Assumptions C77_units.
(* C77 REFUTED "the frame of a file away from the DEM holds only missing values": an air temperature frame holds
   -273.15 degrees everywhere (unless the file marks missing values with 0); other frames hold 0 *)
Theorem C77_blank_frame_refuted nc nr nd v : (forall n, nd = Some n -> ~ n == 0) ->
  (In v (convert Temperature nd (zeros nc nr)) -> v == -(27315 # 100)) /\
  (forall x, x <> Temperature -> In v (convert x nd (zeros nc nr)) -> v == 0).
Proof.
  intro H.
  assert (K : forall f, In v (map (keep nd f) (zeros nc nr)) -> v = f 0).
  { intros f I. apply in_map_iff in I. destruct I as [u [E U]]. unfold zeros in U. apply repeat_spec in U. subst u.
    rewrite <- E. unfold keep. destruct nd as [n|]; [|reflexivity].
    destruct (Qeq_bool 0 n) eqn:Z; [|reflexivity]. apply Qeq_bool_iff in Z. exfalso. apply (H n eq_refl). symmetry. exact Z. }
  split.
  - intro I. apply K in I. rewrite I. reflexivity.
  - intros [] X I; cbn [convert] in I; try (exfalso; apply X; reflexivity); try (apply K in I; rewrite I; reflexivity).
    unfold zeros in I. apply repeat_spec in I. rewrite I. reflexivity.
Qed.
Print Assumptions C77_blank_frame_refuted.
Theorem C77_blank_frame_size nc nr x nd : length (convert x nd (zeros nc nr)) = (nr * nc)%nat.
Proof. destruct x; cbn; rewrite ?map_length; apply repeat_length. Qed.
Print Assumptions C77_blank_frame_size.

(* ---------- CHIRPS ---------- *)
Section Chirps.
Context {N : Type}.
Variable leb : N -> N -> bool.
Variable open : N -> raster.
Variable dem : box.
Variable warp : raster -> list Q.

Lemma chirps_box h a : let b := get_raster_bounds (chirps_raster h a) in
  xmin b == -(2005 # 100) /\ ymin b == -(4005 # 100) /\ xmax b == 5505 # 100 /\ ymax b == 4005 # 100.
Proof. cbn. repeat split; reflexivity. Qed.
Definition chirps_away : bool :=
  Qltb (5505 # 100) (xmin dem) || Qltb (xmax dem) (-(2005 # 100)) || Qltb (ymax dem) (-(4005 # 100)) || Qltb (4005 # 100) (ymin dem).
Lemma Qltb_comp a b c d : a == b -> c == d -> Qltb a c = Qltb b d.
Proof.
  intros E F. destruct (Qltb b d) eqn:H.
  - apply Qltb_lt in H. apply Qltb_lt. lra.
  - apply Qltb_ge in H. apply Qltb_ge. lra.
Qed.
Lemma chirps_disjoint h a : bounds_disjoint (get_raster_bounds (chirps_raster h a)) dem = chirps_away.
Proof.
  destruct (chirps_box h a) as [A [B [C D]]]. unfold bounds_disjoint, chirps_away.
  rewrite (Qltb_comp _ _ _ _ C (Qeq_refl (xmin dem))), (Qltb_comp _ _ _ _ (Qeq_refl (xmax dem)) A),
    (Qltb_comp _ _ _ _ (Qeq_refl (ymax dem)) B), (Qltb_comp _ _ _ _ D (Qeq_refl (ymin dem))). reflexivity.
Qed.
Definition chirps_frame (nn : bool) (h : Q) (f : N) : list Q := chirps_convert nn (warp (chirps_raster h (cells (open f)))).
Lemma chirps_loop_out nn h l out : chirps_loop dem warp open nn h l out =
  if chirps_away then (out, match l with [] => true | _ => false end) else (out ++ map (chirps_frame nn h) l, true).
Proof.
  revert out. induction l as [|f r IH]; intro out; cbn [chirps_loop].
  - rewrite app_nil_r. destruct chirps_away; reflexivity.
  - rewrite chirps_disjoint, IH. destruct chirps_away; [reflexivity|]. rewrite <- app_assoc. reflexivity.
Qed.
(* C77 a DEM that has no point in Africa ends the program; else there is one frame for each file, in the order of names *)
Theorem C77_chirps_frames nn h l : xmin dem <= xmax dem -> ymin dem <= ymax dem ->
  create_rts_from_chirps_files dem warp leb open nn h l =
    (if chirps_away then ([], match l with [] => true | _ => false end) else (map (chirps_frame nn h) (sorted leb l), true)) /\
  (chirps_away = true <-> forall x y, ~ (in_box dem x y /\ -(2005 # 100) <= x <= 5505 # 100 /\ -(4005 # 100) <= y <= 4005 # 100)).
Proof.
  intros X Y. split.
  - unfold create_rts_from_chirps_files. rewrite chirps_loop_out. destruct chirps_away; [|reflexivity]. f_equal.
    pose proof (Permutation_length (sorted_perm leb l)) as P. destruct (sorted leb l), l; cbn in P; congruence.
  - rewrite <- (chirps_disjoint 1 []). destruct (chirps_box 1 []) as [A [B [C D]]].
    rewrite C77_disjoint; [|rewrite A, C; discriminate|rewrite B, D; discriminate|exact X|exact Y]. unfold in_box.
    split; intros H x y I; apply (H x y); destruct I as [I J].
    + split; [|exact I]. rewrite A, B, C, D. exact J.
    + rewrite A, B, C, D in I. split; [exact J | exact I].
Qed.
Print Assumptions C77_chirps_frames.
(* C77 the first row of the file is the southernmost: row r of the raster is row 800-r of the file, over the interval *)
Theorem C77_chirps_rows h a r c : (r < 801)%nat -> (c < 751)%nat ->
  value (chirps_raster h a) r c = get 0 a ((800 - r) * 751 + c) / h /\
  centre_y (chirps_raster h a) r == -(40) + (Qn (800 - r)) * (1 # 10) /\ centre_x (chirps_raster h a) c == -(20) + Qn c * (1 # 10).
Proof.
  intros R C. unfold value. cbn [cells ncols chirps_raster]. split.
  - unfold get. rewrite (nth_indep _ 0 (0 / h)) by (rewrite map_length; unfold flipud; rewrite tab_length; lia).
    rewrite (map_nth (fun v => v / h)). f_equal. change (get 0 (flipud 801 751 a) (r * 751 + c) = get 0 a ((800 - r) * 751 + c)).
    unfold flipud. rewrite get_tab by lia. destruct (div_mod_pos 751 r c C) as [E F]. rewrite E, F. reflexivity.
  - unfold centre_y, centre_x. cbn [ulx uly xres yres chirps_raster].
    assert (E : Qn (800 - r) == 800 - Qn r).
    { unfold Qn. rewrite Nat2Z.inj_sub by lia. unfold Z.sub. rewrite inject_Z_plus, inject_Z_opp. reflexivity. }
    rewrite E. split; ring.
Qed.
Print Assumptions C77_chirps_rows.
(* C77 no negative rain *)
Theorem C77_chirps_nonneg h f v : In v (chirps_frame true h f) -> 0 <= v.
Proof.
  unfold chirps_frame, chirps_convert. cbv zeta. intro I. apply in_map_iff in I. destruct I as [u [E _]].
  destruct (Qltb u 0) eqn:Z; [subst; lra|]. apply Qltb_ge in Z. subst. exact Z.
Qed.
Print Assumptions C77_chirps_nonneg.
End Chirps.
(* C77 REFUTED "the stack holds rainfall rates in mm per hour": a cell with p mm of rain in the interval, passed on by
   the warp as it is, is stored as 3600 times the rate p / hours *)
Theorem C77_chirps_rate_refuted nn h p : 0 < h -> 0 <= p ->
  exists v, chirps_convert nn [p / h] = [v] /\ v == 3600 * (p / h).
Proof.
  intros H P. assert (D : 0 <= p / h) by (apply Qle_shift_div_l; [exact H | lra]).
  unfold chirps_convert, keep. cbn [map].
  destruct (Qeq_bool (p / h) (-(1))) eqn:E; [apply Qeq_bool_iff in E; lra|].
  destruct nn; cbn [map].
  - destruct (Qltb (p / h * 3600) 0) eqn:Z.
    + apply Qltb_lt in Z. lra.
    + eexists. split; [reflexivity | ring].
  - eexists. split; [reflexivity | ring].
Qed.
Print Assumptions C77_chirps_rate_refuted.
(* C77 REFUTED "missing values are preserved": the mark -1 is divided by the interval before, so that unless the
   interval is one hour the band is not seen to hold any missing value, and the cell is stored as 0 (a dry cell),
   or, when negative values are let through, as -3600 / hours *)
Theorem C77_chirps_nodata_refuted h : 0 < h -> ~ h == 1 ->
  ~ (-(1)) / h == -(1) /\
  (exists v, chirps_convert true [(-(1)) / h] = [v] /\ v == 0) /\
  (exists v, chirps_convert false [(-(1)) / h] = [v] /\ v == -(3600) / h).
Proof.
  intros H N.
  assert (M : (-(1)) / h == -(1) -> h == 1).
  { intro E. assert (F : (-(1)) / h * h == -(1) * h) by (rewrite E; reflexivity).
    rewrite Qmult_comm, Qmult_div_r in F by lra. lra. }
  assert (D : (-(1)) / h < 0) by (apply Qlt_shift_div_r; [exact H | lra]).
  split; [|split].
  - intro F. apply N, M, F.
  - unfold chirps_convert, keep. cbn [map]. destruct (Qeq_bool ((-(1)) / h) (-(1))) eqn:E; [apply Qeq_bool_iff in E; exfalso; auto|].
    destruct (Qltb ((-(1)) / h * 3600) 0) eqn:Z; [|apply Qltb_ge in Z; lra]. eexists. split; reflexivity.
  - unfold chirps_convert, keep. cbn [map]. destruct (Qeq_bool ((-(1)) / h) (-(1))) eqn:E; [apply Qeq_bool_iff in E; exfalso; auto|].
    eexists. split; [reflexivity|]. field. lra.
Qed.
Print Assumptions C77_chirps_nodata_refuted.
(* C77 REFUTED "a stack can be regridded": regrid_rts_file never returns, and leaves an empty output file *)
Theorem C77_regrid_rts_refuted body size nx ny old : regrid_rts_file body size nx ny old = ([], false).
Proof. unfold regrid_rts_file, truediv. destruct (_ =? 0)%Z; reflexivity. Qed.
Print Assumptions C77_regrid_rts_refuted.

(* ---------- cases ---------- *)
Definition r1 : raster := {| ulx := 0; xres := 1; xrtn := 0; uly := 2; yrtn := 0; yres := -(1); ncols := 3; nrows := 2;
  cells := [1; 2; 3; 4; 5; 6]; nodata := Some (-(9)) |}.
Definition far : raster := {| ulx := 50; xres := 1; xrtn := 0; uly := 52; yrtn := 0; yres := -(1); ncols := 3; nrows := 2;
  cells := [1; 2; 3; 4; 5; 6]; nodata := Some (-(9)) |}.
Definition dem1 : box := {| xmin := 0; ymin := 0; xmax := 2; ymax := 2 |}.
Definition files (n : nat) : raster := if (n =? 4)%nat then far else r1.
Example C77_box_case : get_raster_bounds r1 = {| xmin := 0; ymin := 2 + Qn 2 * -(1); xmax := 0 + Qn 3 * 1; ymax := 2 |} /\
  bounds_disjoint (get_raster_bounds r1) dem1 = false /\ bounds_disjoint (get_raster_bounds far) dem1 = true /\
  0 < xres r1 /\ yres r1 < 0.
Proof. vm_compute. repeat split; discriminate || reflexivity. Qed.
Example C77_gpm_case : cells (fix_gpm r1 None) = [3; 6; 2; 5; 1; 4].
Proof. vm_compute. reflexivity. Qed.
Example C77_stack_case : fst (create_rts_from_nc_files dem1 2 1 cells Nat.leb files (Some Rain) [7; 4; 2]%nat) =
  [[3600; 7200; 10800; 14400; 18000; 21600]; [0; 0]; [0; 0]] /\
  snd (create_rts_from_nc_files dem1 2 1 cells Nat.leb files (Some Rain) [7; 4; 2]%nat) = 1%nat.
Proof. vm_compute. split; reflexivity. Qed.
Example C77_order_case : total_order Nat.leb.
Proof.
  repeat split.
  - intros x y. rewrite !Nat.leb_le. lia.
  - intros x y z. rewrite !Nat.leb_le. lia.
  - intros x y. rewrite !Nat.leb_le. lia.
Qed.
Example C77_chirps_case : chirps_away dem1 = false /\ map Qred (chirps_convert true [12 / 6; -(1) / 6]) = [7200; 0] /\
  map Qred (chirps_convert false [12 / 6; -(1) / 6]) = [7200; -(600)].
Proof. vm_compute. repeat split. Qed.
