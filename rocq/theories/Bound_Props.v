(** C123: the cells along the boundary of a basin, topoflow/utils/ngen/hlr_utils.py. *)

From Coq Require Import String List ZArith QArith Bool Arith Lia Sorting.Permutation Sorting.Sorted.
From Verif Require Import Site_Model Site_Props Time_Model Io_Proofs Bundle_Model Bundle_Props Bound_Model.
Import ListNotations.
Local Open Scope Z_scope.

(** a step of the boundary: along x or along y *)
Definition straight (e : edge) : Prop :=
  (fst (fst e) <> fst (snd e) /\ snd (fst e) = snd (snd e)) \/ (fst (fst e) = fst (snd e) /\ snd (fst e) <> snd (snd e)).
(** the point that stands for a step: half a cell to the side, from its first vertex *)
Definition point_of (e : edge) : vertex :=
  let '((x, y), (x', y')) := e in
  if x <? x' then (x + 500, y) else if x' <? x then (x - 500, y) else if y' <? y then (x - 500, y) else (x + 500, y).
Definition steps (p : list vertex) : list edge := List.combine p (tl p).

Lemma at_eq sx sy e : at_ sx sy e = (fst (fst e) + sx * 500, snd (fst e)).
Proof. unfold at_, xoffset, yoffset. f_equal. ring. Qed.

Lemma counts_le (l : list edge) : Forall straight l ->
  (length (filter right l) + length (filter left l) + length (filter down l) + length (filter up l) = length l)%nat.
Proof.
  induction l as [|e l IH]; intro F; [reflexivity|]. apply Forall_inv in F as S. apply Forall_inv_tail in F.
  specialize (IH F). cbn [filter]. unfold straight in S. unfold right at 1, left at 1, down at 1, up at 1.
  destruct e as [[x y] [x' y']]. cbn [fst snd] in *.
  destruct (Z.ltb_spec x x'), (Z.ltb_spec x' x), (Z.ltb_spec y' y), (Z.ltb_spec y y'); cbn [length]; lia.
Qed.
Lemma edges_length p : (length (edges p) <= length p)%nat.
Proof. pose proof (combine_length p (tl p)) as C. change (length (edges p) = Nat.min (length p) (length (tl p))) in C. lia. Qed.

Lemma points_ok p : Forall straight (edges p) -> points p = Ok (concat (passes p)).
Proof.
  intro F. pose proof (counts_le _ F) as C. pose proof (edges_length p) as L.
  unfold points, passes. cbn [store concat]. rewrite !map_length.
  repeat match goal with |- context [(?a <=? ?b)%nat] => destruct (Nat.leb_spec a b); [|lia] end.
  reflexivity.
Qed.
Lemma in_points p v : Forall straight (edges p) -> (In v (concat (passes p)) <-> exists e, In e (edges p) /\ v = point_of e).
Proof.
  intro F. rewrite Forall_forall in F. unfold passes. cbn [concat]. rewrite app_nil_r, !in_app_iff, !in_map_iff.
  split.
  - intros [H|[H|[H|H]]]; destruct H as (e & <- & I); apply filter_In in I as [I T]; exists e; (split; [exact I|]);
      specialize (F e I); rewrite at_eq; unfold straight, right, left, down, up in *; destruct e as [[x y] [x' y']];
      cbn [fst snd point_of] in *; apply Z.ltb_lt in T;
      destruct (Z.ltb_spec x x'), (Z.ltb_spec x' x), (Z.ltb_spec y' y); try lia; f_equal; lia.
  - intros (e & I & ->). pose proof (F e I) as S.
    assert (G : forall f sx sy, f e = true -> at_ sx sy e = point_of e ->
              exists x, at_ sx sy x = point_of e /\ In x (filter f (edges p))).
    { intros f sx sy T E. exists e. split; [exact E|]. apply filter_In. split; assumption. }
    unfold straight in S. destruct e as [[x y] [x' y']]. cbn [fst snd] in S.
    destruct (Z_lt_dec x x'); [left; apply G|destruct (Z_lt_dec x' x); [right; left; apply G|
      destruct (Z_lt_dec y' y); [right; right; left; apply G|right; right; right; apply G]]];
      rewrite ?at_eq; unfold right, left, down, up; cbn [fst snd point_of]; try (apply Z.ltb_lt; lia);
      destruct (Z.ltb_spec x x'), (Z.ltb_spec x' x), (Z.ltb_spec y' y); try lia; f_equal; lia.
Qed.

Lemma find_key l k : In k (map key l) -> exists v, find (fun v => String.eqb (key v) k) l = Some v /\ In v l /\ key v = k.
Proof.
  intro I. apply in_map_iff in I as (v & E & I).
  destruct (find (fun v => String.eqb (key v) k) l) as [w|] eqn:F.
  - apply find_some in F as [A B]. apply String.eqb_eq in B. exists w. auto.
  - exfalso. pose proof (find_none _ _ F v I) as N. cbn in N. rewrite E, String.eqb_refl in N. discriminate.
Qed.

Lemma uniq_keys l : map key (uniq l) = sort (nodup string_dec (map key l)).
Proof.
  unfold uniq.
  assert (G : forall ks, incl ks (map key l) ->
    map key (flat_map (fun k => match find (fun v => String.eqb (key v) k) l with Some v => [v] | None => [] end) ks) = ks).
  { induction ks as [|k ks IH]; intro I; [reflexivity|]. cbn [flat_map].
    destruct (find_key l k (I k (or_introl eq_refl))) as (v & F & _ & E). rewrite F. cbn [app map]. rewrite E. f_equal.
    apply IH. intros x X. apply I. now right. }
  apply G. intros k K. apply (Permutation_in _ (sort_perm _)) in K. apply nodup_In in K. exact K.
Qed.
Lemma uniq_incl l v : In v (uniq l) -> In v l.
Proof.
  unfold uniq. intro I. apply in_flat_map in I as (k & K & I).
  destruct (find _ l) as [w|] eqn:F; [|destruct I]. destruct I as [<-|[]]. now apply find_some in F.
Qed.
Lemma uniq_nodup l : NoDup (map key (uniq l)).
Proof. rewrite uniq_keys. apply (Permutation_NoDup (Permutation_sym (sort_perm _))), NoDup_nodup. Qed.

Theorem C123_points p xmin ymax dx dy : Forall straight (steps p) -> exists l,
  get_cols_and_rows p xmin ymax dx dy = Ok (map (fun '(x, y) => (Z.quot (x - xmin) dx, Z.quot (ymax - y) dy)) l)
  /\ (forall v, In v l -> exists e, In e (steps p) /\ v = point_of e)
  /\ (forall e, In e (steps p) -> exists v, In v l /\
        (py_str (fst v) ++ py_str (snd v) = py_str (fst (point_of e)) ++ py_str (snd (point_of e)))%string)
  /\ NoDup l.
Proof.
  intro F. exists (uniq (concat (passes p))). unfold get_cols_and_rows. rewrite (points_ok p F). cbn [rbind].
  split; [f_equal; apply map_ext; intros [x y]; reflexivity|]. split; [|split].
  - intros v I. apply uniq_incl in I. now apply (in_points p v F) in I.
  - intros e I. assert (P : In (point_of e) (concat (passes p))) by (apply (in_points p _ F); eauto).
    assert (K : In (key (point_of e)) (map key (uniq (concat (passes p))))).
    { rewrite uniq_keys. apply (Permutation_in _ (Permutation_sym (sort_perm _))). apply nodup_In.
      apply in_map, P. }
    apply in_map_iff in K as (v & E & I'). exists v. split; [exact I'|exact E].
  - apply (NoDup_map_inv key), uniq_nodup.
Qed.
Print Assumptions C123_points.

Lemma app_inj_len : forall a b c d, String.length b = String.length d -> (a ++ b = c ++ d)%string -> a = c /\ b = d.
Proof.
  assert (L : forall a b, String.length (a ++ b) = (String.length a + String.length b)%nat)
    by (induction a; intro b; cbn; auto).
  induction a as [|x a IH]; intros b [|y c] d E H; cbn in H.
  - auto.
  - exfalso. apply (f_equal String.length) in H. cbn in H. rewrite L in H. lia.
  - exfalso. apply (f_equal String.length) in H. cbn in H. rewrite L in H. lia.
  - injection H as -> H. destruct (IH b c d E H) as [-> ->]. auto.
Qed.

(** C123: where all the y have the same number of digits the cells are exactly those of the steps. *)
Theorem C123_all p xmin ymax dx dy n : Forall straight (steps p) ->
  Forall (fun v => String.length (py_str (snd v)) = n) p -> exists l,
  get_cols_and_rows p xmin ymax dx dy = Ok (map (fun '(x, y) => (Z.quot (x - xmin) dx, Z.quot (ymax - y) dy)) l)
  /\ (forall v, In v l <-> exists e, In e (steps p) /\ v = point_of e) /\ NoDup l.
Proof.
  intros F L. destruct (C123_points p xmin ymax dx dy F) as (l & E & A & B & N). exists l.
  split; [exact E|]. split; [|exact N]. intro v. split; [apply A|]. intros (e & I & ->).
  destruct (B e I) as (w & W & K). destruct (A w W) as (e' & I' & Ew).
  assert (Y : forall e, In e (steps p) -> String.length (py_str (snd (point_of e))) = n).
  { intros [[x y] [x' y']] J. unfold steps in J. apply in_combine_l in J. rewrite Forall_forall in L.
    specialize (L _ J). cbn [snd] in L. unfold point_of. destruct (x <? x'), (x' <? x), (y' <? y); exact L. }
  apply app_inj_len in K as [K1 K2]; [|rewrite Ew, !Y by assumption; reflexivity].
  apply py_str_inj in K1, K2. replace (point_of e) with w; [exact W|]. destruct w, (point_of e). cbn in *. congruence.
Qed.
Print Assumptions C123_all.

(** C123: but two cells whose numbers give the same text are taken for one, and one of them is lost. *)
Theorem C123_text_refuted : exists p e, Forall straight (steps p) /\ In e (steps p) /\
  (exists cells, get_cols_and_rows p 0 6000000 1000 1000 = Ok cells
     /\ ~ In (Z.quot (fst (point_of e)) 1000, Z.quot (6000000 - snd (point_of e)) 1000) cells).
Proof.
  exists [(500000, 1000); (501000, 1000); (501000, 5001000); (0, 5001000); (1000, 5001000)],
         ((0, 5001000), (1000, 5001000)).
  split; [repeat constructor; vm_compute; intuition discriminate|]. split; [cbn; tauto|].
  eexists. split; [vm_compute; reflexivity|]. vm_compute. intuition discriminate.
Qed.
Print Assumptions C123_text_refuted.

(** C123: a boundary of slanting steps has no result (at least three; not just one of them up or down). *)
Theorem C123_slanting p : (3 < length p)%nat ->
  Forall (fun e => fst (fst e) <> fst (snd e) /\ snd (fst e) <> snd (snd e)) (steps p) ->
  length (filter (fun e => snd (fst e) <? snd (snd e)) (steps p)) <> 1%nat ->
  length (filter (fun e => snd (snd e) <? snd (fst e)) (steps p)) <> 1%nat ->
  forall xmin ymax dx dy, get_cols_and_rows p xmin ymax dx dy = Err ValueError.
Proof.
  intros L F.
  assert (E : length (steps p) = (length p - 1)%nat).
  { pose proof (combine_length p (tl p)) as C. change (length (steps p) = Nat.min (length p) (length (tl p))) in C.
    destruct p; cbn [tl length] in *; lia. }
  assert (C : forall l : list edge, Forall (fun e => fst (fst e) <> fst (snd e) /\ snd (fst e) <> snd (snd e)) l ->
    (length (filter right l) + length (filter left l) = length l /\ length (filter down l) + length (filter up l) = length l)%nat).
  { induction l as [|e l IH]; intro G; [auto|]. apply Forall_inv in G as S. apply Forall_inv_tail in G.
    specialize (IH G). cbn [filter]. unfold right at 1, left at 1, down at 1, up at 1.
    destruct e as [[x y] [x' y']]. cbn [fst snd] in *.
    destruct (Z.ltb_spec x x'), (Z.ltb_spec x' x), (Z.ltb_spec y' y), (Z.ltb_spec y y'); cbn [length]; lia. }
  destruct (C _ F) as [C1 C2]. intros U D xmin ymax dx dy.
  change (length (filter up (steps p)) <> 1%nat) in U. change (length (filter down (steps p)) <> 1%nat) in D.
  unfold get_cols_and_rows, points, passes. change (edges p) with (steps p). cbn [store]. rewrite !map_length.
  repeat match goal with
  | |- context [(?a <=? ?b)%nat] => destruct (Nat.leb_spec a b); try lia
  | |- context [(?a =? 1)%nat] => destruct (Nat.eqb_spec a 1); try lia
  end; reflexivity.
Qed.
Print Assumptions C123_slanting.

(** ** Which side of a step *)

(** The boundary runs clockwise around the cells of the basin.  Corner (a, b) is the upper left corner of the cell in
    column a, row b.  The cell of the basin beside a unit step is the one on its right-hand side. *)
Inductive step := Right | Left | Down | Up.
Definition corner (xmin ymax : Z) (a b : Z) : vertex := (xmin + 1000 * a, ymax - 1000 * b).
Definition target (s : step) (a b : Z) : Z * Z :=
  match s with Right => (a + 1, b) | Left => (a - 1, b) | Down => (a, b + 1) | Up => (a, b - 1) end.
Definition inner_cell (s : step) (a b : Z) : Z * Z :=
  match s with Right => (a, b) | Left => (a - 1, b - 1) | Down => (a - 1, b) | Up => (a, b - 1) end.

Lemma uniq_one v : uniq [v] = [v].
Proof.
  unfold uniq. change (nodup string_dec (map key [v])) with [key v]. change (sort [key v]) with [key v].
  cbn [flat_map find]. rewrite String.eqb_refl. reflexivity.
Qed.
Lemma unit_step s a b xmin ymax :
  let e := (corner xmin ymax a b, corner xmin ymax (fst (target s a b)) (snd (target s a b))) in
  straight e /\ get_cols_and_rows [fst e; snd e] xmin ymax 1000 1000 =
    Ok [(Z.quot (1000 * a + match s with Right | Up => 500 | _ => -500 end) 1000, b)].
Proof.
  intro e. assert (S : straight e) by (unfold e, straight, corner; destruct s; cbn [fst snd target]; lia).
  split; [exact S|]. unfold get_cols_and_rows. rewrite points_ok by (constructor; [destruct e; exact S|constructor]).
  cbn [rbind].
  assert (P : concat (passes [fst e; snd e]) = [(xmin + 1000 * a + match s with Right | Up => 500 | _ => -500 end, ymax - 1000 * b)]).
  { unfold passes, edges. cbn [tl combine filter]. unfold right, left, down, up, e, corner.
    destruct s; cbn [target fst snd];
    repeat match goal with |- context [?x <? ?y] => destruct (Z.ltb_spec x y); try lia end;
    cbn [map concat app]; rewrite at_eq; cbn [fst snd]; do 2 f_equal; lia. }
  rewrite P. rewrite uniq_one. cbn [map]. do 2 f_equal.
  unfold col_row. cbn [fst snd]. f_equal.
  - f_equal. lia.
  - replace (ymax - (ymax - 1000 * b)) with (b * 1000) by lia. apply Z.quot_mul. lia.
Qed.

(** C123: for a step to the right or downwards the cell is the one of the basin. *)
Theorem C123_inner s a b xmin ymax : s = Right \/ s = Down -> 0 <= fst (inner_cell s a b) ->
  get_cols_and_rows [corner xmin ymax a b; corner xmin ymax (fst (target s a b)) (snd (target s a b))] xmin ymax 1000 1000
  = Ok [inner_cell s a b].
Proof.
  intros S A. destruct (unit_step s a b xmin ymax) as [_ E]. cbn [fst snd] in E. rewrite E. do 2 f_equal.
  destruct S as [-> | ->]; cbn [inner_cell fst snd] in *; f_equal.
  - rewrite Z.quot_div_nonneg by lia. symmetry. apply (Z.div_unique _ _ _ 500); lia.
  - rewrite Z.quot_div_nonneg by lia. symmetry. apply (Z.div_unique _ _ _ 500); lia.
Qed.
Print Assumptions C123_inner.

(** C123: for a step to the left or upwards the cell is the one below it: outside the basin where the step is a
    lower boundary. *)
Theorem C123_inner_refuted s a b xmin ymax : s = Left \/ s = Up -> 0 <= fst (inner_cell s a b) ->
  exists c, get_cols_and_rows [corner xmin ymax a b; corner xmin ymax (fst (target s a b)) (snd (target s a b))] xmin ymax 1000 1000
  = Ok [c] /\ c = (fst (inner_cell s a b), snd (inner_cell s a b) + 1) /\ c <> inner_cell s a b.
Proof.
  intros S A. destruct (unit_step s a b xmin ymax) as [_ E]. cbn [fst snd] in E. rewrite E. eexists. split; [reflexivity|].
  assert (Q : (Z.quot (1000 * a + match s with Right | Up => 500 | _ => -500 end) 1000, b)
     = (fst (inner_cell s a b), snd (inner_cell s a b) + 1)).
  { destruct S as [-> | ->]; cbn [inner_cell fst snd] in *; f_equal; try lia.
    - rewrite Z.quot_div_nonneg by lia. symmetry. apply (Z.div_unique _ _ _ 500); lia.
    - rewrite Z.quot_div_nonneg by lia. symmetry. apply (Z.div_unique _ _ _ 500); lia. }
  rewrite Q. split; [reflexivity|]. destruct (inner_cell s a b) as [c r]. cbn. intro H. injection H. lia.
Qed.
Print Assumptions C123_inner_refuted.

(** C123: a step half a cell to the left of the grid is put into its first column. *)
Theorem C123_edge_refuted b xmin ymax :
  get_cols_and_rows [corner xmin ymax 0 b; corner xmin ymax 0 (b + 1)] xmin ymax 1000 1000 = Ok [(0, b)]
  /\ inner_cell Down 0 b = (-1, b).
Proof.
  split; [|reflexivity]. destruct (unit_step Down 0 b xmin ymax) as [_ E]. cbn [fst snd target] in E. exact E.
Qed.
Print Assumptions C123_edge_refuted.

(** ** The outlet *)

(** C123: the cell that is returned is the first lowest one of the cells along the boundary. *)
Theorem C123_outlet elev p lons lats nodata xmin ymax dx dy cells lon lat c :
  get_cols_and_rows p xmin ymax dx dy = Ok cells ->
  outlet elev p lons lats nodata xmin ymax dx dy = Ok (lon, lat, c) ->
  let z d := if elev d =? nodata then 32767 else elev d in
  In c cells /\ (forall d, In d cells -> z c <= z d).
Proof.
  intros G. unfold outlet. rewrite G. cbn [rbind].
  destruct cells as [|c0 cs]; [discriminate|]. cbn [map].
  destruct (get_zmin_lon_and_lat _ _ _ _ _) as [[[[[zm arg] lo] la] one]|] eqn:E; [|discriminate].
  destruct (nth_error (c0 :: cs) arg) as [c'|] eqn:N; [|discriminate]. intro H. injection H as _ _ <-.
  pose proof (C85_zmin _ _ _ _ _ _ _ _ _ _ E) as H. cbv zeta in H. destruct H as (A & B & _).
  pose (z d := if elev d =? nodata then 32767 else elev d).
  split; [eapply nth_error_In, N|].
  assert (V : forall i d, nth_error (c0 :: cs) i = Some d ->
     nth_error (map (fun v => if v =? nodata then 32767 else v) (elev c0 :: map elev cs)) i = Some (z d)).
  { intros i d D. change (elev c0 :: map elev cs) with (map elev (c0 :: cs)). rewrite map_map.
    apply (map_nth_error (fun x => if elev x =? nodata then 32767 else elev x)) in D. exact D. }
  intros d D. apply In_nth_error in D as [i D]. pose proof (V _ _ N) as VN. pose proof (V _ _ D) as VD.
  rewrite A in VN. injection VN as VN. change (z c' <= z d). rewrite <- VN. exact (B _ _ VD).
Qed.
Print Assumptions C123_outlet.

(** C123: the longitude and latitude are not those of that cell: they are taken from the list of vertices at the
    position of the cell in the sorted list of cells, here of a vertex that is no corner of the cell. *)
Theorem C123_outlet_refuted : exists elev p lon lat c,
  outlet elev p (map (fun v => inject_Z (fst v)) p) (map (fun v => inject_Z (snd v)) p) (-9999) 0 10000 1000 1000
    = Ok (lon, lat, c)
  /\ ~ (lon == inject_Z (1000 * fst c))%Q /\ ~ (lon == inject_Z (1000 * (fst c + 1)))%Q.
Proof.
  exists (fun c => if (fst c =? 1) && (snd c =? 1) then 5 else 50),
    [(2000, 9000); (3000, 9000); (3000, 8000); (2000, 8000); (1000, 8000); (1000, 9000); (2000, 9000)].
  do 3 eexists. split; [vm_compute; reflexivity|]. split; vm_compute; discriminate.
Qed.
Print Assumptions C123_outlet_refuted.

(** The boundary of the cell in column 2 and row 3: its cell, the cell below (of the steps left and up). *)
Example C123_case :
  let p := [corner 0 10000 2 3; corner 0 10000 3 3; corner 0 10000 3 4; corner 0 10000 2 4; corner 0 10000 2 3] in
  Forall straight (steps p) /\ Forall (fun v => String.length (py_str (snd v)) = 4%nat) p
  /\ get_cols_and_rows p 0 10000 1000 1000 = Ok [(2, 4); (2, 3)]
  /\ get_cols_and_rows [(0, 0); (1, 1); (2, 2); (3, 3); (4, 4)] 0 10 1 1 = Err ValueError.
Proof.
  intro p. split; [repeat constructor; vm_compute; intuition discriminate|].
  split; [repeat constructor|]. split; vm_compute; reflexivity.
Qed.
