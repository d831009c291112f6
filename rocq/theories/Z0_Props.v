(** C97.  The initial DEM of an erosion model is the one its options ask for. *)

From Coq Require Import String List ZArith QArith Bool Lia.
From Coq Require Import Lqa.
From Verif Require Import Base Time_Model Io_Model Z0_Model.
Import ListNotations.
Local Open Scope string_scope.

(** ** Helpers *)

Lemma rows_nth {A} (d : A) m n (f : nat -> nat -> A) i j : (i < m)%nat -> (j < n)%nat ->
  nth (i * n + j) (flat_map (fun i => map (f i) (seq 0 n)) (seq 0 m)) d = f i j.
Proof.
  assert (K : forall m i a, (i < m)%nat -> (j < n)%nat ->
    nth (i * n + j) (flat_map (fun i => map (f i) (seq 0 n)) (seq a m)) d = f (a + i)%nat j).
  { clear m i. induction m as [|m IH]; intros i a Hi Hj; [lia|]. cbn [seq flat_map].
    destruct i as [|i].
    - rewrite app_nth1 by (rewrite map_length, seq_length; lia). cbn [Nat.mul Nat.add].
      rewrite (nth_indep _ d (f a 0%nat)) by (rewrite map_length, seq_length; lia).
      rewrite map_nth, seq_nth by lia. f_equal; lia.
    - rewrite app_nth2; rewrite map_length, seq_length; [|lia].
      replace (S i * n + j - n)%nat with (i * n + j)%nat by lia.
      rewrite IH by lia. f_equal; lia. }
  intros Hi Hj. rewrite (K m i 0%nat Hi Hj). reflexivity.
Qed.

Lemma rows_length {A} m n (f : nat -> nat -> A) :
  length (flat_map (fun i => map (f i) (seq 0 n)) (seq 0 m)) = (n * m)%nat.
Proof.
  assert (K : forall a, length (flat_map (fun i => map (f i) (seq 0 n)) (seq a m)) = (n * m)%nat).
  { induction m as [|m IH]; intros a; cbn [seq flat_map]; [cbn; lia|].
    rewrite app_length, map_length, seq_length, IH. lia. }
  apply K.
Qed.

Lemma size_of o f : length (fcells f) = (nx o * ny o)%nat ->
  fsize f = (Z.of_nat (nx o) * Z.of_nat (ny o) * bpe (fkind f))%Z.
Proof. unfold fsize. intros ->. rewrite Nat2Z.inj_mul. reflexivity. Qed.

Lemma read_same o normal f : make_z0_method o = "READ_FILE" ->
  initialize_DEM o normal (Some f) = Ok (read_z0 o f, Some f).
Proof. intros H. unfold initialize_DEM. rewrite H. reflexivity. Qed.

(** The elevation of row i, column j of a DEM. *)
Definition elevation (o : options) (d : dem) (i j : nat) : option Q :=
  match d with Numbers z => nth_error z (i * nx o + j) | _ => None end.

(** ** Reading *)

(** A file of double, float or 16-bit numbers of the size of the grid is read as it
    is and left alone, whatever the other options. *)
Theorem C97_read : forall o normal f, make_z0_method o = "READ_FILE" ->
  length (fcells f) = (nx o * ny o)%nat -> (0 < nx o)%nat -> (0 < ny o)%nat ->
  (fkind f = Double \/ fkind f = Float \/ fkind f = Integer) ->
  initialize_DEM o normal (Some f) = Ok (Numbers (fcells f), Some f).
Proof.
  intros o normal f H L Px Py K. rewrite read_same by exact H. f_equal. f_equal.
  unfold read_z0. rewrite (size_of _ _ L).
  assert (0 < Z.of_nat (nx o) * Z.of_nat (ny o))%Z by nia.
  set (n := (Z.of_nat (nx o) * Z.of_nat (ny o))%Z) in *.
  destruct K as [K|[K|K]]; rewrite K; cbn [bpe].
  - rewrite Z.eqb_refl. reflexivity.
  - replace (n * 4 =? n * 8)%Z with false by (symmetry; apply Z.eqb_neq; lia). rewrite Z.eqb_refl. reflexivity.
  - replace (n * 2 =? n * 8)%Z with false by (symmetry; apply Z.eqb_neq; lia).
    replace (n * 2 =? n * 4)%Z with false by (symmetry; apply Z.eqb_neq; lia). rewrite Z.eqb_refl. reflexivity.
Qed.
Print Assumptions C97_read.

(** Every file of 32-bit integers of the size of the grid is taken for one of floats. *)
Theorem C97_read_long_refuted : forall o normal f, make_z0_method o = "READ_FILE" ->
  length (fcells f) = (nx o * ny o)%nat -> (0 < nx o)%nat -> (0 < ny o)%nat -> fkind f = Long ->
  initialize_DEM o normal (Some f) = Ok (Bits f Float, Some f).
Proof.
  intros o normal f H L Px Py K. rewrite read_same by exact H. f_equal. f_equal.
  unfold read_z0. rewrite (size_of _ _ L).
  assert (0 < Z.of_nat (nx o) * Z.of_nat (ny o))%Z by nia.
  set (n := (Z.of_nat (nx o) * Z.of_nat (ny o))%Z) in *.
  rewrite K; cbn [bpe].
  replace (n * 4 =? n * 8)%Z with false by (symmetry; apply Z.eqb_neq; lia). rewrite Z.eqb_refl. reflexivity.
Qed.
Print Assumptions C97_read_long_refuted.

(** With a file of bytes of the size of the grid the model goes on without a DEM. *)
Theorem C97_read_byte_refuted : forall o normal f, make_z0_method o = "READ_FILE" ->
  length (fcells f) = (nx o * ny o)%nat -> (0 < nx o)%nat -> (0 < ny o)%nat -> fkind f = Byte ->
  initialize_DEM o normal (Some f) = Ok (Missing, Some f).
Proof.
  intros o normal f H L Px Py K. rewrite read_same by exact H. f_equal. f_equal.
  unfold read_z0. rewrite (size_of _ _ L).
  assert (0 < Z.of_nat (nx o) * Z.of_nat (ny o))%Z by nia.
  set (n := (Z.of_nat (nx o) * Z.of_nat (ny o))%Z) in *.
  rewrite K; cbn [bpe].
  replace (n * 1 =? n * 8)%Z with false by (symmetry; apply Z.eqb_neq; lia).
  replace (n * 1 =? n * 4)%Z with false by (symmetry; apply Z.eqb_neq; lia).
  replace (n * 1 =? n * 2)%Z with false by (symmetry; apply Z.eqb_neq; lia). reflexivity.
Qed.
Print Assumptions C97_read_byte_refuted.

(** A DEM of numbers is only ever taken from a file of the size of the grid: a file
    of the wrong number of cells never gives one.  (It may be taken for the bits of
    another type.) *)
Theorem C97_read_size : forall o normal f z g, make_z0_method o = "READ_FILE" ->
  initialize_DEM o normal (Some f) = Ok (Numbers z, g) ->
  z = fcells f /\ length z = (nx o * ny o)%nat /\ g = Some f.
Proof.
  intros o normal f z g H E. rewrite read_same in E by exact H. injection E as E <-.
  unfold read_z0, fsize in E.
  destruct (Z.eqb_spec (Z.of_nat (length (fcells f)) * bpe (fkind f)) (Z.of_nat (nx o) * Z.of_nat (ny o) * 8)) as [A|_].
  - destruct (fkind f); cbn in E, A; try discriminate. injection E as <-. repeat split; lia.
  - destruct (Z.eqb_spec (Z.of_nat (length (fcells f)) * bpe (fkind f)) (Z.of_nat (nx o) * Z.of_nat (ny o) * 4)) as [A|_].
    + destruct (fkind f); cbn in E, A; try discriminate. injection E as <-. repeat split; lia.
    + destruct (Z.eqb_spec (Z.of_nat (length (fcells f)) * bpe (fkind f)) (Z.of_nat (nx o) * Z.of_nat (ny o) * 2)) as [A|_].
      * destruct (fkind f); cbn in E, A; try discriminate. injection E as <-. repeat split; lia.
      * discriminate.
Qed.
Print Assumptions C97_read_size.

(** ** Creating *)

(** With another method a DEM is created in exactly one case: Gaussian noise, and
    not the corner plane. *)
Theorem C97_created_iff : forall o normal file, make_z0_method o <> "READ_FILE" ->
  (exists r, initialize_DEM o normal file = Ok r) <->
  upper (noise_method o) = "GAUSSIAN" /\ upper (make_z0_method o) <> "CORNER_PLANE".
Proof.
  intros o normal file H. unfold initialize_DEM. rewrite (proj2 (String.eqb_neq _ _) H).
  unfold create_z0, base_surface, is, midpoint_surface.
  destruct (String.eqb_spec (upper (noise_method o)) "GAUSSIAN") as [G|G].
  - cbn [rbind]. destruct (String.eqb_spec (upper (make_z0_method o)) "CORNER_PLANE") as [C|C]; cbn [rbind]; split.
    + intros [r E]; discriminate.
    + tauto.
    + tauto.
    + eauto.
  - split; [|tauto]. intros [r E]. exfalso. revert E.
    destruct (String.eqb (upper (noise_method o)) "MIDPOINTS"); [destruct (2049 <? _)%nat|]; discriminate.
Qed.
Print Assumptions C97_created_iff.

(** No noise: neither a flat DEM nor a plane nor a corner plane can be made. *)
Theorem C97_no_noise_refuted : forall o normal file, make_z0_method o <> "READ_FILE" ->
  upper (noise_method o) = "NO_NOISE" -> initialize_DEM o normal file = Err NameError.
Proof.
  intros o normal file H N. unfold initialize_DEM. rewrite (proj2 (String.eqb_neq _ _) H).
  unfold create_z0, base_surface, is. rewrite N. reflexivity.
Qed.
Print Assumptions C97_no_noise_refuted.

(** Fractal noise is refused on every grid. *)
Theorem C97_midpoints_refuted : forall o normal file, make_z0_method o <> "READ_FILE" ->
  upper (noise_method o) = "MIDPOINTS" ->
  initialize_DEM o normal file = Err (if (2049 <? Nat.max (nx o) (ny o))%nat then TypeError else IndexError).
Proof.
  intros o normal file H N. unfold initialize_DEM. rewrite (proj2 (String.eqb_neq _ _) H).
  unfold create_z0, base_surface, is, midpoint_surface. rewrite N. cbn [String.eqb].
  replace (String.eqb "MIDPOINTS" "GAUSSIAN") with false by reflexivity.
  replace (String.eqb "MIDPOINTS" "MIDPOINTS") with true by reflexivity.
  destruct (2049 <? _)%nat; reflexivity.
Qed.
Print Assumptions C97_midpoints_refuted.

Theorem C97_corner_plane_refuted : forall o normal file,
  upper (make_z0_method o) = "CORNER_PLANE" -> forall r, initialize_DEM o normal file <> Ok r.
Proof.
  intros o normal file C r E. assert (H : make_z0_method o <> "READ_FILE").
  { intros X. rewrite X in C. discriminate. }
  destruct (proj1 (C97_created_iff o normal file H) (ex_intro _ r E)) as [_ K]. exact (K C).
Qed.
Print Assumptions C97_corner_plane_refuted.

Lemma created o normal file d g : make_z0_method o <> "READ_FILE" ->
  initialize_DEM o normal file = Ok (d, g) ->
  exists z, d = Numbers z /\ g = Some (mkfile Double z) /\ create_z0 o normal = Ok z.
Proof.
  intros H. unfold initialize_DEM. rewrite (proj2 (String.eqb_neq _ _) H).
  destruct (create_z0 o normal) as [z|]; cbn [rbind]; [|discriminate].
  intros E. injection E as <- <-. eauto.
Qed.

Lemma made o normal z : create_z0 o normal = Ok z -> length z = (nx o * ny o)%nat /\
  forall i j, (i < ny o)%nat -> (j < nx o)%nat -> nth_error z (i * nx o + j) =
  Some (let noise := noise_scale o * normal i j in
        if String.eqb (upper (make_z0_method o)) "PLANE"
        then noise + (plane_dz_dx o * (dx o * inject_Z (Z.of_nat j)) +
                      plane_dz_dy o * (dy o * inject_Z (Z.of_nat (ny o) - 1 - Z.of_nat i)))
        else noise).
Proof.
  unfold create_z0, base_surface, is, midpoint_surface.
  destruct (String.eqb (upper (noise_method o)) "GAUSSIAN"); cbn [rbind].
  2:{ destruct (String.eqb (upper (noise_method o)) "MIDPOINTS"); [destruct (2049 <? _)%nat|]; discriminate. }
  destruct (String.eqb (upper (make_z0_method o)) "CORNER_PLANE"); [discriminate|].
  intros E. injection E as <-. split; [apply rows_length|]. intros i j Hi Hj.
  rewrite (nth_error_nth' _ 0) by (rewrite rows_length; nia). f_equal.
  rewrite (rows_nth 0 (ny o) (nx o)) by assumption.
  destruct (String.eqb (upper (make_z0_method o)) "PLANE"); reflexivity.
Qed.

(** A created plane is the noise plus a plane that is zero in the lower left corner
    (the first column of the last row) and has the slopes of the options, x to the
    east and y to the north. *)
Theorem C97_plane : forall o normal file d g, upper (make_z0_method o) = "PLANE" -> (0 < ny o)%nat ->
  initialize_DEM o normal file = Ok (d, g) ->
  exists p : nat -> nat -> Q,
    (forall i j, (i < ny o)%nat -> (j < nx o)%nat ->
       exists z, elevation o d i j = Some z /\ z == noise_scale o * normal i j + p i j) /\
    p (ny o - 1)%nat 0%nat == 0 /\
    (forall i j, (i < ny o)%nat -> (S j < nx o)%nat -> p i (S j) - p i j == plane_dz_dx o * dx o) /\
    (forall i j, (S i < ny o)%nat -> (j < nx o)%nat -> p i j - p (S i) j == plane_dz_dy o * dy o).
Proof.
  intros o normal file d g P Z E. assert (H : make_z0_method o <> "READ_FILE").
  { intros X. rewrite X in P. discriminate. }
  destruct (created _ _ _ _ _ H E) as (z & -> & _ & C). destruct (made _ _ _ C) as [_ M].
  rewrite P in M.
  exists (fun i j => plane_dz_dx o * (dx o * inject_Z (Z.of_nat j)) +
                     plane_dz_dy o * (dy o * inject_Z (Z.of_nat (ny o) - 1 - Z.of_nat i))).
  repeat split.
  - intros i j Hi Hj. eexists. split; [exact (M i j Hi Hj)|]. reflexivity.
  - replace (Z.of_nat (ny o) - 1 - Z.of_nat (ny o - 1))%Z with 0%Z by lia. cbn. ring.
  - intros i j Hi Hj. rewrite Nat2Z.inj_succ. unfold Z.succ. rewrite inject_Z_plus. ring.
  - intros i j Hi Hj. rewrite Nat2Z.inj_succ. 
    replace (Z.of_nat (ny o) - 1 - Z.of_nat i)%Z with ((Z.of_nat (ny o) - 1 - Z.succ (Z.of_nat i)) + 1)%Z by lia.
    rewrite inject_Z_plus. ring.
Qed.
Print Assumptions C97_plane.

(** A created flat DEM is the noise. *)
Theorem C97_flat : forall o normal file d g, upper (make_z0_method o) <> "PLANE" ->
  make_z0_method o <> "READ_FILE" -> initialize_DEM o normal file = Ok (d, g) ->
  forall i j, (i < ny o)%nat -> (j < nx o)%nat -> elevation o d i j = Some (noise_scale o * normal i j).
Proof.
  intros o normal file d g P H E i j Hi Hj.
  destruct (created _ _ _ _ _ H E) as (z & -> & _ & C). destruct (made _ _ _ C) as [_ M].
  rewrite (proj2 (String.eqb_neq _ _) P) in M. exact (M i j Hi Hj).
Qed.
Print Assumptions C97_flat.

(** A created DEM is saved, and a later run that reads the saved file starts from
    the same DEM. *)
Theorem C97_saved : forall o o' normal normal' file d g, make_z0_method o <> "READ_FILE" ->
  initialize_DEM o normal file = Ok (d, g) -> (0 < nx o)%nat -> (0 < ny o)%nat ->
  make_z0_method o' = "READ_FILE" -> nx o' = nx o -> ny o' = ny o ->
  initialize_DEM o' normal' g = Ok (d, g).
Proof.
  intros o o' normal normal' file d g H E Px Py H' X Y.
  destruct (created _ _ _ _ _ H E) as (z & -> & -> & C). destruct (made _ _ _ C) as [L _].
  apply C97_read; rewrite ?X, ?Y; auto.
Qed.
Print Assumptions C97_saved.

(** Without the file to be read there is no DEM (the file cannot be opened), and none is
    created in its place, whatever the other options. *)
Theorem C97_absent : forall o normal d g, make_z0_method o = "READ_FILE" -> initialize_DEM o normal None = Ok (d, g) ->
  d = NoFile /\ g = None.
Proof.
  intros o normal d g H E. unfold initialize_DEM in E. rewrite H in E. cbn in E. now injection E as <- <-.
Qed.
Print Assumptions C97_absent.

(** The options are read without regard to case, but not this one: with READ_FILE
    spelled any other way and Gaussian noise, the user's file is not read but
    replaced by the noise. *)
Theorem C97_spelling_refuted : forall o normal f, upper (make_z0_method o) = "READ_FILE" ->
  make_z0_method o <> "READ_FILE" -> upper (noise_method o) = "GAUSSIAN" ->
  exists z, initialize_DEM o normal (Some f) = Ok (Numbers z, Some (mkfile Double z)) /\
    forall i j, (i < ny o)%nat -> (j < nx o)%nat -> nth_error z (i * nx o + j) = Some (noise_scale o * normal i j).
Proof.
  intros o normal f U H G.
  destruct (proj2 (C97_created_iff o normal (Some f) H)) as [[d g] E].
  { split; [exact G|]. rewrite U. discriminate. }
  destruct (created _ _ _ _ _ H E) as (z & -> & -> & C). exists z. split; [exact E|].
  destruct (made _ _ _ C) as [_ M]. rewrite U in M. exact M.
Qed.
Print Assumptions C97_spelling_refuted.

(** ** A case *)

Definition o1 := mkopt "Plane" "gaussian" 2 3 10 10 (1#2) (1#10) (2#10).
Definition o2 := mkopt "READ_FILE" "NO_NOISE" 2 3 10 10 (1#2) (1#10) (2#10).
Definition n1 (i j : nat) : Q := inject_Z (Z.of_nat i - Z.of_nat j).
Example C97_case :
  (exists z, initialize_DEM o1 n1 None = Ok (Numbers z, Some (mkfile Double z)) /\
     map Qred z = [2; 5#2; 3; 1#2; 1; 3#2] /\ initialize_DEM o2 n1 (Some (mkfile Double z)) = Ok (Numbers z, Some (mkfile Double z)))
  /\ (exists z, initialize_DEM (mkopt "read_file" "GAUSSIAN" 1 2 10 10 1 0 0) n1 (Some (mkfile Float [7; 8])) = Ok (Numbers z, Some (mkfile Double z))
       /\ map Qred z = [0; -1#1])
  /\ initialize_DEM o2 n1 (Some (mkfile Long [1; 2; 3; 4; 5; 6])) = Ok (Bits (mkfile Long [1; 2; 3; 4; 5; 6]) Float, Some (mkfile Long [1; 2; 3; 4; 5; 6]))
  /\ initialize_DEM (mkopt "PLANE" "NO_NOISE" 2 3 10 10 1 0 0) n1 None = Err NameError.
Proof.
  split; [|split; [|split]].
  - eexists. split; [reflexivity|]. split; reflexivity.
  - eexists. split; reflexivity.
  - reflexivity.
  - reflexivity.
Qed.
