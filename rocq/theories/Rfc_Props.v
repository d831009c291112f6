(** C121: tables of river forecast sites. *)

From Coq Require Import String Ascii List Arith Bool QArith Lia Permutation Sorting.Sorted.
From Verif Require Import Time_Model Time_Proofs Io_Model Bundle_Model Bundle_Props Usgs_Model Rfc_Model.
Import ListNotations.
Local Open Scope string_scope.

(** ** Dictionaries *)

Lemma dget_dset {V} (d : dict V) k v k' : dget (dset d k v) k' = if String.eqb k' k then Some v else dget d k'.
Proof.
  induction d as [|[a b] d IH]; cbn [dset dget].
  - reflexivity.
  - destruct (String.eqb_spec k a) as [->|N]; cbn [dget].
    + destruct (String.eqb_spec k' a); reflexivity.
    + destruct (String.eqb_spec k' a) as [->|N']; [|exact IH]. destruct (String.eqb_spec a k); [congruence|reflexivity].
Qed.
Lemma dget_in {V} (d : dict V) k v : dget d k = Some v -> In (k, v) d.
Proof.
  induction d as [|[a b] d IH]; cbn [dget]; [discriminate|]. destruct (String.eqb_spec k a) as [->|N]; [intros [= ->]; now left|]. intros H. right. auto.
Qed.

(** ** Rows of states *)

Lemma split_ne c s : split c s <> [].
Proof. induction s as [|x s IH]; cbn [split]; [discriminate|]. destruct (Ascii.eqb x c); [discriminate|]. destruct (split c s); [contradiction|discriminate]. Qed.
Lemma split_two c l : forall f, exists w v r, split c (f ++ String c l) = w :: v :: r.
Proof.
  induction f as [|x f (w & v & r & IH)]; cbn [append split].
  - rewrite Ascii.eqb_refl. destruct (split c l) as [|v r] eqn:E; [now apply split_ne in E|]. now exists "", v, r.
  - rewrite IH. destruct (Ascii.eqb x c); [now exists "", w, (v :: r)|]. now exists (String x w), v, r.
Qed.
Lemma split_final c l : nosep c l = true -> forall f, List.last (split c (f ++ String c l)) "" = l.
Proof.
  intros N. induction f as [|x f IH]; cbn [append split].
  - rewrite Ascii.eqb_refl, split_last by exact N. reflexivity.
  - destruct (split_two c l f) as (w & v & r & E). rewrite E in *. destruct (Ascii.eqb x c); exact IH.
Qed.
(** The name of a row is the last of its entries, without blanks. *)
Theorem C121_name : forall first last, nosep ","%char last = true -> row_name (first ++ "," ++ last) = strip last.
Proof. intros first last N. unfold row_name. cbn [append]. now rewrite (split_final ","%char last N first). Qed.
Print Assumptions C121_name.

Lemma cull_shape : forall lines s, let r := cull_rows lines s in
  rows_out r = (rows_out s ++ filter keep lines)%list /\ n_rows_in r = (n_rows_in s + length lines)%nat /\ n_rows_out r = (n_rows_out s + length (filter keep lines))%nat /\
  (n_rows_out r + n_rows_skip r = n_rows_out s + n_rows_skip s + length lines)%nat.
Proof.
  induction lines as [|line rest IH]; intros s; cbn [cull_rows filter length].
  - cbv zeta. rewrite app_nil_r. repeat split; lia.
  - destruct (keep line); cbv zeta; match goal with |- context [cull_rows rest ?x] => destruct (IH x) as (H1 & H2 & H3 & H4) end; cbn [rows_out n_rows_in n_rows_out n_rows_skip] in *; rewrite H1; cbn [length]; rewrite ?app_assoc_reverse; cbn [app]; repeat split; lia.
Qed.
Lemma keep_iff line : keep line = true <-> exists a b, row_name line = String a (String b "_DCP") /\ ~ In (row_name line) ["GU_DCP"; "P1_DCP"; "P2_DCP"; "P3_DCP"; "P4_DCP"].
Proof.
  unfold keep. set (n := row_name line). fold skip_list. rewrite !andb_true_iff, negb_true_iff. split.
  - intros [[A B] C]. apply Nat.eqb_eq in C. destruct n as [|a [|b [|c [|d [|e [|f [|g n]]]]]]]; try discriminate C. exists a, b. split.
    + unfold endswith in B. apply andb_true_iff in B as [_ B]. apply String.eqb_eq in B. unfold last_n in B. cbn [String.length Nat.sub drop] in B. now rewrite B.
    + intros X. assert (E : existsb (String.eqb (String a (String b (String c (String d (String e (String f ""))))))) skip_list = true) by (apply existsb_exists; eexists; split; [exact X|apply String.eqb_refl]). congruence.
  - intros (a & b & E & X). split; [split|].
    + destruct (existsb (String.eqb n) skip_list) eqn:Y; [|reflexivity]. apply existsb_exists in Y as (z & Z1 & Z2). apply String.eqb_eq in Z2. subst z. contradiction.
    + rewrite E. reflexivity.
    + rewrite E. reflexivity.
Qed.
(** The rows kept, in their order and unchanged, are those whose name is two characters and _DCP, without Guam and the Pacific; all are counted,
    and a second pass changes nothing. *)
Theorem C121_cull : forall header lines, let r := cull_usa_dcp_data_rows header lines in
  fst r = header :: filter keep lines /\
  (forall line, In line (filter keep lines) <-> In line lines /\ exists a b, row_name line = String a (String b "_DCP") /\ ~ In (row_name line) ["GU_DCP"; "P1_DCP"; "P2_DCP"; "P3_DCP"; "P4_DCP"]) /\
  n_rows_in (snd r) = length lines /\ S (n_rows_out (snd r)) = length (fst r) /\ n_rows_in (snd r) = (n_rows_out (snd r) + n_rows_skip (snd r))%nat /\
  fst (cull_usa_dcp_data_rows header (tl (fst r))) = fst r.
Proof.
  intros header lines. cbv zeta. unfold cull_usa_dcp_data_rows. cbn [fst snd].
  destruct (cull_shape lines {| rows_out := []; n_rows_in := 0; n_rows_skip := 0; n_rows_out := 0; state_dict := [] |}) as (H1 & H2 & H3 & H4). cbn in *.
  split; [now rewrite H1|]. split; [intros line; rewrite filter_In, keep_iff; reflexivity|]. split; [exact H2|]. split; [rewrite H1, H3; reflexivity|]. split; [lia|].
  rewrite H1. destruct (cull_shape (filter keep lines) {| rows_out := []; n_rows_in := 0; n_rows_skip := 0; n_rows_out := 0; state_dict := [] |}) as (G1 & _). rewrite G1. cbn. f_equal.
  clear. induction lines as [|l r IH]; [reflexivity|]. cbn. destruct (keep l) eqn:K; [cbn; rewrite K; now f_equal|exact IH].
Qed.
Print Assumptions C121_cull.

Definition of_state (code line : string) : bool := keep line && String.eqb code (substring 0 2 (row_name line)).
Lemma cull_counts code : forall lines s, let n := length (filter (of_state code) lines) in
  dget (state_dict (cull_rows lines s)) code = match dget (state_dict s) code with Some k => Some (k + n)%nat | None => match n with O => None | S k => Some k end end.
Proof.
  induction lines as [|line rest IH]; intros s; cbv zeta in *; cbn [cull_rows filter].
  - cbn. destruct (dget (state_dict s) code); [f_equal; lia|reflexivity].
  - assert (OS : of_state code line = keep line && String.eqb code (substring 0 2 (row_name line))) by reflexivity. rewrite OS. clear OS.
    destruct (keep line) eqn:K; cbn [andb]; rewrite IH; cbn [state_dict]; [|reflexivity].
    unfold count_state. set (c := substring 0 2 (row_name line)). destruct (String.eqb_spec code c) as [->|N].
    + destruct (dget (state_dict s) c) as [k|] eqn:D; rewrite dget_dset, String.eqb_refl; cbn [length]; f_equal; lia.
    + assert (E : dget (match dget (state_dict s) c with Some n => dset (state_dict s) c (n + 1)%nat | None => dset (state_dict s) c 0%nat end) code = dget (state_dict s) code).
      { destruct (dget (state_dict s) c); rewrite dget_dset; destruct (String.eqb_spec code c); congruence. }
      rewrite E. reflexivity.
Qed.
(** Refuted: the number printed for a state is that of its rows.  It is one less. *)
Theorem C121_state_count_refuted : forall header lines code,
  dget (state_dict (snd (cull_usa_dcp_data_rows header lines))) code = match length (filter (of_state code) lines) with O => None | S k => Some k end.
Proof. intros. unfold cull_usa_dcp_data_rows. cbn [snd]. rewrite cull_counts. reflexivity. Qed.
Print Assumptions C121_state_count_refuted.

(** ** Sites at one place *)

Definition at_lon (lon : string) (e : string * place) : bool := String.eqb lon (fst (snd e)).
Lemma lon_dict_last d lon : dget (lon_dict d) lon = option_map (fun e => (snd (snd e), fst e)) (find (at_lon lon) (rev d)).
Proof.
  assert (G : forall l : list (string * place), dget (fold_right (fun (e : string * place) m => let '(nws_id, (lon, lat)) := e in dset m lon (lat, nws_id)) [] l) lon =
    option_map (fun e => (snd (snd e), fst e)) (find (at_lon lon) l)).
  { induction l as [|[i [lo la]] l IH]; [reflexivity|]. cbn [fold_right find]. rewrite dget_dset. unfold at_lon at 1. cbn [fst snd]. destruct (String.eqb lon lo); [reflexivity|exact IH]. }
  unfold lon_dict. rewrite <- fold_left_rev_right. exact (G (rev d)).
Qed.
Lemma lons_in d i lo la : In (i, (lo, la)) d -> In lo (lons d).
Proof. intros H. unfold lons. change lo with (fst (snd (i, (lo, la)))). now apply (in_map (fun e : string * place => fst (snd e))). Qed.
(** Sites of two tables are called one site only if they are at one place; when no two sites of a table share a longitude all such pairs are found. *)
Theorem C121_same_place : forall d1 d2 id1 id2,
  (In (id1, id2) (get_equivalent_nws_ids d1 d2) -> exists lon lat, In (id1, (lon, lat)) d1 /\ In (id2, (lon, lat)) d2) /\
  (NoDup (lons d1) -> NoDup (lons d2) -> forall lon lat, In (id1, (lon, lat)) d1 -> In (id2, (lon, lat)) d2 -> In (id1, id2) (get_equivalent_nws_ids d1 d2)).
Proof.
  intros d1 d2 id1 id2. unfold get_equivalent_nws_ids. split.
  - rewrite in_flat_map. intros (lon & _ & H). rewrite !lon_dict_last in H.
    destruct (find (at_lon lon) (rev d1)) as [[i1 [lo1 la1]]|] eqn:F1; [|destruct H]. destruct (find (at_lon lon) (rev d2)) as [[i2 [lo2 la2]]|] eqn:F2; [|destruct H]. cbn [option_map fst snd] in H.
    destruct (String.eqb_spec la1 la2) as [->|N]; [|destruct H]. destruct H as [[= -> ->]|[]].
    apply find_some in F1 as [A1 B1]. apply find_some in F2 as [A2 B2]. unfold at_lon in B1, B2. cbn in B1, B2. apply String.eqb_eq in B1, B2. subst lo1 lo2.
    exists lon, la2. rewrite <- in_rev in A1, A2. auto.
  - intros N1 N2 lon lat H1 H2.
    assert (U : forall d i, NoDup (lons d) -> In (i, (lon, lat)) d -> find (at_lon lon) (rev d) = Some (i, (lon, lat))).
    { clear. intros d i N H. destruct (find (at_lon lon) (rev d)) as [[j [lo la]]|] eqn:F.
      - apply find_some in F as [A B]. unfold at_lon in B. cbn in B. apply String.eqb_eq in B. subst lo. rewrite <- in_rev in A. clear - N H A. f_equal.
        induction d as [|e d IH]; [destruct H|]. cbn [lons map] in N. apply NoDup_cons_iff in N as [N1 N2]. fold (lons d) in *. destruct H as [->|H], A as [A|A]; auto.
        + exfalso. apply N1. cbn. now apply (lons_in d j lon la).
        + subst e. exfalso. apply N1. cbn. now apply (lons_in d i lon lat).
      - exfalso. apply find_none with (x := (i, (lon, lat))) in F; [|now rewrite <- in_rev]. unfold at_lon in F. cbn in F. rewrite String.eqb_refl in F. discriminate. }
    apply in_flat_map. exists lon. split.
    + eapply Permutation_in; [symmetry; apply sort_perm|]. apply nodup_In, in_app_iff. left. now apply (lons_in d1 id1 lon lat).
    + rewrite !lon_dict_last, (U d1 id1 N1 H1), (U d2 id2 N2 H2). cbn. rewrite String.eqb_refl. now left.
Qed.
Print Assumptions C121_same_place.
(** Refuted: all sites at one place are found. *)
Theorem C121_same_place_refuted : exists d1 d2 id1 id2 lon lat, NoDup (keys d1) /\ NoDup (keys d2) /\ In (id1, (lon, lat)) d1 /\ In (id2, (lon, lat)) d2 /\ get_equivalent_nws_ids d1 d2 = [].
Proof.
  exists [("ATCK1", ("-95.1", "39.5")); ("ELMM8", ("-95.1", "40.2"))], [("1814", ("-95.1", "39.5"))], "ATCK1", "1814", "-95.1", "39.5".
  split; [cbn; constructor; [intros [H|[]]; discriminate H|constructor; [intros []|constructor]]|]. split; [constructor; [intros []|constructor]|]. split; [now left|]. split; [now left|]. vm_compute. reflexivity.
Qed.
Print Assumptions C121_same_place_refuted.

(** what np.argsort may give *)
Definition is_argsort (l : list string) (s : list nat) : Prop := Permutation s (seq 0 (length l)) /\ StronglySorted le (pick "" l s).
Lemma pick_perm {A} (d : A) l s : Permutation s (seq 0 (length l)) -> Permutation (pick d l s) l.
Proof.
  intros P. unfold pick. rewrite (Permutation_map _ P). replace (map (fun i => nth i l d) (seq 0 (length l))) with l; [reflexivity|].
  clear. induction l as [|a l IH]; [reflexivity|]. cbn [length seq map nth]. f_equal. rewrite <- seq_shift, map_map. exact IH.
Qed.
Lemma scan_iff x y : forall rows li ll la, In (x, y) (scan ll la li rows) <->
  exists pre post a b lon lat, ((li, (ll, la)) :: rows = pre ++ (a, (lon, lat)) :: (b, (lon, lat)) :: post)%list /\ (x, y) = (if isnumeric a then (a, b) else (b, a)).
Proof.
  induction rows as [|[i [lo lt]] rows IH]; intros li ll la; cbn [scan].
  - split; [intros []|]. intros ([|e [|e2 pre]] & post & a & b & lon & lat & E & _); discriminate E.
  - rewrite in_app_iff, IH. split.
    + intros [H|(pre & post & a & b & lon & lat & E & Q)].
      * destruct (String.eqb_spec lo ll) as [->|]; [|destruct H]. destruct (String.eqb_spec lt la) as [->|]; [|destruct H]. destruct H as [H|[]]. exists [], rows, li, i, ll, la. split; [reflexivity|]. rewrite <- H. reflexivity.
      * exists ((li, (ll, la)) :: pre), post, a, b, lon, lat. split; [cbn; now f_equal|exact Q].
    + intros ([|e pre] & post & a & b & lon & lat & E & Q).
      * left. cbn in E. injection E as -> -> -> -> -> -> ->. rewrite !String.eqb_refl. left. now rewrite Q.
      * right. cbn in E. injection E as _ E. exists pre, post, a, b, lon, lat. auto.
Qed.
Lemma sorted_mid : forall l a b r, StronglySorted le (l ++ a :: b :: r)%list -> le a b /\ Forall (le b) r.
Proof.
  induction l as [|q l IH]; intros a b r S; cbn [app] in S; apply StronglySorted_inv in S as [S F]; [|now apply IH]. apply StronglySorted_inv in S as [S G]. split; [|exact G]. now inversion F.
Qed.
Lemma nodup_mid : forall (l : list string) a i r b t, NoDup (l ++ a :: i :: r ++ b :: t)%list -> i <> a /\ i <> b.
Proof.
  induction l as [|q l IH]; intros a i r b t N; cbn [app] in N; apply NoDup_cons_iff in N as [N M]; [|now apply IH in M]. apply NoDup_cons_iff in M as [M _]. split; intros ->.
  - apply N. now left.
  - apply M, in_app_iff. right. now left.
Qed.
Lemma lons_pick d s : lons (pick ("", ("", "")) d s) = pick "" (lons d) s.
Proof.
  unfold lons, pick. rewrite map_map. apply map_ext. intros i. symmetry. exact (map_nth (fun e : string * place => fst (snd e)) d ("", ("", "")) i).
Qed.
(** In one table: sites called one are two, at one place; of a numeric and another identifier the numeric comes first; the list is sorted.
    Two sites at one place are found when they are the only ones at their longitude. *)
Theorem C121_same_place_2 : forall d s s1, NoDup (keys d) -> is_argsort (lons d) s -> (forall id, ~ In (id, ("-999", "-999")) d) ->
  is_argsort (map fst (scan "-999" "-999" "XXXX" (pick ("", ("", "")) d s))) s1 ->
  let out := get_equivalent_nws_ids2 d s s1 in
  StronglySorted le (map fst out) /\
  (forall x y, In (x, y) out -> x <> y /\ (isnumeric y = true -> isnumeric x = true) /\ exists lon lat, In (x, (lon, lat)) d /\ In (y, (lon, lat)) d) /\
  (forall x y lon lat, x <> y -> In (x, (lon, lat)) d -> In (y, (lon, lat)) d -> (forall id l, In (id, (lon, l)) d -> id = x \/ id = y) -> In (x, y) out \/ In (y, x) out).
Proof.
  intros d s s1 ND [P1 S1] N9 [P2 S2]. set (rows := pick ("", ("", "")) d s) in *. set (sc := scan "-999" "-999" "XXXX" rows) in *.
  assert (LL : length (lons d) = length d) by (unfold lons; apply map_length). rewrite LL in P1.
  assert (PR : Permutation rows d) by (apply pick_perm; exact P1).
  rewrite map_length in P2. assert (PO : Permutation (pick ("", "") sc s1) sc) by (apply pick_perm; exact P2).
  assert (NR : NoDup (map fst rows)) by (eapply Permutation_NoDup; [apply Permutation_map; symmetry; exact PR|exact ND]).
  cbv zeta. unfold get_equivalent_nws_ids2. fold rows. fold sc. split; [|split].
  - replace (map fst (pick ("", "") sc s1)) with (pick "" (map fst sc) s1); [exact S2|]. unfold pick. rewrite map_map. apply map_ext. intros i. exact (map_nth fst sc ("", "") i).
  - intros x y H. apply (Permutation_in _ PO) in H. apply scan_iff in H as (pre & post & a & b & lon & lat & E & Q).
    destruct pre as [|e pre]; cbn in E.
    + injection E as <- <- <- E. exfalso. apply (N9 b). eapply Permutation_in; [exact PR|]. rewrite E. now left.
    + injection E as _ E. assert (A : In (a, (lon, lat)) d) by (eapply Permutation_in; [exact PR|]; rewrite E; apply in_elt).
      assert (B : In (b, (lon, lat)) d) by (eapply Permutation_in; [exact PR|]; rewrite E; apply in_app_iff; right; right; now left).
      assert (AB : a <> b). { rewrite E, map_app in NR. cbn in NR. apply NoDup_remove_2 in NR. intros ->. apply NR, in_app_iff. right. now left. }
      destruct (isnumeric a) eqn:IA; injection Q as -> ->; (split; [congruence|]); (split; [congruence|]); exists lon, lat; auto.
  - intros x y lon lat XY HX HY U.
    assert (HX' : In (x, (lon, lat)) rows) by (eapply Permutation_in; [symmetry; exact PR|exact HX]). assert (HY' : In (y, (lon, lat)) rows) by (eapply Permutation_in; [symmetry; exact PR|exact HY]).
    assert (W : exists a b l1 l2 l3, (a = x /\ b = y \/ a = y /\ b = x) /\ rows = (l1 ++ (a, (lon, lat)) :: l2 ++ (b, (lon, lat)) :: l3)%list).
    { apply in_split in HX' as (l1 & l2 & E). rewrite E in HY'. apply in_app_iff in HY' as [H|[H|H]].
      - apply in_split in H as (m1 & m2 & F). exists y, x, m1, m2, l2. split; [auto|]. rewrite E, F. rewrite <- app_assoc. reflexivity.
      - injection H as ->. congruence.
      - apply in_split in H as (m1 & m2 & F). exists x, y, l1, m1, m2. split; [auto|]. now rewrite E, F. }
    destruct W as (a & b & l1 & l2 & l3 & AB & E).
    assert (SL : StronglySorted le (lons rows)) by (unfold rows; rewrite lons_pick; exact S1).
    assert (L2 : l2 = []).
    { destruct l2 as [|[i [lo la]] l2]; [reflexivity|]. exfalso. unfold lons in SL. rewrite E, map_app in SL. cbn [map fst snd app] in SL.
      assert (LO : lo = lon).
      { destruct (sorted_mid _ _ _ _ SL) as [A1 F2]. rewrite Forall_forall in F2.
        assert (A2 : le lo lon) by (apply F2; rewrite map_app; apply in_app_iff; right; now left). unfold le in A1, A2. apply leb_cases in A1 as [A1|A1]; [|congruence]. apply leb_cases in A2 as [A2|A2]; [|congruence].
        pose proof (compare_lt_trans _ _ _ A1 A2) as C. now rewrite compare_refl in C. }
      subst lo. assert (I : In (i, (lon, la)) d) by (eapply Permutation_in; [exact PR|]; rewrite E; apply in_app_iff; right; right; now left).
      assert (D : i <> a /\ i <> b). { rewrite E, map_app in NR. cbn [map fst app] in NR. rewrite map_app in NR. cbn [map fst] in NR. exact (nodup_mid _ _ _ _ _ _ NR). }
      destruct (U i la I) as [->| ->]; destruct AB as [[-> ->]|[-> ->]]; tauto. }
    subst l2. cbn [app] in E. assert (G : In (if isnumeric a then (a, b) else (b, a)) (pick ("", "") sc s1)).
    { eapply Permutation_in; [symmetry; exact PO|]. assert (Z : (if isnumeric a then (a, b) else (b, a)) = (fst (if isnumeric a then (a, b) else (b, a)), snd (if isnumeric a then (a, b) else (b, a)))) by (destruct (isnumeric a); reflexivity).
      rewrite Z. unfold sc. apply scan_iff. exists (("XXXX", ("-999", "-999")) :: l1), l3, a, b, lon, lat. split; [cbn; now rewrite E|]. now rewrite <- Z. }
    destruct AB as [[-> ->]|[-> ->]]; destruct (isnumeric _); auto.
Qed.
Print Assumptions C121_same_place_2.
(** Refuted: sites at one place are found in one table.  Not when a third one is sorted between them; and a site without a place is one with XXXX. *)
Theorem C121_same_place_2_refuted :
  (exists d s s1 x y lon lat, NoDup (keys d) /\ is_argsort (lons d) s /\ x <> y /\ In (x, (lon, lat)) d /\ In (y, (lon, lat)) d /\ get_equivalent_nws_ids2 d s s1 = [] /\
     is_argsort (map fst (scan "-999" "-999" "XXXX" (pick ("", ("", "")) d s))) s1) /\
  (exists d s s1, NoDup (keys d) /\ is_argsort (lons d) s /\ get_equivalent_nws_ids2 d s s1 = [("2843", "XXXX")]).
Proof.
  split.
  - exists [("ATCK1", ("-95.1", "39.5")); ("ELMM8", ("-95.1", "40.2")); ("1814", ("-95.1", "39.5"))], [0; 1; 2]%nat, [], "ATCK1", "1814", "-95.1", "39.5".
    split; [cbn; repeat constructor; cbn; intuition discriminate|]. split; [split; [reflexivity|]|]; [cbn; repeat constructor|]. split; [discriminate|]. split; [now left|]. split; [right; right; now left|].
    split; [vm_compute; reflexivity|]. split; [reflexivity|]. vm_compute. constructor.
  - exists [("2843", ("-999", "-999"))], [0%nat], [0%nat]. split; [cbn; repeat constructor; cbn; tauto|]. split; [split; [reflexivity|]; cbn; repeat constructor|]. vm_compute. reflexivity.
Qed.
Print Assumptions C121_same_place_2_refuted.

(** The counts of two tables: what is in both and what is in one only add up, and the lists are sorted. *)
Lemma existsb_in x l : existsb (String.eqb x) l = true <-> In x l.
Proof. rewrite existsb_exists. split; [intros (y & H & E); apply String.eqb_eq in E; now subst|]. intros H. exists x. split; [exact H|apply String.eqb_refl]. Qed.
Theorem C121_compare : forall d1 d2, let '(n1, n2, n12, diff1, diff2) := compare_nws_ids d1 d2 in
  n1 = (n12 + length diff1)%nat /\ n2 = (n12 + length diff2)%nat /\ StronglySorted le diff1 /\ StronglySorted le diff2 /\ NoDup diff1 /\ NoDup diff2 /\
  (forall x, In x diff1 <-> In x (keys d1) /\ ~ In x (keys d2)) /\ (forall x, In x diff2 <-> In x (keys d2) /\ ~ In x (keys d1)).
Proof.
  intros d1 d2. unfold compare_nws_ids. set (a := nodup string_dec (keys d1)). set (b := nodup string_dec (keys d2)).
  assert (NA : NoDup a) by apply NoDup_nodup. assert (NB : NoDup b) by apply NoDup_nodup.
  assert (L : forall a b, length a = (length (both a b) + length (minus a b))%nat).
  { clear. intros a b. unfold both, minus. induction a as [|x a IH]; [reflexivity|]. cbn [filter length]. destruct (existsb (String.eqb x) b); cbn [negb length]; lia. }
  assert (LS : forall l, length (sort l) = length l) by (intros l; apply Permutation_length, sort_perm).
  assert (C : length (both a b) = length (both b a)).
  { apply Nat.le_antisymm; apply NoDup_incl_length; try (apply NoDup_filter; assumption); intros x; unfold both; rewrite !filter_In, !existsb_in; tauto. }
  assert (M : forall a b x, In x (sort (minus a b)) <-> In x a /\ ~ In x b).
  { clear. intros a b x. split.
    - intros H. apply (Permutation_in _ (sort_perm _)) in H. unfold minus in H. apply filter_In in H as [H1 H2]. split; [exact H1|]. apply negb_true_iff in H2. intros X. apply existsb_in in X. congruence.
    - intros [H1 H2]. eapply Permutation_in; [symmetry; apply sort_perm|]. apply filter_In. split; [exact H1|]. apply negb_true_iff. destruct (existsb (String.eqb x) b) eqn:E; [|reflexivity]. apply existsb_in in E. contradiction. }
  assert (IA : forall x, In x a <-> In x (keys d1)) by (intros x; apply nodup_In). assert (IB : forall x, In x b <-> In x (keys d2)) by (intros x; apply nodup_In).
  rewrite !LS. repeat split; try apply sort_sorted.
  - apply L.
  - rewrite C. apply L.
  - eapply Permutation_NoDup; [symmetry; apply sort_perm|]. now apply NoDup_filter.
  - eapply Permutation_NoDup; [symmetry; apply sort_perm|]. now apply NoDup_filter.
  - apply M in H. apply IA. tauto.
  - apply M in H. rewrite <- IB. tauto.
  - intros [H1 H2]. apply M. rewrite IA, IB. tauto.
  - apply M in H. apply IB. tauto.
  - apply M in H. rewrite <- IA. tauto.
  - intros [H1 H2]. apply M. rewrite IA, IB. tauto.
Qed.
Print Assumptions C121_compare.

(** ** Types of hydrograph *)

(** a file lists a site with coordinates, its own or those of USGS *)
Definition gives (info : dict site) (sid line : string) : Prop :=
  exists v0 v1, nth_error (split ","%char line) 0 = Some v0 /\ nth_error (split ","%char line) 1 = Some v1 /\ strip v0 = sid /\
    (strip v1 <> "NA" \/ exists i, dget info sid = Some i /\ s_lat i <> "NA").
Definition lists (info : dict site) (sid : string) (lines : list string) : Prop := exists line, In line (skipn 1 lines) /\ gives info sid line.

Lemma htype_line_spec info ht d line d' sid : htype_line info ht d line = Ok d' ->
  (gives info sid line /\ exists e, dget d' sid = Some e /\ htype e = ht) \/ (~ gives info sid line /\ dget d' sid = dget d sid).
Proof.
  unfold htype_line, item. destruct (nth_error (split ","%char line) 0) as [v0|] eqn:E0; [|discriminate]. destruct (nth_error (split ","%char line) 1) as [v1|] eqn:E1; [|discriminate].
  destruct (nth_error (split ","%char line) 2) as [v2|]; [|discriminate]. destruct (nth_error (split ","%char line) 6) as [v6|]; [|discriminate]. destruct (nth_error (split ","%char line) 7) as [v7|]; [|discriminate]. cbn [rbind].
  assert (G : gives info sid line <-> strip v0 = sid /\ (strip v1 <> "NA" \/ exists i, dget info sid = Some i /\ s_lat i <> "NA")).
  { unfold gives. rewrite E0, E1. split; [intros (a & b & [= <-] & [= <-] & H); exact H|]. intros H. exists v0, v1. auto. }
  rewrite G. destruct (String.eqb_spec (strip v1) "NA") as [N|N].
  - destruct (dget info (strip v0)) as [i|] eqn:I.
    + intros [= <-]. destruct (String.eqb_spec (s_lat i) "NA") as [X|X].
      * right. split; [|reflexivity]. intros [<- [H|(j & J & K)]]; [contradiction|]. rewrite I in J. injection J as <-. contradiction.
      * rewrite dget_dset. destruct (String.eqb_spec sid (strip v0)) as [->|S].
        -- left. split; [split; [reflexivity|]; right; now exists i|]. eexists. split; reflexivity.
        -- right. split; [|reflexivity]. intros [S' _]. congruence.
    + intros [= <-]. destruct (String.eqb_spec (strip v1) "NA") as [_|X]; [|contradiction]. right. split; [|reflexivity]. intros [<- [H|(j & J & K)]]; [contradiction|]. congruence.
  - intros [= <-]. destruct (String.eqb_spec (strip v1) "NA") as [X|_]; [contradiction|]. rewrite dget_dset. destruct (String.eqb_spec sid (strip v0)) as [->|S].
    + left. split; [auto|]. eexists. split; reflexivity.
    + right. split; [|reflexivity]. intros [S' _]. congruence.
Qed.
Lemma htype_lines_spec info ht sid : forall lines d d', htype_lines info ht d lines = Ok d' ->
  ((exists line, In line lines /\ gives info sid line) /\ exists e, dget d' sid = Some e /\ htype e = ht) \/ (~ (exists line, In line lines /\ gives info sid line) /\ dget d' sid = dget d sid).
Proof.
  induction lines as [|line rest IH]; intros d d'; cbn [htype_lines].
  - intros [= <-]. right. split; [|reflexivity]. intros (l & [] & _).
  - destruct (htype_line info ht d line) as [d1|] eqn:E; [|discriminate]. cbn [rbind]. intros H. destruct (IH d1 d' H) as [[(l & A & B) X]|[A B]].
    + left. split; [exists l; split; [now right|exact B]|exact X].
    + destruct (htype_line_spec info ht d line d1 sid E) as [[G (e & X & Y)]|[G X]].
      * left. split; [exists line; split; [now left|exact G]|]. exists e. rewrite B. auto.
      * right. split; [|congruence]. intros (l & [->|L] & Z); [contradiction|]. apply A. now exists l.
Qed.
Lemma htype_files_spec info sid : forall fs d d', htype_files info fs d = Ok d' ->
  ((forall f, In f fs -> ~ lists info sid (snd f)) -> dget d' sid = dget d sid) /\
  (forall k ht lines, nth_error fs k = Some (ht, lines) -> lists info sid lines -> (forall k' f, (k < k')%nat -> nth_error fs k' = Some f -> ~ lists info sid (snd f)) ->
     exists e, dget d' sid = Some e /\ htype e = ht).
Proof.
  induction fs as [|[ht lines] fs IH]; intros d d'; cbn [htype_files].
  - intros [= <-]. split; [reflexivity|]. intros [|k]; discriminate.
  - destruct (htype_lines info ht d (skipn 1 lines)) as [d1|] eqn:E; [|discriminate]. cbn [rbind]. intros H. destruct (IH d1 d' H) as [I1 I2]. pose proof (htype_lines_spec info ht sid _ _ _ E) as SS. split.
    + intros N. rewrite I1 by (intros f F; apply N; now right). destruct SS as [[SS _]|[_ SS]]; [|exact SS]. exfalso. apply (N (ht, lines)); [now left|exact SS].
    + intros [|k] ht' lines' K L U.
      * cbn in K. injection K as -> ->. rewrite I1; [|intros f F; apply In_nth_error in F as (k & F); apply (U (S k) f); [lia|exact F]]. destruct SS as [[_ SS]|[SS _]]; [exact SS|contradiction].
      * apply (I2 k ht' lines' K L). intros k' f KK F. apply (U (S k') f); [lia|exact F].
Qed.
(** The type of a site is that of the last of the six files that lists it with coordinates; a site that none lists has none. *)
Theorem C121_types : forall info f1 f2 f3 f4 f5 f6 d sid, get_hydrograph_type_dict info [f1; f2; f3; f4; f5; f6] = Ok d ->
  let files := [("flashy", f1); ("slow", f2); ("regulated", f3); ("snow-dom", f4); ("normal", f5); ("low-flow", f6)] in
  ((forall f, In f files -> ~ lists info sid (snd f)) -> dget d sid = None) /\
  (forall k ht lines, nth_error files k = Some (ht, lines) -> lists info sid lines -> (forall k' f, (k < k')%nat -> nth_error files k' = Some f -> ~ lists info sid (snd f)) ->
     exists e, dget d sid = Some e /\ htype e = ht).
Proof. intros info f1 f2 f3 f4 f5 f6 d sid H. exact (htype_files_spec info sid _ _ _ H). Qed.
Print Assumptions C121_types.

(** ** Counts of classes *)

Definition total (l : list nat) : nat := fold_right Nat.add 0%nat l.
Lemma total_dset (d : dict nat) c n : dget d c = Some n -> total (map snd (dset d c (n + 1)%nat)) = S (total (map snd d)).
Proof.
  induction d as [|[a b] d IH]; cbn [dget dset]; [discriminate|]. destruct (String.eqb_spec c a) as [->|N].
  - intros [= ->]. cbn. lia.
  - intros H. cbn. unfold total in IH. rewrite (IH H). lia.
Qed.
Lemma total_add_at : forall l k l', add_at l k = Ok l' -> total l' = S (total l).
Proof.
  intros l k l'. unfold add_at. destruct (Nat.ltb_spec k (length l)); [|discriminate]. intros [= <-]. revert k H. unfold total. induction l as [|x l IH]; intros [|k] H; cbn [length] in H; try lia.
  - cbn. lia.
  - change (skipn (S (S k)) (x :: l)) with (skipn (S k) l). cbn [firstn nth app fold_right]. rewrite IH by lia. lia.
Qed.
Section Tally.
Variable num : string -> res Q.
Variable int : string -> res nat.
Definition field (k : nat) (line : string) : option string := nth_error (split "009"%char (chop line)) k.
Definition is (k : nat) (x line : string) : bool := match field k line with Some y => String.eqb y x | None => false end.
(** The counts of classes and of codes each add up to the number of basins, those rows with Y; each class is counted as often as it occurs;
    areas lie between the extremes of their class. *)
Lemma tally_lines_spec sb3 swb hlr area : forall lines t t', tally_lines num int sb3 swb hlr area t lines = Ok t' ->
  (n_basins t' = n_basins t + length (filter (is sb3 "Y") lines))%nat /\
  (total (map snd (swb_counts t')) + n_basins t = total (map snd (swb_counts t)) + n_basins t')%nat /\
  (total (hlr_counts t') + n_basins t = total (hlr_counts t) + n_basins t')%nat /\
  (forall c n, dget (swb_counts t) c = Some n -> dget (swb_counts t') c = Some (n + length (filter (fun l => is sb3 "Y" l && is swb c l) lines))%nat) /\
  (n_missing_areas t <= n_missing_areas t')%nat /\ (n_missing_areas t' - n_missing_areas t <= n_basins t' - n_basins t)%nat /\
  (forall c lo, dget (area_mins t) c = Some lo -> exists lo', dget (area_mins t') c = Some lo' /\ lo' <= lo /\
     forall line a x, In line lines -> is sb3 "Y" line = true -> is swb c line = true -> field area line = Some a -> strip a <> "" -> strip a <> "-9999" -> num a = Ok x -> lo' <= x) /\
  (forall c hi, dget (area_maxes t) c = Some hi -> exists hi', dget (area_maxes t') c = Some hi' /\ hi <= hi' /\
     forall line a x, In line lines -> is sb3 "Y" line = true -> is swb c line = true -> field area line = Some a -> strip a <> "" -> strip a <> "-9999" -> num a = Ok x -> x <= hi').
Proof.
  induction lines as [|line rest IH]; intros t t'; cbn [tally_lines].
  - intros [= <-]. cbn. repeat split; try lia.
    + intros c n ->. f_equal. lia.
    + intros c lo H. exists lo. split; [exact H|]. split; [apply Qle_refl|]. intros ? ? ? [].
    + intros c hi H. exists hi. split; [exact H|]. split; [apply Qle_refl|]. intros ? ? ? [].
  - destruct (tally_line num int sb3 swb hlr area t line) as [t1|] eqn:E; [|discriminate]. cbn [rbind]. intros H. destruct (IH t1 t' H) as (I1 & I2 & I3 & I4 & I5 & I6 & I7 & I8). clear IH H.
    unfold tally_line, item in E. destruct (nth_error (split "009"%char (chop line)) sb3) as [f|] eqn:F; [|discriminate]. cbn [rbind] in E.
    assert (IS : is sb3 "Y" line = String.eqb f "Y") by (unfold is, field; now rewrite F). cbn [filter]. rewrite IS. destruct (String.eqb f "Y").
    + destruct (nth_error (split "009"%char (chop line)) swb) as [c|] eqn:C; [|discriminate]. cbn [rbind] in E. unfold dfind in E. destruct (dget (swb_counts t) c) as [n|] eqn:D; [|discriminate]. cbn [rbind] in E.
      destruct (nth_error (split "009"%char (chop line)) area) as [a|] eqn:A; [|discriminate]. cbn [rbind] in E.
      assert (ISC : forall c', is swb c' line = String.eqb c c') by (intros c'; unfold is, field; now rewrite C).
      set (AM := if negb (String.eqb (strip a) "") && negb (String.eqb (strip a) "-9999") then _ else _) in E. destruct AM as [[[mins maxes] missing]|] eqn:EAM; [|discriminate]. unfold AM in EAM. clear AM. cbn [rbind] in E.
      destruct (nth_error (split "009"%char (chop line)) hlr) as [h|] eqn:HL; [|discriminate]. cbn [rbind] in E. destruct (int h) as [k|]; [|discriminate]. cbn [rbind] in E.
      destruct (add_at (hlr_counts t) k) as [hc|] eqn:AD; [|discriminate]. cbn [rbind] in E. injection E as <-. cbn [swb_counts area_mins area_maxes hlr_counts n_basins n_missing_areas] in *.
      apply total_add_at in AD. rewrite (total_dset _ _ _ D) in I2. rewrite AD in I3.
      assert (MM : (missing = n_missing_areas t \/ missing = S (n_missing_areas t)) /\
        (forall c' lo, dget (area_mins t) c' = Some lo -> exists lo', dget mins c' = Some lo' /\ lo' <= lo /\ (c' = c -> forall x, strip a <> "" -> strip a <> "-9999" -> num a = Ok x -> lo' <= x)) /\
        (forall c' hi, dget (area_maxes t) c' = Some hi -> exists hi', dget maxes c' = Some hi' /\ hi <= hi' /\ (c' = c -> forall x, strip a <> "" -> strip a <> "-9999" -> num a = Ok x -> x <= hi'))).
      { destruct (String.eqb_spec (strip a) "") as [A1|A1]; cbn [negb andb] in EAM; [|destruct (String.eqb_spec (strip a) "-9999") as [A2|A2]; cbn [negb andb] in EAM].
        - injection EAM as <- <- <-. split; [lia|]. split; intros c' v V; exists v; (split; [exact V|]); (split; [apply Qle_refl|]); intros; contradiction.
        - injection EAM as <- <- <-. split; [lia|]. split; intros c' v V; exists v; (split; [exact V|]); (split; [apply Qle_refl|]); intros; contradiction.
        - destruct (num a) as [x|]; [|discriminate]. cbn [rbind] in EAM. destruct (dget (area_mins t) c) as [lo|] eqn:DL; [|discriminate]. cbn [rbind] in EAM. destruct (dget (area_maxes t) c) as [hi|] eqn:DH; [|discriminate]. cbn [rbind] in EAM. injection EAM as <- <- <-.
          split; [lia|]. split; intros c' v V; rewrite dget_dset; destruct (String.eqb_spec c' c) as [->|NC].
          + rewrite DL in V. injection V as ->. exists (Qmin' v x). split; [reflexivity|]. unfold Qmin'. destruct (Qle_bool v x) eqn:Q.
            * apply Qle_bool_iff in Q. split; [apply Qle_refl|]. intros _ y _ _ [= <-]. exact Q.
            * split; [apply Qlt_le_weak, Qnot_le_lt; intros X; apply Qle_bool_iff in X; congruence|]. intros _ y _ _ [= <-]. apply Qle_refl.
          + exists v. split; [exact V|]. split; [apply Qle_refl|]. intros; contradiction.
          + rewrite DH in V. injection V as ->. exists (Qmax' v x). split; [reflexivity|]. unfold Qmax'. destruct (Qle_bool x v) eqn:Q.
            * apply Qle_bool_iff in Q. split; [apply Qle_refl|]. intros _ y _ _ [= <-]. exact Q.
            * split; [apply Qlt_le_weak, Qnot_le_lt; intros X; apply Qle_bool_iff in X; congruence|]. intros _ y _ _ [= <-]. apply Qle_refl.
          + exists v. split; [exact V|]. split; [apply Qle_refl|]. intros; contradiction. }
      destruct MM as (M1 & M2 & M3). cbn [length]. split; [lia|]. split; [lia|]. split; [lia|]. split; [|split; [lia|split; [lia|split]]].
      * intros c' n' G. cbn [andb]. rewrite ISC. destruct (String.eqb_spec c c') as [<-|NC].
        -- rewrite D in G. injection G as <-. rewrite (I4 c (n + 1)%nat) by (rewrite dget_dset, String.eqb_refl; reflexivity). cbn [length]. f_equal. lia.
        -- rewrite (I4 c' n'); [reflexivity|]. rewrite dget_dset. destruct (String.eqb_spec c' c); [congruence|exact G].
      * intros c' lo G. destruct (M2 c' lo G) as (lo1 & L1 & L2 & L3). destruct (I7 c' lo1 L1) as (lo2 & K1 & K2 & K3). exists lo2. split; [exact K1|]. split; [eapply Qle_trans; eassumption|].
        intros l b x [<-|L] Y W B B1 B2 B3; [|now apply (K3 l b x)]. rewrite ISC in W. apply String.eqb_eq in W. subst c'. unfold field in B. rewrite A in B. injection B as <-. eapply Qle_trans; [exact K2|]. now apply L3.
      * intros c' hi G. destruct (M3 c' hi G) as (hi1 & L1 & L2 & L3). destruct (I8 c' hi1 L1) as (hi2 & K1 & K2 & K3). exists hi2. split; [exact K1|]. split; [eapply Qle_trans; eassumption|].
        intros l b x [<-|L] Y W B B1 B2 B3; [|now apply (K3 l b x)]. rewrite ISC in W. apply String.eqb_eq in W. subst c'. unfold field in B. rewrite A in B. injection B as <-. eapply Qle_trans; [|exact K2]. now apply L3.
    + injection E as <-. cbn [andb]. split; [exact I1|]. split; [exact I2|]. split; [exact I3|]. split; [exact I4|]. split; [exact I5|]. split; [exact I6|]. split.
      * intros c lo G. destruct (I7 c lo G) as (lo' & K1 & K2 & K3). exists lo'. split; [exact K1|]. split; [exact K2|]. intros l b x [<-|L] Y; [congruence|]. now apply (K3 l b x).
      * intros c hi G. destruct (I8 c hi G) as (hi' & K1 & K2 & K3). exists hi'. split; [exact K1|]. split; [exact K2|]. intros l b x [<-|L] Y; [congruence|]. now apply (K3 l b x).
Qed.
Theorem C121_tally : forall header lines t, read_collated_tsv_file num int header lines = Ok t ->
  exists sb3 swb hlr area, field sb3 header = Some "Is_GAGES2_SB3" /\ field swb header = Some "SWB_Class" /\ field hlr header = Some "HLR_Code_Outlet" /\ field area header = Some "Area" /\
  n_basins t = length (filter (is sb3 "Y") lines) /\ total (map snd (swb_counts t)) = n_basins t /\ total (hlr_counts t) = n_basins t /\ (n_missing_areas t <= n_basins t)%nat /\
  (forall c, In c swb_classes -> dget (swb_counts t) c = Some (length (filter (fun l => is sb3 "Y" l && is swb c l) lines)) /\
     exists lo hi, dget (area_mins t) c = Some lo /\ dget (area_maxes t) c = Some hi /\
     forall line a x, In line lines -> is sb3 "Y" line = true -> is swb c line = true -> field area line = Some a -> strip a <> "" -> strip a <> "-9999" -> num a = Ok x -> lo <= x <= hi).
Proof.
  intros header lines t. unfold read_collated_tsv_file. assert (IX : forall x l k, index_of x l = Ok k -> nth_error l k = Some x).
  { intros x. induction l as [|y l IHl]; intros k; cbn [index_of]; [discriminate|]. destruct (String.eqb_spec x y) as [->|N]; [now intros [= <-]|]. destruct (index_of x l) as [j|]; [|discriminate]. cbn. intros [= <-]. cbn. auto. }
  destruct (index_of "Is_GAGES2_SB3" _) as [sb3|] eqn:E1; [|discriminate]. cbn [rbind]. destruct (index_of "SWB_Class" _) as [swb|] eqn:E2; [|discriminate]. cbn [rbind].
  destruct (index_of "HLR_Code_Outlet" _) as [hlr|] eqn:E3; [|discriminate]. cbn [rbind]. destruct (index_of "Area" _) as [area|] eqn:E4; [|discriminate]. cbn [rbind]. intros H.
  exists sb3, swb, hlr, area. apply IX in E1, E2, E3, E4. do 4 (split; [assumption|]). destruct (tally_lines_spec sb3 swb hlr area lines tally0 t H) as (I1 & I2 & I3 & I4 & I5 & I6 & I7 & I8). cbn in I1, I2, I3, I5, I6.
  split; [exact I1|]. split; [lia|]. split; [lia|]. split; [lia|]. intros c C.
  assert (D : dget (swb_counts tally0) c = Some 0%nat /\ dget (area_mins tally0) c = Some (100000000 # 1) /\ dget (area_maxes tally0) c = Some 0) by (cbn in C; repeat (destruct C as [<-|C]; [repeat split|]); destruct C).
  destruct D as (D1 & D2 & D3). split; [exact (I4 c 0%nat D1)|]. destruct (I7 c _ D2) as (lo & L1 & _ & L2). destruct (I8 c _ D3) as (hi & K1 & _ & K2). exists lo, hi. split; [exact L1|]. split; [exact K1|].
  intros line a x. intros. split; [now apply (L2 line a x)|now apply (K2 line a x)].
Qed.
End Tally.
Print Assumptions C121_tally.

Example C121_case :
  let lines := ["1,A,CO_DCP"; "2,B,GU_DCP"; "3,C,CO_DCP "; "4,D,COASOS"; "5,E,NM_DCP"] in
  fst (cull_usa_dcp_data_rows "id,name,network" lines) = ["id,name,network"; "1,A,CO_DCP"; "3,C,CO_DCP "; "5,E,NM_DCP"] /\
  state_dict (snd (cull_usa_dcp_data_rows "id,name,network" lines)) = [("CO", 1%nat); ("NM", 0%nat)] /\
  get_equivalent_nws_ids [("A", ("-95.1", "39.5")); ("B", ("-90.2", "41.0"))] [("1", ("-90.2", "41.0")); ("2", ("-95.1", "39.4"))] = [("B", "1")] /\
  get_equivalent_nws_ids2 [("A", ("-95.1", "39.5")); ("B", ("-90.2", "41.0")); ("1", ("-95.1", "39.5"))] [1; 2; 0]%nat [0]%nat = [("1", "A")] /\
  compare_nws_ids [("A", ("", "")); ("B", ("", ""))] [("B", ("", "")); ("D", ("", "")); ("C", ("", ""))] = (2%nat, 3%nat, 1%nat, ["A"], ["C"; "D"]) /\
  (exists d e, get_hydrograph_type_dict [] [["h"; "01,40,-95,x,x,x,h8,CB"]; ["h"]; ["h"]; ["h"]; ["h"; "01, 40,-95,x,x,x,h8,CB"; "02,NA,NA,x,x,x,h8,CB"]; ["h"]] = Ok d /\
     dget d "01" = Some e /\ htype e = "normal" /\ dget d "02" = None) /\
  (exists t, read_collated_tsv_file (fun _ => Ok (5 # 1)) (fun _ => Ok 3%nat) (String.concat (String "009" "") ["Is_GAGES2_SB3"; "SWB_Class"; "HLR_Code_Outlet"; "Area"] ++ "x")
     [String.concat (String "009" "") ["Y"; "B2"; "3"; "5"] ++ "x"; String.concat (String "009" "") ["N"; "B2"; "3"; "5"] ++ "x"] = Ok t /\ n_basins t = 1%nat /\ dget (swb_counts t) "B2" = Some 1%nat).
Proof.
  cbv zeta. split; [vm_compute; reflexivity|]. split; [vm_compute; reflexivity|]. split; [vm_compute; reflexivity|]. split; [vm_compute; reflexivity|]. split; [vm_compute; reflexivity|].
  split; [eexists; eexists; split; [vm_compute; reflexivity|]; split; [vm_compute; reflexivity|]; split; vm_compute; reflexivity|].
  eexists. split; [vm_compute; reflexivity|]. split; vm_compute; reflexivity.
Qed.
