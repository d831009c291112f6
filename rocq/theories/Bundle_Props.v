(** C101: bundling grid files into a sequence of grids. *)

From Coq Require Import String Ascii List Bool Arith ZArith NArith QArith Lia Permutation Sorted.
From Verif Require Import Time_Model Time_Proofs Io_Model Rti_Model Rts_Model Rts_Proofs Template_Proofs Bundle_Model.
Import ListNotations.
Local Open Scope string_scope.

(** ** Specification *)

(** the grid files: those whose name is the prefix and some text without a slash *)
Definition grid_file_of (F : fs) (prefix name : string) : Prop :=
  lookup F name <> None /\ exists rest, name = prefix ++ rest /\ has_slash rest = false.

(** time index k with w digits *)
Definition digit (d : nat) : ascii := ascii_of_nat (48 + d).
Fixpoint pad (w k : nat) : string :=
  match w with O => EmptyString | S w => String (digit (k / 10 ^ w)) (pad w (k mod 10 ^ w)) end.
Definition numbered (prefix suffix : string) (w k : nat) : string := prefix ++ pad w k ++ suffix.

(** ** Order of texts *)

Lemma ascii_compare a b : Ascii.compare a b = N.compare (N_of_ascii a) (N_of_ascii b).
Proof. reflexivity. Qed.
Lemma compare_refl s : String.compare s s = Eq.
Proof. induction s as [|a r IH]; [reflexivity|]. cbn [String.compare]. now rewrite ascii_compare, N.compare_refl. Qed.
Lemma compare_prefix p x y : String.compare (p ++ x) (p ++ y) = String.compare x y.
Proof. induction p as [|a r IH]; [reflexivity|]. cbn [append String.compare]. now rewrite ascii_compare, N.compare_refl. Qed.
Lemma compare_lt_trans : forall a b c, String.compare a b = Lt -> String.compare b c = Lt -> String.compare a c = Lt.
Proof.
  induction a as [|x a IH]; intros [|y b] [|z c]; cbn [String.compare]; try easy.
  rewrite !ascii_compare. destruct (N.compare_spec (N_of_ascii x) (N_of_ascii y)) as [E1|E1|E1]; try easy;
  destruct (N.compare_spec (N_of_ascii y) (N_of_ascii z)) as [E2|E2|E2]; try easy; intros H1 H2.
  - rewrite E1, E2, N.compare_refl. now apply (IH b c).
  - rewrite E1. apply N.compare_lt_iff in E2. now rewrite E2.
  - rewrite <- E2. apply N.compare_lt_iff in E1. now rewrite E1.
  - replace (N.compare (N_of_ascii x) (N_of_ascii z)) with Lt by (symmetry; apply N.compare_lt_iff; lia). reflexivity.
Qed.
Lemma leb_cases a b : String.leb a b = true <-> String.compare a b = Lt \/ a = b.
Proof.
  unfold String.leb. destruct (String.compare a b) eqn:E.
  - apply String.compare_eq_iff in E. split; auto.
  - split; auto.
  - split; [easy|]. intros [H|H]; [discriminate|]. subst b. rewrite compare_refl in E. discriminate.
Qed.
Lemma leb_trans a b c : String.leb a b = true -> String.leb b c = true -> String.leb a c = true.
Proof.
  rewrite !leb_cases. intros [H1|H1] [H2|H2]; subst; auto. left. now apply (compare_lt_trans a b c).
Qed.

Definition le (a b : string) : Prop := String.leb a b = true.

Lemma insert_perm x l : Permutation (insert x l) (x :: l).
Proof.
  induction l as [|y r IH]; cbn [insert]; [reflexivity|]. destruct (String.leb x y); [reflexivity|].
  rewrite IH. apply perm_swap.
Qed.
Lemma sort_perm l : Permutation (sort l) l.
Proof. induction l as [|x r IH]; cbn [sort fold_right]; [reflexivity|]. rewrite insert_perm. now constructor. Qed.
Lemma insert_sorted x l : StronglySorted le l -> StronglySorted le (insert x l).
Proof.
  induction 1 as [|y r Hs IH Hf]; cbn [insert]; [now repeat constructor|].
  destruct (String.leb x y) eqn:E.
  - constructor; [now constructor|]. constructor; [exact E|]. rewrite Forall_forall in *. intros z Hz.
    apply (leb_trans x y z E). now apply Hf.
  - constructor; [exact IH|]. rewrite Forall_forall in *. intros z Hz.
    apply (Permutation_in z (insert_perm x r)) in Hz. destruct Hz as [<-|Hz]; [|now apply Hf].
    destruct (String.leb_total x y) as [H|H]; [congruence|exact H].
Qed.
Lemma sort_sorted l : StronglySorted le (sort l).
Proof. induction l as [|x r IH]; [constructor|]. now apply insert_sorted. Qed.

Lemma sorted_unique : forall l1 l2, StronglySorted le l1 -> StronglySorted le l2 -> Permutation l1 l2 -> l1 = l2.
Proof.
  induction l1 as [|a r IH]; intros l2 H1 H2 Hp; [now apply Permutation_nil in Hp|].
  destruct l2 as [|b r2]; [now apply Permutation_sym, Permutation_nil in Hp|].
  assert (E : a = b).
  { inversion H1 as [|? ? _ F1]; subst. inversion H2 as [|? ? _ F2]; subst. rewrite Forall_forall in F1, F2.
    pose proof (Permutation_in a Hp (or_introl eq_refl)) as Ha.
    pose proof (Permutation_in b (Permutation_sym Hp) (or_introl eq_refl)) as Hb.
    destruct Ha as [Ha|Ha]; [now symmetry|]. destruct Hb as [Hb|Hb]; [exact Hb|].
    apply String.leb_antisym; [now apply F1|now apply F2]. }
  subst b. f_equal. apply IH; [now inversion H1|now inversion H2|now apply Permutation_cons_inv in Hp].
Qed.

(** ** The grid files *)

Lemma take_drop_prefix p : forall r, String.prefix p (p ++ r) = true /\ drop (String.length p) (p ++ r) = r.
Proof.
  induction p as [|a p IH]; intros r; [split; [now destruct r|now destruct r]|]. destruct (IH r) as [H1 H2].
  split; [|exact H2]. cbn [append]. now rewrite prefix_eq.
Qed.

Lemma lookup_in F name : In name (map fst F) <-> lookup F name <> None.
Proof.
  induction F as [|[n c] r IH]; cbn [map fst In lookup]; [split; [easy|congruence]|].
  destruct (String.eqb_spec n name) as [->|Hn]; [split; [discriminate|now left]|]. rewrite <- IH. split; [intros [H|H]; [contradiction|exact H]|now right].
Qed.
Lemma glob_spec F prefix name : In name (glob F prefix) <-> grid_file_of F prefix name.
Proof.
  unfold glob, grid_file_of, matches. rewrite filter_In, nodup_In, lookup_in, andb_true_iff, negb_true_iff.
  split; intros [H1 H2]; (split; [exact H1|]).
  - destruct H2 as [H2 H3]. assert (Hb : exists b, name = prefix ++ b).
    { clear - H2. revert name H2. induction prefix as [|c x IH]; intros s H; [exists s; reflexivity|].
      destruct s as [|d s]; [discriminate|]. simpl in H. destruct (Ascii.ascii_dec c d) as [->|]; [|discriminate].
      destruct (IH s H) as (b & ->). exists b. reflexivity. }
    destruct Hb as (b & ->). destruct (take_drop_prefix prefix b) as [_ E]. rewrite E in H3. now exists b.
  - destruct H2 as (b & -> & Hs). destruct (take_drop_prefix prefix b) as [E1 E2]. now rewrite E1, E2.
Qed.
Lemma glob_nodup F prefix : NoDup (glob F prefix).
Proof. apply NoDup_filter, NoDup_nodup. Qed.

Lemma lookup_put F n c name : lookup (put F n c) name = if String.eqb n name then Some c else lookup F name.
Proof. reflexivity. Qed.

(** what is in a file *)
Definition content (F : fs) (name : string) : string := match lookup F name with Some c => c | None => EmptyString end.

Lemma take_drop_s : forall n s, take n s ++ drop n s = s.
Proof. induction n as [|n IH]; intros [|a r]; try reflexivity. cbn [take drop append]. now rewrite IH. Qed.
Lemma drop_length_s : forall n s, String.length (drop n s) = (String.length s - n)%nat.
Proof. induction n as [|n IH]; intros [|a r]; try reflexivity. cbn [drop String.length Nat.sub]. apply IH. Qed.
Lemma from_bytes_whole bpe : forall n s, String.length s = (n * bpe)%nat -> sconcat (from_bytes n bpe s) = s.
Proof.
  induction n as [|n IH]; intros s H; cbn [from_bytes].
  - destruct s; [reflexivity|discriminate].
  - replace (Nat.ltb (String.length s) bpe) with false by (symmetry; apply Nat.ltb_ge; lia). cbn [sconcat].
    rewrite IH by (rewrite drop_length_s; lia). apply take_drop_s.
Qed.

Lemma map_ext_in_s (f g : string -> string) l : (forall a, In a l -> f a = g a) -> map f l = map g l.
Proof. apply map_ext_in. Qed.

(** ** C101 *)

(** [C101_bundle] With the dimensions given as text and grid files of that size, the new file
    holds the grid files one after another in the order of their names, and no other file
    changes. *)
Theorem C101_bundle : forall F prefix new tx ty x y bpe, lookup F new = None -> py_int tx = Ok x -> py_int ty = Ok y ->
  (forall name, grid_file_of F prefix name -> String.length (content F name) = (Z.to_nat (x * y) * bpe)%nat) ->
  exists F' l, rtg2rts F prefix new (DText tx) (DText ty) bpe = Ok F' /\
    (forall name, In name l <-> grid_file_of F prefix name) /\ NoDup l /\ StronglySorted le l /\
    lookup F' new = Some (sconcat (map (content F) l)) /\ forall name, name <> new -> lookup F' name = lookup F name.
Proof.
  intros F prefix new tx ty x y bpe Hn Hx Hy Hs. unfold rtg2rts, exists_file. rewrite Hn. cbn [dims eval_dim].
  rewrite Hx, Hy. cbn [rbind]. eexists. exists (sort (glob F prefix)). split; [reflexivity|].
  assert (Hin : forall name, In name (sort (glob F prefix)) <-> grid_file_of F prefix name).
  { intros name. rewrite <- glob_spec. split; apply Permutation_in; [apply sort_perm|apply Permutation_sym, sort_perm]. }
  split; [exact Hin|]. split; [apply (Permutation_NoDup (Permutation_sym (sort_perm _))), glob_nodup|].
  split; [apply sort_sorted|]. split.
  - rewrite lookup_put, String.eqb_refl. do 2 f_equal. apply map_ext_in. intros a Ha. apply Hin in Ha.
    specialize (Hs a Ha). unfold copied, content in *. destruct Ha as [Hl _]. destruct (lookup F a) as [c|]; [|congruence].
    now apply from_bytes_whole.
  - intros name Hne. rewrite lookup_put. destruct (String.eqb_spec new name) as [E|_]; [now subst|reflexivity].
Qed.
Print Assumptions C101_bundle.

Lemma digit_compare a b : (a < 10)%nat -> (b < 10)%nat -> Ascii.compare (digit a) (digit b) = Nat.compare a b.
Proof.
  intros Ha Hb. rewrite ascii_compare. unfold digit, ascii_of_nat. rewrite !N_ascii_embedding by lia.
  destruct (Nat.compare_spec a b) as [->|H|H]; [apply N.compare_refl|apply N.compare_lt_iff; lia|apply N.compare_gt_iff; lia].
Qed.
Lemma pad_compare s : forall w a b, (a < 10 ^ w)%nat -> (b < 10 ^ w)%nat -> (a < b)%nat ->
  String.compare (pad w a ++ s) (pad w b ++ s) = Lt.
Proof.
  induction w as [|w IH]; intros a b Ha Hb Hab; [cbn in *; lia|].
  cbn [pad append String.compare]. rewrite Nat.pow_succ_r' in Ha, Hb.
  assert (Hp : (10 ^ w <> 0)%nat) by (apply Nat.pow_nonzero; lia).
  assert (Da : (a / 10 ^ w < 10)%nat) by (apply Nat.div_lt_upper_bound; lia).
  assert (Db : (b / 10 ^ w < 10)%nat) by (apply Nat.div_lt_upper_bound; lia).
  rewrite digit_compare by assumption.
  pose proof (Nat.div_mod_eq a (10 ^ w)) as Ea. pose proof (Nat.div_mod_eq b (10 ^ w)) as Eb.
  assert (Hd : (a / 10 ^ w <= b / 10 ^ w)%nat) by (apply Nat.div_le_mono; lia).
  destruct (Nat.compare_spec (a / 10 ^ w) (b / 10 ^ w)) as [E|_|H]; [|reflexivity|lia].
  apply IH; [apply Nat.mod_upper_bound; lia|apply Nat.mod_upper_bound; lia|]. rewrite E in Ea. lia.
Qed.

(** [C101_time_order] When the names hold the time index with a fixed number of digits, the
    grids come in the order of time. *)
Theorem C101_time_order : forall F prefix suffix new tx ty x y bpe w ks, lookup F new = None -> py_int tx = Ok x -> py_int ty = Ok y ->
  StronglySorted lt ks -> (forall k, In k ks -> (k < 10 ^ w)%nat) ->
  (forall name, grid_file_of F prefix name <-> exists k, In k ks /\ name = numbered prefix suffix w k) ->
  (forall name, grid_file_of F prefix name -> String.length (content F name) = (Z.to_nat (x * y) * bpe)%nat) ->
  exists F', rtg2rts F prefix new (DText tx) (DText ty) bpe = Ok F' /\
    lookup F' new = Some (sconcat (map (fun k => content F (numbered prefix suffix w k)) ks)).
Proof.
  intros F prefix suffix new tx ty x y bpe w ks Hn Hx Hy Hks Hw Hg Hs.
  destruct (C101_bundle F prefix new tx ty x y bpe Hn Hx Hy Hs) as (F' & l & E & Hin & Hnd & Hso & Hc & _).
  exists F'. split; [exact E|]. rewrite Hc. do 2 f_equal. rewrite <- (map_map (numbered prefix suffix w) (content F)). f_equal.
  assert (Hlt : forall a b, In a ks -> In b ks -> (a < b)%nat -> String.compare (numbered prefix suffix w a) (numbered prefix suffix w b) = Lt).
  { intros a b Ha Hb Hab. unfold numbered. rewrite compare_prefix. apply pad_compare; auto. }
  assert (Hss : StronglySorted le (map (numbered prefix suffix w) ks) /\ NoDup (map (numbered prefix suffix w) ks)).
  { clear - Hks Hlt. induction Hks as [|a r Hr IH Hf]; cbn [map]; [split; constructor|].
    destruct IH as [H1 H2]; [intros a' b' Ha Hb; apply Hlt; now right|]. rewrite Forall_forall in Hf.
    split; constructor; try assumption.
    - rewrite Forall_forall. intros z Hz. apply in_map_iff in Hz. destruct Hz as (k & <- & Hk). apply leb_cases. left.
      apply Hlt; [now left|now right|now apply Hf].
    - intros Hz. apply in_map_iff in Hz. destruct Hz as (k & Ek & Hk).
      specialize (Hlt a k (or_introl eq_refl) (or_intror Hk) (Hf k Hk)). rewrite Ek, compare_refl in Hlt. discriminate. }
  destruct Hss as [H1 H2]. apply sorted_unique; [exact Hso|exact H1|].
  apply NoDup_Permutation; [exact Hnd|exact H2|]. intros name. rewrite Hin, Hg, in_map_iff.
  split; intros (k & A & B); exists k; [split; [now symmetry|exact A]|split; [exact B|now symmetry]].
Qed.
Print Assumptions C101_time_order.

(** [C101_order_refuted] "The grids come in the order of time": without leading zeros, index 10
    comes before index 2, whatever the prefix and the rest of the name. *)
Theorem C101_order_refuted : forall F prefix suffix new tx ty x y bpe, lookup F new = None -> py_int tx = Ok x -> py_int ty = Ok y ->
  (forall name, grid_file_of F prefix name <-> name = prefix ++ "2" ++ suffix \/ name = prefix ++ "10" ++ suffix) ->
  (forall name, grid_file_of F prefix name -> String.length (content F name) = (Z.to_nat (x * y) * bpe)%nat) ->
  exists F', rtg2rts F prefix new (DText tx) (DText ty) bpe = Ok F' /\
    lookup F' new = Some (content F (prefix ++ "10" ++ suffix) ++ content F (prefix ++ "2" ++ suffix)).
Proof.
  intros F prefix suffix new tx ty x y bpe Hn Hx Hy Hg Hs.
  destruct (C101_bundle F prefix new tx ty x y bpe Hn Hx Hy Hs) as (F' & l & E & Hin & Hnd & Hso & Hc & _).
  exists F'. split; [exact E|]. rewrite Hc.
  assert (Hlt : String.compare (prefix ++ "10" ++ suffix) (prefix ++ "2" ++ suffix) = Lt) by (rewrite compare_prefix; reflexivity).
  rewrite (sorted_unique l [prefix ++ "10" ++ suffix; prefix ++ "2" ++ suffix] Hso).
  - cbn [map sconcat]. now rewrite app_nil_s.
  - constructor; [constructor; constructor|]. constructor; [apply leb_cases; now left|constructor].
  - apply NoDup_Permutation; [exact Hnd| |].
    + constructor; [|constructor; [easy|constructor]]. intros [H|[]]. rewrite H, compare_refl in Hlt. discriminate.
    + intros name. rewrite Hin, Hg. cbn [In]. split; [intros [->| ->]; auto|intros [<-|[<-|[]]]; auto].
Qed.
Print Assumptions C101_order_refuted.

(** [C101_swap_refuted] "MSB grids are swapped for a LSB machine (SWAP_BYTES)": the bytes are
    copied, and the numbers a LSB machine then reads are the swapped ones. *)
Theorem C101_swap_refuted : forall F prefix new tx ty x y bpe name vs, lookup F new = None -> py_int tx = Ok x -> py_int ty = Ok y ->
  (0 < bpe)%nat -> length vs = Z.to_nat (x * y) -> Forall (fun v => String.length v = bpe) vs ->
  (forall n, grid_file_of F prefix n <-> n = name) -> lookup F name = Some (sconcat (map (native Big) vs)) ->
  exists F' c, rtg2rts F prefix new (DText tx) (DText ty) bpe = Ok F' /\ lookup F' new = Some c /\
    map (number Little) (from_bytes (length vs) bpe c) = map srev vs.
Proof.
  intros F prefix new tx ty x y bpe name vs Hn Hx Hy Hb Hl Hf Hg Hc.
  assert (Em : map (native Big) vs = vs) by (rewrite <- (map_id vs) at 2; apply map_ext; reflexivity). rewrite Em in Hc.
  assert (Hlen : String.length (sconcat vs) = (Z.to_nat (x * y) * bpe)%nat) by (rewrite (sconcat_length bpe vs Hf), Hl; reflexivity).
  destruct (C101_bundle F prefix new tx ty x y bpe Hn Hx Hy) as (F' & l & E & Hin & Hnd & Hso & Hk & _).
  { intros n Hg'. apply Hg in Hg'. subst n. unfold content. now rewrite Hc. }
  exists F'. eexists. split; [exact E|]. split; [exact Hk|].
  assert (El : l = [name]).
  { destruct l as [|a [|b r]].
    - exfalso. apply (proj2 (Hin name)). now apply Hg.
    - f_equal. apply Hg, Hin. now left.
    - exfalso. assert (a = name) by (apply Hg, Hin; now left). assert (b = name) by (apply Hg, Hin; right; now left). subst.
      inversion Hnd as [|? ? Hni]; subst. apply Hni. now left. }
  subst l. cbn [map sconcat]. unfold content. rewrite Hc, app_nil_s.
  pose proof (from_bytes_sconcat bpe vs "" Hb Hf) as H. rewrite app_nil_s in H. rewrite H. reflexivity.
Qed.
Print Assumptions C101_swap_refuted.

(** [C101_existing] An existing file of the new name is left as it is, and so is all else. *)
Theorem C101_existing : forall F prefix new nx ny bpe c, lookup F new = Some c -> rtg2rts F prefix new nx ny bpe = Ok F.
Proof. intros. unfold rtg2rts, exists_file. now rewrite H. Qed.
Print Assumptions C101_existing.

(** [C101_numbers_refuted] "nx and ny may be given as numbers": a call with a number, or with
    only one of the two, is refused, and nothing is written. *)
Theorem C101_numbers_refuted : forall F prefix new nx ny bpe, lookup F new = None -> (nx, ny) <> (DNone, DNone) ->
  (forall F', rtg2rts F prefix new nx ny bpe = Ok F' -> exists tx ty, nx = DText tx /\ ny = DText ty) /\
  (forall x y, rtg2rts F prefix new (DInt x) (DInt y) bpe = Err TypeError).
Proof.
  intros F prefix new nx ny bpe Hn Hd. unfold rtg2rts, exists_file. rewrite Hn. split; [|intros x y; reflexivity].
  intros F' E. destruct nx as [|tx|x], ny as [|ty|y]; try congruence; cbn [dims eval_dim rbind] in E; try discriminate;
  [destruct (py_int tx); discriminate|eauto|destruct (py_int tx); discriminate].
Qed.
Print Assumptions C101_numbers_refuted.

(** [C101_info] Without dimensions they are those of the header found for the first grid. *)
Theorem C101_info : forall F prefix new bpe n1 names R i, lookup F new = None -> sort (glob F prefix) = n1 :: names ->
  try_to_find_rti_file F n1 = Some R -> read_info F R = Ok (Some i) ->
  (forall name, grid_file_of F prefix name -> String.length (content F name) = (Z.to_nat (ncols i * nrows i) * bpe)%nat) ->
  exists F', rtg2rts F prefix new DNone DNone bpe = Ok F' /\
    lookup F' new = Some (sconcat (map (content F) (n1 :: names))) /\ forall name, name <> new -> lookup F' name = lookup F name.
Proof.
  intros F prefix new bpe n1 names R i Hn Hl HR Hi Hs. unfold rtg2rts, exists_file. rewrite Hn, Hl. cbn [dims].
  rewrite HR, Hi. cbn [rbind]. eexists. split; [reflexivity|]. split.
  - rewrite lookup_put, String.eqb_refl. do 2 f_equal. apply map_ext_in. intros a Ha. rewrite <- Hl in Ha.
    apply (Permutation_in a (sort_perm _)), glob_spec in Ha.
    specialize (Hs a Ha). unfold copied, content in *. destruct Ha as [Hla _]. destruct (lookup F a) as [c|]; [|congruence].
    now apply from_bytes_whole.
  - intros name Hne. rewrite lookup_put. destruct (String.eqb_spec new name) as [E|_]; [now subst|reflexivity].
Qed.
Print Assumptions C101_info.

(** [C101_no_info_refuted] "Without dimensions and header there is a message": the call ends in an
    AttributeError, or an IndexError without grid files. *)
Theorem C101_no_info_refuted : forall F prefix new bpe, lookup F new = None ->
  (forall name, grid_file_of F prefix name -> try_to_find_rti_file F name = None) ->
  rtg2rts F prefix new DNone DNone bpe = Err (match sort (glob F prefix) with [] => IndexError | _ => AttributeError end).
Proof.
  intros F prefix new bpe Hn Hg. unfold rtg2rts, exists_file. rewrite Hn. cbn [dims].
  destruct (sort (glob F prefix)) as [|n1 r] eqn:E; [reflexivity|]. rewrite Hg; [reflexivity|].
  apply glob_spec, (Permutation_in n1 (sort_perm _)). rewrite E. now left.
Qed.
Print Assumptions C101_no_info_refuted.

Definition small_info : info :=
  mkinfo "g_1.bin" "none" 2 1 "FLOAT" "LSB" 1 1%Q 1%Q 1%Q "METERS" 0%Q 1%Q 2%Q 0%Q "METERS" 0%Q 1%Q "UNKNOWN".
Definition with_header : fs := [("g_1.bin", "aaaabbbb"); ("g_1.rti", info_text small_info); ("g_2.bin", "ccccdddd")].

(** [C101_header_refuted] "The new file holds the grids": a header with the prefix of the grids is
    taken for a grid. *)
Theorem C101_header_refuted : exists F', rtg2rts with_header "g_" "g.rts" DNone DNone 4 = Ok F' /\
  lookup F' "g.rts" = Some "aaaabbbbRiverTooccccdddd".
Proof. eexists. split; [vm_compute; reflexivity|vm_compute; reflexivity]. Qed.
Print Assumptions C101_header_refuted.

(** [C101_short_refuted] "Grids of another size are refused": a short file is taken as it is, and
    the next grid starts too early. *)
Theorem C101_short_refuted : exists F', rtg2rts [("g_1.bin", "aaaa"); ("g_2.bin", "ccccdddd")] "g_" "g.rts" (DText "2") (DText "1") 4 = Ok F' /\
  lookup F' "g.rts" = Some "aaaaccccdddd".
Proof. eexists. split; [vm_compute; reflexivity|vm_compute; reflexivity]. Qed.
Print Assumptions C101_short_refuted.

Example C101_case : exists F', rtg2rts [("g_12.bin", "ccccdddd"); ("g_03.bin", "aaaabbbb"); ("h", "x")] "g_" "g.rts" (DText "2") (DText "1") 4 = Ok F' /\
  lookup F' "g.rts" = Some "aaaabbbbccccdddd" /\ numbered "g_" ".bin" 2 3 = "g_03.bin".
Proof. eexists. split; [vm_compute; reflexivity|split; vm_compute; reflexivity]. Qed.
