(** C127: the table of climate indicators of two data sets, topoflow/utils/ngen/classify.py. *)

From Coq Require Import String List QArith Bool Arith Lia Lqa Sorting.Sorted.
From Verif Require Import Time_Model Io_Model Bundle_Model Bundle_Props Collate_Props Join_Model Join_Props Climtab_Model.
Import ListNotations.

(** the line of a site, from its two lines *)
Definition line_of (k2b b2k : string -> string) (r1 r2 : row) : list string :=
  let K k := strip (nth k r1 ""%string) in let B k := strip (nth k r2 ""%string) in
  [hd ""%string r1; K 1%nat; K 2%nat; K 3%nat; B 66%nat; B 65%nat; B 67%nat; k2b (K 1%nat); b2k (B 66%nat);
   B 8%nat; B 9%nat; B 16%nat; B 17%nat; B 18%nat].
Definition vals1 (k2b : string -> string) (r : row) : list string :=
  let K k := strip (nth k r ""%string) in [K 1%nat; K 2%nat; K 3%nat; k2b (K 1%nat)].
Definition vals2 (b2k : string -> string) (r : row) : list string :=
  let B k := strip (nth k r ""%string) in
  [B 66%nat; B 65%nat; B 67%nat; b2k (B 66%nat); B 8%nat; B 9%nat; B 16%nat; B 17%nat; B 18%nat].
Lemma item_ok (r : row) k : (k < length r)%nat -> item r k = Ok (nth k r ""%string).
Proof. intro L. unfold item. rewrite (nth_error_nth' r ""%string L). reflexivity. Qed.
Lemma take1_ok k2b r : (4 <= length r)%nat -> take1 k2b r = Ok (hd ""%string r, vals1 k2b r).
Proof.
  intro L. unfold take1. cbn [cells]. unfold cell. rewrite !item_ok by lia. cbn [rbind app].
  destruct r; [cbn in L; lia|reflexivity].
Qed.
Lemma take2_ok b2k r : (68 <= length r)%nat -> take2 b2k r = Ok (hd ""%string r, vals2 b2k r).
Proof.
  intro L. unfold take2. cbn [cells]. unfold cell. rewrite !item_ok by lia. cbn [rbind app].
  unfold vals2. destruct r; [cbn in L; lia|reflexivity].
Qed.
(** a search that finds its site *)
Lemma search_hit take vals site : forall before last r rest,
  (forall x, In x (before ++ [r]) -> take x = Ok (hd ""%string x, vals x)) ->
  ~ In site (map (hd ""%string) before) -> hd ""%string r = site ->
  search take site last (before ++ r :: rest) = Ok (Some (vals r), rest).
Proof.
  induction before as [|x before IH]; intros last r rest T N H; cbn [app search].
  - rewrite (T r) by (left; reflexivity). cbn [rbind fst snd]. rewrite H, String.eqb_refl. reflexivity.
  - rewrite (T x) by (left; reflexivity). cbn [rbind fst snd]. cbn [map In] in N.
    destruct (String.eqb_spec (hd ""%string x) site) as [E|_]; [tauto|]. apply IH; [|tauto|exact H].
    intros y I. apply T. right. exact I.
Qed.
(** one that does not: the values of the last line *)
Lemma search_miss take vals site : forall file last,
  (forall x, In x file -> take x = Ok (hd ""%string x, vals x)) -> ~ In site (map (hd ""%string) file) ->
  search take site last file = Ok (match rev file with [] => last | r :: _ => Some (vals r) end, []).
Proof.
  induction file as [|x file IH]; intros last T N; [reflexivity|]. cbn [search].
  rewrite (T x) by (left; reflexivity). cbn [rbind fst snd]. cbn [map In] in N.
  destruct (String.eqb_spec (hd ""%string x) site) as [E|_]; [tauto|].
  rewrite IH; [|intros y I; apply T; right; exact I|tauto]. cbn [rev].
  destruct (rev file) as [|y l]; reflexivity.
Qed.
Lemma merge_ok k2b b2k : forall sites file1 file2 last1 last2,
  NoDup (map (hd ""%string) file1) -> NoDup (map (hd ""%string) file2) ->
  (forall r, In r file1 -> (4 <= length r)%nat) -> (forall r, In r file2 -> (68 <= length r)%nat) ->
  sublist sites (map (hd ""%string) file1) -> sublist sites (map (hd ""%string) file2) ->
  exists out, merge k2b b2k sites last1 last2 file1 file2 = Ok out /\
    Forall2 (fun site l => exists r1 r2, In r1 file1 /\ In r2 file2 /\ hd ""%string r1 = site /\ hd ""%string r2 = site /\
                           l = line_of k2b b2k r1 r2) sites out.
Proof.
  assert (SPL : forall (file : list row) site sites, NoDup (map (hd ""%string) file) -> sublist (site :: sites) (map (hd ""%string) file) ->
    exists before r rest, file = before ++ r :: rest /\ hd ""%string r = site /\ ~ In site (map (hd ""%string) before) /\
      sublist sites (map (hd ""%string) rest)).
  { induction file as [|x file IH]; intros site sites N H; cbn [map] in N, H; [inversion H|]. inversion_clear N as [|? ? N1 N2].
    inversion H as [| ? ? ? U | ? ? ? U]; subst.
    - exists [], x, file. cbn. tauto.
    - destruct (IH site sites N2 U) as (b & r & t & -> & E & NB & SR). exists (x :: b), r, t.
      split; [reflexivity|]. split; [exact E|]. split; [|exact SR]. cbn [map In]. intros [X|X]; [|tauto].
      apply N1. rewrite X. apply (sub_in _ _ site U). left. reflexivity. }
  induction sites as [|site sites IH]; intros file1 file2 last1 last2 N1 N2 L1 L2 S1 S2.
  - exists []. split; [reflexivity|constructor].
  - destruct (SPL file1 site sites N1 S1) as (b1 & r1 & t1 & -> & E1 & NB1 & T1).
    destruct (SPL file2 site sites N2 S2) as (b2 & r2 & t2 & -> & E2 & NB2 & T2).
    cbn [merge].
    rewrite (search_hit (take1 k2b) (vals1 k2b) site b1 last1 r1 t1); [|intros x X; apply take1_ok, L1|exact NB1|exact E1].
    2: { apply in_app_iff in X. apply in_app_iff. cbn in *. tauto. }
    rewrite (search_hit (take2 b2k) (vals2 b2k) site b2 last2 r2 t2); [|intros x X; apply take2_ok, L2|exact NB2|exact E2].
    2: { apply in_app_iff in X. apply in_app_iff. cbn in *. tauto. }
    cbn [rbind fst snd bound].
    assert (ND : forall (b : list row) r t, NoDup (map (hd ""%string) (b ++ r :: t)) -> NoDup (map (hd ""%string) t)).
    { intros b r t N. induction b as [|x b IHb]; cbn in N; inversion_clear N; auto. }
    destruct (IH t1 t2 (Some (vals1 k2b r1)) (Some (vals2 b2k r2))) as (out & O & F).
    + exact (ND _ _ _ N1).
    + exact (ND _ _ _ N2).
    + intros r R. apply L1, in_app_iff. right. right. exact R.
    + intros r R. apply L2, in_app_iff. right. right. exact R.
    + exact T1.
    + exact T2.
    + rewrite O. cbn [rbind]. eexists. split; [reflexivity|]. constructor.
      * exists r1, r2. rewrite !in_app_iff. cbn [In]. repeat split; auto. rewrite <- E1. reflexivity.
      * clear - F. induction F as [|s l ss ls (q1 & q2 & Q1 & Q2 & R) F IHF]; constructor; [|exact IHF].
        exists q1, q2. rewrite !in_app_iff. cbn [In]. tauto.
Qed.

(** Sorted files: one line for each common site, in order, each from the site's own lines. *)
Theorem C127_lines : forall k2b b2k file1 file2,
  StronglySorted lt_s (map (hd ""%string) file1) -> StronglySorted lt_s (map (hd ""%string) file2) ->
  (forall r, In r file1 -> (4 <= length r)%nat) -> (forall r, In r file2 -> (68 <= length r)%nat) ->
  let sites := get_common_site_ids Common (map (hd ""%string) file1) (map (hd ""%string) file2) in
  exists out, save_indicators k2b b2k sites file1 file2 = Ok out /\
    Forall2 (fun site l => exists r1 r2, In r1 file1 /\ In r2 file2 /\ hd ""%string r1 = site /\ hd ""%string r2 = site /\
                           l = line_of k2b b2k r1 r2) sites out.
Proof.
  intros k2b b2k file1 file2 O1 O2 L1 L2 sites. destruct (C118_common (map (hd ""%string) file1) (map (hd ""%string) file2)) as (M & _ & O & _).
  fold sites in M, O.
  destruct (C118_sorted _ sites O1 O) as (S1 & N1); [intros x X; apply M in X; tauto|].
  destruct (C118_sorted _ sites O2 O) as (S2 & N2); [intros x X; apply M in X; tauto|].
  unfold save_indicators. apply merge_ok; assumption.
Qed.
Print Assumptions C127_lines.

(** Refuted: each line has the values of its site.  Where the first file has two sites in the wrong order, the second of
    them gets the values of the last line of the file, and so do all after it. *)
Theorem C127_order_refuted : forall k2b b2k a b (x y z : row) file2 r2a r2b,
  hd ""%string x = b -> hd ""%string y = a -> hd ""%string z <> b -> a <> b ->
  (4 <= length x)%nat -> (4 <= length y)%nat -> (4 <= length z)%nat ->
  file2 = [r2a; r2b] -> hd ""%string r2a = a -> hd ""%string r2b = b -> (68 <= length r2a)%nat -> (68 <= length r2b)%nat ->
  save_indicators k2b b2k [a; b] [x; y; z] file2 = Ok [line_of k2b b2k y r2a; b :: tl (line_of k2b b2k z r2b)].
Proof.
  intros k2b b2k a b x y z file2 ra rb X Y Z AB Lx Ly Lz -> A B La Lb. unfold save_indicators. cbn [merge].
  assert (H1 : search (take1 k2b) a None [x; y; z] = Ok (Some (vals1 k2b y), [z])).
  { apply (search_hit (take1 k2b) (vals1 k2b) a [x]); [intros r [<-|[<-|[]]]; apply take1_ok; assumption|cbn; rewrite X; intros [E|[]]; congruence|exact Y]. }
  assert (H2 : search (take2 b2k) a None [ra; rb] = Ok (Some (vals2 b2k ra), [rb])).
  { apply (search_hit (take2 b2k) (vals2 b2k) a []); [intros r [<-|[]]; apply take2_ok; assumption|intros []|exact A]. }
  assert (H3 : search (take2 b2k) b (Some (vals2 b2k ra)) [rb] = Ok (Some (vals2 b2k rb), [])).
  { apply (search_hit (take2 b2k) (vals2 b2k) b []); [intros r [<-|[]]; apply take2_ok; assumption|intros []|exact B]. }
  rewrite H1, H2. cbn [rbind fst snd bound]. rewrite H3.
  rewrite (search_miss (take1 k2b) (vals1 k2b) b [z]); [|intros r [<-|[]]; apply take1_ok; assumption|cbn; intros [E|[]]; congruence].
  cbn [rbind fst snd bound rev app]. unfold line_of. rewrite Y. reflexivity.
Qed.
Print Assumptions C127_order_refuted.

(** Faults: no line at all in the first file; a line that is too short, even of a site that is not asked for. *)
Theorem C127_empty_refuted : forall k2b b2k site sites file2,
  (forall r, In r file2 -> (68 <= length r)%nat) ->
  save_indicators k2b b2k (site :: sites) [] file2 = Err UnboundLocalError.
Proof.
  intros k2b b2k site sites file2 L. unfold save_indicators. cbn [merge search rbind].
  assert (H : forall last, exists v, search (take2 b2k) site last file2 = Ok v).
  { induction file2 as [|r f IH]; intro last; [eexists; reflexivity|]. cbn [search].
    rewrite take2_ok by (apply L; left; reflexivity). cbn [rbind fst snd]. destruct (String.eqb _ _); [eexists; reflexivity|].
    apply IH. intros q Q. apply L. right. exact Q. }
  destruct (H None) as (v & ->). reflexivity.
Qed.
Print Assumptions C127_empty_refuted.
Theorem C127_short_refuted : forall k2b b2k site sites r rest file2, (length r < 4)%nat ->
  save_indicators k2b b2k (site :: sites) (r :: rest) file2 = Err IndexError.
Proof.
  intros k2b b2k site sites r rest file2 L. unfold save_indicators. cbn [merge search].
  destruct r as [|a [|b [|c [|d r]]]]; cbn in L; try lia; reflexivity.
Qed.
Print Assumptions C127_short_refuted.

(** The two conversions of the aridity undo each other, on the ranges of the two measures. *)
Theorem C127_aridity : (forall a, -1 < a -> a <= 1 -> B2K (K2B a) == a)%Q /\ (forall x, 0 < x -> K2B (B2K x) == x)%Q /\
  (forall a, -1 < a -> a <= 1 -> 0 <= K2B a)%Q /\ (forall x, 0 < x -> -1 < B2K x /\ B2K x < 1)%Q /\
  (forall a b, -1 < a -> a < b -> b <= 1 -> K2B b < K2B a)%Q.
Proof.
  assert (D : forall a b, Qle_bool a b = true /\ a <= b \/ Qle_bool a b = false /\ b < a).
  { intros a b. destruct (Qle_bool a b) eqn:E; [left|right]; split; auto; [now apply Qle_bool_iff|].
    apply Qnot_le_lt. intro H. apply Qle_bool_iff in H. congruence. }
  assert (G : forall a, -1 < a -> a < 0 -> 1 < 1 / (a + 1)).
  { intros a A B. apply Qlt_shift_div_l; lra. }
  refine (conj _ (conj _ (conj _ (conj _ _)))).
  - intros a A B. unfold K2B. destruct (D 0 a) as [(-> & H)|(-> & H)]; unfold B2K.
    + destruct (D (1 - a) 1) as [(-> & K)|(-> & K)]; [ring|lra].
    + pose proof (G a A H). destruct (D (1 / (a + 1)) 1) as [(-> & K)|(-> & K)]; [lra|]. field. lra.
  - intros x X. unfold B2K. destruct (D x 1) as [(-> & H)|(-> & H)]; unfold K2B.
    + destruct (D 0 (1 - x)) as [(-> & K)|(-> & K)]; [ring|lra].
    + assert (1 / x < 1) by (apply Qlt_shift_div_r; lra).
      destruct (D 0 (1 / x - 1)) as [(-> & K)|(-> & K)]; [lra|]. field. lra.
  - intros a A B. unfold K2B. destruct (D 0 a) as [(-> & H)|(-> & H)]; [lra|]. pose proof (G a A H). lra.
  - intros x X. unfold B2K. destruct (D x 1) as [(-> & H)|(-> & H)]; [lra|].
    assert (1 / x < 1) by (apply Qlt_shift_div_r; lra). assert (0 < 1 / x) by (apply Qlt_shift_div_l; lra). lra.
  - intros a b A L B. unfold K2B. destruct (D 0 a) as [(-> & H)|(-> & H)], (D 0 b) as [(-> & K)|(-> & K)]; try lra.
    + pose proof (G a A H). lra.
    + apply Qlt_shift_div_l; [lra|].
      assert (E : 1 / (b + 1) * (a + 1) == (a + 1) / (b + 1)) by (field; lra). rewrite E. apply Qlt_shift_div_r; lra.
Qed.
Print Assumptions C127_aridity.

(** Non-vacuity: two sites in common. *)
Definition long_row (i : string) : row := i :: repeat "7 "%string 67.
Example C127_case :
  let f1 := [["01"; "0.5"; "1"; "0"]; ["02"; "-0.5"; "2 "; "3"]; ["04"; "0"; "0"; "0"]]%string in
  let f2 := [long_row "02"; long_row "03"; long_row "04"]%string in
  get_common_site_ids Common (map (hd ""%string) f1) (map (hd ""%string) f2) = ["02"; "04"]%string /\
  save_indicators (fun s => s ++ "B")%string (fun s => s ++ "K")%string ["02"; "04"]%string f1 f2 =
    Ok [["02"; "-0.5"; "2"; "3"; "7"; "7"; "7"; "-0.5B"; "7K"; "7"; "7"; "7"; "7"; "7"];
        ["04"; "0"; "0"; "0"; "7"; "7"; "7"; "0B"; "7K"; "7"; "7"; "7"; "7"; "7"]]%string /\
  StronglySorted lt_s (map (hd ""%string) f1) /\ StronglySorted lt_s (map (hd ""%string) f2).
Proof.
  refine (conj _ (conj _ (conj _ _))); [vm_compute; reflexivity|vm_compute; reflexivity| |];
    repeat constructor; vm_compute; reflexivity.
Qed.
