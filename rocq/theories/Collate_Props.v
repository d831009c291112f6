(** C108: one table of the basins of several data sets (collate_basins.py). *)

From Coq Require Import String Ascii List Bool Arith Lia Sorted Permutation.
From Verif Require Import Base Time_Model Io_Model Time_Proofs Bundle_Model Bundle_Props Out_Props Collate_Model.
Import ListNotations.
Local Open Scope string_scope.

(** ** What is asked *)

(** a site ID has at least 7 characters and does not start with a letter *)
Definition letter (c : ascii) : Prop := (65 <= nat_of_ascii c <= 90)%nat \/ (97 <= nat_of_ascii c <= 122)%nat.
Definition usable (sid : string) : Prop := (7 <= String.length sid)%nat /\ (forall c t, sid = String c t -> ~ letter c).
Definition lt_s (a b : string) : Prop := String.compare a b = Lt.
(** the data set has a row for the site *)
Definition has (d : dataset) (sid : string) : Prop := exists r, In (Some r) d /\ id_of r = sid.
Definition ids (d : dataset) : list string := flat_map (fun o => match o with Some r => [id_of r] | None => [] end) d.
(** the first row of a site *)
Fixpoint first_row (site : string) (d : dataset) : option row :=
  match d with
  | [] => None
  | Some r :: t => if String.eqb (id_of r) site then Some r else first_row site t
  | None :: t => first_row site t
  end.
(** the rows up to the first one that is blank or whose site is not in the list *)
Fixpoint reached (sites : list string) (d : dataset) : dataset :=
  match d with
  | Some r :: t => if existsb (String.eqb (id_of r)) sites then Some r :: reached sites t else []
  | _ => []
  end.
(** the data sets, the preferred ones first *)
Definition preference : list string :=
  ["USGS_NWIS_Web"; "USGS_GAGES2_all"; "USGS_GAGES2_ref"; "USGS_GAGES2_SB3"; "USGS_FPS"; "USGS_HCDN"; "NOAA_HADS"; "CAMELS"; "MOPEX"; "NOAA_via_API"].
(** what the rows of a site give, in order of data sets *)
Definition merged (rows : string -> option row) (site : string) : atts :=
  fold_left (fun d key => match rows key with Some r => update_attributes r key d | None => d end) preference (defaults site).

(** ** The list of sites *)

Lemma alpha_letter c : is_alpha c = true <-> letter c.
Proof.
  unfold is_alpha, letter. rewrite orb_true_iff, !andb_true_iff, !Nat.leb_le. tauto.
Qed.
Lemma excluded_spec sid : excluded sid = false <-> usable sid.
Proof.
  unfold excluded, usable. rewrite orb_false_iff, Nat.ltb_ge. split; intros [A B]; split; try exact A.
  - intros c t ->. rewrite <- alpha_letter. rewrite B. discriminate.
  - destruct sid as [|c t]; [reflexivity|]. specialize (B c t eq_refl). rewrite <- alpha_letter in B. now destruct (is_alpha c).
Qed.

Lemma basin_ids_spec d sid : usable sid -> (In sid (basin_ids d) <-> has d sid).
Proof.
  intros [U _]. unfold basin_ids, has. rewrite in_map_iff. split.
  - intros ([r|] & E & I); [exists r; split; [exact I|exact E]|]. subst. cbn in U. lia.
  - intros (r & I & E). exists (Some r). now split.
Qed.

Definition keys_of (d : inclusion) (sid : string) : list string := match sub_dict d sid with Some ks => ks | None => [] end.
Lemma mark_dict key sid d x : sub_dict (mark key sid d) x = if String.eqb sid x then Some (key :: keys_of d sid) else sub_dict d x.
Proof.
  unfold keys_of. induction d as [|[s ks] r IH]; cbn.
  - destruct (String.eqb sid x); reflexivity.
  - destruct (String.eqb s sid) eqn:E; cbn.
    + apply String.eqb_eq in E. subst s. destruct (String.eqb sid x); reflexivity.
    + destruct (String.eqb s x) eqn:F.
      * apply String.eqb_eq in F. subst s. rewrite String.eqb_sym in E. now rewrite E.
      * rewrite IH. reflexivity.
Qed.
Lemma mark_fst key sid d : exists l, map fst (mark key sid d) = app (map fst d) l /\ (l = [] /\ In sid (map fst d) \/ l = [sid] /\ ~ In sid (map fst d)).
Proof.
  induction d as [|[s ks] r IH]; cbn.
  - exists [sid]. split; [reflexivity|]. right. split; [reflexivity|intros []].
  - destruct (String.eqb s sid) eqn:E; cbn.
    + apply String.eqb_eq in E. exists []. rewrite app_nil_r. split; [reflexivity|]. left. split; [reflexivity|now left].
    + destruct IH as (l & A & B). exists l. rewrite A. split; [reflexivity|]. apply String.eqb_neq in E. destruct B as [[B C]|[B C]]; [left; auto|right].
      split; [exact B|]. intros [D|D]; auto.
Qed.
Lemma nodup_snoc (l : list string) x : NoDup l -> ~ In x l -> NoDup (app l [x]).
Proof.
  intros N H. apply (Permutation_NoDup (l := x :: l)); [apply Permutation_cons_append|now constructor].
Qed.
Lemma mark_nodup key sid d : NoDup (map fst d) -> NoDup (map fst (mark key sid d)).
Proof.
  intros N. destruct (mark_fst key sid d) as (l & A & [[B C]|[B C]]); rewrite A, B; [now rewrite app_nil_r|now apply nodup_snoc].
Qed.
Lemma dict_in d x : sub_dict d x <> None <-> In x (map fst d).
Proof.
  induction d as [|[s ks] r IH]; cbn; [tauto|]. destruct (String.eqb s x) eqn:E.
  - apply String.eqb_eq in E. split; [auto|discriminate].
  - apply String.eqb_neq in E. rewrite IH. tauto.
Qed.
(** what has been marked *)
Lemma fold_mark key l : forall d, NoDup (map fst d) ->
  let d' := fold_left (fun d sid => if excluded sid then d else mark key sid d) l d in
  NoDup (map fst d') /\
  (forall x, In x (map fst d') <-> In x (map fst d) \/ (excluded x = false /\ In x l)) /\
  (forall x k, In k (keys_of d' x) <-> In k (keys_of d x) \/ (k = key /\ excluded x = false /\ In x l)).
Proof.
  induction l as [|a l IH]; intros d N; cbn.
  - refine (conj N (conj _ _)); intros; tauto.
  - destruct (excluded a) eqn:E.
    + destruct (IH d N) as (A & B & C). refine (conj A (conj _ _)).
      * intros x. rewrite B. split; [tauto|]. intros [H|[H [K|K]]]; auto; subst; congruence.
      * intros x k. rewrite C. split; [tauto|]. intros [H|[H [K [L|L]]]]; auto; subst; congruence.
    + destruct (IH (mark key a d) (mark_nodup key a d N)) as (A & B & C). refine (conj A (conj _ _)).
      * intros x. rewrite B. rewrite <- !dict_in, mark_dict. destruct (String.eqb a x) eqn:F.
        -- apply String.eqb_eq in F. subst x. split; [intros _; right; auto|intros _; left; discriminate].
        -- apply String.eqb_neq in F. split; [tauto|]. intros [H|[H [K|K]]]; auto; contradiction.
      * intros x k. rewrite C. unfold keys_of at 1. rewrite mark_dict. destruct (String.eqb a x) eqn:F.
        -- apply String.eqb_eq in F. subst x. cbn [In]. split; [intros [[H|H]|(H1 & H2 & H3)]; subst; auto|]. intros [H|(H & _)]; [auto|subst; auto].
        -- apply String.eqb_neq in F. fold (keys_of d x). split; [tauto|]. intros [H|[H [K [L|L]]]]; auto; contradiction.
Qed.
Lemma fold_keys db ks : forall d, NoDup (map fst d) ->
  let d' := fold_left (add_key db) ks d in
  NoDup (map fst d') /\
  (forall x, In x (map fst d') <-> In x (map fst d) \/ (excluded x = false /\ exists key, In key ks /\ In x (basin_ids (db key)))) /\
  (forall x k, In k (keys_of d' x) <-> In k (keys_of d x) \/ (In k ks /\ excluded x = false /\ In x (basin_ids (db k)))).
Proof.
  induction ks as [|key ks IH]; intros d N; cbn.
  - refine (conj N (conj _ _)); [|intros; tauto]. intros x. split; [auto|]. intros [H|(_ & k & [] & _)]. exact H.
  - destruct (fold_mark key (basin_ids (db key)) d N) as (A1 & B1 & C1). destruct (IH (add_key db d key) A1) as (A & B & C).
    refine (conj A (conj _ _)).
    + intros x. rewrite B. unfold add_key at 1. rewrite B1. split.
      * intros [[H|[H K]]|(H & k & K & L)]; eauto 8.
      * intros [H|(H & k & [<-|K] & L)]; eauto 8.
    + intros x k. rewrite C. unfold add_key at 1. rewrite C1. split.
      * intros [[H|(H & K & L)]|(H & K & L)]; subst; auto.
      * intros [H|([H|H] & K & L)]; subst; auto.
Qed.

Lemma sites_nodup_sorted l : NoDup l -> StronglySorted le l -> StronglySorted lt_s l.
Proof.
  induction l as [|a l IH]; intros N H; [constructor|]. apply NoDup_cons_iff in N as [N1 N2]. apply StronglySorted_inv in H as [H1 H2].
  constructor; [auto|]. rewrite Forall_forall in *. intros x X. specialize (H2 x X). unfold le in H2. apply leb_cases in H2 as [H2|H2]; [exact H2|].
  subst. contradiction.
Qed.
Lemma sites_sorted db : StronglySorted lt_s (get_all_site_ids db).
Proof.
  destruct (fold_keys db inclusion_keys [] (NoDup_nil _)) as (A & _). apply sites_nodup_sorted; [|apply sort_sorted].
  eapply Permutation_NoDup; [apply Permutation_sym, sort_perm|exact A].
Qed.
Lemma sites_in db sid : In sid (get_all_site_ids db) <-> usable sid /\ exists key, In key inclusion_keys /\ has (db key) sid.
Proof.
  destruct (fold_keys db inclusion_keys [] (NoDup_nil _)) as (_ & B & _). unfold get_all_site_ids.
  assert (P : In sid (sort (map fst (get_inclusion_dict db))) <-> In sid (map fst (get_inclusion_dict db))).
  { split; intros H; [eapply Permutation_in; [apply sort_perm|exact H]|eapply Permutation_in; [apply Permutation_sym, sort_perm|exact H]]. }
  rewrite P. unfold get_inclusion_dict. rewrite B. cbn [map In]. split.
  - intros [[]|(H & k & K & L)]. apply excluded_spec in H. split; [exact H|]. exists k. split; [exact K|]. now apply basin_ids_spec.
  - intros (U & k & K & L). right. split; [now apply excluded_spec|]. exists k. split; [exact K|]. now apply basin_ids_spec.
Qed.

(** The sites of the table are the usable IDs of the nine data sets, each once and in order; the
    flag of a site for a data set is Y just when the data set has a row for it. *)
Theorem C108_inclusion : forall db,
  StronglySorted lt_s (get_all_site_ids db) /\
  (forall sid, In sid (get_all_site_ids db) <-> usable sid /\ exists key, In key inclusion_keys /\ has (db key) sid) /\
  (forall sid, In sid (get_all_site_ids db) ->
     exists flags, get_inclusion_list (get_inclusion_dict db) sid = Some flags /\ length flags = length inclusion_keys /\
       forall i key, nth_error inclusion_keys i = Some key ->
         (has (db key) sid -> nth_error flags i = Some "Y") /\ (~ has (db key) sid -> nth_error flags i = Some "N")) /\
  (forall sid, ~ In sid (get_all_site_ids db) -> get_inclusion_list (get_inclusion_dict db) sid = None).
Proof.
  intros db. destruct (fold_keys db inclusion_keys [] (NoDup_nil _)) as (A & B & C).
  assert (P : forall sid, In sid (get_all_site_ids db) <-> In sid (map fst (get_inclusion_dict db))).
  { intros sid. unfold get_all_site_ids. split; intros H; [eapply Permutation_in; [apply sort_perm|exact H]|eapply Permutation_in; [apply Permutation_sym, sort_perm|exact H]]. }
  refine (conj (sites_sorted db) (conj (sites_in db) (conj _ _))).
  - intros sid I. assert (U : usable sid) by (apply sites_in in I; tauto). pose proof I as D. apply P in D. apply dict_in in D. unfold get_inclusion_list.
    destruct (sub_dict (get_inclusion_dict db) sid) as [ks|] eqn:E; [|contradiction]. eexists. split; [reflexivity|]. split; [apply map_length|].
    assert (K : forall k, In k inclusion_keys -> (In k ks <-> has (db k) sid)).
    { intros k Ik. specialize (C sid k). change (fold_left (add_key db) inclusion_keys []) with (get_inclusion_dict db) in C.
      unfold keys_of at 1 in C. rewrite E in C. rewrite C. cbn. rewrite excluded_spec, <- basin_ids_spec by exact U. tauto. }
    intros i key N. rewrite (map_nth_error _ _ _ N). specialize (K key (nth_error_In _ _ N)). destruct (existsb (String.eqb key) ks) eqn:X.
    + split; [reflexivity|]. intros H. exfalso. apply H, K. apply existsb_exists in X as (y & Y & Z). apply String.eqb_eq in Z. now subst.
    + split; [|reflexivity]. intros H. apply K in H. rewrite (proj2 (existsb_exists _ _)) in X; [discriminate|]. exists key. split; [exact H|apply String.eqb_refl].
  - intros sid I. rewrite P, <- dict_in in I. unfold get_inclusion_list. destruct (sub_dict (get_inclusion_dict db) sid); [|reflexivity].
    exfalso. apply I. discriminate.
Qed.
Print Assumptions C108_inclusion.

(** ** The rows *)

Fixpoint rows_of (sites : list string) (s : stream) : list (option row) :=
  match sites with [] => [] | x :: t => let (o, s') := visit x s in o :: rows_of t s' end.

Lemma dead : forall t s, ~ In (current_id s) t -> rows_of t s = map (fun _ => None) t.
Proof.
  induction t as [|x t IH]; intros s H; [reflexivity|]. cbn [rows_of]. unfold visit. destruct (String.eqb (current_id s) x) eqn:E.
  - apply String.eqb_eq in E. exfalso. apply H. now left.
  - cbn. f_equal. apply IH. intros K. apply H. now right.
Qed.
Lemma none_ids x d : ~ In x (ids d) -> first_row x d = None.
Proof.
  induction d as [|[r|] d IH]; cbn; intros H; auto. destruct (String.eqb (id_of r) x) eqn:E; [apply String.eqb_eq in E; tauto|]. apply IH. tauto.
Qed.
Lemma reached_ids sites d x : In x (ids (reached sites d)) -> In x (ids d).
Proof.
  induction d as [|[r|] d IH]; cbn; [tauto| |intros []]. destruct (existsb (String.eqb (id_of r)) sites); cbn; [tauto|intros []].
Qed.
Lemma reached_fresh x t d : ~ In x (ids d) -> reached (x :: t) d = reached t d.
Proof.
  induction d as [|[r|] d IH]; cbn; intros H; auto. replace (String.eqb (id_of r) x) with false by (symmetry; apply String.eqb_neq; tauto).
  cbn. rewrite IH by tauto. reflexivity.
Qed.
Lemma lt_irrefl x : ~ lt_s x x.
Proof. unfold lt_s. rewrite compare_refl. discriminate. Qed.
Lemma lt_le_trans a b c : lt_s a b -> le b c -> lt_s a c.
Proof. intros H K. apply leb_cases in K as [K|K]; [eapply compare_lt_trans; eauto|now subst]. Qed.
Lemma exists_in x l : existsb (String.eqb x) l = true <-> In x l.
Proof. rewrite existsb_exists. split; [intros (y & A & B); apply String.eqb_eq in B; now subst|]. intros H. exists x. split; [exact H|apply String.eqb_refl]. Qed.

(** skipping the rows of a site *)
Lemma advance_spec x t : forall left line,
  StronglySorted le (x :: ids left) -> ~ In x t ->
  (~ In (current_id (advance x line left)) t /\ (forall y, In y t -> first_row y (reached (x :: t) left) = None)) \/
  (exists r' left', advance x line left = Stream (id_of r') (Some r') left' /\ lt_s x (id_of r') /\ StronglySorted le (ids (Some r' :: left')) /\
     forall y, In y t -> first_row y (reached (x :: t) left) = first_row y (reached t (Some r' :: left'))).
Proof.
  induction left as [|[r|] left IH]; intros line H N.
  - left. split; [exact N|reflexivity].
  - cbn [advance]. destruct (String.eqb (id_of r) x) eqn:E.
    + apply String.eqb_eq in E. cbn [ids flat_map app] in H. fold (ids left) in H. apply StronglySorted_inv in H as [H _]. rewrite E in H.
      assert (R : forall y, In y t -> first_row y (reached (x :: t) (Some r :: left)) = first_row y (reached (x :: t) left)).
      { intros y Y. cbn [reached existsb]. rewrite E, String.eqb_refl. cbn [orb first_row]. rewrite E. destruct (String.eqb x y) eqn:F; [|reflexivity].
        apply String.eqb_eq in F. subst. contradiction. }
      destruct (IH line H N) as [[A B]|(r' & l' & A & B & C & D)].
      * left. split; [exact A|]. intros y Y. rewrite R by exact Y. auto.
      * right. exists r', l'. refine (conj A (conj B (conj C _))). intros y Y. rewrite R by exact Y. auto.
    + right. exists r, left. apply String.eqb_neq in E. cbn [ids flat_map app] in H. fold (ids left) in H. pose proof H as H0. apply StronglySorted_inv in H as [H1 H2].
      assert (L : lt_s x (id_of r)). { apply Forall_inv in H2. apply leb_cases in H2 as [H2|H2]; [exact H2|congruence]. }
      refine (conj eq_refl (conj L (conj H1 _))). intros y Y. rewrite reached_fresh; [reflexivity|].
      cbn [ids flat_map app]. fold (ids left). intros [K|K]; [congruence|]. apply StronglySorted_inv in H1 as [_ H1]. rewrite Forall_forall in H1.
      apply (lt_irrefl x). eapply lt_le_trans; [exact L|]. now apply H1.
  - left. split; [exact N|reflexivity].
Qed.
Lemma live : forall t r left, StronglySorted lt_s t -> StronglySorted le (ids (Some r :: left)) ->
  rows_of t (Stream (id_of r) (Some r) left) = map (fun x => first_row x (reached t (Some r :: left))) t.
Proof.
  induction t as [|x t IH]; intros r left St Sl; [reflexivity|].
  destruct (in_dec string_dec (id_of r) (x :: t)) as [I|I].
  2:{ rewrite dead by exact I. apply map_ext_in. intros y Y. cbn [reached]. destruct (existsb (String.eqb (id_of r)) (x :: t)) eqn:E; [|reflexivity].
      apply exists_in in E. contradiction. }
  apply StronglySorted_inv in St as [St Sx]. rewrite Forall_forall in Sx.
  assert (Nx : ~ In x t) by (intros K; exact (lt_irrefl x (Sx x K))).
  cbn [rows_of map]. unfold visit. cbn [current_id current_line rest]. destruct (String.eqb (id_of r) x) eqn:E.
  - apply String.eqb_eq in E. f_equal.
    + cbn [reached]. replace (existsb (String.eqb (id_of r)) (x :: t)) with true by (symmetry; apply exists_in; exact I). cbn [first_row]. now rewrite E, String.eqb_refl.
    + assert (R : forall y, In y t -> first_row y (reached (x :: t) (Some r :: left)) = first_row y (reached (x :: t) left)).
      { intros y Y. cbn [reached existsb]. rewrite E, String.eqb_refl. cbn [orb first_row]. rewrite E. destruct (String.eqb x y) eqn:F; [|reflexivity].
        apply String.eqb_eq in F. subst. contradiction. }
      rewrite E. assert (Sl' : StronglySorted le (x :: ids left)) by (rewrite <- E; exact Sl).
      destruct (advance_spec x t left (Some r) Sl' Nx) as [[A B]|(r' & l' & A & B & C & D)].
      * rewrite dead by exact A. apply map_ext_in. intros y Y. rewrite R by exact Y. now rewrite B.
      * rewrite A, IH by assumption. apply map_ext_in. intros y Y. rewrite R by exact Y. now rewrite D.
  - apply String.eqb_neq in E. destruct I as [I|I]; [congruence|].
    assert (F : ~ In x (ids (Some r :: left))).
    { cbn [ids flat_map app]. fold (ids left). intros [K|K]; [congruence|]. cbn [ids flat_map app] in Sl. fold (ids left) in Sl. apply StronglySorted_inv in Sl as [_ Sl].
      rewrite Forall_forall in Sl. apply (lt_irrefl x). eapply lt_le_trans; [exact (Sx _ I)|]. now apply Sl. }
    f_equal; [symmetry; apply none_ids; intros K; apply reached_ids in K; contradiction|].
    rewrite IH by assumption. apply map_ext_in. intros y Y. now rewrite reached_fresh by exact F.
Qed.
Lemma stream_rows sites d : StronglySorted lt_s sites -> ~ In "" sites -> StronglySorted le (ids d) ->
  rows_of sites (start d) = map (fun x => first_row x (reached sites d)) sites.
Proof.
  intros S1 S2 S3. destruct d as [|[r|] d]; cbn [start].
  - rewrite dead by exact S2. apply map_ext. reflexivity.
  - now apply live.
  - rewrite dead by exact S2. apply map_ext. reflexivity.
Qed.

(** side by side *)
Lemma visit_all_spec site : forall ss d,
  visit_all site ss d =
  (fold_left (fun d p => match fst (visit site (snd p)) with Some r => update_attributes r (fst p) d | None => d end) ss d,
   map (fun p => (fst p, snd (visit site (snd p)))) ss).
Proof.
  induction ss as [|[key s] ss IH]; intros d; [reflexivity|]. cbn [visit_all fold_left map fst snd]. destruct (visit site s) as [o s'] eqn:E. cbn [fst snd].
  rewrite IH. reflexivity.
Qed.
Lemma fold_map (A B C : Type) (f : C -> B -> C) (g : A -> B) l : forall c, fold_left f (map g l) c = fold_left (fun c a => f c (g a)) l c.
Proof. induction l; intros c; cbn; auto. Qed.
Lemma fold_ext (A B : Type) (f g : B -> A -> B) l : (forall b a, In a l -> f b a = g b a) -> forall b, fold_left f l b = fold_left g l b.
Proof. induction l as [|a l IH]; intros H b; cbn; [reflexivity|]. rewrite (H b a) by now left. apply IH. intros; apply H; now right. Qed.

Definition limit (max : nat) (l : list (string * atts)) : list (string * atts) := if Nat.eqb max 0 then l else firstn max l.

Lemma write_spec max : forall sites (R : string -> string -> option row) (st : string -> stream) count,
  (max = 0%nat \/ (count < max)%nat) ->
  (forall key, In key primary_keys -> rows_of sites (st key) = map (fun x => R key x) sites) ->
  write_sites max count sites (map (fun k => (k, st k)) primary_keys) =
  (if Nat.eqb max 0 then map (fun x => (x, merged (fun key => R key x) x)) sites else firstn (max - count) (map (fun x => (x, merged (fun key => R key x) x)) sites)).
Proof.
  induction sites as [|x sites IH]; intros R st count M H.
  - cbn [write_sites map]. destruct (Nat.eqb max 0); [reflexivity|]. now rewrite firstn_nil.
  - cbn [write_sites]. rewrite visit_all_spec.
    assert (D : fold_left (fun d p => match fst (visit x (snd p)) with Some r => update_attributes r (fst p) d | None => d end) (map (fun k => (k, st k)) primary_keys) (defaults x)
                = merged (fun key => R key x) x).
    { rewrite fold_map. unfold merged. change preference with primary_keys. apply fold_ext. intros d key K. cbn [fst snd]. specialize (H key K). cbn [rows_of map] in H.
      destruct (visit x (st key)) as [o s']. cbn [fst]. injection H as -> _. reflexivity. }
    rewrite D. rewrite map_map. cbn [fst snd].
    assert (N : forall key, In key primary_keys -> rows_of sites (snd (visit x (st key))) = map (fun y => R key y) sites).
    { intros key K. specialize (H key K). cbn [rows_of map] in H. destruct (visit x (st key)) as [o s']. cbn [snd]. now injection H. }
    destruct (Nat.eqb max 0) eqn:Z.
    + apply Nat.eqb_eq in Z. subst max. cbn [Nat.eqb map]. f_equal. exact (IH R (fun k => snd (visit x (st k))) (S count) (or_introl eq_refl) N).
    + apply Nat.eqb_neq in Z. destruct M as [M|M]; [contradiction|]. replace (max - count)%nat with (S (max - S count)) by lia. cbn [map firstn]. f_equal.
      destruct (Nat.eqb (S count) max) eqn:Q; [apply Nat.eqb_eq in Q; replace (max - S count)%nat with 0%nat by lia; reflexivity|]. apply Nat.eqb_neq in Q.
      assert (M2 : max = 0%nat \/ (S count < max)%nat) by (right; lia).
      rewrite (IH R (fun k => snd (visit x (st k))) (S count) M2 N). reflexivity.
Qed.

(** When every data set is sorted by site: for each site of the table, in order, each data set
    gives its first row for the site among the rows before the first blank or unlisted one. *)
Theorem C108_join : forall max db, (forall key, In key primary_keys -> StronglySorted le (ids (db key))) ->
  collate max db =
  limit max (map (fun site => (site, merged (fun key => first_row site (reached (get_all_site_ids db) (db key))) site)) (get_all_site_ids db)).
Proof.
  intros max db H. unfold collate, limit. set (sites := get_all_site_ids db).
  assert (E : ~ In "" sites). { intros K. apply sites_in in K as [[K _] _]. cbn in K. lia. }
  rewrite (write_spec max sites (fun key x => first_row x (reached sites (db key))) (fun k => start (db k)) 0).
  - destruct (Nat.eqb max 0); [reflexivity|]. now rewrite Nat.sub_0_r.
  - destruct max; [now left|right; lia].
  - intros key K. apply stream_rows; [apply sites_sorted|exact E|auto].
Qed.
Print Assumptions C108_join.

Lemma reached_all sites d : (forall o, In o d -> exists r, o = Some r /\ In (id_of r) sites) -> reached sites d = d.
Proof.
  induction d as [|o d IH]; intros H; [reflexivity|]. destruct (H o (or_introl eq_refl)) as (r & -> & I). cbn [reached].
  replace (existsb (String.eqb (id_of r)) sites) with true by (symmetry; now apply exists_in). f_equal. apply IH. intros; apply H; now right.
Qed.
(** When the data sets are also without blank lines, every ID is usable and NOAA_via_API has no
    site of its own, nothing is lost. *)
Theorem C108_complete : forall db,
  (forall key, In key primary_keys -> StronglySorted le (ids (db key)) /\ forall o, In o (db key) -> exists r, o = Some r /\ usable (id_of r)) ->
  (forall sid, has (db "NOAA_via_API") sid -> exists key, In key inclusion_keys /\ has (db key) sid) ->
  collate 0 db = map (fun site => (site, merged (fun key => first_row site (db key)) site)) (get_all_site_ids db).
Proof.
  intros db H N. rewrite C108_join by (intros key K; apply H; exact K). unfold limit. cbn [Nat.eqb]. apply map_ext. intros site. f_equal.
  unfold merged. change preference with primary_keys. apply fold_ext. intros d key K. rewrite reached_all; [reflexivity|]. intros o O. destruct (proj2 (H key K) o O) as (r & -> & U). exists r. split; [reflexivity|].
  apply sites_in. split; [exact U|]. assert (Hr : has (db key) (id_of r)) by (exists r; auto). unfold primary_keys in K. apply in_app_iff in K as [K|[<-|[]]]; [exists key; auto|auto].
Qed.
Print Assumptions C108_complete.

Lemma first_row_spec site d r : first_row site d = Some r <-> exists a b, d = app a (Some r :: b) /\ id_of r = site /\ ~ In site (ids a).
Proof.
  split.
  - induction d as [|[q|] d IH]; cbn; [discriminate| |].
    + destruct (String.eqb (id_of q) site) eqn:E; [intros [= ->]|intros H]; [apply String.eqb_eq in E; exists [], d; auto|].
      apply String.eqb_neq in E. destruct (IH H) as (a & b & -> & A & B). exists (Some q :: a), b. cbn. refine (conj eq_refl (conj A _)). intros [K|K]; auto.
    + intros H. destruct (IH H) as (a & b & -> & A & B). exists (None :: a), b. auto.
  - intros (a & b & -> & A & B). induction a as [|[q|] a IH]; cbn in *; [now rewrite A, String.eqb_refl| |auto].
    replace (String.eqb (id_of q) site) with false by (symmetry; apply String.eqb_neq; tauto). tauto.
Qed.
(** "the first row": what the table of C108_join uses *)
Theorem C108_first_row : forall site d r,
  first_row site d = Some r <-> exists a b, d = app a (Some r :: b) /\ id_of r = site /\ ~ In site (ids a).
Proof. exact first_row_spec. Qed.
Print Assumptions C108_first_row.

(** ** The attributes *)

(** the attributes that a data set also sets by itself *)
Definition special : list string := ["elev_units"; "area_units"; "stage_data"; "vert_datum"; "horiz_datum"; "site_type"; "country_code"; "swb_class"; "aridity"; "snow_fraction"].
Definition heading_of (key a : string) : option string := option_map fst (List.find (fun p => String.eqb (snd p) a) (given key)).
(** the values that the rows give to the attribute, in order *)
Definition offers (rows : string -> option row) (a : string) : list string :=
  flat_map (fun key => match rows key, heading_of key a with Some r, Some h => [strip (cell r h)] | _, _ => [] end) preference.
Definition is_unset (v : string) : Prop := v = "-" \/ v = "unknown" \/ v = "-9999".

Lemma unset_spec v : unset v = true <-> is_unset v.
Proof. unfold unset, is_unset. rewrite !orb_true_iff, !String.eqb_eq. tauto. Qed.

Lemma put_same d k v : put_att d k v k = v.
Proof. unfold put_att. now rewrite String.eqb_refl. Qed.
Lemma put_other d k v a : a <> k -> put_att d k v a = d a.
Proof. intros H. unfold put_att. apply String.eqb_neq in H. now rewrite H. Qed.
Lemma ifu_other d k v a : a <> k -> if_unknown k v d a = d a.
Proof. intros H. unfold if_unknown. destruct (String.eqb (d k) "-"); [now apply put_other|reflexivity]. Qed.

Lemma settings_other key r d a : ~ In a special -> settings key r d a = d a.
Proof.
  intros H. assert (Q : forall k, In k special -> a <> k) by (intros k K ->; contradiction). unfold settings.
  destruct (String.eqb key "USGS_NWIS_Web").
  - destruct (strip (cell r "data_types_cd")) as [|c1 [|c2 t]]; rewrite !put_other by (apply Q; cbn; tauto); reflexivity.
  - destruct (String.eqb key "USGS_GAGES2_all").
    + rewrite !put_other by (apply Q; cbn; tauto). rewrite !ifu_other by (apply Q; cbn; tauto). reflexivity.
    + destruct (String.eqb key "USGS_HCDN" || String.eqb key "MOPEX"); [rewrite !ifu_other by (apply Q; cbn; tauto)|]; reflexivity.
Qed.

Lemma attrs_other r a : forall l d, ~ In a (map snd l) -> fold_left (set_attribute r) l d a = d a.
Proof.
  induction l as [|[h b] l IH]; intros d H; [reflexivity|]. cbn [fold_left]. rewrite IH by (intros K; apply H; now right).
  cbn [set_attribute]. destruct (unset (d b)); [|reflexivity]. apply put_other. intros ->. apply H. now left.
Qed.
Lemma attrs_value r a : a <> "horiz_datum" -> forall l d, NoDup (map snd l) ->
  fold_left (set_attribute r) l d a =
  match option_map fst (List.find (fun p => String.eqb (snd p) a) l) with
  | Some h => if unset (d a) then strip (cell r h) else d a
  | None => d a
  end.
Proof.
  intros Ha. induction l as [|[h b] l IH]; intros d N; [reflexivity|]. cbn [map snd] in N. apply NoDup_cons_iff in N as [N1 N2]. cbn [fold_left List.find snd].
  destruct (String.eqb b a) eqn:E.
  - apply String.eqb_eq in E. subst b. rewrite attrs_other by exact N1. cbn [option_map fst set_attribute]. destruct (unset (d a)); [|reflexivity].
    rewrite put_same. apply String.eqb_neq in Ha. now rewrite Ha.
  - rewrite IH by exact N2. apply String.eqb_neq in E.
    assert (X : set_attribute r d (h, b) a = d a) by (cbn [set_attribute]; destruct (unset (d b)); [apply put_other; congruence|reflexivity]).
    rewrite X. reflexivity.
Qed.
Lemma given_nodup key : NoDup (map snd (given key)).
Proof.
  unfold given. repeat match goal with |- context [if ?b then _ else _] => destruct b end; cbn [map snd];
  repeat constructor; cbn [In]; intros K; repeat match type of K with _ \/ _ => destruct K as [K|K]; [discriminate K|] end; exact K.
Qed.
Lemma update_value r key d a : ~ In a special ->
  update_attributes r key d a = match heading_of key a with Some h => if unset (d a) then strip (cell r h) else d a | None => d a end.
Proof.
  intros H. unfold update_attributes. rewrite attrs_value; [|intros ->; apply H; cbn; tauto|apply given_nodup]. rewrite settings_other by exact H. reflexivity.
Qed.

Definition take_offer (v o : string) : string := if unset v then o else v.
Lemma merged_value rows site a : ~ In a special -> merged rows site a = fold_left take_offer (offers rows a) (defaults site a).
Proof.
  intros H. unfold merged, offers. generalize (defaults site). induction preference as [|key ks IH]; intros d; [reflexivity|]. cbn [fold_left flat_map].
  rewrite IH, fold_left_app. f_equal. destruct (rows key) as [r|]; [|reflexivity]. rewrite update_value by exact H. destruct (heading_of key a); reflexivity.
Qed.
Lemma offer_set v : forall l, unset v = false -> fold_left take_offer l v = v.
Proof. induction l as [|o l IH]; intros H; [reflexivity|]. cbn [fold_left]. unfold take_offer at 2. rewrite H. now apply IH. Qed.

(** An attribute gets the first value that counts as set, in the order of the data sets; if none
    does, it gets the last one. *)
Theorem C108_first : forall rows site a, ~ In a special -> is_unset (defaults site a) ->
  (forall l1 v l2, offers rows a = app l1 (v :: l2) -> Forall is_unset l1 -> ~ is_unset v -> merged rows site a = v) /\
  (Forall is_unset (offers rows a) -> merged rows site a = last (offers rows a) (defaults site a)).
Proof.
  intros rows site a H D. rewrite merged_value by exact H. revert D. generalize (defaults site a). generalize (offers rows a). split.
  - intros l1 v l2 -> F V. assert (V' : unset v = false) by (destruct (unset v) eqn:E; [apply unset_spec in E; contradiction|reflexivity]).
    clear H. revert s D. induction l1 as [|o l1 IH]; intros s D; cbn [app fold_left].
    + unfold take_offer at 2. rewrite (proj2 (unset_spec s) D). now apply offer_set.
    + unfold take_offer at 2. rewrite (proj2 (unset_spec s) D). apply Forall_cons_iff in F as [F1 F2]. now apply IH.
  - intros F. clear H. revert s D. induction l as [|o l IH]; intros s D; [reflexivity|]. cbn [fold_left]. unfold take_offer at 2. rewrite (proj2 (unset_spec s) D).
    apply Forall_cons_iff in F as [F1 F2]. rewrite IH by assumption. destruct l; [reflexivity|]. cbn [last]. clear. revert s0. induction l; intros; [reflexivity|]. cbn [last]. destruct l; [reflexivity|apply (IHl a)].
Qed.
Print Assumptions C108_first.

(** ** Units *)

(** the unit of the areas of a data set *)
Definition area_unit (key : string) : string := if String.eqb key "USGS_GAGES2_all" then "km2" else "mi2".
Definition area_heading (key : string) : string :=
  if String.eqb key "USGS_NWIS_Web" then "drain_area_va" else if String.eqb key "USGS_GAGES2_all" then "DRAIN_SQKM" else if String.eqb key "USGS_HCDN" then "area_sqmi" else "DrainageAr".
Definition area_keys : list string := ["USGS_NWIS_Web"; "USGS_GAGES2_all"; "USGS_HCDN"; "MOPEX"].

Lemma given_no_units key : ~ In "area_units" (map snd (given key)).
Proof.
  unfold given. repeat match goal with |- context [if ?b then _ else _] => destruct b end; cbn [map snd In];
  intros K; repeat match type of K with _ \/ _ => destruct K as [K|K]; [discriminate K|] end; exact K.
Qed.
Lemma update_units r key d : update_attributes r key d "area_units" =
  if String.eqb key "USGS_NWIS_Web" then "mi2" else
  if existsb (String.eqb key) area_keys then (if String.eqb (d "area_units") "-" then area_unit key else d "area_units") else d "area_units".
Proof.
  unfold update_attributes. rewrite attrs_other by apply given_no_units. unfold settings, area_keys, area_unit. cbn [existsb]. destruct (String.eqb key "USGS_NWIS_Web") eqn:E1.
  - destruct (strip (cell r "data_types_cd")) as [|c1 [|c2 t]]; reflexivity.
  - destruct (String.eqb key "USGS_GAGES2_all") eqn:E2; cbn [orb].
    + rewrite !put_other by discriminate. rewrite !(ifu_other _ _ _ "area_units") by discriminate. unfold if_unknown.
      destruct (String.eqb (d "area_units") "-"); [apply put_same|reflexivity].
    + rewrite orb_false_r. destruct (String.eqb key "USGS_HCDN" || String.eqb key "MOPEX"); [|reflexivity].
      rewrite (ifu_other _ _ _ "area_units") by discriminate. unfold if_unknown. destruct (String.eqb (d "area_units") "-"); [apply put_same|reflexivity].
Qed.

Lemma merged_units rows site : merged rows site "area_units" =
  match List.find (fun k => match rows k with Some _ => true | None => false end) area_keys with Some k => area_unit k | None => "-" end.
Proof.
  unfold merged. cbn [preference fold_left].
  assert (Q : forall key, existsb (String.eqb key) area_keys = false -> forall d, match rows key with Some r => update_attributes r key d | None => d end "area_units" = d "area_units").
  { intros key K d. destruct (rows key) as [r|]; [|reflexivity]. rewrite update_units, K. cbn [area_keys existsb] in K. apply orb_false_iff in K as [K _]. now rewrite K. }
  rewrite (Q "NOAA_via_API") by reflexivity.
  assert (U : forall key v, existsb (String.eqb key) area_keys = true -> forall d, d "area_units" = v ->
     match rows key with Some r => update_attributes r key d | None => d end "area_units" =
     match rows key with Some r => if String.eqb key "USGS_NWIS_Web" then "mi2" else if String.eqb v "-" then area_unit key else v | None => v end).
  { intros key v K d Dv. destruct (rows key) as [r|]; [|exact Dv]. rewrite update_units, K, Dv. reflexivity. }
  erewrite (U "MOPEX"); [|reflexivity|rewrite (Q "CAMELS") by reflexivity; rewrite (Q "NOAA_HADS") by reflexivity; erewrite (U "USGS_HCDN"); [reflexivity|reflexivity|];
    rewrite (Q "USGS_FPS") by reflexivity; rewrite (Q "USGS_GAGES2_SB3") by reflexivity; rewrite (Q "USGS_GAGES2_ref") by reflexivity;
    erewrite (U "USGS_GAGES2_all"); [reflexivity|reflexivity|]; erewrite (U "USGS_NWIS_Web"); [reflexivity|reflexivity|reflexivity]].
  cbn [List.find area_keys]. destruct (rows "USGS_NWIS_Web"), (rows "USGS_GAGES2_all"), (rows "USGS_HCDN"), (rows "MOPEX"); reflexivity.
Qed.

(** The unit of the area is that of the first data set (of those with areas) that has the site:
    it is the right one if that data set gives a value. *)
Theorem C108_units : forall rows site l1 key l2 r, area_keys = app l1 (key :: l2) ->
  (forall k, In k l1 -> rows k = None) -> rows key = Some r -> ~ is_unset (strip (cell r (area_heading key))) ->
  merged rows site "area" = strip (cell r (area_heading key)) /\ merged rows site "area_units" = area_unit key.
Proof.
  intros rows site l1 key l2 r E N R. set (h := area_heading key). intros V.
  assert (Hh : heading_of key "area" = Some h).
  { subst h. unfold area_keys in E. destruct l1 as [|k1 l1]; [|destruct l1 as [|k2 l1]; [|destruct l1 as [|k3 l1]; [|destruct l1 as [|k4 l1]; [|destruct l1; discriminate E]]]];
      cbn [app] in E; injection E; intros; subst; reflexivity. }
  split.
  - assert (O : exists l, offers rows "area" = strip (cell r h) :: l).
    { unfold offers. cbn [preference flat_map].
      replace (heading_of "USGS_GAGES2_ref" "area") with (@None string) by reflexivity. replace (heading_of "USGS_GAGES2_SB3" "area") with (@None string) by reflexivity.
      replace (heading_of "USGS_FPS" "area") with (@None string) by reflexivity. replace (heading_of "NOAA_HADS" "area") with (@None string) by reflexivity.
      replace (heading_of "CAMELS" "area") with (@None string) by reflexivity. replace (heading_of "NOAA_via_API" "area") with (@None string) by reflexivity.
      assert (Z : forall k, match rows k with Some _ => @nil string | None => [] end = []) by (intros k; destruct (rows k); reflexivity). rewrite !Z. cbn [app].
      unfold area_keys in E. destruct l1 as [|k1 l1]; [|destruct l1 as [|k2 l1]; [|destruct l1 as [|k3 l1]; [|destruct l1 as [|k4 l1]; [|destruct l1; discriminate E]]]];
      cbn [app] in E; injection E; intros; subst; repeat rewrite N by (cbn [In]; tauto); rewrite R, Hh; cbn [app]; eauto. }
    destruct O as (l & O). apply (proj1 (C108_first rows site "area" ltac:(cbn; intuition discriminate) ltac:(unfold is_unset; cbn; tauto)) [] _ l O); [constructor|exact V].
  - rewrite merged_units, E. clear E. induction l1 as [|k l1 IH]; cbn [app List.find]; [now rewrite R|]. rewrite N by now left. apply IH. intros; apply N; now right.
Qed.
Print Assumptions C108_units.

(** ** Examples *)

Definition cells (l : list (string * string)) : string -> string := fun h => match List.find (fun p => String.eqb (fst p) h) l with Some p => snd p | None => "" end.
Definition nwis (id elev area : string) : option row := Some (Row id (cells [("station_nm", "A CREEK"); ("alt_va", elev); ("drain_area_va", area)])).
Definition gages (id area : string) : option row := Some (Row id (cells [("STANAME", "A Creek"); ("DRAIN_SQKM", area)])).
Definition hcdn (id elev area : string) : option row := Some (Row id (cells [("gage_elev_ft", elev); ("area_sqmi", area)])).
Definition hads (id goes : string) : option row := Some (Row id (cells [("GOES_ID", goes)])).
Definition api (id p : string) : option row := Some (Row id (cells [("pedts_obs", p)])).
Definition bases (l : list (string * dataset)) : string -> dataset := fun k => match List.find (fun p => String.eqb (fst p) k) l with Some p => snd p | None => [] end.
Definition look (a : string) (t : list (string * atts)) : list (string * string) := map (fun p => (fst p, snd p a)) t.

(** One ID of NOAA_via_API that is in no other data set, one of a site that is not a USGS site, or one
    blank line: the data set gives nothing from there on, though the flags still say Y. *)
Theorem C108_stuck_refuted :
  (let db := bases [("USGS_NWIS_Web", [nwis "01000010" "10" "1"; nwis "01000030" "30" "3"]); ("NOAA_via_API", [api "1000010" "a"; api "01000020" "b"; api "01000030" "c"])] in
   look "pedts_obs" (collate 0 db) = [("01000010", "a"); ("01000030", "-")]) /\
  (let db := bases [("NOAA_HADS", [hads "0100" "g0"; hads "01000010" "g1"; hads "01000030" "g3"])] in
   look "goes_id" (collate 0 db) = [("01000010", "-"); ("01000030", "-")] /\
   get_inclusion_list (get_inclusion_dict db) "01000030" = Some ["N"; "N"; "N"; "N"; "N"; "N"; "Y"; "N"; "N"]) /\
  (let db := bases [("NOAA_HADS", [hads "01000010" "g1"; None; hads "01000030" "g3"])] in
   look "goes_id" (collate 0 db) = [("01000010", "g1"); ("01000030", "-")]).
Proof. repeat split; vm_compute; reflexivity. Qed.
Print Assumptions C108_stuck_refuted.

(** Of the rows with the same ID the first is used, not the last (995-1008). *)
Theorem C108_last_row_refuted :
  let db := bases [("NOAA_HADS", [hads "01000010" "first"; hads "01000010" "last"])] in look "goes_id" (collate 0 db) = [("01000010", "first")].
Proof. vm_compute. reflexivity. Qed.
Print Assumptions C108_last_row_refuted.

(** An empty cell counts as a value: the elevation of HCDN is not used. *)
Theorem C108_blank_refuted :
  let db := bases [("USGS_NWIS_Web", [nwis "01000010" "" ""]); ("USGS_HCDN", [hcdn "01000010" "250" "12"])] in
  look "elev" (collate 0 db) = [("01000010", "")] /\ look "area" (collate 0 db) = [("01000010", "")].
Proof. split; vm_compute; reflexivity. Qed.
Print Assumptions C108_blank_refuted.

(** The units of another data set: feet given as metres, square kilometres given as square miles. *)
Theorem C108_units_refuted :
  (let db := bases [("USGS_GAGES2_all", [gages "01000010" "31"]); ("USGS_HCDN", [hcdn "01000010" "250" "12"])] in
   look "elev" (collate 0 db) = [("01000010", "250")] /\ look "elev_units" (collate 0 db) = [("01000010", "m")]) /\
  (let db := bases [("USGS_NWIS_Web", [nwis "01000010" "250" "-9999"]); ("USGS_GAGES2_all", [gages "01000010" "31"])] in
   look "area" (collate 0 db) = [("01000010", "31")] /\ look "area_units" (collate 0 db) = [("01000010", "mi2")]).
Proof. repeat split; vm_compute; reflexivity. Qed.
Print Assumptions C108_units_refuted.

(** ** The file *)

Lemma but_last_app s c : but_last (s ++ String c "") = s.
Proof.
  unfold but_last. assert (L : String.length (s ++ String c "") = S (String.length s)).
  { induction s as [|a s IH]; [reflexivity|]. cbn [append String.length]. now rewrite IH. }
  rewrite L. replace (S (String.length s) - 1)%nat with (String.length s) by lia. clear L.
  induction s as [|a s IH]; [reflexivity|]. cbn [append String.length take]. now rewrite IH.
Qed.
Lemma app_assoc_s (a b c : string) : (a ++ b) ++ c = a ++ (b ++ c).
Proof. induction a; cbn; [reflexivity|now f_equal]. Qed.
Fixpoint joined (l : list string) : string := match l with [] => "" | [v] => v | v :: t => v ++ String tab_char (joined t) end.
Lemma fold_joined : forall l v s, fold_left (fun l v => l ++ v ++ String tab_char "") (v :: l) s = (s ++ joined (v :: l)) ++ String tab_char "".
Proof.
  induction l as [|w l IH]; intros v s; [cbn; now rewrite app_assoc_s|]. change (fold_left (fun l v => l ++ v ++ String tab_char "") (v :: w :: l) s)
    with (fold_left (fun l v => l ++ v ++ String tab_char "") (w :: l) (s ++ v ++ String tab_char "")). rewrite IH.
  change (joined (v :: w :: l)) with (v ++ String tab_char (joined (w :: l))). f_equal. rewrite !app_assoc_s. f_equal.
Qed.
Lemma tsv_joined v l : tsv_line (v :: l) = joined (v :: l).
Proof. unfold tsv_line. rewrite fold_joined. apply but_last_app. Qed.
Lemma tsv_split : forall l v, Forall (fun s => nosep tab_char s = true) (v :: l) -> split tab_char (tsv_line (v :: l)) = v :: l.
Proof.
  intros l v H. rewrite tsv_joined. revert v H. induction l as [|w l IH]; intros v H; apply Forall_cons_iff in H as [H1 H2]; [now apply split_last|].
  change (joined (v :: w :: l)) with (v ++ String tab_char (joined (w :: l))). rewrite split_app by exact H1. now rewrite IH.
Qed.

(** headings that are not the name of the attribute *)
Definition renamed : list (string * string) := [("WFO/CWA", "wfo"); ("Status_as_FPS", "status"); ("HLR_Code_Outlet", "hlr_code"); ("Snow Fraction", "snow_fraction")].
(** A line has one value below each heading: the attribute of that name, or the flag. *)
Theorem C108_file : forall d flags czo, length flags = 9%nat -> Forall (fun s => nosep tab_char s = true) (map d att_key_list) ->
  Forall (fun s => nosep tab_char s = true) flags ->
  length (split tab_char header_line) = 53%nat /\ length (split tab_char (site_line d flags czo)) = 53%nat /\
  (forall i h, nth_error (split tab_char header_line) i = Some h -> (i < 40)%nat ->
     exists a, (lower h = a \/ In (h, a) renamed) /\ nth_error (split tab_char (site_line d flags czo)) i = Some (d a)) /\
  (forall i, (i < 9)%nat -> nth_error (split tab_char (site_line d flags czo)) (40 + i) = nth_error flags i) /\
  nth_error (split tab_char header_line) 49 = Some "Is_CZO" /\
  nth_error (split tab_char (site_line d flags czo)) 49 = Some (if czo then "Y" else "N").
Proof.
  intros d flags czo L F1 F2.
  assert (S : split tab_char (site_line d flags czo) = app (map d att_key_list) (app flags [if czo then "Y" else "N"; "N"; "N"; "N"])).
  { unfold site_line. change (map d att_key_list) with (d "site_id" :: map d (tl att_key_list)) in *. cbn [app]. apply tsv_split.
    change (d "site_id" :: ?x ++ ?y)%list with ((d "site_id" :: x) ++ y)%list. apply Forall_app. split; [exact F1|]. apply Forall_app. split; [exact F2|].
    destruct czo; repeat constructor. }
  assert (H : split tab_char header_line = app heading_list incl_headings).
  { unfold header_line. change (app heading_list incl_headings) with ("Site_ID" :: app (tl heading_list) incl_headings). apply tsv_split.
    apply Forall_forall. intros x X. cbn [heading_list tl incl_headings app In] in X. repeat (destruct X as [<-|X]; [reflexivity|]). destruct X. }
  rewrite S, H. refine (conj eq_refl (conj _ (conj _ (conj _ (conj eq_refl _))))).
  - rewrite !app_length, map_length, L. reflexivity.
  - intros i h Hi Li.
    assert (Q : exists a, nth_error att_key_list i = Some a /\ (lower h = a \/ In (h, a) renamed)).
    { do 40 (destruct i as [|i]; [cbn in Hi; injection Hi as <-; eexists; split; [reflexivity|]; first [left; reflexivity|right; cbn; tauto]|]). lia. }
    destruct Q as (a & A & B). exists a. split; [exact B|]. rewrite nth_error_app1 by (rewrite map_length; change (length att_key_list) with 40%nat; lia). now apply map_nth_error.
  - intros i Hi. rewrite nth_error_app2 by (rewrite map_length; change (length att_key_list) with 40%nat; lia). rewrite map_length. replace (40 + i - length att_key_list)%nat with i by (change (length att_key_list) with 40%nat; lia).
    apply nth_error_app1. lia.
  - rewrite nth_error_app2 by (rewrite map_length; change (length att_key_list) with 40%nat; lia). rewrite map_length. change (49 - length att_key_list)%nat with 9%nat.
    rewrite nth_error_app2 by lia. rewrite L. reflexivity.
Qed.
Print Assumptions C108_file.

(** three data sets *)
Definition demo : string -> dataset :=
  bases [("USGS_NWIS_Web", [nwis "01000010" "10" "-9999"; nwis "01000030" "30" "3"; nwis "01000040" "40" "-"]);
         ("USGS_GAGES2_all", [gages "1000020" "20"; gages "1000030" "77"]); ("USGS_HCDN", [hcdn "01000010" "99" "12"; hcdn "01000040" "98" "unknown"])].
Example C108_case :
  (forall key, In key primary_keys -> StronglySorted le (ids (demo key)) /\ forall o, In o (demo key) -> exists r, o = Some r /\ usable (id_of r)) /\
  get_all_site_ids demo = ["01000010"; "01000020"; "01000030"; "01000040"] /\
  look "area" (collate 0 demo) = [("01000010", "12"); ("01000020", "20"); ("01000030", "3"); ("01000040", "unknown")] /\
  look "area_units" (collate 0 demo) = [("01000010", "mi2"); ("01000020", "km2"); ("01000030", "mi2"); ("01000040", "mi2")] /\
  look "elev" (collate 2 demo) = [("01000010", "10"); ("01000020", "-9999")] /\
  offers (fun key => first_row "01000010" (demo key)) "area" = ["-9999"; "12"].
Proof.
  refine (conj _ (conj _ (conj _ (conj _ (conj _ _))))); try (vm_compute; reflexivity).
  intros key K. cbn in K. repeat (destruct K as [<-|K]; [split; [vm_compute; repeat constructor|
    intros o O; cbn in O; repeat (destruct O as [<-|O]; [eexists; split; [reflexivity|apply excluded_spec; vm_compute; reflexivity]|]); destruct O]|]). destruct K.
Qed.
