(** C100: the wettest month of a rainfall file. *)

From Coq Require Import List ZArith QArith Qminmax Bool Lia Lqa.
From Verif Require Import Base Time_Model Wettest_Model.
Import ListNotations.
Open Scope Q_scope.

(** ** Specification *)

(** a record of month number k since the first month, with its rain *)
Definition datum := (nat * Q)%type.

(** the months of the records follow each other, each with at least one record, from
    month number k on *)
Fixpoint consecutive (k : nat) (rs : list datum) : Prop :=
  match rs with [] => True | (k', _) :: r => (k' = k \/ k' = S k) /\ consecutive k' r end.

(** the rain of month number j *)
Definition fallen (rs : list datum) (j : nat) : Q := qsuml (fun d => if Nat.eqb (fst d) j then snd d else 0) rs.

(** the dates when the first month is January of year y0 *)
Definition from_january (y0 : Z) (d : datum) : record :=
  mkrec (y0 + Z.of_nat (fst d / 12)) (Z.of_nat (fst d mod 12) + 1) (snd d).
(** the dates when the first month is month m0 of year y0, within that year *)
Definition within_year (y0 m0 : Z) (d : datum) : record := mkrec y0 (m0 + Z.of_nat (fst d)) (snd d).

(** ** The greatest value and its place *)

Lemma fold_max_ge : forall l a, a <= fold_left Qmax l a /\ (forall x, In x l -> x <= fold_left Qmax l a).
Proof.
  induction l as [|b r IH]; intros a; cbn [fold_left]; [split; [apply Qle_refl|intros x []]|].
  destruct (IH (Qmax a b)) as [H1 H2]. split; [eapply Qle_trans; [apply Q.le_max_l|apply H1]|].
  intros x [<-|Hx]; [eapply Qle_trans; [apply Q.le_max_r|apply H1]|now apply H2].
Qed.
Lemma fold_max_in : forall l a, fold_left Qmax l a == a \/ exists x, In x l /\ fold_left Qmax l a == x.
Proof.
  induction l as [|b r IH]; intros a; cbn [fold_left]; [left; reflexivity|].
  destruct (IH (Qmax a b)) as [H|(x & Hx & H)]; [|right; exists x; split; [now right|exact H]].
  destruct (Q.max_spec a b) as [[_ E]|[_ E]]; [right; exists b; split; [now left|now rewrite H, E]|left; now rewrite H, E].
Qed.
Lemma amax_ge l j : (j < length l)%nat -> get 0 l j <= amax l.
Proof.
  destruct l as [|a r]; cbn [length amax]; [lia|]. intros Hj. destruct (fold_max_ge r a) as [H1 H2].
  destruct j; [exact H1|]. apply H2. unfold get; cbn [nth]. apply nth_In. lia.
Qed.
Lemma amax_in l : l <> [] -> exists x, In x l /\ x == amax l.
Proof.
  destruct l as [|a r]; [easy|]. intros _. cbn [amax]. destruct (fold_max_in r a) as [H|(x & Hx & H)];
  [exists a; split; [now left|now rewrite H]|exists x; split; [now right|now rewrite H]].
Qed.
Lemma first_at_spec v : forall l, (exists x, In x l /\ x == v) ->
  (first_at v l < length l)%nat /\ get 0 l (first_at v l) == v /\ forall j, (j < first_at v l)%nat -> ~ get 0 l j == v.
Proof.
  induction l as [|a r IH]; intros (x & Hx & E); [destruct Hx|]. cbn [first_at length].
  destruct (Qeq_bool a v) eqn:Ea; [split; [lia|split; [now apply Qeq_bool_iff|intros j Hj; lia]]|].
  destruct IH as (H1 & H2 & H3);
  [exists x; split; [destruct Hx as [<-|Hx]; [rewrite <- Qeq_bool_iff in E; congruence|exact Hx]|exact E]|].
  split; [lia|]. split; [exact H2|]. intros [|j] Hj; [unfold get; cbn [nth]; rewrite <- Qeq_bool_iff; congruence|].
  apply H3. lia.
Qed.

(** ** The loop *)

Section run.
  (** the dates of the months, with as many as 240 months of which the first K+1 occur:
      the month changes at every step and the year at every twelfth *)
  Variables (Y M : nat -> Z) (K : nat).
  Hypothesis HM : forall k, (k < K)%nat -> M (S k) <> M k.
  Hypothesis HY : forall k, (k < K)%nat -> (Y (S k) =? Y k)%Z = negb (Nat.eqb (S k mod 12) 0).

  Definition lab (d : datum) : record := mkrec (Y (fst d)) (M (fst d)) (snd d).

  Definition inv (k : nat) (F : nat -> Q) (s : state) : Prop :=
    length (sums s) = 240%nat /\ (forall j, (j < k)%nat -> (j < 240)%nat -> get 0 (sums s) j == F j) /\
    (forall j, (k <= j)%nat -> get 0 (sums s) j == 0) /\ rain_sum s == F k /\
    year_index s = (k / 12)%nat /\ month_index s = (k mod 12)%nat /\ last_year s = Y k /\ last_month s = M k /\
    (forall j, (k < j)%nat -> F j == 0).

  Definition plus (F : nat -> Q) (d : datum) (j : nat) : Q := F j + (if Nat.eqb (fst d) j then snd d else 0).

  Lemma split12 k : (12 * (k / 12) + k mod 12 = k)%nat.
  Proof. symmetry. apply Nat.div_mod_eq. Qed.

  Lemma next12 k : ((k mod 12 + 1) mod 12 = S k mod 12)%nat /\
    (S k / 12 = if Nat.eqb (S k mod 12) 0 then k / 12 + 1 else k / 12)%nat.
  Proof.
    assert (Hr : (k mod 12 < 12)%nat) by (apply Nat.mod_upper_bound; lia).
    pose proof (split12 k) as E. set (q := (k / 12)%nat) in *. set (r := (k mod 12)%nat) in *.
    destruct (Nat.eq_dec r 11) as [->|Hn].
    - replace (S k) with ((q + 1) * 12)%nat by lia. rewrite Nat.mod_mul, Nat.div_mul by lia. split; reflexivity.
    - assert (Em : (S k mod 12 = r + 1)%nat) by (symmetry; apply (Nat.mod_unique (S k) 12 q); lia).
      assert (Ed : (S k / 12 = q)%nat) by (symmetry; apply (Nat.div_unique (S k) 12 q (r + 1)); lia).
      rewrite Em, Ed. replace (Nat.eqb (r + 1) 0) with false by (symmetry; apply Nat.eqb_neq; lia).
      split; [apply Nat.mod_small; lia|reflexivity].
  Qed.

  Lemma step_inv k F s d : inv k F s -> (fst d = k \/ (fst d = S k /\ (k < K)%nat)) -> (fst d <= 240)%nat ->
    exists s', step false s (lab d) = Ok s' /\ inv (fst d) (plus F d) s'.
  Proof.
    intros (H1 & H2 & H3 & H4 & H5 & H6 & H7 & H8 & H9) Hd Hb. destruct d as [k' r]; cbn [fst] in *.
    unfold step, lab; cbn [month year rain fst snd]. rewrite H7, H8. destruct Hd as [->|[-> Hk]].
    - rewrite !Z.eqb_refl. cbn [negb orb]. unfold rbind. eexists. split; [reflexivity|].
      repeat split; cbn [sums rain_sum year_index month_index last_year last_month]; auto.
      + intros j Hj Hj'. unfold plus; cbn [fst]. rewrite H2 by assumption.
        replace (Nat.eqb k j) with false by (symmetry; apply Nat.eqb_neq; lia). lra.
      + unfold plus; cbn [fst snd]. rewrite Nat.eqb_refl, H4. reflexivity.
      + intros j Hj. unfold plus; cbn [fst]. rewrite (H9 j Hj).
        replace (Nat.eqb k j) with false by (symmetry; apply Nat.eqb_neq; lia). lra.
    - replace (M (S k) =? M k)%Z with false by (symmetry; apply Z.eqb_neq; now apply HM).
      rewrite (HY k Hk), H5, H6, (split12 k). cbn [negb orb].
      replace (Nat.ltb (k / 12) 20) with true
        by (symmetry; apply Nat.ltb_lt; apply Nat.div_lt_upper_bound; lia).
      unfold rbind. destruct (next12 k) as [E1 E2]. rewrite orb_false_r, Bool.negb_involutive.
      assert (Ht : forall j, get 0 (set (sums s) k (rain_sum s)) j == if Nat.eqb k j then F k else get 0 (sums s) j).
      { intros j. destruct (Nat.eqb_spec k j) as [<-|Hn]; [rewrite get_set_same by lia; exact H4|now rewrite get_set_other by assumption]. }
      assert (HY' : Nat.eqb (S k mod 12) 0 = false -> Y k = Y (S k)).
      { intros E0. specialize (HY k Hk). rewrite E0 in HY. cbn [negb] in HY. apply Z.eqb_eq in HY. now symmetry. }
      destruct (Nat.eqb (S k mod 12) 0) eqn:E0;
        (eexists; split; [reflexivity|]); unfold inv; cbn [sums rain_sum year_index month_index last_year last_month];
        refine (conj _ (conj _ (conj _ (conj _ (conj _ (conj _ (conj _ (conj _ _))))))));
        try (now rewrite set_length); try assumption; try (now rewrite E2); try reflexivity; try (now apply HY').
      all: try (intros j Hj Hj'; rewrite Ht; unfold plus; cbn [fst];
            replace (Nat.eqb (S k) j) with false by (symmetry; apply Nat.eqb_neq; lia);
            destruct (Nat.eqb_spec k j) as [<-|Hn]; [lra|rewrite H2 by lia; lra]).
      all: try (intros j Hj; rewrite Ht; replace (Nat.eqb k j) with false by (symmetry; apply Nat.eqb_neq; lia); apply H3; lia).
      all: try (unfold plus; cbn [fst snd]; rewrite Nat.eqb_refl, (H9 (S k)) by lia; reflexivity).
      all: intros j Hj; unfold plus; cbn [fst]; rewrite (H9 j) by lia;
            replace (Nat.eqb (S k) j) with false by (symmetry; apply Nat.eqb_neq; lia); lra.
  Qed.

  Lemma last_step k F s x : inv k F s -> (k < 240)%nat ->
    exists s', step true s x = Ok s' /\ length (sums s') = 240%nat /\ forall j, (j < 240)%nat -> get 0 (sums s') j == F j.
  Proof.
    intros (H1 & H2 & H3 & H4 & H5 & H6 & H7 & H8 & H9) Hk. unfold step. rewrite !orb_true_r, H5, H6, (split12 k).
    replace (Nat.ltb (k / 12) 20) with true by (symmetry; apply Nat.ltb_lt; apply Nat.div_lt_upper_bound; lia).
    unfold rbind. eexists. split; [reflexivity|]. cbn [sums]. split; [now rewrite set_length|].
    intros j Hj. destruct (Nat.eq_dec k j) as [<-|Hn]; [rewrite get_set_same by lia; exact H4|].
    rewrite get_set_other by assumption. destruct (Nat.lt_ge_cases j k) as [Hl|Hl]; [now apply H2|].
    rewrite (H3 j), (H9 j) by lia. reflexivity.
  Qed.

  Lemma loop_inv : forall rs k F s x, inv k F s -> consecutive k rs -> (k < 240)%nat ->
    (forall d, In d rs -> (fst d <= K)%nat /\ (fst d < 240)%nat) ->
    exists s', loop s (map lab rs ++ [x]) = Ok s' /\ length (sums s') = 240%nat /\
               forall j, (j < 240)%nat -> get 0 (sums s') j == F j + fallen rs j.
  Proof.
    induction rs as [|d r IH]; intros k F s x Hi Hc Hk Hb.
    - destruct (last_step k F s x Hi Hk) as (s' & E & Hl & Hv). cbn [map app loop]. rewrite E. cbn [rbind].
      exists s'. split; [reflexivity|]. split; [exact Hl|]. intros j Hj. rewrite (Hv j Hj). unfold fallen. rewrite qsuml_nil. lra.
    - cbn [map app loop]. destruct d as [k' v]. cbn [consecutive] in Hc. destruct Hc as [Hd Hc].
      destruct (Hb (k', v) (or_introl eq_refl)) as [HbK Hb2]. cbn [fst] in HbK, Hb2.
      destruct (step_inv k F s (k', v) Hi) as (s' & E & Hi').
      { cbn [fst]. destruct Hd as [Hd|Hd]; [now left|right; split; [exact Hd|lia]]. }
      { cbn [fst]. lia. }
      replace (match map lab r ++ [x] with [] => true | _ :: _ => false end) with false by (destruct r; reflexivity).
      rewrite E. cbn [rbind]. cbn [fst] in Hi'.
      destruct (IH k' _ s' x Hi' Hc Hb2 (fun d Hd => Hb d (or_intror Hd))) as (s2 & E2 & Hl & Hv).
      exists s2. split; [exact E2|]. split; [exact Hl|]. intros j Hj. rewrite (Hv j Hj). unfold fallen. rewrite qsuml_cons.
      unfold plus; cbn [fst snd]. lra.
  Qed.

  Lemma find_labels d rs x : fst d = 0%nat -> consecutive 0 rs ->
    (forall d, In d rs -> (fst d <= K)%nat /\ (fst d < 240)%nat) ->
    exists k v, find_wettest_month (map lab (d :: rs) ++ [x])
              = Ok (Z.of_nat (k / 12) + Y 0, Z.of_nat (k mod 12) + 1, v)%Z /\ (k < 240)%nat /\ v == fallen (d :: rs) k /\
      (forall j, (j < 240)%nat -> fallen (d :: rs) j <= fallen (d :: rs) k) /\
      (forall j, (j < k)%nat -> fallen (d :: rs) j < fallen (d :: rs) k).
  Proof.
    intros H0 Hc Hb. unfold find_wettest_month.
    destruct (loop_inv (d :: rs) 0 (fun _ => 0) (mkst (tab 240 (fun _ => 0)) 0 0 0 (Y 0) (M 0)) x)
      as (s & E & Hl & Hv).
    - unfold inv; cbn [sums rain_sum year_index month_index last_year last_month].
      refine (conj _ (conj _ (conj _ (conj _ (conj _ (conj _ (conj _ (conj _ _)))))))); try reflexivity; [intros j Hj; lia|].
      intros j _. destruct (Nat.lt_ge_cases j 240) as [Hj|Hj]; [now rewrite get_tab by assumption|].
      rewrite get_overflow by (now rewrite tab_length). reflexivity.
    - destruct d as [k' v]. cbn [fst] in H0. subst k'. cbn [consecutive]. split; [now left|exact Hc].
    - lia.
    - intros d' [<-|Hd']; [rewrite H0; lia|now apply Hb].
    - cbn [map app]. cbn [map app] in E. 
      assert (Ey : year (lab d) = Y 0) by (unfold lab; cbn [year]; now rewrite H0).
      assert (Em : month (lab d) = M 0) by (unfold lab; cbn [month]; now rewrite H0).
      rewrite Ey, Em, E. cbn [rbind].
      set (k := first_at (amax (sums s)) (sums s)).
      destruct (first_at_spec (amax (sums s)) (sums s)) as (F1 & F2 & F3);
        [apply amax_in; intros En; rewrite En in Hl; discriminate|]. fold k in F1, F2, F3. rewrite Hl in F1.
      assert (Hv' : forall j, (j < 240)%nat -> get 0 (sums s) j == fallen (d :: rs) j) by (intros j Hj; rewrite (Hv j Hj); lra).
      exists k, (amax (sums s)). split; [reflexivity|]. split; [exact F1|].
      split; [rewrite <- F2; now apply Hv'|].
      assert (Hle : forall j, (j < 240)%nat -> fallen (d :: rs) j <= fallen (d :: rs) k).
      { intros j Hj. rewrite <- (Hv' j Hj), <- (Hv' k F1), F2. apply amax_ge. lia. }
      split; [exact Hle|]. intros j Hj. assert (Hj2 : (j < 240)%nat) by lia.
      specialize (Hle j Hj2). apply Qle_lteq in Hle. destruct Hle as [Hlt|He]; [exact Hlt|exfalso].
      apply (F3 j Hj). rewrite (Hv' j Hj2), He, <- (Hv' k F1). exact F2.
  Qed.

  Lemma loop_err : forall rs k F s, inv k F s -> consecutive k rs -> (k <= 240)%nat ->
    (forall d, In d rs -> (fst d <= K)%nat) -> (exists d, In d rs /\ (241 <= fst d)%nat) -> loop s (map lab rs) = Err IndexError.
  Proof.
    induction rs as [|d r IH]; intros k F s Hi Hc Hk HK (z & Hz & Hz2); [destruct Hz|].
    cbn [map loop]. destruct d as [k' v]. cbn [consecutive] in Hc. destruct Hc as [Hd Hc].
    pose proof (HK (k', v) (or_introl eq_refl)) as HbK. cbn [fst] in HbK.
    destruct (Nat.le_gt_cases k' 240) as [Hl|Hl].
    - destruct (step_inv k F s (k', v) Hi) as (s' & E & Hi').
      { cbn [fst]. destruct Hd as [Hd|Hd]; [now left|right; split; [exact Hd|lia]]. }
      { exact Hl. }
      assert (Hr : exists d, In d r /\ (241 <= fst d)%nat).
      { destruct Hz as [<-|Hz]; [cbn [fst] in Hz2; lia|now exists z]. }
      replace (match map lab r with [] => true | _ :: _ => false end) with false
        by (destruct r; [destruct Hr as (? & [] & _)|reflexivity]).
      rewrite E. cbn [rbind]. cbn [fst] in Hi'. exact (IH k' _ s' Hi' Hc Hl (fun d Hd => HK d (or_intror Hd)) Hr).
    - assert (Ek : k = 240%nat) by lia. assert (Ek' : k' = S k) by lia. subst k'.
      destruct Hi as (H1 & H2 & H3 & H4 & H5 & H6 & H7 & H8 & H9). unfold step, lab; cbn [month year rain fst snd]. rewrite H8.
      replace (M (S k) =? M k)%Z with false by (symmetry; apply Z.eqb_neq; apply HM; lia). cbn [negb orb].
      rewrite H5, Ek. reflexivity.
  Qed.
End run.

(** ** C100 *)

Lemma map_ext_app {A B} (f g : A -> B) l x : (forall a, f a = g a) -> map f l ++ [f x] = map g l ++ [g x].
Proof. intros H. now rewrite (map_ext f g H), H. Qed.

(** [C100_wettest] For records of consecutive months from January of a year, of at most
    twenty years, the reported year and month are those of the earliest wettest month of
    the records other than the last, with their rain. *)
Theorem C100_wettest : forall y0 d rs x, fst d = 0%nat -> consecutive 0 rs -> (forall d, In d rs -> (fst d < 240)%nat) ->
  exists k v, find_wettest_month (map (from_january y0) (d :: rs ++ [x]))
            = Ok (y0 + Z.of_nat (k / 12), Z.of_nat (k mod 12) + 1, v)%Z /\ v == fallen (d :: rs) k /\
    (forall j, (j < 240)%nat -> fallen (d :: rs) j <= fallen (d :: rs) k) /\
    (forall j, (j < k)%nat -> fallen (d :: rs) j < fallen (d :: rs) k).
Proof.
  intros y0 d rs x H0 Hc Hb.
  destruct (find_labels (fun k => y0 + Z.of_nat (k / 12))%Z (fun k => Z.of_nat (k mod 12) + 1)%Z 240) with (d := d) (rs := rs) (x := from_january y0 x)
    as (k & v & E & _ & Hv & Hm & Hf); try assumption.
  - intros k _ Hk. assert (Em : (S k mod 12 = k mod 12)%nat) by lia. destruct (next12 k) as [E1 _]. rewrite Em in E1.
    assert (Hr : (k mod 12 < 12)%nat) by (apply Nat.mod_upper_bound; lia).
    destruct (Nat.eq_dec (k mod 12) 11) as [E|E]; [rewrite E in E1; discriminate|].
    rewrite Nat.mod_small in E1 by lia. lia.
  - intros k _. destruct (next12 k) as [_ E2]. rewrite E2. destruct (Nat.eqb (S k mod 12) 0); cbn [negb];
      [apply Z.eqb_neq; lia|apply Z.eqb_refl].
  - intros d' Hd'. specialize (Hb d' Hd'). lia.
  - exists k, v. rewrite app_comm_cons, map_app. cbn [map]. cbn [map] in E. split; [|auto].
    replace (y0 + Z.of_nat (k / 12))%Z with (Z.of_nat (k / 12) + (y0 + Z.of_nat (0 / 12)))%Z by (cbn; lia). exact E.
Qed.
Print Assumptions C100_wettest.

Lemma fallen_dry rs x j : snd x == 0 -> fallen (rs ++ [x]) j == fallen rs j.
Proof.
  intros Hx. unfold fallen. rewrite qsuml_app, qsuml_cons, qsuml_nil. destruct (Nat.eqb (fst x) j); rewrite ?Hx; lra.
Qed.

(** [C100_dry_end] It is the wettest month of all the records when the last has no rain. *)
Theorem C100_dry_end : forall y0 d rs x, fst d = 0%nat -> consecutive 0 rs -> (forall d, In d rs -> (fst d < 240)%nat) ->
  snd x == 0 ->
  exists k v, find_wettest_month (map (from_january y0) (d :: rs ++ [x]))
            = Ok (y0 + Z.of_nat (k / 12), Z.of_nat (k mod 12) + 1, v)%Z /\ v == fallen (d :: rs ++ [x]) k /\
    forall j, (j < 240)%nat -> fallen (d :: rs ++ [x]) j <= fallen (d :: rs ++ [x]) k.
Proof.
  intros y0 d rs x H0 Hc Hb Hx. destruct (C100_wettest y0 d rs x H0 Hc Hb) as (k & v & E & Hv & Hm & _).
  exists k, v. split; [exact E|]. rewrite app_comm_cons. split; [rewrite (fallen_dry (d :: rs) x k Hx); exact Hv|].
  intros j Hj. rewrite (fallen_dry (d :: rs) x j Hx), (fallen_dry (d :: rs) x k Hx). now apply Hm.
Qed.
Print Assumptions C100_dry_end.

(** [C100_last_refuted] "The rain of the last record counts": it never does. *)
Theorem C100_last_refuted : forall xs y m a b, xs <> [] ->
  find_wettest_month (xs ++ [mkrec y m a]) = find_wettest_month (xs ++ [mkrec y m b]).
Proof.
  intros xs y m a b Hne.
  assert (H : forall xs s, match loop s (xs ++ [mkrec y m a]), loop s (xs ++ [mkrec y m b]) with
                           | Ok s1, Ok s2 => sums s1 = sums s2 | Err e1, Err e2 => e1 = e2 | _, _ => False end).
  { clear. induction xs as [|z zs IH]; intros s; cbn [app loop].
    - unfold step; cbn [year month]. rewrite !orb_true_r. destruct (Nat.ltb (year_index s) 20); cbn; reflexivity.
    - replace (match zs ++ [mkrec y m a] with [] => true | _ :: _ => false end) with false by (destruct zs; reflexivity).
      replace (match zs ++ [mkrec y m b] with [] => true | _ :: _ => false end) with false by (destruct zs; reflexivity).
      destruct (step false s z) as [s'|e]; cbn [rbind]; [apply IH|reflexivity]. }
  destruct xs as [|d r]; [easy|]. unfold find_wettest_month. cbn [app].
  specialize (H (d :: r) (mkst (tab 240 (fun _ => 0)) 0 0 0 (year d) (month d))). cbn [app] in H.
  destruct (loop _ (d :: r ++ [mkrec y m a])) as [s1|e1];
  destruct (loop _ (d :: r ++ [mkrec y m b])) as [s2|e2]; try contradiction; cbn [rbind]; now rewrite H.
Qed.
Print Assumptions C100_last_refuted.

Lemma january_months k : (Z.of_nat (S k mod 12) + 1 <> Z.of_nat (k mod 12) + 1)%Z.
Proof.
  intros Hk. assert (Em : (S k mod 12 = k mod 12)%nat) by lia. destruct (next12 k) as [E1 _]. rewrite Em in E1.
  assert (Hr : (k mod 12 < 12)%nat) by (apply Nat.mod_upper_bound; lia).
  destruct (Nat.eq_dec (k mod 12) 11) as [E|E]; [rewrite E in E1; discriminate|].
  rewrite Nat.mod_small in E1 by lia. lia.
Qed.

(** [C100_years_refuted] "max_years sets the years that are read": records that go on for two
    months or more after twenty years are refused, whatever was asked for. *)
Theorem C100_years_refuted : forall y0 d rs, fst d = 0%nat -> consecutive 0 rs -> (exists x, In x rs /\ (241 <= fst x)%nat) ->
  find_wettest_month (map (from_january y0) (d :: rs)) = Err IndexError.
Proof.
  intros y0 d rs H0 Hc (z & Hz & Hz2).
  assert (HK : exists K, forall a, In a (d :: rs) -> (fst a <= K)%nat).
  { clear. induction (d :: rs) as [|a r (K & IH)]; [exists 0%nat; intros a []|].
    exists (Nat.max (fst a) K). intros b [<-|Hb]; [lia|]. specialize (IH b Hb). lia. }
  destruct HK as (K & HK).
  assert (E : loop (mkst (tab 240 (fun _ => 0)) 0 0 0 (y0 + Z.of_nat (0 / 12)) (Z.of_nat (0 mod 12) + 1))
                   (map (from_january y0) (d :: rs)) = Err IndexError).
  { refine (loop_err (fun k => y0 + Z.of_nat (k / 12))%Z (fun k => Z.of_nat (k mod 12) + 1)%Z K _ _ (d :: rs) 0 (fun _ => 0) _ _ _ _ HK _).
    - intros k _. apply january_months.
    - intros k _. destruct (next12 k) as [_ E2]. rewrite E2. destruct (Nat.eqb (S k mod 12) 0); cbn [negb];
        [apply Z.eqb_neq; lia|apply Z.eqb_refl].
    - unfold inv; cbn [sums rain_sum year_index month_index last_year last_month].
      refine (conj _ (conj _ (conj _ (conj _ (conj _ (conj _ (conj _ (conj _ _)))))))); try reflexivity; [intros j Hj; lia|].
      intros j _. destruct (Nat.lt_ge_cases j 240) as [Hj|Hj]; [now rewrite get_tab by assumption|].
      rewrite get_overflow by (now rewrite tab_length). reflexivity.
    - destruct d as [k' v]. cbn [fst] in H0. subst k'. cbn [consecutive]. split; [now left|exact Hc].
    - lia.
    - exists z. split; [now right|exact Hz2]. }
  unfold find_wettest_month. cbn [map]. cbn [map] in E.
  replace (year (from_january y0 d)) with (y0 + Z.of_nat (0 / 12))%Z by (unfold from_january; cbn [year]; now rewrite H0).
  replace (month (from_january y0 d)) with (Z.of_nat (0 mod 12) + 1)%Z by (unfold from_january; cbn [month]; now rewrite H0).
  rewrite E. reflexivity.
Qed.
Print Assumptions C100_years_refuted.

(** [C100_start_refuted] "The reported month is the month of the dates": for records within a
    year that start in month m0, the earliest wettest month is reported m0 - 1 months early. *)
Theorem C100_start_refuted : forall y0 m0 d rs x, (1 <= m0)%Z -> fst d = 0%nat -> consecutive 0 rs ->
  (forall d, In d rs -> m0 + Z.of_nat (fst d) <= 12)%Z -> (exists j, (j < 12)%nat /\ 0 < fallen (d :: rs) j) ->
  exists k v, find_wettest_month (map (within_year y0 m0) (d :: rs ++ [x])) = Ok (y0, Z.of_nat k + 1, v)%Z /\
    v == fallen (d :: rs) k /\ (forall j, (j < 240)%nat -> fallen (d :: rs) j <= fallen (d :: rs) k) /\
    month (within_year y0 m0 (k, v)) = (Z.of_nat k + 1 + (m0 - 1))%Z.
Proof.
  intros y0 m0 d rs x Hm0 H0 Hc Hb (j0 & Hj0 & Hp).
  destruct (find_labels (fun _ => y0) (fun k => m0 + Z.of_nat k)%Z (Z.to_nat (12 - m0))) with (d := d) (rs := rs) (x := within_year y0 m0 x)
    as (k & v & E & Hk & Hv & Hm & Hf); try assumption.
  - intros k Hk. lia.
  - intros k Hk. rewrite Z.eqb_refl, Nat.mod_small by lia. reflexivity.
  - intros d' Hd'. specialize (Hb d' Hd'). lia.
  - assert (Hk12 : (k < 12)%nat).
    { destruct (Nat.lt_ge_cases k 12) as [H|H]; [exact H|exfalso].
      assert (Hz : fallen (d :: rs) k == 0).
      { unfold fallen. apply qsuml_zero. intros a Ha. destruct (Nat.eqb_spec (fst a) k) as [Ea|_]; [exfalso|reflexivity].
        destruct Ha as [<-|Ha]; [lia|]. specialize (Hb a Ha). lia. }
      specialize (Hm j0 ltac:(lia)). rewrite Hz in Hm. lra. }
    exists k, v. rewrite app_comm_cons, map_app. cbn [map]. cbn [map] in E. split; [|split; [exact Hv|split; [exact Hm|cbn [within_year month fst]; lia]]].
    rewrite Nat.div_small, Nat.mod_small in E by assumption. exact E.
Qed.
Print Assumptions C100_start_refuted.

Local Notation R y m v := (mkrec y%Z m%Z v).

(** [C100_winter_refuted] Records from October to March: the wettest month is January 2016,
    and April 2016 is reported. *)
Theorem C100_winter_refuted :
  find_wettest_month [R 2015 10 1; R 2015 11 2; R 2015 12 3; R 2016 1 9; R 2016 2 4; R 2016 3 0] = Ok (2016%Z, 4%Z, 9).
Proof. vm_compute. reflexivity. Qed.
Print Assumptions C100_winter_refuted.

(** [C100_gap_refuted] Records without February: the wettest month is March, and February is
    reported. *)
Theorem C100_gap_refuted : find_wettest_month [R 2015 1 1; R 2015 3 5; R 2015 4 2; R 2015 4 0] = Ok (2015%Z, 2%Z, 5).
Proof. vm_compute. reflexivity. Qed.
Print Assumptions C100_gap_refuted.

Example C100_case :
  find_wettest_month (map (from_january 2015) [(0%nat, 1); (0%nat, 2); (1%nat, 5); (2%nat, 4); (2%nat, 3); (2%nat, 8)]) = Ok (2015%Z, 3%Z, 7) /\
  consecutive 0 [(0%nat, 2); (1%nat, 5); (2%nat, 4); (2%nat, 3)].
Proof. split; [vm_compute; reflexivity|cbn; lia]. Qed.
