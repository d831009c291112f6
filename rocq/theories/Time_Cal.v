(** Calendar lemmas: day numbers and dates determine each other. *)

From Coq Require Import String List ZArith QArith Qround Qabs Bool Lia Lqa.
From Verif Require Import Time_Model.
Import ListNotations.
Open Scope Z_scope.

(** A statement about finitely many integers, checked one by one. *)
Fixpoint zrange (k : nat) (a : Z) : list Z :=
  match k with O => [] | S k' => a :: zrange k' (a + 1) end.
Lemma zrange_in k a x : a <= x < a + Z.of_nat k -> In x (zrange k a).
Proof.
  revert a. induction k as [|k IH]; intros a H; [lia|].
  cbn [zrange]. destruct (Z.eq_dec a x) as [->|]; [now left|]. right. apply IH. lia.
Qed.
Lemma zforall k a (f : Z -> bool) : forallb f (zrange k a) = true ->
  forall x, a <= x < a + Z.of_nat k -> f x = true.
Proof. intros H x Hx. rewrite forallb_forall in H. apply H, zrange_in, Hx. Qed.

Definition ylen (y : Z) : Z := if leap y then 366 else 365.

Lemma leap_spec y : leap y = true <-> (y mod 4 = 0 /\ (y mod 100 <> 0 \/ y mod 400 = 0)).
Proof.
  unfold leap. rewrite andb_true_iff, orb_true_iff, negb_true_iff, !Z.eqb_eq, Z.eqb_neq. tauto.
Qed.

Lemma div_step p k : 0 < k -> (p + 1) / k = p / k + (if (p + 1) mod k =? 0 then 1 else 0).
Proof.
  intro H. pose proof (Z.div_mod p k ltac:(lia)). pose proof (Z.mod_pos_bound p k H).
  destruct (Z.eqb_spec ((p + 1) mod k) 0) as [E|E].
  - pose proof (Z.div_mod (p + 1) k ltac:(lia)). nia.
  - pose proof (Z.div_mod (p + 1) k ltac:(lia)). pose proof (Z.mod_pos_bound (p + 1) k H). nia.
Qed.

Lemma mod_mult y k j : 0 < k -> 0 < j -> y mod (k * j) = 0 -> y mod k = 0.
Proof.
  intros A B H. apply Z.mod_divide in H; [|nia]. destruct H as [c ->].
  apply Z.mod_divide; [lia|]. exists (c * j). lia.
Qed.

Lemma year_step y : days_before_year (y + 1) = days_before_year y + ylen y.
Proof.
  unfold days_before_year, ylen. replace (y + 1 - 1) with (y - 1 + 1) by lia.
  rewrite !div_step by lia. replace (y - 1 + 1) with y by lia.
  pose proof (mod_mult y 4 25 ltac:(lia) ltac:(lia)) as M1.
  pose proof (mod_mult y 100 4 ltac:(lia) ltac:(lia)) as M2.
  change (4 * 25) with 100 in M1. change (100 * 4) with 400 in M2. unfold leap.
  destruct (Z.eqb_spec (y mod 4) 0), (Z.eqb_spec (y mod 100) 0), (Z.eqb_spec (y mod 400) 0);
    cbn [andb orb negb]; lia || (exfalso; auto).
Qed.

Lemma year_mono y k : 0 <= k -> days_before_year y + 365 * k <= days_before_year (y + k).
Proof.
  intro H. revert y. pattern k. apply natlike_ind; [|intros j Hj IH y|exact H].
  - intro y. replace (y + 0) with y by lia. lia.
  - replace (y + Z.succ j) with ((y + 1) + j) by lia. specialize (IH (y + 1)).
    rewrite year_step in IH. unfold ylen in IH. destruct (leap y); lia.
Qed.

Lemma month_le y m : 1 <= m <= 12 ->
  0 <= days_before_month y m /\ days_before_month y m + days_in_month y m <= ylen y /\
  (m < 12 -> days_before_month y (m + 1) = days_before_month y m + days_in_month y m).
Proof.
  intro H. unfold ylen.
  assert (C : m = 1 \/ m = 2 \/ m = 3 \/ m = 4 \/ m = 5 \/ m = 6 \/ m = 7 \/ m = 8 \/ m = 9
              \/ m = 10 \/ m = 11 \/ m = 12) by lia.
  unfold days_before_month, days_in_month.
  destruct C as [->|[->|[->|[->|[->|[->|[->|[->|[->|[->|[->| ->]]]]]]]]]]];
    destruct (leap y); cbn; lia.
Qed.

Lemma month_mono y m k : 0 <= k -> 1 <= m -> m + k < 12 ->
  days_before_month y m + days_in_month y m <= days_before_month y (m + 1 + k).
Proof.
  intros Hk. revert m. pattern k. apply natlike_ind; [|intros j Hj IH|exact Hk]; intros m H1 H2.
  - rewrite Z.add_0_r. destruct (month_le y m) as (_ & _ & E); [lia|]. rewrite E by lia. lia.
  - replace (m + 1 + Z.succ j) with ((m + 1) + 1 + j) by lia.
    specialize (IH (m + 1) ltac:(lia) ltac:(lia)).
    destruct (month_le y m) as (_ & _ & E); [lia|]. rewrite E in IH by lia.
    assert (28 <= days_in_month y (m + 1)).
    { unfold days_in_month. destruct (leap y), (m + 1 =? 2), (m + 1 =? 4), (m + 1 =? 6), (m + 1 =? 9), (m + 1 =? 11); cbn; lia. }
    lia.
Qed.

Lemma valid_date_iff y m d : valid_date y m d = true <->
  1 <= y <= 9999 /\ 1 <= m <= 12 /\ 1 <= d <= days_in_month y m.
Proof.
  unfold valid_date. rewrite !andb_true_iff, !Z.leb_le. tauto.
Qed.

(** Day numbers are ordered like dates. *)
Lemma ordinal_lt y m d y' m' d' :
  1 <= m <= 12 -> 1 <= d <= days_in_month y m ->
  1 <= m' <= 12 -> 1 <= d' <= days_in_month y' m' ->
  (y < y' \/ (y = y' /\ (m < m' \/ (m = m' /\ d < d')))) ->
  ordinal y m d < ordinal y' m' d'.
Proof.
  intros Hm Hd Hm' Hd' L. unfold ordinal.
  destruct L as [L|[-> [L|[-> L]]]].
  - destruct (month_le y m Hm) as (_ & A & _). destruct (month_le y' m' Hm') as (B & _ & _).
    pose proof (year_mono (y + 1) (y' - (y + 1)) ltac:(lia)) as Y.
    replace (y + 1 + (y' - (y + 1))) with y' in Y by lia. rewrite year_step in Y. lia.
  - pose proof (month_mono y' m (m' - m - 1) ltac:(lia) ltac:(lia) ltac:(lia)) as M.
    replace (m + 1 + (m' - m - 1)) with m' in M by lia. lia.
  - lia.
Qed.

Lemma ordinal_inj y m d y' m' d' :
  1 <= m <= 12 -> 1 <= d <= days_in_month y m ->
  1 <= m' <= 12 -> 1 <= d' <= days_in_month y' m' ->
  ordinal y m d = ordinal y' m' d' -> (y, m, d) = (y', m', d').
Proof.
  intros Hm Hd Hm' Hd' E.
  destruct (Z.lt_total y y') as [L|[->|L]].
  - pose proof (ordinal_lt y m d y' m' d' Hm Hd Hm' Hd' ltac:(lia)). lia.
  - destruct (Z.lt_total m m') as [L|[->|L]].
    + pose proof (ordinal_lt y' m d y' m' d' Hm Hd Hm' Hd' ltac:(lia)). lia.
    + f_equal. unfold ordinal in E. lia.
    + pose proof (ordinal_lt y' m' d' y' m d Hm' Hd' Hm Hd ltac:(lia)). lia.
  - pose proof (ordinal_lt y' m' d' y m d Hm' Hd' Hm Hd ltac:(lia)). lia.
Qed.

(** ** The conversion from day number to date *)

(** Month and day from the day of the year (a finite table). *)
Definition md (lp : bool) (n : Z) : bool :=
  let dbm m := cum_days m + (if (2 <? m) && lp then 1 else 0) in
  let dim m := if m =? 2 then (if lp then 29 else 28)
               else if (m =? 4) || (m =? 6) || (m =? 9) || (m =? 11) then 30 else 31 in
  let month := (n + 50) / 32 in
  let m := if dbm month >? n then month - 1 else month in
  (1 <=? m) && (m <=? 12) && (1 <=? n - dbm m + 1) && (n - dbm m + 1 <=? dim m).

Lemma md_leap : forall n, 0 <= n < 366 -> md true n = true.
Proof. apply (zforall 366 0 (md true)). vm_compute. reflexivity. Qed.
Lemma md_common : forall n, 0 <= n < 365 -> md false n = true.
Proof. apply (zforall 365 0 (md false)). vm_compute. reflexivity. Qed.

Lemma of_ordinal_ok n : 1 <= n ->
  let '(y, m, d) := of_ordinal n in
  1 <= y /\ 1 <= m <= 12 /\ 1 <= d <= days_in_month y m /\ ordinal y m d = n.
Proof.
  intro Hn. unfold of_ordinal.
  set (n0 := n - 1). set (a := n0 / 146097). set (r1 := n0 mod 146097).
  set (b := r1 / 36524). set (r2 := r1 mod 36524).
  set (c := r2 / 1461). set (r3 := r2 mod 1461).
  set (e := r3 / 365). set (r4 := r3 mod 365).
  pose proof (Z.div_mod n0 146097 ltac:(lia)) as D1. pose proof (Z.mod_pos_bound n0 146097 ltac:(lia)) as B1.
  fold a r1 in D1. fold r1 in B1.
  pose proof (Z.div_mod r1 36524 ltac:(lia)) as D2. pose proof (Z.mod_pos_bound r1 36524 ltac:(lia)) as B2.
  fold b r2 in D2. fold r2 in B2.
  pose proof (Z.div_mod r2 1461 ltac:(lia)) as D3. pose proof (Z.mod_pos_bound r2 1461 ltac:(lia)) as B3.
  fold c r3 in D3. fold r3 in B3.
  pose proof (Z.div_mod r3 365 ltac:(lia)) as D4. pose proof (Z.mod_pos_bound r3 365 ltac:(lia)) as B4.
  fold e r4 in D4. fold r4 in B4.
  clearbody a r1 b r2 c r3 e r4. unfold n0 in *. clear n0.
  assert (Ha : 0 <= a) by lia. assert (Hb : 0 <= b <= 4) by lia.
  assert (Hc : 0 <= c <= 24) by lia. assert (He : 0 <= e <= 4) by lia.
  (* the year and its start, for every quarter position *)
  assert (Y : forall p q r, 0 <= p <= 3 -> 0 <= q <= 24 -> 0 <= r <= 3 ->
    days_before_year (a * 400 + 1 + p * 100 + q * 4 + r)
    = a * 146097 + p * 36524 + q * 1461 + r * 365 /\
    (leap (a * 400 + 1 + p * 100 + q * 4 + r) = true <-> r = 3 /\ (q <> 24 \/ p = 3))).
  { intros p q r Hp Hq Hr. set (y := a * 400 + 1 + p * 100 + q * 4 + r).
    assert (E4 : (y - 1) / 4 = a * 100 + p * 25 + q) by (symmetry; apply (Z.div_unique _ _ _ r); unfold y; lia).
    assert (E100 : (y - 1) / 100 = a * 4 + p) by (symmetry; apply (Z.div_unique _ _ _ (q * 4 + r)); unfold y; lia).
    assert (E400 : (y - 1) / 400 = a) by (symmetry; apply (Z.div_unique _ _ _ (p * 100 + q * 4 + r)); unfold y; lia).
    split.
    - unfold days_before_year. rewrite E4, E100, E400. unfold y. lia.
    - rewrite leap_spec.
      assert (M4 : y mod 4 = if r =? 3 then 0 else r + 1).
      { destruct (Z.eqb_spec r 3) as [->|];
          [symmetry; apply (Z.mod_unique _ _ (a * 100 + p * 25 + q + 1)); unfold y; lia
          |symmetry; apply (Z.mod_unique _ _ (a * 100 + p * 25 + q)); unfold y; lia]. }
      assert (M100 : y mod 100 = if q * 4 + r =? 99 then 0 else q * 4 + r + 1).
      { destruct (Z.eqb_spec (q * 4 + r) 99);
          [symmetry; apply (Z.mod_unique _ _ (a * 4 + p + 1)); unfold y; lia
          |symmetry; apply (Z.mod_unique _ _ (a * 4 + p)); unfold y; lia]. }
      assert (M400 : y mod 400 = if p * 100 + q * 4 + r =? 399 then 0 else p * 100 + q * 4 + r + 1).
      { destruct (Z.eqb_spec (p * 100 + q * 4 + r) 399);
          [symmetry; apply (Z.mod_unique _ _ (a + 1)); unfold y; lia
          |symmetry; apply (Z.mod_unique _ _ a); unfold y; lia]. }
      rewrite M4, M100, M400.
      destruct (Z.eqb_spec r 3), (Z.eqb_spec (q * 4 + r) 99), (Z.eqb_spec (p * 100 + q * 4 + r) 399); lia. }
  destruct ((e =? 4) || (b =? 4)) eqn:E.
  - (* last day of a leap year *)
    set (y := a * 400 + 1 + b * 100 + c * 4 + e - 1).
    assert (S : exists p q r, 0 <= p <= 3 /\ 0 <= q <= 24 /\ r = 3 /\ (q <> 24 \/ p = 3) /\
              y = a * 400 + 1 + p * 100 + q * 4 + r /\
              n - 1 = a * 146097 + p * 36524 + q * 1461 + r * 365 + 365).
    { apply orb_true_iff in E. rewrite !Z.eqb_eq in E. destruct (Z.eq_dec b 4) as [->|Nb].
      - exists 3, 24, 3. unfold y. lia.
      - exists b, c, 3. unfold y. lia. }
    destruct S as (p & q & r & Hp & Hq & -> & LL & Ey & En).
    destruct (Y p q 3 Hp Hq ltac:(lia)) as (Yd & Yl). rewrite <- Ey in Yd, Yl.
    assert (L : leap y = true) by (apply Yl; auto).
    split; [lia|]. split; [lia|]. split; [cbn; lia|].
    unfold ordinal, days_before_month. rewrite Yd, L. cbn. lia.
  - apply orb_false_iff in E as [E1 E2]. rewrite Z.eqb_neq in E1, E2.
    destruct (Y b c e ltac:(lia) Hc ltac:(lia)) as (Yd & Yl).
    set (y := a * 400 + 1 + b * 100 + c * 4 + e) in *. clearbody y.
    assert (M : md (leap y) r4 = true) by (destruct (leap y); [apply md_leap|apply md_common]; lia).
    unfold md in M.
    change (cum_days ?m + (if (2 <? ?m) && leap y then 1 else 0)) with (days_before_month y m) in M || idtac.
    fold (days_in_month y) in M || idtac.
    assert (Hy : 1 <= y).
    { destruct (Z_le_gt_dec 1 y) as [|G]; [assumption|]. exfalso.
      assert (days_before_year y <= -365).
      { pose proof (year_mono y (1 - y) ltac:(lia)) as Q. replace (y + (1 - y)) with 1 in Q by lia.
        change (days_before_year 1) with 0 in Q. lia. } lia. }
    cbv zeta in M. unfold ordinal, days_before_month, days_in_month in *.
    destruct (cum_days ((r4 + 50) / 32) +
              (if (2 <? (r4 + 50) / 32) && leap y then 1 else 0) >? r4);
      rewrite !andb_true_iff, !Z.leb_le in M; rewrite Yd; repeat split; lia.
Qed.

Lemma to_us_bounds t : valid_dt t = true ->
  0 <= to_us t /\ to_us t / us_per_day + 1 = ordinal (yr t) (mo t) (dy t) /\
  to_us t mod us_per_day = us_day t /\ 1 <= ordinal (yr t) (mo t) (dy t) <= max_ordinal.
Proof.
  unfold valid_dt. rewrite !andb_true_iff, Z.leb_le, Z.ltb_lt, valid_date_iff.
  intros [[(Hy & Hm & Hd) A] B].
  assert (O1 : 1 <= ordinal (yr t) (mo t) (dy t)).
  { destruct (Z.eq_dec (ordinal (yr t) (mo t) (dy t)) (ordinal 1 1 1)) as [E|E];
      [rewrite E; vm_compute; discriminate|].
    destruct (Z_lt_le_dec (ordinal 1 1 1) (ordinal (yr t) (mo t) (dy t))) as [L|L];
      [change (ordinal 1 1 1) with 1 in L; lia|].
    exfalso. apply E. 
    destruct (Z.eq_dec (yr t) 1) as [e1|n1]; [destruct (Z.eq_dec (mo t) 1) as [e2|n2];
      [destruct (Z.eq_dec (dy t) 1) as [e3|n3]; [now rewrite e1, e2, e3|]|]|];
      pose proof (ordinal_lt 1 1 1 (yr t) (mo t) (dy t) ltac:(lia) ltac:(cbn; lia) Hm Hd ltac:(lia)); lia. }
  assert (O2 : ordinal (yr t) (mo t) (dy t) <= max_ordinal).
  { change max_ordinal with (ordinal 9999 12 31).
    destruct (Z.eq_dec (yr t) 9999) as [e1|n1]; [destruct (Z.eq_dec (mo t) 12) as [e2|n2];
      [destruct (Z.eq_dec (dy t) 31) as [e3|n3]; [now rewrite e1, e2, e3|]|]|].
    - assert (dy t <= 31) by (rewrite e2 in Hd; change (days_in_month (yr t) 12) with 31 in Hd; lia).
      apply Z.lt_le_incl, ordinal_lt; first [exact Hm|exact Hd|lia|(cbn; lia)].
    - apply Z.lt_le_incl, ordinal_lt; first [exact Hm|exact Hd|lia|(cbn; lia)].
    - apply Z.lt_le_incl, ordinal_lt; first [exact Hm|exact Hd|lia|(cbn; lia)]. }
  unfold to_us. set (o := ordinal (yr t) (mo t) (dy t)) in *.
  assert (P : us_per_day = 86400000000) by reflexivity. rewrite P in *.
  split; [lia|]. split; [|split; [|lia]].
  - rewrite Z.div_add_l by lia. rewrite Z.div_small by lia. lia.
  - rewrite Z.add_comm, Z.mod_add by lia. apply Z.mod_small. lia.
Qed.

Lemma to_us_inj a b : valid_dt a = true -> valid_dt b = true -> to_us a = to_us b -> a = b.
Proof.
  intros A B E. destruct (to_us_bounds a A) as (_ & A1 & A2 & _).
  destruct (to_us_bounds b B) as (_ & B1 & B2 & _). rewrite E in A1, A2.
  assert (O : ordinal (yr a) (mo a) (dy a) = ordinal (yr b) (mo b) (dy b)) by lia.
  unfold valid_dt in A, B. rewrite !andb_true_iff, valid_date_iff in A, B.
  apply ordinal_inj in O; try tauto. destruct a, b; cbn in *. injection O as -> -> ->. congruence.
Qed.

Lemma add_us_ok t k t' : add_us t k = Ok t' -> valid_dt t' = true /\ to_us t' = to_us t + k.
Proof.
  unfold add_us. set (x := to_us t + k). set (n := x / us_per_day + 1).
  destruct ((1 <=? n) && (n <=? max_ordinal)) eqn:E; [|discriminate].
  apply andb_true_iff in E as [E1 E2]. apply Z.leb_le in E1, E2.
  pose proof (of_ordinal_ok n E1) as O. destruct (of_ordinal n) as [[y m] d].
  destruct O as (Oy & Om & Od & On). intro H. injection H as <-.
  assert (P : us_per_day = 86400000000) by reflexivity.
  pose proof (Z.mod_pos_bound x us_per_day ltac:(lia)) as B.
  pose proof (Z.div_mod x us_per_day ltac:(lia)) as D.
  split.
  - unfold valid_dt. cbn. rewrite !andb_true_iff, Z.leb_le, Z.ltb_lt, valid_date_iff.
    assert (Y9 : y <= 9999); [|tauto || (repeat split; lia)].
    destruct (Z_le_gt_dec y 9999) as [|G]; [assumption|]. exfalso.
    pose proof (ordinal_lt 9999 12 31 y m d ltac:(lia) ltac:(cbn; lia) Om Od ltac:(lia)) as Q.
    rewrite On in Q. change (ordinal 9999 12 31) with max_ordinal in Q. lia.
  - unfold to_us at 1. cbn [yr mo dy us_day]. rewrite On. unfold n. fold x.
    set (qq := x / us_per_day) in *. set (rr := x mod us_per_day) in *. clearbody qq rr.
    rewrite P in *. lia.
Qed.

Lemma add_us_of_valid t t' : valid_dt t' = true -> add_us t (to_us t' - to_us t) = Ok t'.
Proof.
  intro V. destruct (to_us_bounds t' V) as (_ & A & B & C).
  assert (exists r, add_us t (to_us t' - to_us t) = Ok r) as [r R].
  { unfold add_us. replace (to_us t + (to_us t' - to_us t)) with (to_us t') by lia. rewrite A.
    replace ((1 <=? ordinal (yr t') (mo t') (dy t')) && (ordinal (yr t') (mo t') (dy t') <=? max_ordinal))
      with true by (symmetry; apply andb_true_iff; split; apply Z.leb_le; lia).
    destruct (of_ordinal _) as [[y m] d]. eexists. reflexivity. }
  rewrite R. f_equal. apply add_us_ok in R as [Vr E]. apply to_us_inj; auto. lia.
Qed.

Lemma datetime_ok y m d h mi s t : datetime y m d h mi s = Ok t ->
  valid_dt t = true /\ yr t = y /\ mo t = m /\ dy t = d /\ us_day t = (h * 3600 + mi * 60 + s) * 1000000.
Proof.
  unfold datetime. destruct (_ && _) eqn:E; [|discriminate]. intro H. injection H as <-.
  cbn. rewrite !andb_true_iff, !Z.ltb_lt, !Z.leb_le in E.
  split; [|auto]. unfold valid_dt. cbn [yr mo dy us_day].
  rewrite !andb_true_iff, Z.leb_le, Z.ltb_lt. unfold us_per_day. intuition lia.
Qed.

(** ** Rounding to microseconds *)

Lemma round_even_near q : (Qabs (inject_Z (round_even q) - q) <= 1 # 2)%Q.
Proof.
  unfold round_even. pose proof (Qfloor_le q) as F. pose proof (Qlt_floor q) as G.
  rewrite inject_Z_plus in G. change (inject_Z 1) with 1%Q in G.
  set (f := Qfloor q) in *. clearbody f.
  assert (I : (inject_Z (f + 1) == inject_Z f + 1)%Q) by (rewrite inject_Z_plus; reflexivity).
  apply Qabs_Qle_condition.
  destruct (Qcompare_spec (q - inject_Z f) (1 # 2)) as [E|E|E].
  - destruct (Z.even f); [|rewrite I]; split; lra.
  - split; lra.
  - rewrite I. split; lra.
Qed.

Lemma round_even_int z q : (q == inject_Z z)%Q -> round_even q = z.
Proof.
  intro E. unfold round_even.
  assert (Fl : Qfloor q = z) by (rewrite E; apply Qfloor_Z). rewrite Fl.
  destruct (Qcompare_spec (q - inject_Z z) (1 # 2)) as [K|K|K]; [exfalso; lra|reflexivity|exfalso; lra].
Qed.

(** ** Months *)

Definition month_index (t : dt) : Z := 12 * yr t + (mo t - 1).

Lemma add_months_ok t a b t' : 1 <= mo t <= 12 -> add_months t a b = Ok t' ->
  month_index t' = month_index t + 12 * a + b /\ 1 <= mo t' <= 12 /\
  us_day t' = us_day t /\ dy t' = Z.min (days_in_month (yr t') (mo t')) (dy t).
Proof.
  intro Hm. unfold add_months.
  set (sgn := if b <? 0 then -1 else 1).
  set (a' := if 11 <? Z.abs b then a + sgn * (Z.abs b / 12) else a).
  set (b' := if 11 <? Z.abs b then sgn * (Z.abs b mod 12) else b).
  assert (AB : 12 * a' + b' = 12 * a + b /\ -11 <= b' <= 11).
  { unfold a', b', sgn. pose proof (Z.div_mod (Z.abs b) 12 ltac:(lia)).
    pose proof (Z.mod_pos_bound (Z.abs b) 12 ltac:(lia)).
    destruct (Z.ltb_spec 11 (Z.abs b)); destruct (Z.ltb_spec b 0); lia. }
  clearbody a' b'. unfold month_index.
  destruct (Z.ltb_spec 12 (mo t + b')) as [L1|L1];
    [|destruct (Z.ltb_spec (mo t + b') 1) as [L2|L2]];
    destruct (_ && _); intro H; try discriminate; injection H as <-; cbn [yr mo dy us_day];
    (split; [lia|split; [lia|split; reflexivity]]).
Qed.
