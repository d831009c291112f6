(** C38 (date strings), C39 (hhmm times), C40 (times since an origin). *)

From Coq Require Import String Ascii List ZArith NArith QArith Qround Qabs Bool Lia Lqa.
From Verif Require Import Time_Model Time_Spec Time_Proofs Time_Cal.
Import ListNotations.

(** ** C38: date and time strings *)

(** Writing six fields and splitting the string gives the six fields back, for
    all nonnegative integers (no upper bound on any field). *)
Theorem C38_fields_survive (y m1 d h m2 s : Z) :
  (0 <= y)%Z -> (0 <= m1)%Z -> (0 <= d)%Z -> (0 <= h)%Z -> (0 <= m2)%Z -> (0 <= s)%Z ->
  split_datetime_str_all
    (get_datetime_str y (inject_Z m1) (inject_Z d) (inject_Z h) (inject_Z m2) (inject_Z s))
  = Ok (y, m1, d, (h, m2, s)).
Proof.
  intros Hy H1 H2 H3 H4 H5.
  assert (T : forall z, (0 <= z)%Z -> (0 <= inject_Z z)%Q /\ trunc (inject_Z z) = z).
  { intros z Hz. assert (0 <= inject_Z z)%Q by (change 0%Q with (inject_Z 0); rewrite <- Zle_Qle; exact Hz).
    split; [assumption|]. unfold trunc. destruct (Qlt_le_dec (inject_Z z) 0); [lra|]. apply Qfloor_Z. }
  destruct (T _ H1) as [A1 B1]. destruct (T _ H2) as [A2 B2]. destruct (T _ H3) as [A3 B3].
  destruct (T _ H4) as [A4 B4]. destruct (T _ H5) as [A5 B5].
  rewrite get_then_split by assumption. now rewrite B1, B2, B3, B4, B5.
Qed.

(** Fractional fields lose their fraction and nothing else. *)
Theorem C38_fraction_dropped (y : Z) (m1 d h m2 s : Q) :
  (0 <= y)%Z -> (0 <= m1)%Q -> (0 <= d)%Q -> (0 <= h)%Q -> (0 <= m2)%Q -> (0 <= s)%Q ->
  split_datetime_str_all (get_datetime_str y m1 d h m2 s)
  = Ok (y, Qfloor m1, Qfloor d, (Qfloor h, Qfloor m2, Qfloor s)).
Proof.
  intros Hy H1 H2 H3 H4 H5. rewrite get_then_split by assumption.
  assert (T : forall q, (0 <= q)%Q -> trunc q = Qfloor q).
  { intros q Hq. unfold trunc. destruct (Qlt_le_dec q 0); [lra|reflexivity]. }
  now rewrite !T by assumption.
Qed.

(** A negative year is written but cannot be read back. *)
Theorem C38_negative_year_refuted :
  ~ (forall y m1 d h m2 s : Z, (0 <= m1)%Z -> (0 <= d)%Z -> (0 <= h)%Z -> (0 <= m2)%Z -> (0 <= s)%Z ->
     split_datetime_str_all
       (get_datetime_str y (inject_Z m1) (inject_Z d) (inject_Z h) (inject_Z m2) (inject_Z s))
     = Ok (y, m1, d, (h, m2, s))).
Proof.
  intro H. specialize (H (-5) 1 1 0 0 0 ltac:(lia) ltac:(lia) ltac:(lia) ltac:(lia) ltac:(lia))%Z.
  vm_compute in H. discriminate H.
Qed.

(** Standardizing a second time changes nothing, for strings with at least a
    full date in them. *)
Theorem C38_standardize_idempotent_partial (s : string) :
  (10 <= String.length s)%nat ->
  standardize_datetime_str (standardize_datetime_str s) = standardize_datetime_str s.
Proof. apply standardize_idem. Qed.

(** For shorter strings it does. *)
Theorem C38_standardize_idempotent_refuted :
  ~ (forall s, standardize_datetime_str (standardize_datetime_str s) = standardize_datetime_str s).
Proof. intro H. specialize (H "2015"%string). vm_compute in H. discriminate H. Qed.

(** Whatever stands between a ten-character date and an eight-character time
    becomes one space. *)
Theorem C38_standardize_any_separator (date sep time : string) :
  String.length date = 10%nat -> String.length time = 8%nat ->
  standardize_datetime_str (date ++ sep ++ time)%string = (date ++ " " ++ time)%string.
Proof. apply standardize_shape. Qed.

(** Strings from get_datetime_str are already standard when the year has four
    digits and the other fields two. *)
Theorem C38_written_strings_are_standard (y : Z) (m1 d h m2 s : Q) :
  (1000 <= y <= 9999)%Z -> (0 <= m1 < 100)%Q -> (0 <= d < 100)%Q -> (0 <= h < 100)%Q ->
  (0 <= m2 < 100)%Q -> (0 <= s < 100)%Q ->
  standardize_datetime_str (get_datetime_str y m1 d h m2 s) = get_datetime_str y m1 d h m2 s /\
  String.length (get_datetime_str y m1 d h m2 s) = 19%nat.
Proof.
  intros Hy H1 H2 H3 H4 H5. rewrite datetime_str_shape.
  set (a := (py_str y ++ String "-" (pad_with_zeros m1 2 ++ String "-" (pad_with_zeros d 2)))%string).
  set (b := (pad_with_zeros h 2 ++ String ":" (pad_with_zeros m2 2 ++ String ":" (pad_with_zeros s 2)))%string).
  assert (A : String.length a = 10%nat).
  { unfold a. rewrite length_app_s. cbn [String.length]. rewrite length_app_s. cbn [String.length].
    rewrite !pad2_length by assumption. rewrite py_str_nonneg by lia.
    rewrite (str_N_length _ 3); [reflexivity| |].
    - change (10 ^ N.of_nat 3)%N with 1000%N. lia.
    - change (10 ^ N.of_nat 4)%N with 10000%N. lia. }
  assert (B : String.length b = 8%nat).
  { unfold b. rewrite length_app_s. cbn [String.length]. rewrite length_app_s. cbn [String.length].
    now rewrite !pad2_length by assumption. }
  split; [exact (standardize_shape a " " b A B)|].
  rewrite length_app_s. cbn [String.length]. lia.
Qed.

Example C38_demo :
  get_datetime_str 2015 (inject_Z 3) (inject_Z 2) 0 (inject_Z 7) (119 # 2) = "2015-03-02 00:07:59"%string /\
  standardize_datetime_str "2015-10-01T00:30:00" = "2015-10-01 00:30:00"%string /\
  split_datetime_str_all "2015-10-01 00:30:00" = Ok (2015, 10, 1, (0, 30, 0))%Z.
Proof. vm_compute. auto. Qed.

(** ** C39: hhmm *)

Lemma two_digits_int n : (0 <= n < 100)%Z ->
  py_int (two_digits n) = Ok n /\ String.length (two_digits n) = 2%nat.
Proof.
  intro H. split; [|reflexivity].
  pose (f := fun n => match py_int (two_digits n) with Ok z => Z.eqb z n | Err _ => false end).
  assert (F : f n = true).
  { apply (zforall 100 0 f); [vm_compute; reflexivity|lia]. }
  unfold f in F. destruct (py_int (two_digits n)); [|discriminate]. apply Z.eqb_eq in F. now subst.
Qed.

(** A whole number of minutes is written as the number hhmm. *)
Theorem C39_minutes_to_hhmm (h m : Z) : (0 <= h)%Z -> (0 <= m < 60)%Z ->
  minutes_to_hhmm (inject_Z (60 * h + m)) = Ok (100 * h + m)%Z.
Proof.
  intros Hh Hm.
  destruct (minutes_parts (inject_Z (60 * h + m))) as (_ & _ & E).
  { change 0%Q with (inject_Z 0). rewrite <- Zle_Qle. lia. }
  rewrite E.
  assert (Fh : Qfloor (inject_Z (60 * h + m) / 60) = h).
  { unfold Qdiv. change (/ 60)%Q with (1 # 60)%Q.
    unfold Qfloor, Qmult, inject_Z. cbn [Qnum Qden].
    symmetry. apply (Z.div_unique _ _ _ m); lia. }
  rewrite Fh.
  assert (Fm : Qfloor (inject_Z (60 * h + m) - 60 * inject_Z h) = m).
  { transitivity (Qfloor (inject_Z m)); [|apply Qfloor_Z]. apply Qfloor_comp. rewrite inject_Z_plus, inject_Z_mult.
    change (inject_Z 60) with 60%Q. ring. }
  now rewrite Fm.
Qed.

(** A four-digit string is read as hours and minutes. *)
Theorem C39_hhmm_to_minutes (h m : Z) : (0 <= h < 100)%Z -> (0 <= m < 100)%Z ->
  hhmm_to_minutes (HStr (hhmm h m)) = Ok (60 * h + m)%Z.
Proof.
  intros Hh Hm. unfold hhmm. apply hhmm_parts; try lia; now apply two_digits_int.
Qed.

Lemma rmap_map {A B C} (f : A -> res B) (g : C -> A) (k : C -> B) l :
  Forall (fun x => f (g x) = Ok (k x)) l -> rmap f (map g l) = Ok (map k l).
Proof. induction 1 as [|x l E _ IH]; cbn; [reflexivity|]. now rewrite E, IH. Qed.

(** Strings to minutes and on to hhmm numbers gives the numbers the strings
    spell, for whole arrays. *)
Theorem C39_strings_to_numbers_partial (times : list (Z * Z)) :
  Forall (fun '(h, m) => (0 <= h < 100)%Z /\ (0 <= m < 60)%Z) times ->
  exists mins,
    convert_times_from_hhmm_to_minutes (map (fun '(h, m) => HStr (hhmm h m)) times) = Ok mins /\
    convert_times_from_minutes_to_hhmm (map inject_Z mins)
      = Ok (map (fun '(h, m) => (100 * h + m)%Z) times).
Proof.
  intro H. exists (map (fun '(h, m) => (60 * h + m)%Z) times). split.
  - apply (rmap_map hhmm_to_minutes). eapply Forall_impl; [|exact H]. intros [h m] [A B].
    apply C39_hhmm_to_minutes; lia.
  - rewrite map_map. apply (rmap_map minutes_to_hhmm). eapply Forall_impl; [|exact H].
    intros [h m] [A B]. apply C39_minutes_to_hhmm; lia.
Qed.

(** Padding an hhmm number back to four digits and reading it gives the
    minutes it came from: the conversions are inverse once the caller pads. *)
Theorem C39_inverse_after_padding (t : Z) : (0 <= t < 1440)%Z ->
  exists v, minutes_to_hhmm (inject_Z t) = Ok v /\
    hhmm_to_minutes (HStr (pad_with_zeros (inject_Z v) 4)) = Ok t.
Proof.
  intro H. pose proof (Z.div_mod t 60 ltac:(lia)). pose proof (Z.mod_pos_bound t 60 ltac:(lia)).
  exists (100 * (t / 60) + t mod 60)%Z. split.
  - rewrite H0 at 1. apply C39_minutes_to_hhmm; lia.
  - pose (f := fun t => match hhmm_to_minutes (HStr (pad_with_zeros (inject_Z (100 * (t / 60) + t mod 60)) 4)) with
                      Ok z => Z.eqb z t | Err _ => false end).
    assert (F : f t = true) by (apply (zforall 1440 0 f); [vm_compute; reflexivity|lia]).
    unfold f in F. destruct (hhmm_to_minutes _); [|discriminate]. apply Z.eqb_eq in F. now subst.
Qed.

(** Fractions of a minute are dropped. *)
Theorem C39_fraction_dropped (t : Q) : (0 <= t)%Q ->
  exists h m, minutes_to_hhmm t = Ok (100 * h + m)%Z /\ (0 <= m < 60)%Z /\
    (inject_Z (60 * h + m) <= t)%Q /\ (t < inject_Z (60 * h + m) + 1)%Q.
Proof.
  intro H. destruct (minutes_parts t H) as (Hh & Hm & E).
  set (h := Qfloor (t / 60)) in *. set (m := Qfloor (t - 60 * inject_Z h)) in *.
  exists h, m. split; [exact E|]. split; [exact Hm|].
  pose proof (Qfloor_le (t - 60 * inject_Z h)) as F1. pose proof (Qlt_floor (t - 60 * inject_Z h)) as F2.
  fold m in F1, F2. rewrite inject_Z_plus in F2. change (inject_Z 1) with 1%Q in F2.
  rewrite inject_Z_plus, inject_Z_mult. change (inject_Z 60) with 60%Q. split; lra.
Qed.

(** As called, the composition does not work: the numbers returned by one
    direction are refused by the other. *)
Theorem C39_inverse_refuted :
  ~ (forall t : Z, (0 <= t < 1440)%Z ->
       exists v, minutes_to_hhmm (inject_Z t) = Ok v /\ hhmm_to_minutes (HNum (inject_Z v)) = Ok t).
Proof. intro H. destruct (H 75%Z ltac:(lia)) as (v & _ & E). discriminate E. Qed.

(** Turning the numbers into strings without padding is no cure. *)
Theorem C39_unpadded_strings_refuted :
  ~ (forall t : Z, (0 <= t < 1440)%Z ->
       exists v, minutes_to_hhmm (inject_Z t) = Ok v /\ hhmm_to_minutes (HStr (py_str v)) = Ok t).
Proof.
  intro H. destruct (H 75%Z ltac:(lia)) as (v & A & E). vm_compute in A. injection A as <-.
  vm_compute in E. discriminate E.
Qed.

Example C39_demo :
  convert_times_from_hhmm_to_minutes [HStr "0115"; HStr "2359"] = Ok [75; 1439]%Z /\
  convert_times_from_minutes_to_hhmm [75; 1439 # 1]%Q = Ok [115; 2359]%Z.
Proof. vm_compute. auto. Qed.

(** ** C40: times since an origin *)

Lemma secs_fixed units secs : fixed_unit units secs ->
  (0 < secs)%Z /\ secs_per_unit units = Ok secs /\
  forall o t, exists x, get_datetime_from_time_since o t units = add_secs o x /\ (x == t * inject_Z secs)%Q.
Proof.
  intros [[-> ->]|[[-> ->]|[[-> ->]|[[-> ->]|[-> ->]]]]]; (split; [reflexivity|]; split; [reflexivity|]);
    intros o t; eexists; (split; [reflexivity|]); try reflexivity.
  rewrite Qmult_1_r. reflexivity.
Qed.

Lemma time_since_us o t units secs : fixed_unit units secs ->
  get_time_since_from_datetime o t units = Ok (inject_Z (to_us t - to_us o) / 1000000 / inject_Z secs)%Q.
Proof.
  intro U. destruct (secs_fixed _ _ U) as (_ & E & _).
  unfold get_time_since_from_datetime. rewrite E. reflexivity.
Qed.

Lemma forward_us o t units secs t' : fixed_unit units secs ->
  get_datetime_from_time_since o t units = Ok t' ->
  exists x, (x == t * inject_Z secs)%Q /\ valid_dt t' = true /\
            to_us t' = (to_us o + round_even (x * 1000000))%Z.
Proof.
  intros U H. destruct (secs_fixed _ _ U) as (_ & _ & F). destruct (F o t) as (x & E & X).
  rewrite E in H. unfold add_secs in H. apply add_us_ok in H as [V K]. exists x. auto.
Qed.

(** Going to the datetime and back gives the same number, when the number is a
    whole number of microseconds (the resolution of a datetime). *)
Theorem C40_forth_and_back (o t' : dt) (t : Q) (units : string) (secs k : Z) :
  fixed_unit units secs -> (t * inject_Z secs * 1000000 == inject_Z k)%Q ->
  get_datetime_from_time_since o t units = Ok t' ->
  exists r, get_time_since_from_datetime o t' units = Ok r /\ (r == t)%Q.
Proof.
  intros U K H. destruct (forward_us _ _ _ _ _ U H) as (x & X & V & E).
  rewrite (time_since_us o t' units secs U). eexists. split; [reflexivity|].
  assert (R : round_even (x * 1000000) = k).
  { apply round_even_int. rewrite X. exact K. }
  rewrite E, R. replace (to_us o + k - to_us o)%Z with k by lia. rewrite <- K.
  destruct (secs_fixed _ _ U) as (P & _). assert (~ inject_Z secs == 0)%Q.
  { change 0%Q with (inject_Z 0). rewrite inject_Z_injective. lia. }
  field. exact H0.
Qed.

(** For every number, the error is at most half a microsecond. *)
Theorem C40_forth_and_back_rounded (o t' : dt) (t : Q) (units : string) (secs : Z) :
  fixed_unit units secs ->
  get_datetime_from_time_since o t units = Ok t' ->
  exists r, get_time_since_from_datetime o t' units = Ok r /\
    (Qabs (r - t) * inject_Z secs <= 1 # 2000000)%Q.
Proof.
  intros U H. destruct (forward_us _ _ _ _ _ U H) as (x & X & V & E).
  rewrite (time_since_us o t' units secs U). eexists. split; [reflexivity|].
  rewrite E. set (k := round_even (x * 1000000)).
  pose proof (round_even_near (x * 1000000)) as N. fold k in N.
  replace (to_us o + k - to_us o)%Z with k by lia.
  destruct (secs_fixed _ _ U) as (P & _).
  assert (Sp : (0 < inject_Z secs)%Q) by (change 0%Q with (inject_Z 0); rewrite <- Zlt_Qlt; exact P).
  assert (A : (Qabs (inject_Z k / 1000000 / inject_Z secs - t) * inject_Z secs ==
               Qabs ((inject_Z k - x * 1000000) * (1 # 1000000)))%Q).
  { rewrite <- (Qabs_pos (inject_Z secs)) at 2 by lra. rewrite <- Qabs_Qmult. apply Qabs_wd.
    rewrite X. field. lra. }
  rewrite A, Qabs_Qmult, (Qabs_pos (1 # 1000000)) by (vm_compute; discriminate).
  clear A. set (q := Qabs (inject_Z k - x * 1000000)) in *. clearbody q. lra.
Qed.

(** Going to the number and back gives the same datetime. *)
Theorem C40_back_and_forth (o t : dt) (units : string) (secs : Z) :
  fixed_unit units secs -> valid_dt t = true ->
  exists r, get_time_since_from_datetime o t units = Ok r /\
    get_datetime_from_time_since o r units = Ok t.
Proof.
  intros U V. rewrite (time_since_us o t units secs U). eexists. split; [reflexivity|].
  destruct (secs_fixed _ _ U) as (P & _ & F).
  destruct (F o (inject_Z (to_us t - to_us o) / 1000000 / inject_Z secs)%Q) as (x & -> & X).
  unfold add_secs. rewrite (round_even_int (to_us t - to_us o)).
  - now apply add_us_of_valid.
  - rewrite X. field. change 0%Q with (inject_Z 0). rewrite inject_Z_injective. lia.
Qed.

(** The day after is one day later, whatever the month and year: the calendar
    counts every day once. *)
Theorem C40_next_day_is_one_day_later (o t : dt) :
  valid_dt o = true -> next_day (yr o) (mo o) (dy o) (yr t) (mo t) (dy t) -> us_day t = us_day o ->
  exists r, get_time_since_from_datetime o t "days" = Ok r /\ (r == 1)%Q.
Proof.
  intros V (len & L & C) Us.
  assert (U : fixed_unit "days" 86400) by (right; left; split; reflexivity).
  rewrite (time_since_us o t _ _ U). eexists. split; [reflexivity|].
  unfold valid_dt in V. rewrite !andb_true_iff, valid_date_iff in V.
  assert (E : (to_us t - to_us o = us_per_day)%Z).
  { unfold to_us. rewrite Us.
    assert (LE : days_in_month (yr o) (mo o) = len).
    { unfold days_in_month, month_length, leap_year in *.
      pose proof (leap_spec (yr o)) as LS. cbn [In] in L.
      destruct L as [[[<-|[<-|[<-|[<-|[<-|[<-|[<-|[]]]]]]]] ->]
                    |[[[<-|[<-|[<-|[<-|[]]]]] ->]|[(-> & Q & ->)|(-> & Q & ->)]]]; try reflexivity.
      - replace (leap (yr o)) with true by (symmetry; apply LS; exact Q). reflexivity.
      - destruct (leap (yr o)); [exfalso; apply Q, LS; reflexivity|reflexivity]. }
    destruct V as [[(Vy & Vm & Vd) _] _].
    assert (O : (ordinal (yr t) (mo t) (dy t) = ordinal (yr o) (mo o) (dy o) + 1)%Z).
    { destruct (month_le (yr o) (mo o) Vm) as (_ & _ & M).
      destruct C as [(a & -> & -> & ->)|[(a & b & -> & -> & ->)|(a & b & -> & -> & ->)]]; unfold ordinal.
      - lia.
      - rewrite M by exact b. lia.
      - rewrite year_step. rewrite b in *.
        unfold days_in_month in LE. unfold ylen, days_before_month. cbn in LE |- *.
        destruct (leap (yr o)), (leap (yr o + 1)); cbn; lia. }
    rewrite O. lia. }
  rewrite E. reflexivity.
Qed.

(** Adding months moves the month index by exactly that many, keeps the time
    of day, and keeps the day except where the month is too short. *)
Theorem C40_months_forth_and_back (o t' : dt) (n : Z) :
  valid_dt o = true ->
  get_datetime_from_time_since o (inject_Z n) "months" = Ok t' ->
  get_month_difference o t' = n /\ us_day t' = us_day o /\
  exists len, month_length (yr t') (mo t') len /\ dy t' = Z.min len (dy o).
Proof.
  intros V H. unfold get_datetime_from_time_since in H. cbn [String.eqb Ascii.eqb Bool.eqb] in H.
  assert (I : is_int (inject_Z n) = true) by (unfold is_int; rewrite Qfloor_Z; apply Qeq_bool_iff; reflexivity).
  rewrite I, Qfloor_Z in H. unfold valid_dt in V. rewrite !andb_true_iff, valid_date_iff in V.
  apply add_months_ok in H; [|tauto]. destruct H as (M & Mr & Us & D). unfold month_index in M.
  split; [unfold get_month_difference; lia|]. split; [exact Us|].
  exists (days_in_month (yr t') (mo t')). split; [|exact D].
  unfold month_length, leap_year. pose proof (leap_spec (yr t')) as LS.
  assert (C : (mo t' = 1 \/ mo t' = 2 \/ mo t' = 3 \/ mo t' = 4 \/ mo t' = 5 \/ mo t' = 6 \/ mo t' = 7
           \/ mo t' = 8 \/ mo t' = 9 \/ mo t' = 10 \/ mo t' = 11 \/ mo t' = 12)%Z) by (clear -Mr; lia).
  cbn [In]. destruct C as [E|[E|[E|[E|[E|[E|[E|[E|[E|[E|[E|E]]]]]]]]]]]; rewrite E;
    try (left; split; [tauto|reflexivity]); try (right; left; split; [tauto|reflexivity]).
  right; right. destruct (leap (yr t')) eqn:L.
  - left. split; [reflexivity|]. split; [now apply LS|]. unfold days_in_month. now rewrite L.
  - right. split; [reflexivity|]. split; [intro Q; apply LS in Q; congruence|].
    unfold days_in_month. now rewrite L.
Qed.

(** The month difference is antisymmetric and additive. *)
Theorem C40_month_difference_antisymmetric (a b : dt) :
  get_month_difference b a = (- get_month_difference a b)%Z.
Proof. unfold get_month_difference. lia. Qed.
Theorem C40_month_difference_additive (a b c : dt) :
  (get_month_difference a c = get_month_difference a b + get_month_difference b c)%Z.
Proof. unfold get_month_difference. lia. Qed.

(** Elapsed times are antisymmetric and additive too. *)
Theorem C40_time_since_additive (a b c : dt) (units : string) (secs : Z) :
  fixed_unit units secs ->
  exists x y z, get_time_since_from_datetime a b units = Ok x /\
    get_time_since_from_datetime b c units = Ok y /\
    get_time_since_from_datetime a c units = Ok z /\ (z == x + y)%Q.
Proof.
  intro U. rewrite !(time_since_us _ _ units secs U).
  do 3 eexists. do 3 (split; [reflexivity|]).
  replace (to_us c - to_us a)%Z with ((to_us b - to_us a) + (to_us c - to_us b))%Z by lia.
  rewrite inject_Z_plus. destruct (secs_fixed _ _ U) as (P & _).
  field. change 0%Q with (inject_Z 0). rewrite inject_Z_injective. lia.
Qed.

(** Years are not inverse: one direction uses the calendar, the other counts
    365 days. *)
Theorem C40_years_refuted :
  ~ (forall (o t' : dt) (n : Z), valid_dt o = true ->
       get_datetime_from_time_since o (inject_Z n) "years" = Ok t' ->
       exists r, get_time_since_from_datetime o t' "years" = Ok r /\ (r == inject_Z n)%Q).
Proof.
  intro H. specialize (H (mkdt 2016 1 1 0) (mkdt 2017 1 1 0) 1%Z eq_refl eq_refl).
  destruct H as (r & E & R). vm_compute in E. injection E as <-. vm_compute in R. discriminate R.
Qed.

(** Months have no way back, and unknown units are an error in both. *)
Theorem C40_no_time_since_in_months (o t : dt) :
  get_time_since_from_datetime o t "months" = Err KeyError.
Proof. reflexivity. Qed.
Theorem C40_unknown_units (o t : dt) (x : Q) (units : string) :
  ~ In units ["years"; "months"; "weeks"; "days"; "hours"; "minutes"; "seconds"]%string ->
  get_datetime_from_time_since o x units = Err UnboundLocalError /\
  get_time_since_from_datetime o t units = Err KeyError.
Proof.
  intro H. cbn [In] in H.
  unfold get_datetime_from_time_since, get_time_since_from_datetime, secs_per_unit.
  repeat match goal with
  | |- context [String.eqb units ?s] => destruct (String.eqb_spec units s); [exfalso; subst; tauto|]
  end. split; reflexivity.
Qed.

(** get_duration agrees with the conversion between the two datetimes. *)
Theorem C40_duration_is_time_since (d1 t1 d2 t2 units : string) (secs : Z) (a b : dt) :
  fixed_unit units secs -> units <> "weeks"%string ->
  get_datetime_obj_from_str d1 t1 = Ok a -> get_datetime_obj_from_str d2 t2 = Ok b ->
  forall x, get_duration d1 t1 d2 t2 units = Ok x ->
  exists r, get_time_since_from_datetime a b units = Ok r /\ (x == r)%Q.
Proof.
  intros U W A B x H. rewrite (time_since_us a b units secs U). eexists. split; [reflexivity|].
  unfold get_datetime_obj_from_str in A, B. unfold get_duration in H.
  destruct (split_date_str d1) as [[[y1 m1] dd1]|]; [|discriminate]. cbn [rbind] in A, H.
  destruct (split_time_str t1) as [[[h1 n1] s1]|]; [|discriminate]. cbn [rbind] in A, H.
  destruct (split_date_str d2) as [[[y2 m2] dd2]|]; [|discriminate]. cbn [rbind] in B, H.
  destruct (split_time_str t2) as [[[h2 n2] s2]|]; [|discriminate]. cbn [rbind] in B, H.
  cbv zeta in A, B.
  destruct (datetime y1 m1 dd1 h1 n1 s1) as [a'|] eqn:Da; [|discriminate]. cbn [rbind] in H.
  destruct (datetime y2 m2 dd2 h2 n2 s2) as [b'|] eqn:Db; [|discriminate]. cbn [rbind] in H.
  assert (Ya : (y1 <=? 0)%Z = false).
  { apply datetime_ok in Da as (V & Ey & _). unfold valid_dt in V.
    rewrite !andb_true_iff, valid_date_iff in V. apply Z.leb_gt. lia. }
  assert (Yb : (y2 <=? 0)%Z = false).
  { apply datetime_ok in Db as (V & Ey & _). unfold valid_dt in V.
    rewrite !andb_true_iff, valid_date_iff in V. apply Z.leb_gt. lia. }
  rewrite Ya, Da in A. rewrite Yb, Db in B. injection A as ->. injection B as ->.
  destruct U as [[-> ->]|[[-> ->]|[[-> ->]|[[-> ->]|[-> ->]]]]]; [congruence|..];
    cbn in H; injection H as <-; unfold total_seconds; try reflexivity.
  unfold Qdiv at 2. change (/ inject_Z 1)%Q with 1%Q. ring.
Qed.

Example C40_demo :
  exists o, datetime 2016 2 28 23 59 59 = Ok o /\ valid_dt o = true /\
    (exists t', get_datetime_from_time_since o (3 # 2) "days" = Ok t' /\ (yr t', mo t', dy t') = (2016, 3, 1)%Z) /\
    (exists t', get_datetime_from_time_since o (inject_Z (-27)) "months" = Ok t' /\ (yr t', mo t', dy t') = (2013, 11, 28)%Z) /\
    fixed_unit "days" 86400 /\ ((3 # 2) * inject_Z 86400 * 1000000 == inject_Z 129600000000)%Q /\
    next_day 2016 2 29 2016 3 1 /\
    get_duration "2014-01-01" "00:00:00" "2015-01-01" "00:00:00" "days" = Ok (31536000000000 # 86400000000).
Proof.
  eexists. split; [reflexivity|]. split; [reflexivity|].
  split; [eexists; split; vm_compute; reflexivity|]. split; [eexists; split; vm_compute; reflexivity|].
  split; [right; left; split; reflexivity|]. split; [vm_compute; reflexivity|]. split; [|vm_compute; reflexivity].
  exists 29%Z. split.
  - right; right; left. split; [reflexivity|]. split; [|reflexivity]. split; [reflexivity|]. left. vm_compute. discriminate.
  - right; left. repeat split.
Qed.

Print Assumptions C38_fields_survive.
Print Assumptions C38_fraction_dropped.
Print Assumptions C38_negative_year_refuted.
Print Assumptions C38_standardize_idempotent_partial.
Print Assumptions C38_standardize_idempotent_refuted.
Print Assumptions C38_standardize_any_separator.
Print Assumptions C38_written_strings_are_standard.
Print Assumptions C39_minutes_to_hhmm.
Print Assumptions C39_hhmm_to_minutes.
Print Assumptions C39_strings_to_numbers_partial.
Print Assumptions C39_inverse_after_padding.
Print Assumptions C39_fraction_dropped.
Print Assumptions C39_inverse_refuted.
Print Assumptions C39_unpadded_strings_refuted.
Print Assumptions C40_forth_and_back.
Print Assumptions C40_forth_and_back_rounded.
Print Assumptions C40_back_and_forth.
Print Assumptions C40_next_day_is_one_day_later.
Print Assumptions C40_months_forth_and_back.
Print Assumptions C40_month_difference_antisymmetric.
Print Assumptions C40_month_difference_additive.
Print Assumptions C40_time_since_additive.
Print Assumptions C40_years_refuted.
Print Assumptions C40_no_time_since_in_months.
Print Assumptions C40_unknown_units.
Print Assumptions C40_duration_is_time_since.
