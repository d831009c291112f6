(** C61: day of the year, equation of time, solar clock, angles of the terrain, latitude and longitude grids. *)
From Coq Require Import Reals ZArith List Lia Lra Psatz.
From Verif Require Import Solar_Model Solar_Spec Solar_Proofs Solar_Props Time_Spec.
Import ListNotations.
Local Open Scope R_scope.

(** * Julian_Day *)
Lemma months m : (1 <= m <= 12)%Z ->
  m = 1%Z \/ m = 2%Z \/ m = 3%Z \/ m = 4%Z \/ m = 5%Z \/ m = 6%Z \/ m = 7%Z \/ m = 8%Z \/ m = 9%Z \/ m = 10%Z \/ m = 11%Z \/ m = 12%Z.
Proof. lia. Qed.
Lemma month_cases y m len : month_length y m len -> (1 <= m <= 12)%Z.
Proof. intros [[H _]|[[H _]|[[-> _]|[-> _]]]]; [| |lia|lia]; simpl in H; lia. Qed.

Definition days_to (y4 : bool) (m : Z) : Z :=
  fold_right Z.add 0%Z (firstn (Z.to_nat m)
    (if y4 then [0; 31; 29; 31; 30; 31; 30; 31; 31; 30; 31; 30; 31]%Z else [0; 31; 28; 31; 30; 31; 30; 31; 31; 30; 31; 30; 31]%Z)).
Lemma julian_eq m d y : julian_day m d (Some y) = (days_to (Z.eqb (y mod 4) 0) m + Z.max (d - 1) 0)%Z.
Proof. unfold julian_day, month_days, days_to. destruct (Z.eqb _ _); reflexivity. Qed.
Lemma leap_four y : ~ (y mod 100 = 0 /\ y mod 400 <> 0)%Z -> (leap_year y <-> Z.eqb (y mod 4) 0 = true).
Proof.
  intro N. unfold leap_year. rewrite Z.eqb_eq. split; [tauto|]. intro E. split; [exact E|].
  destruct (Z.eq_dec (y mod 100) 0); [right|left; assumption].
  destruct (Z.eq_dec (y mod 400) 0); [assumption|]. exfalso. apply N. split; assumption.
Qed.
Definition mlen (y4 : bool) (m : Z) : Z :=
  if Z.eqb m 2 then (if y4 then 29 else 28) else if orb (Z.eqb m 4) (orb (Z.eqb m 6) (orb (Z.eqb m 9) (Z.eqb m 11))) then 30 else 31.
Lemma month_length_eq y m len : ~ (y mod 100 = 0 /\ y mod 400 <> 0)%Z -> month_length y m len ->
  len = mlen (Z.eqb (y mod 4) 0) m.
Proof.
  intros N L. pose proof (month_cases y m len L) as M. unfold month_length in L. rewrite (leap_four y N) in L.
  destruct (Z.eqb (y mod 4) 0);
    destruct (months m M) as [->|[->|[->|[->|[->|[->|[->|[->|[->|[->|[->| ->]]]]]]]]]]];
    cbn [In] in L; unfold mlen; cbn; try lia; destruct L as [?|[?|[?|?]]]; try lia; exfalso; intuition congruence.
Qed.
Lemma days_to_step y4 m : (1 <= m <= 11)%Z -> days_to y4 (m + 1) = (days_to y4 m + mlen y4 m)%Z.
Proof.
  intro M. assert (M' : (1 <= m <= 12)%Z) by lia.
  destruct y4; destruct (months m M') as [->|[->|[->|[->|[->|[->|[->|[->|[->|[->|[->| ->]]]]]]]]]]];
    try reflexivity; lia.
Qed.
Lemma days_to_range y4 m : (1 <= m <= 12)%Z -> (0 <= days_to y4 m /\ days_to y4 m + mlen y4 m <= if y4 then 366 else 365)%Z.
Proof.
  intro M. destruct y4; destruct (months m M) as [->|[->|[->|[->|[->|[->|[->|[->|[->|[->|[->| ->]]]]]]]]]]];
    split; vm_compute; discriminate.
Qed.

(** Julian_Day counts the days since the first of January, for every year in which "divisible by four" and
    "leap year" agree. *)
Definition plain_century (y : Z) : Prop := (y mod 100 = 0 /\ y mod 400 <> 0)%Z.
Theorem C61_first_day y : julian_day 1 1 (Some y) = 0%Z.
Proof. unfold julian_day, month_days. destruct (Z.eqb _ _); reflexivity. Qed.
Theorem C61_next_day y m d m' d' : ~ plain_century y -> (1 <= d)%Z -> next_day y m d y m' d' ->
  julian_day m' d' (Some y) = (julian_day m d (Some y) + 1)%Z.
Proof.
  intros N D [len [L H]]. pose proof (month_cases y m len L) as M. pose proof (month_length_eq y m len N L) as E.
  rewrite !julian_eq.
  destruct H as [[H [_ [-> ->]]]|[[-> [Hm [_ [-> ->]]]]|[_ [_ [H _]]]]]; [| |lia].
  - rewrite !Z.max_l by lia. lia.
  - rewrite days_to_step by lia. rewrite Z.max_r, Z.max_l by lia. lia.
Qed.
(* Without a year days are counted as in a year that is not a leap year. *)
Theorem C61_no_year y m d : ~ plain_century y -> ~ leap_year y -> julian_day m d None = julian_day m d (Some y).
Proof.
  intros N L. rewrite (leap_four y N) in L. unfold julian_day, month_days.
  destruct (Z.eqb (y mod 4) 0); [exfalso; apply L; reflexivity|reflexivity].
Qed.
Theorem C61_year_range y m d len : ~ plain_century y -> month_length y m len -> (1 <= d <= len)%Z ->
  (0 <= julian_day m d (Some y))%Z /\
  ((leap_year y /\ julian_day m d (Some y) <= 365)%Z \/ (~ leap_year y /\ julian_day m d (Some y) <= 364)%Z).
Proof.
  intros N L D. pose proof (month_cases y m len L) as M. pose proof (month_length_eq y m len N L) as E.
  rewrite julian_eq, Z.max_l by lia. pose proof (days_to_range (Z.eqb (y mod 4) 0) m M) as [A B].
  split; [lia|]. rewrite (leap_four y N). destruct (Z.eqb (y mod 4) 0); [left|right]; split; try lia; congruence.
Qed.
Example C61_a_leap_day : next_day 2024 2 28 2024 2 29 /\ next_day 2024 2 29 2024 3 1 /\
  ~ plain_century 2024 /\ julian_day 2 29 (Some 2024%Z) = 59%Z /\ julian_day 3 1 (Some 2024%Z) = 60%Z.
Proof.
  split; [|split; [|split; [|split; reflexivity]]].
  - exists 29%Z. split; [right; right; left; repeat split; [left; discriminate]|]. left. repeat split; lia.
  - exists 29%Z. split; [right; right; left; repeat split; [left; discriminate]|]. right. left. repeat split; lia.
  - intros [H _]. discriminate H.
Qed.
(** False for years like 1900 and 2100: the 29th of February is counted although there is none. *)
Theorem C61_next_day_refuted :
  ~ (forall y m d m' d', (1 <= d)%Z -> next_day y m d y m' d' ->
       julian_day m' d' (Some y) = (julian_day m d (Some y) + 1)%Z).
Proof.
  intro H. specialize (H 2100 2 28 3 1)%Z. 
  assert (N : next_day 2100 2 28 2100 3 1).
  { exists 28%Z. split.
    - right. right. right. repeat split. intros [_ [A|A]]; [apply A; reflexivity|discriminate A].
    - right. left. repeat split; lia. }
  specialize (H ltac:(lia) N). vm_compute in H. discriminate H.
Qed.

(** * The equation of time *)
Lemma tilt_bound : 0 < tilt / 2 < 3/10.
Proof. pose proof PI_bounds. unfold tilt, rad. lra. Qed.

Lemma sin_turns x k : sin (x - 2 * IZR k * PI) = sin x.
Proof.
  destruct (Z.le_gt_cases 0 k) as [K|K].
  - rewrite <- (sin_period (x - 2 * IZR k * PI) (Z.to_nat k)).
    rewrite INR_IZR_INZ, Z2Nat.id by lia. apply f_equal. ring.
  - rewrite <- (sin_period x (Z.to_nat (- k))).
    rewrite INR_IZR_INZ, Z2Nat.id by lia. rewrite opp_IZR. apply f_equal. ring.
Qed.

(** It stays below 33 minutes for every day of every year and every perihelion... *)
Theorem C61_equation_of_time_range perihelion jd year : Rabs (equation_of_time perihelion jd year) < 55/100.
Proof.
  unfold equation_of_time. cbv zeta.
  set (M := pymod _ _). set (L := M + _).
  pose proof (SIN_bound M) as A. pose proof (SIN_bound (2 * L)) as B. pose proof tilt_bound as T.
  pose proof PI_bounds as P. unfold orbit_eccentricity, rotation_rate.
  assert (Q : 0 <= (tilt / 2) ^ 2 <= 9/100) by (simpl; nra).
  set (q := (tilt / 2) ^ 2) in *. set (s := sin M) in *. set (r := sin (2 * L)) in *.
  assert (N : -13/100 < - (2) * (16713 / 1000000) * s + r * q < 13/100) by nra.
  set (x := - (2) * (16713 / 1000000) * s + r * q) in *.
  apply Rabs_def1.
  - apply (Rmult_lt_reg_r (2 * PI / 24)); [lra|]. replace (x / (2 * PI / 24) * (2 * PI / 24)) with x by (field; lra). lra.
  - apply (Rmult_lt_reg_r (2 * PI / 24)); [lra|]. replace (x / (2 * PI / 24) * (2 * PI / 24)) with x by (field; lra). lra.
Qed.
(** ... and although the equinox is counted in days from the year 2000, the year matters only through the day
    of the perihelion. *)
Theorem C61_equation_of_time_year p jd year :
  equation_of_time (fun _ => p) jd year = equation_of_time (fun _ => p) jd 2000.
Proof.
  unfold equation_of_time. cbv zeta. set (M := pymod _ _).
  unfold vernal_equinox.
  assert (D : days_per_year <> 0) by (unfold days_per_year; lra).
  assert (E : 2 * (M + 2 * PI * ((365 + p - (793125 / 10000 + days_per_year * (IZR year - 2000))) / days_per_year))
          = 2 * (M + 2 * PI * ((365 + p - (793125 / 10000 + days_per_year * (2000 - 2000))) / days_per_year))
            - 2 * IZR (2 * (year - 2000)) * PI).
  { rewrite mult_IZR, minus_IZR. field. exact D. }
  rewrite E, sin_turns. reflexivity.
Qed.

(** * The solar clock *)
(** Solar noon is within 33 minutes of twelve at the middle of the time zone, and one hour earlier for every 15
    degrees to the east. *)
Theorem C61_solar_noon perihelion jd year gmt lon : 
  Rabs (true_solar_noon perihelion jd (15 * gmt) gmt year - 12) < 55/100 /\
  true_solar_noon perihelion jd (lon + 15) gmt year = true_solar_noon perihelion jd lon gmt year - 1.
Proof.
  unfold true_solar_noon. split; [|field].
  replace (12 + (gmt * 15 - 15 * gmt) / 15 + equation_of_time perihelion jd year - 12)
    with (equation_of_time perihelion jd year) by field. apply C61_equation_of_time_range.
Qed.

Lemma int_part_unique r n : IZR n <= r < IZR n + 1 -> n = Int_part r.
Proof.
  intros [A B]. destruct (base_Int_part r) as [C D].
  assert (IZR n < IZR (Int_part r + 1)) by (rewrite plus_IZR; lra).
  assert (IZR (Int_part r) < IZR (n + 1)) by (rewrite plus_IZR; lra).
  apply lt_IZR in H, H0. lia.
Qed.
Lemma int_part_day n x : 0 <= x < 1 -> Int_part (IZR n + x) = n.
Proof. intro H. symmetry. apply int_part_unique. lra. Qed.

(** At a whole hour the solar clock shows the hours since solar noon. *)
Theorem C61_solar_clock perihelion year month day hour lon gmt : (0 <= hour <= 23)%Z ->
  let jd := julian_day_hour month day (IZR hour) (Some year) in
  tsn_offset perihelion year month day hour 0 lon gmt = IZR hour - true_solar_noon perihelion jd lon gmt year.
Proof.
  intros [H0 H1] jd. unfold tsn_offset. cbv zeta. fold jd. apply IZR_le in H0, H1.
  assert (E : Int_part jd = julian_day month day (Some year)) by (apply int_part_day; lra).
  rewrite E. unfold jd, julian_day_hour. field.
Qed.
(** Within the hour it stands still, so the full statement is false. *)
Theorem C61_solar_clock_refuted :
  ~ (forall perihelion year month day hour minute lon gmt, (0 <= hour <= 23)%Z -> (0 <= minute <= 59)%Z ->
       let jd := julian_day_hour month day (IZR hour + IZR minute / 60) (Some year) in
       Rabs (tsn_offset perihelion year month day hour minute lon gmt
             - (IZR hour + IZR minute / 60 - true_solar_noon perihelion jd lon gmt year)) < 5/10).
Proof.
  intro H. specialize (H (fun _ => 0) 2000%Z 1%Z 1%Z 0%Z 59%Z 0 0).
  specialize (H ltac:(lia) ltac:(lia)). cbv zeta in H.
  assert (K := C61_solar_clock (fun _ => 0) 2000 1 1 0 0 0 ltac:(lia)). cbv zeta in K.
  change (tsn_offset (fun _ => 0) 2000 1 1 0 59 0 0) with (tsn_offset (fun _ => 0) 2000 1 1 0 0 0 0) in H.
  rewrite K in H. clear K. unfold true_solar_noon in H.
  set (j1 := julian_day_hour 1 1 (IZR 0) (Some 2000%Z)) in *.
  set (j2 := julian_day_hour 1 1 (IZR 0 + IZR 59 / 60) (Some 2000%Z)) in *.
  (* the equation of time hardly moves within one hour *)
  assert (E : Rabs (equation_of_time (fun _ => 0) j1 2000 - equation_of_time (fun _ => 0) j2 2000) < 3/10).
  { assert (J1 : j1 = 0) by (unfold j1, julian_day_hour; rewrite C61_first_day; field).
    assert (J2 : j2 = 59/1440) by (unfold j2, julian_day_hour; rewrite C61_first_day; field).
    rewrite J1, J2. unfold equation_of_time. cbv zeta. pose proof PI_bounds as P.
    assert (Pm : forall x, 0 <= x < 2 * PI -> pymod (x + 2 * PI) (2 * PI) = x).
    { intros x X. unfold pymod.
      assert (I : Int_part ((x + 2 * PI) / (2 * PI)) = 1%Z).
      { symmetry. apply int_part_unique. replace ((x + 2 * PI) / (2 * PI)) with (1 + x / (2 * PI)) by (field; lra).
        assert (0 <= x / (2 * PI) < 1); [|lra]. split.
        - apply Rmult_le_pos; [lra|]. apply Rlt_le, Rinv_0_lt_compat. lra.
        - apply (Rmult_lt_reg_r (2 * PI)); [lra|]. replace (x / (2 * PI) * (2 * PI)) with x by (field; lra). lra. }
      rewrite I. ring. }
    set (e := 2 * PI / days_per_year * (59 / 1440 - 0)).
    assert (Eb : 0 <= e < 1/1000) by (unfold e, days_per_year; lra).
    replace (2 * PI / days_per_year * (0 - 0)) with 0 by ring.
    rewrite !Pm by lra. set (w := 2 * PI * ((365 + 0 - vernal_equinox 2000) / days_per_year)).
    rewrite sin_0. rewrite Rplus_0_l. unfold orbit_eccentricity, rotation_rate.
    pose proof tilt_bound as T. assert (Q : 0 <= (tilt / 2) ^ 2 <= 9/100) by (simpl; nra).
    set (q := (tilt / 2) ^ 2) in *.
    assert (S1 : 0 <= sin e <= e).
    { split; [apply sin_ge_0; lra|]. destruct (Req_dec e 0) as [Z|Z]; [rewrite Z, sin_0; lra|]. apply Rlt_le, sin_lt_x. lra. }
    assert (S2 : -(2/1000) <= sin (2 * w) - sin (2 * (e + w)) <= 2/1000).
    { rewrite form4. replace ((2 * w + 2 * (e + w)) / 2) with (2 * w + e) by field.
      replace ((2 * w - 2 * (e + w)) / 2) with (- e) by field. rewrite sin_neg.
      pose proof (COS_bound (2 * w + e)). nra. }
    set (x := sin (2 * w)) in *. set (y := sin (2 * (e + w))) in *.
    replace ((- (2) * (16713 / 1000000) * 0 + x * q) / (2 * PI / 24)
             - (- (2) * (16713 / 1000000) * sin e + y * q) / (2 * PI / 24))
      with (((x - y) * q + 2 * (16713 / 1000000) * sin e) * (12 / PI)) by (field; lra).
    assert (V : -(1/1000) <= (x - y) * q + 2 * (16713 / 1000000) * sin e <= 1/1000) by nra.
    set (v := (x - y) * q + 2 * (16713 / 1000000) * sin e) in *.
    assert (U : 0 < 12 / PI < 4).
    { split; [apply Rdiv_lt_0_compat; lra|]. apply (Rmult_lt_reg_r PI); [lra|].
      replace (12 / PI * PI) with 12 by (field; lra). lra. }
    apply Rabs_def1; nra. }
  set (t1 := equation_of_time (fun _ => 0) j1 2000) in *. set (t2 := equation_of_time (fun _ => 0) j2 2000) in *.
  clearbody t1 t2. cbn [IZR IPR IPR_2] in H.
  apply Rabs_def2 in H, E. lra.
Qed.

(** When the clock of the run is not that of the local time zone, the hours since noon leave the range in which
    Clear_Sky_Radiation switches the radiation on: in the afternoon of the Pacific, with times in UTC, the sun is
    up and the radiation is zero. *)
Theorem C61_any_clock_refuted :
  ~ (forall perihelion year month day hour lon gmt lat wp albedo dust,
       (0 <= hour <= 23)%Z -> -180 <= lon <= 180 -> -12 <= gmt <= 12 -> -90 < lat < 90 ->
       0 <= wp -> 0 <= dust -> 0 <= albedo ->
       let jd := julian_day_hour month day (IZR hour) (Some year) in
       let th := tsn_offset perihelion year month day hour 0 lon gmt in
       0 < sun_height lat (declination (day_angle jd)) th -> 0 < clear_sky lat jd wp th 0 0 albedo dust).
Proof.
  intro H. specialize (H (fun _ => 0) 2021%Z 7%Z 1%Z 2%Z (-150) 0 0 1 0 0).
  specialize (H ltac:(lia) ltac:(lra) ltac:(lra) ltac:(lra) ltac:(lra) ltac:(lra) ltac:(lra)). cbv zeta in H.
  rewrite C61_solar_clock in H by lia.
  set (jd := julian_day_hour 7 1 (IZR 2) (Some 2021%Z)) in *. unfold true_solar_noon in H.
  pose proof (C61_equation_of_time_range (fun _ => 0) jd 2021) as E. apply Rabs_def2 in E.
  set (te := equation_of_time (fun _ => 0) jd 2021) in *. clearbody te.
  rewrite C59_far_from_noon in H by (left; lra). apply (Rlt_irrefl 0), H.
  set (d := declination (day_angle jd)). pose proof (cos_declination_pos (day_angle jd)) as C. fold d in C.
  unfold sun_height, dot, sun, up. replace (0 * PI / 180) with 0 by field. rewrite cos_0, sin_0.
  set (th := 2 - (12 + (0 * 15 - -150) / 15 + te)).
  assert (P : 0 < cos (th * PI / 12)).
  { replace (th * PI / 12) with ((4 - te) * PI / 12 - 2 * PI) by (unfold th; field).
    rewrite cos_minus, cos_2PI, sin_2PI. pose proof PI_RGT_0.
    assert (0 < cos ((4 - te) * PI / 12)); [apply cos_gt_0; nra|lra]. }
  nra.
Qed.

(** * Terrain angles *)
Lemma pymod_range x y : 0 < y -> 0 <= pymod x y < y.
Proof.
  intro Y. unfold pymod. destruct (base_Int_part (x / y)) as [A B].
  assert (x = x / y * y) by (field; lra). set (i := IZR (Int_part (x / y))) in *. nra.
Qed.
Lemma pymod_trig x : cos (pymod x (2 * PI)) = cos x /\ sin (pymod x (2 * PI)) = sin x.
Proof.
  unfold pymod. set (k := Int_part (x / (2 * PI))). destruct (Z.le_gt_cases 0 k) as [K|K].
  - rewrite <- (cos_period (x - 2 * PI * IZR k) (Z.to_nat k)), <- (sin_period (x - 2 * PI * IZR k) (Z.to_nat k)).
    rewrite INR_IZR_INZ, Z2Nat.id by lia. split; f_equal; ring.
  - rewrite <- (cos_period x (Z.to_nat (- k))), <- (sin_period x (Z.to_nat (- k))).
    rewrite INR_IZR_INZ, Z2Nat.id by lia. rewrite opp_IZR. split; f_equal; ring.
Qed.

(** An aspect counted counterclockwise from east becomes the azimuth clockwise from north of the same
    direction, in [0, 2 pi). *)
Theorem C61_aspect a : 0 <= aspect_angle a < 2 * PI /\ sin (aspect_angle a) = cos a /\ cos (aspect_angle a) = sin a.
Proof.
  pose proof PI_RGT_0. unfold aspect_angle. split; [apply pymod_range; lra|].
  destruct (pymod_trig (2 * PI + (PI / 2 - a))) as [-> ->].
  replace (2 * PI + (PI / 2 - a)) with (PI / 2 - a + 2 * INR 1 * PI) by (simpl INR; ring).
  rewrite sin_period, cos_period. rewrite sin_shift, cos_shift. split; reflexivity.
Qed.
(** A slope (rise over run) becomes its angle; a negative slope makes the method give up. *)
Theorem C61_slope s : 
  (0 <= s -> exists b, slope_angle s = Some b /\ 0 <= b < PI / 2 /\ tan b = s) /\ (s < 0 -> slope_angle s = None).
Proof.
  pose proof PI_RGT_0 as P. pose proof (atan_bound s) as B. unfold slope_angle. cbv zeta. split; intro H.
  - assert (A : 0 <= atan s).
    { destruct H as [H| <-]; [|rewrite atan_0; lra]. rewrite <- atan_0. apply Rlt_le, atan_increasing, H. }
    assert (E : pymod (2 * PI + atan s) (2 * PI) = atan s).
    { unfold pymod. replace (Int_part ((2 * PI + atan s) / (2 * PI))) with 1%Z; [ring|].
      apply int_part_unique. replace ((2 * PI + atan s) / (2 * PI)) with (1 + atan s / (2 * PI)) by (field; lra).
      assert (0 <= atan s / (2 * PI) < 1); [|lra]. split.
      - apply Rmult_le_pos; [lra|]. apply Rlt_le, Rinv_0_lt_compat. lra.
      - apply (Rmult_lt_reg_r (2 * PI)); [lra|]. replace (atan s / (2 * PI) * (2 * PI)) with (atan s) by (field; lra). lra. }
    rewrite E. destruct (Rlt_dec (PI / 2) (atan s)); [lra|]. exists (atan s).
    split; [reflexivity|]. split; [lra|]. apply tan_atan.
  - assert (A : atan s < 0) by (rewrite <- atan_0; apply atan_increasing, H).
    assert (E : pymod (2 * PI + atan s) (2 * PI) = 2 * PI + atan s).
    { unfold pymod. replace (Int_part ((2 * PI + atan s) / (2 * PI))) with 0%Z; [ring|].
      apply int_part_unique. assert (0 <= (2 * PI + atan s) / (2 * PI) < 1); [|lra]. split.
      - apply Rmult_le_pos; [lra|]. apply Rlt_le, Rinv_0_lt_compat. lra.
      - apply (Rmult_lt_reg_r (2 * PI)); [lra|].
        replace ((2 * PI + atan s) / (2 * PI) * (2 * PI)) with (2 * PI + atan s) by (field; lra). lra. }
    rewrite E. destruct (Rlt_dec (PI / 2) (2 * PI + atan s)); [reflexivity|lra].
Qed.

(** * Latitude and longitude grids: cell centres, north at the top *)
Lemma nth_map_R {A B} (f : A -> B) l (d' : B) (d : A) i : (i < length l)%nat -> nth i (map f l) d' = f (nth i l d).
Proof. intro H. rewrite (nth_indep _ d' (f d)) by (rewrite map_length; exact H). apply map_nth. Qed.
Theorem C61_latitudes nrows ncols yres y_south r c : (r < nrows)%nat -> (c < ncols)%nat ->
  nth c (nth r (latitude_grid nrows ncols yres y_south) []) 0
  = y_south + (INR (nrows - r) - 1/2) * (yres / 3600).
Proof.
  intros R C. unfold latitude_grid. cbv zeta.
  set (l := rev _). assert (Ll : length l = nrows) by (unfold l; rewrite rev_length, map_length, seq_length; reflexivity).
  rewrite (nth_map_R _ _ _ 0) by (rewrite Ll; exact R). rewrite (nth_map_R _ _ 0 1) by (rewrite repeat_length; exact C).
  replace (nth c (repeat 1 ncols) 1) with 1 by (symmetry; apply nth_repeat).
  rewrite Rmult_1_r. unfold l. rewrite rev_nth by (rewrite map_length, seq_length; exact R).
  rewrite map_length, seq_length. rewrite (nth_map_R _ _ 0 0%nat) by (rewrite seq_length; lia).
  rewrite seq_nth by lia. cbn [Nat.add].
  assert (E : INR (nrows - r) = INR (nrows - S r) + 1).
  { rewrite <- S_INR. f_equal. lia. }
  rewrite E. field.
Qed.
Theorem C61_longitudes nrows ncols xres x_west r c : (r < nrows)%nat -> (c < ncols)%nat ->
  nth c (nth r (longitude_grid nrows ncols xres x_west) []) 0 = x_west + (INR c + 1/2) * (xres / 3600).
Proof.
  intros R C. unfold longitude_grid. cbv zeta. set (l := map _ (seq 0 ncols)).
  assert (Ll : length l = ncols) by (unfold l; rewrite map_length, seq_length; reflexivity).
  rewrite (nth_map_R _ _ _ 1) by (rewrite repeat_length; exact R). rewrite (nth_map_R _ _ 0 0) by (rewrite Ll; exact C).
  replace (nth r (repeat 1 nrows) 1) with 1 by (symmetry; apply nth_repeat).
  rewrite Rmult_1_l. unfold l. rewrite (nth_map_R _ _ 0 0%nat) by (rewrite seq_length; exact C).
  rewrite seq_nth by lia. cbn [Nat.add]. field.
Qed.
(** Every cell of a grid inside the range of latitudes has its centre there. *)
Theorem C61_latitudes_in_box nrows ncols yres y_south y_north r c : (r < nrows)%nat -> (c < ncols)%nat -> 0 < yres ->
  y_north = y_south + INR nrows * (yres / 3600) ->
  let lat := nth c (nth r (latitude_grid nrows ncols yres y_south) []) 0 in
  y_south < lat < y_north /\
  y_north - INR (S r) * (yres / 3600) < lat < y_north - INR r * (yres / 3600).
Proof.
  intros R C Y N lat. unfold lat. rewrite C61_latitudes by assumption. rewrite N.
  rewrite minus_INR by lia. rewrite S_INR. pose proof (pos_INR r). apply lt_INR in R.
  assert (0 < yres / 3600) by lra. set (q := yres / 3600) in *.
  assert (INR r + 1 <= INR nrows). { rewrite <- S_INR. apply le_INR. apply INR_lt in R. lia. }
  repeat split; nra.
Qed.

Print Assumptions C61_first_day.
Print Assumptions C61_next_day.
Print Assumptions C61_year_range.
Print Assumptions C61_next_day_refuted.
Print Assumptions C61_equation_of_time_range.
Print Assumptions C61_equation_of_time_year.
Print Assumptions C61_solar_noon.
Print Assumptions C61_solar_clock.
Print Assumptions C61_solar_clock_refuted.
Print Assumptions C61_any_clock_refuted.
Print Assumptions C61_aspect.
Print Assumptions C61_slope.
Print Assumptions C61_latitudes.
Print Assumptions C61_longitudes.
Print Assumptions C61_latitudes_in_box.
Print Assumptions C61_no_year.
