(** C114: the climate indices of basins. *)

From Coq Require Import Reals String List Arith Bool Lra Lia.
From Verif Require Import Time_Model Io_Model Index_Model.
Import ListNotations.
Local Open Scope string_scope.
Local Open Scope R_scope.

(** ** Specification *)

(** The share of snow of Woods (2009, eq. 12): temperature and precipitation vary over the year as sines, T is the mean
    temperature above the threshold over its amplitude and dp the amplitude of precipitation. *)
Definition woods (T dp : R) : R := 1 / 2 - asin T / PI - dp / PI * sqrt (1 - T ^ 2).

(** ** The share of snow *)

(** A percentage gives the share from 0 to 1; missing data (-9999) gives 0. *)
Theorem C114_snow : forall d u v, d "SNOW_PCT_PRECIP" = Some v -> lower u <> "percent" ->
  get_snow_precip_fraction d u = Ok (if Req_EM_T v (-9999) then 0 else v / 100) /\
  forall f, get_snow_precip_fraction d u = Ok f -> 0 <= v <= 100 \/ v = -9999 -> 0 <= f <= 1.
Proof.
  intros d u v H N. unfold get_snow_precip_fraction, look. rewrite H. cbn [rbind].
  apply String.eqb_neq in N. rewrite N. destruct (Req_EM_T v (-9999)) as [e | e].
  - split. { f_equal. field. } intros f K _. injection K as <-. lra.
  - split; auto. intros f K [L | L]; [injection K as <-; lra | easy].
Qed.
Print Assumptions C114_snow.

(** Refuted: the share can be had in percent.  The value is not assigned then. *)
Theorem C114_percent_refuted : forall d u v, d "SNOW_PCT_PRECIP" = Some v -> lower u = "percent" ->
  get_snow_precip_fraction d u = Err UnboundLocalError.
Proof. intros d u v H L. unfold get_snow_precip_fraction, look. rewrite H. cbn [rbind]. now rewrite L. Qed.
Print Assumptions C114_percent_refuted.

(** ** The timing of precipitation *)

(** the index before it is cut to [-0.999, 0.999] *)
Definition uncut (T f_s : R) : R := (PI - 2 * f_s * PI - 2 * asin T) / (2 * sqrt (1 - T ^ 2)).

Lemma inner : forall T f, -1 < T < 1 -> delta_p (Num T) f = Ok (Rmin (Rmax (uncut T f) (-999/1000)) (999/1000)).
Proof. intros T f [A B]. unfold delta_p. destruct (Rlt_dec (-1) T), (Rlt_dec T 1); try lra. reflexivity. Qed.
Lemma root_pos : forall T, -1 < T < 1 -> 0 < sqrt (1 - T ^ 2).
Proof. intros T H. apply sqrt_lt_R0. nra. Qed.
Lemma cut_bounds : forall x, -999/1000 <= Rmin (Rmax x (-999/1000)) (999/1000) <= 999/1000.
Proof.
  intros x. split; [|apply Rmin_r]. apply Rmin_glb; [apply Rmax_r | lra].
Qed.
Lemma cut_id : forall x, -999/1000 <= x <= 999/1000 -> Rmin (Rmax x (-999/1000)) (999/1000) = x.
Proof. intros x H. rewrite Rmax_left, Rmin_left; lra. Qed.

(** The index is a number in [-1, 1] whenever there is one; only where the range and the mean above 1 degree are both 0
    is there none. *)
Theorem C114_timing_range : forall T_avg T_rng f_s,
  (forall r, delta_p (T_bar_star T_avg T_rng) f_s = Ok r -> -1 <= r <= 1) /\
  (delta_p (T_bar_star T_avg T_rng) f_s = Err UnboundLocalError <-> T_rng = 0 /\ T_avg = 1) /\
  ((exists r, delta_p (T_bar_star T_avg T_rng) f_s = Ok r) <-> ~ (T_rng = 0 /\ T_avg = 1)).
Proof.
  intros a g f. unfold T_bar_star, xdiv.
  destruct (Req_EM_T (Rabs g / 2) 0) as [e | e].
  - assert (G : g = 0). { destruct (Req_dec g 0) as [|N]; auto. apply Rabs_pos_lt in N. lra. }
    destruct (Rlt_dec 0 (a - 1)) as [p | p]; [|destruct (Rlt_dec (a - 1) 0) as [q | q]]; cbn [delta_p].
    + split; [intros r K; injection K as <-; lra|]. split; split; try discriminate; intros; try (exists 1; reflexivity); lra.
    + split; [intros r K; injection K as <-; lra|]. split; split; try discriminate; intros; try (exists (-1); reflexivity); lra.
    + assert (A1 : a = 1) by lra. split; [discriminate|]. split.
      * split; auto.
      * split; [intros [r K]; discriminate | intros K; elim K; auto].
  - assert (G : g <> 0). { intros ->. rewrite Rabs_R0 in e. lra. }
    set (T := (a - 1) / (Rabs g / 2)).
    assert (A : exists r, delta_p (Num T) f = Ok r /\ -1 <= r <= 1).
    { unfold delta_p. destruct (Rlt_dec (-1) T), (Rlt_dec T 1); try destruct (Rle_dec T (-1)); eexists; (split; [reflexivity|]); try lra.
      pose proof (cut_bounds ((PI - 2 * f * PI - 2 * asin T) / (2 * sqrt (1 - T ^ 2)))). lra. }
    destruct A as (r & A & B). split; [intros r' K; rewrite A in K; injection K as <-; exact B|].
    rewrite A. split.
    + split; [discriminate | now intros [K _]].
    + split; [now intros _ [K _] | intros _; now exists r].
Qed.
Print Assumptions C114_timing_range.

(** Where the index is not cut it is the amplitude for which Woods' formula gives the share of snow; cut, it is the
    end of the range nearest to it. *)
Theorem C114_timing_woods : forall T f_s r, -1 < T < 1 -> delta_p (Num T) f_s = Ok r ->
  (-999/1000 < r < 999/1000 -> woods T r = f_s) /\
  (r = 999/1000 -> woods T r >= f_s) /\ (r = -999/1000 -> woods T r <= f_s) /\
  forall dp, woods T dp = f_s -> -999/1000 <= dp <= 999/1000 -> r = dp.
Proof.
  intros T f r H K. rewrite inner in K by auto. injection K as K. pose proof (root_pos T H) as P. pose proof PI_RGT_0 as PP.
  assert (W : forall dp, woods T dp = f + (uncut T f - dp) * (sqrt (1 - T ^ 2) / PI)).
  { intros dp. unfold woods, uncut. field. split; lra. }
  assert (Q : 0 < sqrt (1 - T ^ 2) / PI) by (now apply Rdiv_lt_0_compat).
  unfold Rmax in K. destruct (Rle_dec (uncut T f) (-999/1000)) as [c | c].
  - unfold Rmin in K. destruct (Rle_dec (-999/1000) (999/1000)); [|lra]. subst r.
    split; [intros; lra|]. split; [intros; lra|]. split.
    + intros _. rewrite W. nra.
    + intros dp E D. rewrite W in E. assert ((uncut T f - dp) * (sqrt (1 - T ^ 2) / PI) = 0) by lra.
      apply Rmult_integral in H0. destruct H0; lra.
  - unfold Rmin in K. destruct (Rle_dec (uncut T f) (999/1000)) as [g | g]; subst r.
    + split; [intros _; rewrite W; ring|]. split; [intros _; rewrite W; right; ring|]. split; [intros _; rewrite W; right; ring|].
      intros dp E D. rewrite W in E. assert ((uncut T f - dp) * (sqrt (1 - T ^ 2) / PI) = 0) by lra.
      apply Rmult_integral in H0. destruct H0; lra.
    + split; [intros; lra|]. split; [|split; [intros; lra|]].
      * intros _. rewrite W. nra.
      * intros dp E D. rewrite W in E. assert ((uncut T f - dp) * (sqrt (1 - T ^ 2) / PI) = 0) by lra.
        apply Rmult_integral in H0. destruct H0; lra.
Qed.
Print Assumptions C114_timing_woods.

(** The more snow, the smaller the index. *)
Theorem C114_timing_monotone : forall T f g r s, f <= g -> delta_p T f = Ok r -> delta_p T g = Ok s -> s <= r.
Proof.
  intros T f g r s L A B. destruct T as [T| | |]; cbn [delta_p] in A, B; try discriminate; try (injection A as <-; injection B as <-; lra).
  destruct (Rlt_dec (-1) T), (Rlt_dec T 1); try destruct (Rle_dec T (-1)); injection A as <-; injection B as <-; try lra.
  pose proof (root_pos T ltac:(lra)) as P. pose proof PI_RGT_0.
  assert (U : (PI - 2 * g * PI - 2 * asin T) / (2 * sqrt (1 - T ^ 2)) <= (PI - 2 * f * PI - 2 * asin T) / (2 * sqrt (1 - T ^ 2))).
  { unfold Rdiv. apply Rmult_le_compat_r; [left; apply Rinv_0_lt_compat; lra | nra]. }
  apply Rle_min_compat_r. now apply Rle_max_compat_r.
Qed.
Print Assumptions C114_timing_monotone.

(** By the symmetry of the year: freezing all year but for the same part, with the other share of snow, is the opposite. *)
Theorem C114_timing_mirror : forall T f_s r, T <> 1 -> T <> -1 -> delta_p (Num T) f_s = Ok r -> delta_p (Num (- T)) (1 - f_s) = Ok (- r).
Proof.
  intros T f r N1 N2 H. destruct (Rlt_dec (-1) T) as [a | a]; [destruct (Rlt_dec T 1) as [b | b]|].
  - rewrite inner in H by lra. rewrite inner by lra. injection H as <-. f_equal.
    assert (E : uncut (- T) (1 - f) = - uncut T f).
    { unfold uncut. rewrite asin_opp. replace ((- T) ^ 2) with (T ^ 2) by ring. pose proof (root_pos T ltac:(lra)). field. lra. }
    rewrite E. unfold Rmax, Rmin. repeat destruct (Rle_dec _ _); lra.
  - unfold delta_p in *. destruct (Rlt_dec (-1) T), (Rlt_dec T 1); try lra. destruct (Rle_dec T (-1)); try lra. injection H as <-.
    destruct (Rlt_dec (-1) (- T)); try lra. destruct (Rle_dec (- T) (-1)); try lra. f_equal.
  - unfold delta_p in *. destruct (Rlt_dec (-1) T); try lra. destruct (Rle_dec T (-1)); try lra. injection H as <-.
    destruct (Rlt_dec (-1) (- T)), (Rlt_dec (- T) 1); try lra. destruct (Rle_dec (- T) (-1)); try lra. f_equal. lra.
Qed.
Print Assumptions C114_timing_mirror.

(** Refuted: the index does not jump.  With any share of snow above 0 it is -0.999 for T just below 1 and +1 from
    T = 1 on (the comment at 1341 asks for -1 there). *)
Theorem C114_timing_jump_refuted : forall f_s, 0 < f_s -> exists T0, -1 < T0 < 1 /\
  (forall T, T0 < T < 1 -> delta_p (Num T) f_s = Ok (-999/1000)) /\ (forall T, 1 <= T -> delta_p (Num T) f_s = Ok 1).
Proof.
  intros f Hf. pose proof PI_RGT_0 as PP.
  (* cos of a small angle: asin T > PI/2 - PI f / 2, and the root is below PI f / 2 *)
  set (a := Rmin (PI * f / 2) (PI / 4)).
  assert (A : 0 < a <= PI * f / 2 /\ a <= PI / 4).
  { split; [split|]; [apply Rmin_glb_lt; [|lra]; assert (0 < PI * f) by nra; lra | apply Rmin_l | apply Rmin_r]. }
  exists (sin (PI / 2 - a)).
  assert (S1 : -1 < sin (PI / 2 - a) < 1).
  { split; [apply Rlt_trans with 0; [lra | apply sin_gt_0; lra]|].
    rewrite sin_shift. rewrite <- cos_0. apply cos_decreasing_1; lra. }
  split; [exact S1|]. split.
  - intros T H. assert (HT : -1 < T < 1) by lra. rewrite inner by lra. f_equal.
    assert (AS : PI / 2 - a < asin T).
    { destruct (Rlt_dec (PI / 2 - a) (asin T)) as [K | K]; auto. exfalso. pose proof (asin_bound T) as AB.
      assert (sin (asin T) <= sin (PI / 2 - a)) by (apply sin_incr_1; lra). rewrite sin_asin in H0 by lra. lra. }
    pose proof (asin_bound T) as AB. pose proof (root_pos T HT) as P.
    (* sqrt (1 - T^2) = cos (asin T) = sin (PI/2 - asin T) <= PI/2 - asin T *)
    assert (R1 : sqrt (1 - T ^ 2) <= PI / 2 - asin T).
    { replace (1 - T ^ 2) with (1 - T ^ 2) by ring. rewrite <- (Rsqr_pow2 T). rewrite <- cos_asin by lra. rewrite <- sin_shift.
      destruct (Req_dec (PI / 2 - asin T) 0) as [E | E].
      - rewrite E, sin_0. lra.
      - left. apply sin_lt_x. lra. }
    assert (N : uncut T f <= -1).
    { unfold uncut. apply (Rmult_le_reg_r (2 * sqrt (1 - T ^ 2))); [lra|]. unfold Rdiv. rewrite Rmult_assoc, Rinv_l by lra.
      assert (a <= PI * f / 2) by lra. nra. }
    rewrite Rmax_right, Rmin_left by lra. reflexivity.
  - intros T H. unfold delta_p. destruct (Rlt_dec (-1) T), (Rlt_dec T 1); try lra. destruct (Rle_dec T (-1)); try lra. reflexivity.
Qed.
Print Assumptions C114_timing_jump_refuted.

(** ** Whole functions *)

(** the calendar *)
Definition months : list string :=
  ["JAN"; "FEB"; "MAR"; "APR"; "MAY"; "JUN"; "JUL"; "AUG"; "SEP"; "OCT"; "NOV"; "DEC"].
Lemma look_all_ok d keys l : List.length l = List.length keys -> (forall k, (k < List.length keys)%nat -> d (nth k keys "") = Some (nth k l 0)) -> look_all d keys = Ok l.
Proof.
  revert l. induction keys as [|a keys IH]; intros l L H; destruct l as [|x l]; try discriminate L; [reflexivity|].
  cbn [look_all]. unfold look. pose proof (H 0%nat ltac:(cbn; lia)) as H0. cbn [nth] in H0. rewrite H0. cbn [rbind]. rewrite (IH l); [reflexivity|cbn in L; lia|].
  intros k K. apply (H (S k)). cbn. lia.
Qed.
(** The arrays of the months are in the order of the calendar, January first. *)
Theorem C114_months : forall d t, List.length t = 12%nat ->
  ((forall k, (k < 12)%nat -> d (nth k months "" ++ "_TMP7100_DEGC") = Some (nth k t 0)) -> get_gages2_monthly_temp_array d = Ok t) /\
  ((forall k, (k < 12)%nat -> d (nth k months "" ++ "_PPT7100_CM") = Some (nth k t 0)) -> get_gages2_monthly_precip_array d = Ok t).
Proof.
  intros d t L. split; intros H; (apply look_all_ok; [exact L|]); intros k K; rewrite map_length in K; rewrite <- H by exact K; f_equal;
    do 12 (destruct k as [|k]; [reflexivity|]); cbn in K; lia.
Qed.
Print Assumptions C114_months.
(** all twelve months are used, whatever the SB3 columns hold; the mean is theirs and not T_AVG_BASIN, which must be there though *)
Theorem C114_monthly : forall d t, List.length t = 12%nat ->
  (forall k, (k < 12)%nat -> d (nth k months "" ++ "_TMP7100_DEGC") = Some (nth k t 0)) ->
  (exists v, d "T_AVG_BASIN" = Some v) ->
  exists mean range, temperatures d false 1 = Ok (mean, range) /\ 12 * mean = rsum t /\
    (forall k, (k < 12)%nat -> exists hi lo, In hi t /\ In lo t /\ lo <= nth k t 0 <= hi /\ range = hi - lo) /\
    0 <= range.
Proof.
  intros d t L H [v V]. unfold temperatures, look. rewrite V. cbn [rbind].
  assert (E : get_gages2_monthly_temp_array d = Ok t).
  { now apply C114_months. }
  rewrite E. cbn [rbind]. do 2 eexists. split; [reflexivity|]. split; [field|].
  assert (M : forall l x, (forall y, In y l -> y <= fold_right Rmax x l) /\ (fold_right Rmax x l = x \/ In (fold_right Rmax x l) l)).
  { induction l as [|a l IH]; intros x; cbn; [split; [tauto | auto]|]. destruct (IH x) as [I1 I2]. split.
    - intros y [<- | Y]; [apply Rmax_l | eapply Rle_trans; [apply I1; auto | apply Rmax_r]].
    - destruct (Rle_dec a (fold_right Rmax x l)); [rewrite Rmax_right by auto | rewrite Rmax_left by lra]; tauto. }
  assert (M' : forall l x, (forall y, In y l -> fold_right Rmin x l <= y) /\ (fold_right Rmin x l = x \/ In (fold_right Rmin x l) l)).
  { induction l as [|a l IH]; intros x; cbn; [split; [tauto | auto]|]. destruct (IH x) as [I1 I2]. split.
    - intros y [<- | Y]; [apply Rmin_l | eapply Rle_trans; [apply Rmin_r | apply I1; auto]].
    - destruct (Rle_dec a (fold_right Rmin x l)); [rewrite Rmin_left by auto | rewrite Rmin_right by lra]; tauto. }
  assert (Hd : In (hd 0 t) t) by (destruct t; [discriminate | left; reflexivity]).
  destruct (M t (hd 0 t)) as [A1 A2]. destruct (M' t (hd 0 t)) as [B1 B2].
  assert (A3 : In (rmax t) t) by (unfold rmax; destruct A2 as [-> | ]; auto).
  assert (B3 : In (rmin t) t) by (unfold rmin; destruct B2 as [-> | ]; auto).
  split.
  - intros k K. exists (rmax t), (rmin t). split; [exact A3|]. split; [exact B3|]. split; [|reflexivity].
    assert (I : In (nth k t 0) t) by (apply nth_In; lia). split; [apply B1; auto | apply A1; auto].
  - pose proof (A1 _ Hd). pose proof (B1 _ Hd). unfold rmax, rmin. lra.
Qed.
Print Assumptions C114_monthly.

(** The other methods take the mean of the basin, and the range from July and January or from the extremes. *)
Theorem C114_methods : forall d mean, d "T_AVG_BASIN" = Some mean ->
  (forall m r, d "JUL_JAN_TMP_DIFF_DEGC" = Some r -> temperatures d true m = Ok (mean, r) /\ temperatures d false 0 = Ok (mean, r)) /\
  (forall hi lo, d "T_MAX_BASIN" = Some hi -> d "T_MIN_BASIN" = Some lo ->
     temperatures d false 2 = Ok (mean, hi - lo) /\ get_temperature_range d false = Ok (hi - lo)) /\
  (forall hi lo, d "T_MAX_SITE" = Some hi -> d "T_MIN_SITE" = Some lo -> get_temperature_range d true = Ok (hi - lo)).
Proof.
  intros d mean H. unfold temperatures, get_temperature_range, look. rewrite H. cbn [rbind]. split; [|split].
  - intros m r E. rewrite E. auto.
  - intros hi lo E1 E2. rewrite E1, E2. auto.
  - intros hi lo E1 E2. rewrite E1, E2. auto.
Qed.
Print Assumptions C114_methods.

(** In a climate above 1 degree all year the index is 1, in one below it -1; between, |T_bs| < 1 and the formula is used. *)
Theorem C114_all_year : forall T_avg T_rng f_s,
  (1 < T_avg -> 1 <= T_avg - Rabs T_rng / 2 -> delta_p (T_bar_star T_avg T_rng) f_s = Ok 1) /\
  (T_avg < 1 -> T_avg + Rabs T_rng / 2 <= 1 -> delta_p (T_bar_star T_avg T_rng) f_s = Ok (-1)) /\
  (T_avg - Rabs T_rng / 2 < 1 < T_avg + Rabs T_rng / 2 ->
     exists T, -1 < T < 1 /\ T_avg = 1 + T * (Rabs T_rng / 2) /\ T_bar_star T_avg T_rng = Num T).
Proof.
  intros a g f. unfold T_bar_star, xdiv. pose proof (Rabs_pos g) as G. set (h := Rabs g / 2) in *.
  assert (H0 : 0 <= h) by (unfold h; lra). clearbody h. split; [|split].
  - intros A B. destruct (Req_EM_T h 0) as [e | e].
    + destruct (Rlt_dec 0 (a - 1)); [reflexivity | lra].
    + assert (1 <= (a - 1) / h) by (apply (Rmult_le_reg_r h); [lra|]; unfold Rdiv; rewrite Rmult_assoc, Rinv_l; lra).
      unfold delta_p. destruct (Rlt_dec (-1) ((a - 1) / h)), (Rlt_dec ((a - 1) / h) 1); try lra.
      destruct (Rle_dec ((a - 1) / h) (-1)); try lra. reflexivity.
  - intros A B. destruct (Req_EM_T h 0) as [e | e].
    + destruct (Rlt_dec 0 (a - 1)); [lra|]. destruct (Rlt_dec (a - 1) 0); [reflexivity | lra].
    + assert ((a - 1) / h <= -1) by (apply (Rmult_le_reg_r h); [lra|]; unfold Rdiv; rewrite Rmult_assoc, Rinv_l; lra).
      unfold delta_p. destruct (Rlt_dec (-1) ((a - 1) / h)), (Rlt_dec ((a - 1) / h) 1); try lra;
      destruct (Rle_dec ((a - 1) / h) (-1)); try lra; reflexivity.
  - intros [A B]. destruct (Req_EM_T h 0) as [e | e]; [lra|]. exists ((a - 1) / h). split.
    + split; apply (Rmult_lt_reg_r h); try lra; unfold Rdiv; rewrite Rmult_assoc, Rinv_l; lra.
    + split; [field; lra | reflexivity].
Qed.
Print Assumptions C114_all_year.

(** The aridity index is PET over precipitation in the same unit (PET is in mm, precipitation in cm). *)
Theorem C114_aridity : forall d PET_mm P_cm, d "PET" = Some PET_mm -> d "PPTAVG_BASIN" = Some P_cm -> 0 < P_cm ->
  get_aridity_index d = Ok (Num (PET_mm / (10 * P_cm))) /\ (0 <= PET_mm -> 0 <= PET_mm / (10 * P_cm)).
Proof.
  intros d e p E P H. unfold get_aridity_index, look. rewrite E, P. cbn [rbind]. unfold xdiv.
  destruct (Req_EM_T p 0); [lra|]. split; [f_equal; f_equal; field; lra|].
  intros K. unfold Rdiv. apply Rmult_le_pos; auto. left. apply Rinv_0_lt_compat. lra.
Qed.
Print Assumptions C114_aridity.

(** Refuted: every basin has a timing index.  One whose months are all at 1 degree has none: the function ends in an error.
    And an unknown range method does, too. *)
Theorem C114_timing_error_refuted :
  (forall d f_s v, d "T_AVG_BASIN" = Some v -> (forall k, (k < 12)%nat -> d (nth k months "" ++ "_TMP7100_DEGC") = Some 1) ->
     get_precip_timing_index d f_s false 1 = Err UnboundLocalError) /\
  (forall d f_s n v, d "T_AVG_BASIN" = Some v -> get_precip_timing_index d f_s false (3 + n) = Err UnboundLocalError).
Proof.
  split.
  - intros d f v V H. destruct (C114_monthly d (repeat 1 12) eq_refl) as (mean & range & E & M & R & _); [|now exists v|].
    { intros k K. rewrite H by auto. f_equal. do 12 (destruct k as [|k]; [reflexivity|]). lia. }
    unfold get_precip_timing_index. rewrite E. cbn [rbind fst snd].
    assert (E1 : mean = 1) by (cbn in M; lra).
    destruct (R 0%nat ltac:(lia)) as (hi & lo & I1 & I2 & _ & E2). apply repeat_spec in I1. apply repeat_spec in I2.
    destruct (C114_timing_range mean range f) as (_ & C & _). apply C. split; lra.
  - intros d f n v V. unfold get_precip_timing_index, temperatures, look. rewrite V. reflexivity.
Qed.
Print Assumptions C114_timing_error_refuted.

(** The months of the code are those of the year, each once. *)
Example C114_case :
  get_month_list = months /\ NoDup months /\
  lower "Percent" = "percent" /\ lower "none" <> "percent" /\
  delta_p (Num 0) (1 / 2) = Ok 0 /\ woods 0 0 = 1 / 2 /\ T_bar_star 11 40 = Num (1 / 2).
Proof.
  split; [reflexivity|]. split.
  { repeat (constructor; [cbn; intuition discriminate|]). constructor. }
  split; [reflexivity|]. split; [discriminate|]. split; [|split].
  - rewrite inner by lra. f_equal. assert (uncut 0 (1 / 2) = 0).
    { unfold uncut. rewrite asin_0. replace (1 - 0 ^ 2) with 1 by ring. rewrite sqrt_1. field. }
    rewrite H. rewrite Rmax_left, Rmin_left; lra.
  - unfold woods. rewrite asin_0. pose proof PI_RGT_0. field. lra.
  - unfold T_bar_star, xdiv. rewrite Rabs_right by lra. destruct (Req_EM_T _ _); [lra|]. f_equal. field.
Qed.
