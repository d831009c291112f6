(** C116: series of observations: reading them, their times, and rain rates. *)

From Coq Require Import String Ascii List ZArith QArith Qround Bool Lia Lqa.
From Verif Require Import Time_Model Time_Spec Time_Proofs Time_Props Io_Proofs Rti_Proofs Fmt_Model Fmt_Proofs Calib_Model Series_Model.
Import ListNotations.

(** ** Reading *)

Section Read.
Variable num : string -> res Q.

(** What is read is a prefix of the lines, each with its own time and value; the first line not read has too few columns. *)
Theorem C116_rows : forall float delim tc vc lines out, rows num float delim tc vc lines = Ok out ->
  (length out <= length lines)%nat /\
  (forall k t v, nth_error out k = Some (t, v) -> exists line a b,
     nth_error lines k = Some line /\ nth_error (cells delim line) tc = Some a /\ nth_error (cells delim line) vc = Some b /\
     num b = Ok v /\ (if float then exists x, num a = Ok x /\ t = Num x else t = Str a)) /\
  (forall line, nth_error lines (length out) = Some line -> (length (cells delim line) <= Nat.max tc vc)%nat).
Proof.
  intros float delim tc vc. induction lines as [|line rest IH]; intros out H; cbn [rows] in H.
  - injection H as <-. split; [cbn; lia|]. split; [intros [|k]; discriminate|intros; discriminate].
  - destruct (Nat.leb (length (cells delim line)) tc || Nat.leb (length (cells delim line)) vc) eqn:S.
    + injection H as <-. split; [cbn; lia|]. split; [intros [|k]; discriminate|]. intros l E. cbn in E. injection E as <-.
      apply orb_true_iff in S as [S|S]; apply Nat.leb_le in S; lia.
    + unfold item in H. destruct (nth_error (cells delim line) tc) as [a|] eqn:A; [|discriminate]. cbn [rbind] in H.
      set (T := if float then let! x := num a in Ok (Num x) else Ok (Str a)) in *.
      destruct T as [t|] eqn:ET; [|discriminate]. cbn [rbind] in H.
      destruct (nth_error (cells delim line) vc) as [b|] eqn:B; [|discriminate]. cbn [rbind] in H.
      destruct (num b) as [v|] eqn:V; [|discriminate]. cbn [rbind] in H.
      destruct (rows num float delim tc vc rest) as [r|] eqn:R; [|discriminate]. cbn [rbind] in H. injection H as <-.
      destruct (IH r eq_refl) as (I1 & I2 & I3). split; [cbn; lia|]. split; [|exact I3].
      intros [|k] t' v' E; [|exact (I2 k t' v' E)]. cbn in E. injection E as <- <-. exists line, a, b. cbn [nth_error].
      refine (conj eq_refl (conj A (conj B (conj V _)))). subst T. destruct float.
      * destruct (num a) as [x|]; [|discriminate]. cbn in ET. injection ET as <-. now exists x.
      * now injection ET as <-.
Qed.

(** If every line has both columns and the numbers in them can be read, every line is read. *)
Theorem C116_complete : forall float delim tc vc lines,
  (forall line, In line lines -> exists a b v, nth_error (cells delim line) tc = Some a /\ nth_error (cells delim line) vc = Some b /\
     num b = Ok v /\ (float = true -> exists x, num a = Ok x)) ->
  exists out, rows num float delim tc vc lines = Ok out /\ length out = length lines.
Proof.
  intros float delim tc vc. induction lines as [|line rest IH]; intros H; [now exists []|]. cbn [rows].
  destruct (H line (or_introl eq_refl)) as (a & b & v & A & B & V & F).
  destruct IH as (r & R & L); [intros l I; apply H; now right|].
  replace (Nat.leb (length (cells delim line)) tc || Nat.leb (length (cells delim line)) vc) with false.
  2: { symmetry. apply orb_false_iff. split; apply Nat.leb_gt; apply nth_error_Some; congruence. }
  unfold item. rewrite A, B. cbn [rbind]. rewrite V, R. destruct float.
  - destruct (F eq_refl) as [x X]. rewrite X. cbn [rbind]. exists ((Num x, v) :: r). cbn. split; [reflexivity|now rewrite L].
  - cbn [rbind]. exists ((Str a, v) :: r). cbn. split; [reflexivity|now rewrite L].
Qed.

(** A line with too few columns (say, a blank line) ends the series without an error: nothing after it matters. *)
Theorem C116_blank_refuted : forall float delim tc vc before blank after,
  (length (cells delim blank) <= Nat.max tc vc)%nat ->
  rows num float delim tc vc (before ++ blank :: after) = rows num float delim tc vc before.
Proof.
  intros float delim tc vc before blank after B. induction before as [|line rest IH]; cbn [rows app].
  - replace (Nat.leb (length (cells delim blank)) tc || Nat.leb (length (cells delim blank)) vc) with true; [reflexivity|].
    symmetry. apply orb_true_iff. rewrite !Nat.leb_le. lia.
  - now rewrite IH.
Qed.

(** The header is not read. *)
Theorem C116_header : forall float delim header tc vc lines,
  read_time_series num float delim (length header) tc vc (header ++ lines) = rows num float delim tc vc lines.
Proof.
  intros. unfold read_time_series. f_equal. rewrite skipn_app, Nat.sub_diag, skipn_all. reflexivity.
Qed.
End Read.
(** The cells of a line: with a delimiter the texts between its delimiters, even empty ones; without one the words, whatever blanks are between. *)
Fixpoint spaced (l : list (string * string)) : string :=
  match l with [] => EmptyString | (gap, w) :: r => (w ++ gap ++ spaced r)%string end.
Theorem C116_cells :
  (forall c ws w, Forall (fun x => nosep c x = true) (ws ++ [w]) -> cells (Some c) (String.concat (String c EmptyString) (ws ++ [w])) = ws ++ [w]) /\
  (forall lead l, allspace lead = true -> Forall (fun x => allspace (fst x) = true /\ fst x <> EmptyString /\ nospace (snd x) = true /\ snd x <> EmptyString) l ->
     cells None (lead ++ spaced l)%string = map snd l).
Proof.
  split.
  - intros c ws w H. unfold cells. induction ws as [|v ws IH]; cbn [app] in *; apply Forall_cons_iff in H as [H1 H2].
    + cbn [String.concat]. now apply split_last.
    + specialize (IH H2). replace (String.concat (String c EmptyString) (v :: ws ++ [w])) with (v ++ String c (String.concat (String c EmptyString) (ws ++ [w])))%string by (destruct ws; reflexivity).
      rewrite split_app by exact H1. now rewrite IH.
  - intros lead l L H. unfold cells. rewrite words_space by exact L. induction H as [|[g w] l (A & B & C & D) F IH]; cbn [fst snd map spaced] in *; [reflexivity|].
    destruct g as [|a g]; [congruence|]. cbn [allspace] in A. apply andb_true_iff in A as [A1 A2]. cbn [append]. rewrite words_word by auto. rewrite words_space by exact A2. now rewrite IH.
Qed.
Print Assumptions C116_cells.
Print Assumptions C116_rows.
Print Assumptions C116_complete.
Print Assumptions C116_blank_refuted.
Print Assumptions C116_header.

(** ** Times *)

Local Open Scope Z_scope.

(** a date with two digits for month and day *)
Definition date_text (y m d : Z) : string := (py_str y ++ "-" ++ pad_with_zeros (inject_Z m) 2 ++ "-" ++ pad_with_zeros (inject_Z d) 2)%string.
(** date and time of day, with two digits each *)
Definition moment_text (y m d h mi s : Z) : string :=
  get_datetime_str y (inject_Z m) (inject_Z d) (inject_Z h) (inject_Z mi) (inject_Z s).
Definition good_date (y m d : Z) : Prop := 1000 <= y /\ valid_date y m d = true.
Definition good_time (h mi s : Z) : Prop := 0 <= h < 24 /\ 0 <= mi < 60 /\ 0 <= s < 60.

Lemma date_bounds y m d : valid_date y m d = true -> y <= 9999 /\ 1 <= m <= 12 /\ 1 <= d <= 31.
Proof.
  unfold valid_date. rewrite !andb_true_iff, !Z.leb_le. intros [[[[[_ A] B] C] D] E]. refine (conj A (conj (conj B C) (conj D _))).
  eapply Z.le_trans; [exact E|]. unfold days_in_month. destruct (m =? 2) eqn:M2; [destruct (leap y); lia|].
  repeat match goal with |- context [if ?b then _ else _] => destruct b end; lia.
Qed.
Lemma q100 z : 0 <= z < 100 -> (0 <= inject_Z z < 100)%Q.
Proof. intros H. split; [change 0%Q with (inject_Z 0); rewrite <- Zle_Qle; lia|change 100%Q with (inject_Z 100); rewrite <- Zlt_Qlt; lia]. Qed.
Lemma trunc_z z : 0 <= z -> trunc (inject_Z z) = z.
Proof.
  intros H. unfold trunc. destruct (Qlt_le_dec (inject_Z z) 0) as [L|L]; [|apply Qfloor_Z].
  exfalso. change 0%Q with (inject_Z 0) in L. rewrite <- Zlt_Qlt in L. lia.
Qed.
Lemma one_str s : get_datetime_obj_from_one_str s =
  rbind (split_datetime_str_all s) (fun x => match x with ((y, m1, d), (h, m2, s)) => datetime y m1 d h m2 s end).
Proof.
  unfold get_datetime_obj_from_one_str, split_datetime_str_all. destruct (split_datetime_str s) as [[a b]|]; [|reflexivity]. cbn [rbind].
  destruct (split_date_str a) as [[[y m] d]|]; [|reflexivity]. cbn [rbind]. destruct (split_time_str b) as [[[h mi] x]|]; reflexivity.
Qed.
Lemma moment_read y m d h mi s : good_date y m d -> good_time h mi s ->
  get_datetime_obj_from_one_str (moment_text y m d h mi s) = Ok (mkdt y m d ((h * 3600 + mi * 60 + s) * 1000000)) /\
  standardize_datetime_str (moment_text y m d h mi s) = moment_text y m d h mi s /\ String.length (moment_text y m d h mi s) = 19%nat.
Proof.
  intros [Y V] (H & M & X). pose proof (date_bounds y m d V) as (B1 & B2 & B3). unfold moment_text. split.
  - rewrite one_str, get_then_split by (try lia; apply q100; lia). rewrite !trunc_z by lia. cbn [rbind]. unfold datetime. rewrite V.
    replace (0 <=? h) with true by (symmetry; apply Z.leb_le; lia). replace (h <? 24) with true by (symmetry; apply Z.ltb_lt; lia).
    replace (0 <=? mi) with true by (symmetry; apply Z.leb_le; lia). replace (mi <? 60) with true by (symmetry; apply Z.ltb_lt; lia).
    replace (0 <=? s) with true by (symmetry; apply Z.leb_le; lia). replace (s <? 60) with true by (symmetry; apply Z.ltb_lt; lia). reflexivity.
  - apply C38_written_strings_are_standard; try lia; apply q100; lia.
Qed.
Lemma midnight_moment y m d : good_date y m d -> midnight (date_text y m d) = moment_text y m d 0 0 0.
Proof.
  intros G. assert (E : (date_text y m d ++ " 00:00:00")%string = moment_text y m d 0 0 0).
  { unfold date_text, moment_text. rewrite datetime_str_shape. change (pad_with_zeros (inject_Z 0) 2) with "00"%string.
    repeat (rewrite !app_assoc_s; cbn [append]). reflexivity. }
  unfold midnight. rewrite E. destruct (moment_read y m d 0 0 0 G) as (_ & _ & L); [unfold good_time; lia|].
  rewrite <- (app_nil_s (moment_text y m d 0 0 0)) at 1. now apply take_app.
Qed.
Lemma minutes_between o t : get_time_since_from_datetime o t "minutes" = Ok (inject_Z (to_us t - to_us o) / 1000000 / inject_Z 60)%Q.
Proof. apply (time_since_us o t "minutes" 60). unfold fixed_unit. tauto. Qed.
Lemma rmap_rel {A B C} (f : A -> res B) (g : C -> A) (P : C -> B -> Prop) l :
  Forall (fun x => exists y, f (g x) = Ok y /\ P x y) l -> exists out, rmap f (map g l) = Ok out /\ Forall2 P l out.
Proof.
  induction 1 as [|x l (y & E & H) _ (out & IH & F)]; cbn; [now exists []|]. rewrite E. cbn [rbind]. rewrite IH. cbn [rbind].
  exists (y :: out). split; [reflexivity|now constructor].
Qed.
Lemma qdiv k : (inject_Z (k * 60000000) / 1000000 / inject_Z 60 == inject_Z k)%Q.
Proof. rewrite inject_Z_mult. change (inject_Z 60000000) with 60000000%Q. change (inject_Z 60) with 60%Q. field. Qed.

(** Dates become minutes since the first date: 1440 for each day between them, over months and leap years. *)
Theorem C116_dates : forall y0 m0 d0 l, good_date y0 m0 d0 -> Forall (fun x => match x with (y, m, d) => good_date y m d end) l ->
  exists out, convert_obs_time_format Date (map (fun x => match x with (y, m, d) => date_text y m d end) ((y0, m0, d0) :: l)) = Ok out /\
  Forall2 (fun x q => match x with (y, m, d) => q == inject_Z (1440 * (ordinal y m d - ordinal y0 m0 d0)) end)%Q ((y0, m0, d0) :: l) out.
Proof.
  intros y0 m0 d0 l G0 G. cbn [convert_obs_time_format]. unfold from_date. cbn [map]. rewrite midnight_moment by exact G0.
  destruct (moment_read y0 m0 d0 0 0 0 G0) as (R0 & _ & _); [unfold good_time; lia|]. rewrite R0. cbn [rbind].
  set (o := mkdt y0 m0 d0 ((0 * 3600 + 0 * 60 + 0) * 1000000)).
  replace (moment_text y0 m0 d0 0 0 0 :: map midnight (map (fun x => match x with (y, m, d) => date_text y m d end) l))
    with (map (fun x => match x with (y, m, d) => midnight (date_text y m d) end) ((y0, m0, d0) :: l)).
  2: { cbn [map]. rewrite midnight_moment by exact G0. f_equal. rewrite map_map. apply map_ext. now intros [[y m] d]. }
  unfold convert_times_from_datetime_to_minutes. apply rmap_rel. constructor; [|eapply Forall_impl; [|exact G]].
  all: cbv beta; try intros [[y m] d] GG.
  - rewrite midnight_moment by exact G0. destruct (moment_read y0 m0 d0 0 0 0 G0) as (R & S & _); [unfold good_time; lia|].
    rewrite S, R. cbn [rbind]. rewrite minutes_between. eexists. split; [reflexivity|]. fold o. rewrite Z.sub_diag. rewrite Z.sub_diag. reflexivity.
  - rewrite midnight_moment by exact GG. destruct (moment_read y m d 0 0 0 GG) as (R & S & _); [unfold good_time; lia|].
    rewrite S, R. cbn [rbind]. rewrite minutes_between. eexists. split; [reflexivity|].
    replace (to_us _ - to_us o) with (1440 * (ordinal y m d - ordinal y0 m0 d0) * 60000000); [apply qdiv|].
    unfold to_us, o, us_per_day. cbn [yr mo dy us_day]. ring.
Qed.
Print Assumptions C116_dates.

(** Dates and times become minutes since the start given, whatever the order. *)
Theorem C116_datetimes : forall y0 m0 d0 h0 mi0 s0 l, good_date y0 m0 d0 -> good_time h0 mi0 s0 ->
  Forall (fun x => match x with (y, m, d, (h, mi, s)) => good_date y m d /\ good_time h mi s end) l ->
  exists out, convert_obs_time_format (Datetime (moment_text y0 m0 d0 h0 mi0 s0))
                (map (fun x => match x with (y, m, d, (h, mi, s)) => moment_text y m d h mi s end) l) = Ok out /\
  Forall2 (fun x q => match x with (y, m, d, (h, mi, s)) =>
     60 * q == inject_Z (86400 * (ordinal y m d - ordinal y0 m0 d0) + 3600 * (h - h0) + 60 * (mi - mi0) + (s - s0)) end)%Q l out.
Proof.
  intros y0 m0 d0 h0 mi0 s0 l G0 T0 G. cbn [convert_obs_time_format]. unfold from_datetime.
  destruct (moment_read _ _ _ _ _ _ G0 T0) as (R0 & _ & _). rewrite R0. cbn [rbind]. unfold convert_times_from_datetime_to_minutes.
  apply rmap_rel. eapply Forall_impl; [|exact G]. intros [[[y m] d] [[h mi] s]] [GG TT]. cbv beta iota.
  destruct (moment_read _ _ _ _ _ _ GG TT) as (R & S & _). rewrite S, R. cbn [rbind]. rewrite minutes_between. eexists. split; [reflexivity|].
  set (k := 86400 * (ordinal y m d - ordinal y0 m0 d0) + 3600 * (h - h0) + 60 * (mi - mi0) + (s - s0)).
  replace (to_us _ - to_us _) with (k * 1000000); [|unfold k, to_us, us_per_day; cbn [yr mo dy us_day]; ring].
  rewrite inject_Z_mult. change (inject_Z 1000000) with 1000000%Q. change (inject_Z 60) with 60%Q. field.
Qed.
Print Assumptions C116_datetimes.

(** Times of day become minutes since the first. *)
Theorem C116_hhmm : forall h0 m0 l, 0 <= h0 < 100 -> 0 <= m0 < 100 -> Forall (fun x => 0 <= fst x < 100 /\ 0 <= snd x < 100) l ->
  convert_obs_time_format Hhmm (map (fun x => hhmm (fst x) (snd x)) ((h0, m0) :: l)) =
  Ok (map (fun x => inject_Z (60 * (fst x - h0) + (snd x - m0))) ((h0, m0) :: l)).
Proof.
  intros h0 m0 l H M F. cbn [convert_obs_time_format]. unfold from_hhmm, convert_times_from_hhmm_to_minutes. rewrite map_map.
  rewrite (rmap_map hhmm_to_minutes (fun x => HStr (hhmm (fst x) (snd x))) (fun x => 60 * fst x + snd x)).
  - cbn [rbind map fst snd]. rewrite !map_map. f_equal. f_equal; [f_equal; lia|]. apply map_ext. intros [h m]. cbn [fst snd]. f_equal. lia.
  - constructor; [now apply C39_hhmm_to_minutes|]. eapply Forall_impl; [|exact F]. intros [h m] [A B]. now apply C39_hhmm_to_minutes.
Qed.
Print Assumptions C116_hhmm.

(** Past midnight they run backwards; a date without leading zeros is an error. *)
Theorem C116_times_refuted :
  convert_obs_time_format Hhmm ["2350"; "0010"]%string = Ok [0; inject_Z (-1420)]%Q /\
  convert_obs_time_format Date ["2020-01-01"; "2020-1-2"]%string = Err IndexError /\
  convert_obs_time_format Date ["01/01/2020"]%string = Err ValueError /\
  convert_obs_time_format Date []%string = Err IndexError.
Proof. vm_compute. auto. Qed.
Print Assumptions C116_times_refuted.
