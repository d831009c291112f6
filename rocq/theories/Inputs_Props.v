(** C105: the preparation of the inputs of a new basin. *)

From Coq Require Import String Ascii List Bool Arith ZArith QArith Qabs Sorted Lia Lqa.
From Verif Require Import Base Time_Model Io_Model Rti_Model Fmt_Model Txt_Model Txt_Props Txt_Spec Bundle_Props Inputs_Model.
Import ListNotations.
Local Open Scope string_scope.

(** ** Specification *)

(** the sources of rainfall *)
Inductive source := Csv | TestRain | Chirps | Chirps2 | Gldas.
Definition chosen (o : options) (s : source) : Prop :=
  match s with
  | Csv => ngen_csv o = Some true
  | TestRain => test_rain o = true
  | Chirps => chirps o = true
  | Chirps2 => chirps2 o = true
  | Gldas => gldas o = true
  end.
(** seconds between its values *)
Definition seconds (s : source) : string := match s with Csv | TestRain => "3600.0" | Chirps | Chirps2 => "21600.0" | Gldas => "10800.0" end.
(** how the file is read, and its name *)
Definition kind (s : source) : string := match s with Csv | TestRain => "Time_Series" | _ => "Grid_Sequence" end.
Definition file_name (s : source) (site case range : string) : string :=
  match s with
  | Csv => site ++ "_" ++ range ++ ".csv"
  | TestRain => case ++ "_rain_rates.txt"
  | Chirps | Chirps2 => "CHIRPS_Rain_" ++ site ++ "_" ++ range ++ ".rts"
  | Gldas => "GLDAS_Rain_" ++ site ++ "_" ++ range ++ ".rts"
  end.

(** the value a call gives to a field of a template *)
Definition field_value (t v : string) (jobs : list job) (x : string) : Prop :=
  exists j k, In j jobs /\ template j = t /\ nth_error (vars j) k = Some v /\ nth_error (vals j) k = Some (Some x).

(** ** Proofs *)

(** what is made: the period, the file of rainfall and its step *)
Definition ngen_on (o : options) : bool := match ngen_csv o with Some b => b | None => false end.
Record period := Period { p_start : string; p_end : string; p_range : string; p_offset : string; p_month : string; p_stop : string }.
Definition periods : list period :=
  [Period "2012-06-01" "2012-07-01" "2012-06_to_2012-07" "-5" "June" "43200";
   Period "2015-10-01" "2018-10-01" "2015-10_to_2018-10" "3" "October" "1578240";
   Period "2005-01-01" "2015-01-01" "2005-01_to_2015-01" "3" "January" "5258880"].
Definition the_period (o : options) : nat := if ngen_on o then 0 else if chirps o || gldas o then 1 else 2.
Definition step_str (o : options) : string := if gldas o then "10800.0" else if chirps o || chirps2 o then "21600.0" else "3600.0".
Definition the_file (o : options) (site case range : string) : string :=
  if ngen_on o || test_rain o then if test_rain o then case ++ "_rain_rates.txt" else site ++ "_" ++ range ++ ".csv"
  else if gldas o then "GLDAS_Rain_" ++ site ++ "_" ++ range ++ ".rts" else "CHIRPS_Rain_" ++ site ++ "_" ++ range ++ ".rts".
Definition the_jobs (o : options) (home site case : string) : list job :=
  let p := nth (the_period o) periods (Period "" "" "" "" "" "") in
  let c := ["dt"; "FLOOD_OPTION"; "ATTENUATE"; "save_grid_dt"; "save_pixels_dt"] in
  let cv := [Some "5.0"; Some "0"; Some "0"; Some (step_str o); Some (step_str o)] in
  [Job "_path_info.cfg" ["in_directory"; "out_directory"; "site_prefix"; "case_prefix"]
     [Some ((home ++ "basins_TEST/") ++ site ++ "/"); Some (home ++ "output/"); Some site; Some case];
   Job "_time_info.cfg" ["start_date"; "start_time"; "end_date"; "end_time"] [Some (p_start p); Some "  00:00:00"; Some (p_end p); Some "  00:00:00"];
   Job "_topoflow.cfg" ["dt"; "T_stop_model"; "COMPUTE_STAT_GRIDS"; "CREATE_INDICATORS"; "CREATE_MEDIA_FILES"]
     [Some "5.0"; Some (p_stop p); Some (if chirps2 o then "1" else "0"); Some "0"; Some "1"];
   Job "_meteorology.cfg" ["dt"; "P_type"; "P"; "GMT_offset"; "start_month"; "start_day"; "start_hour"; "save_grid_dt"; "save_pixels_dt"; "NGEN_CSV"]
     [Some (step_str o); Some (if ngen_on o || test_rain o then "Time_Series" else "Grid_Sequence"); Some (the_file o site case (p_range p));
      Some (p_offset p); Some (p_month p); Some "1"; Some "0.0"; Some (step_str o); Some (step_str o); Some (if ngen_on o then "Yes" else "No")];
   Job "_channels_kinematic_wave.cfg" c cv; Job "_channels_diffusive_wave.cfg" c cv].
Definition usable (o : options) : Prop :=
  gpm o = false /\ exists n, ngen_csv o = Some n /\
    (n = true \/ (east_africa o = true /\ (chirps o = true \/ chirps2 o = true \/ gldas o = true))).

Lemma shape o home site case : nextgen o = true \/ east_africa o = true -> usable o ->
  exists d, prepare o home site case = Ok (Some (d, the_jobs o home site case)).
Proof.
  intros H (G & n & N & D). revert H G N D. destruct o as [ne ea c1 c2 gl gp tr nc nm]. cbn. intros H -> -> D.
  assert (M : negb ne && negb ea = false) by (destruct H as [-> | ->]; [reflexivity|apply andb_false_r]).
  unfold prepare. cbn [nextgen east_africa]. rewrite M. clear M H.
  destruct n.
  - destruct ea, c1, c2, gl, tr, nm; vm_compute; eexists; reflexivity.
  - destruct D as [D|[-> D]]; [discriminate|].
    destruct c1, c2, gl; try (exfalso; destruct D as [D|[D|D]]; discriminate); destruct tr, nm; vm_compute; eexists; reflexivity.
Qed.
Lemma not_usable o home site case : nextgen o = true \/ east_africa o = true -> ~ usable o ->
  exists e, prepare o home site case = Err e /\ (e = NameError \/ e = AttributeError).
Proof.
  intros H U. destruct o as [ne ea c1 c2 gl gp tr nc nm]. cbn in H.
  assert (M : negb ne && negb ea = false) by (destruct H as [-> | ->]; [reflexivity|apply andb_false_r]).
  unfold prepare. cbn [nextgen east_africa]. rewrite M. clear M H. unfold usable in U. cbn in U.
  destruct nc as [n|].
  - destruct gp.
    + destruct n; [destruct ea, c1, c2, gl, tr|destruct ea; [destruct c1, c2, gl, tr|]]; vm_compute; eexists; (split; [reflexivity|]); auto.
    + destruct n; [exfalso; apply U; split; [reflexivity|]; exists true; auto|].
      destruct ea.
      * destruct c1, c2, gl; try (exfalso; apply U; split; [reflexivity|]; exists false; tauto). vm_compute; eexists; (split; [reflexivity|]); auto.
      * vm_compute; eexists; (split; [reflexivity|]); auto.
  - cbn. eexists. split; [reflexivity|]. now right.
Qed.
Lemma usable_dec o : usable o \/ ~ usable o.
Proof.
  unfold usable. destruct (gpm o); [right; intros [E _]; discriminate|]. destruct (ngen_csv o) as [[]|].
  - left. split; [reflexivity|]. exists true. auto.
  - destruct (east_africa o), (chirps o), (chirps2 o), (gldas o);
    try (left; split; [reflexivity|]; exists false; tauto);
    right; intros (_ & n & E & [D|[D1 [D|[D|D]]]]); congruence.
  - right. intros (_ & n & E & _). discriminate.
Qed.

(** [C105_options] The configuration files are made if and only if NGEN_CSV has been set, GPM is off and either NGEN_CSV is on or
    East Africa with one of the other products; otherwise there is a NameError or AttributeError. *)
Theorem C105_options : forall o home site case, nextgen o = true \/ east_africa o = true ->
  ((exists d jobs, prepare o home site case = Ok (Some (d, jobs))) <->
   gpm o = false /\ exists n, ngen_csv o = Some n /\
     (n = true \/ (east_africa o = true /\ (chirps o = true \/ chirps2 o = true \/ gldas o = true)))) /\
  ((exists d jobs, prepare o home site case = Ok (Some (d, jobs))) \/ prepare o home site case = Err NameError \/ prepare o home site case = Err AttributeError).
Proof.
  intros o home site case H. fold (usable o). destruct (usable_dec o) as [U|U].
  - destruct (shape o home site case H U) as (d & E).
    split; [split; [intros _; exact U|intros _; eexists; eexists; exact E]|left; eexists; eexists; exact E].
  - destruct (not_usable o home site case H U) as (e & E & He). split; [split|].
    + intros (d & j & F). rewrite F in E. discriminate.
    + intros F. contradiction.
    + right. destruct He as [-> | ->]; [now left|now right].
Qed.
Print Assumptions C105_options.

(** [C105_new_refuted] "A new object can be used as it is": its options are refused for every site. *)
Theorem C105_new_refuted : forall home site case, prepare new_options home site case = Err AttributeError.
Proof. intros. reflexivity. Qed.
Print Assumptions C105_new_refuted.

Lemma made o home site case d jobs : prepare o home site case = Ok (Some (d, jobs)) -> usable o /\ jobs = the_jobs o home site case.
Proof.
  intros E. assert (H : nextgen o = true \/ east_africa o = true).
  { unfold prepare in E. destruct (nextgen o), (east_africa o); cbn in E; auto. discriminate. }
  destruct (usable_dec o) as [U|U].
  - destruct (shape o home site case H U) as (d' & E'). rewrite E' in E. injection E as _ <-. now split.
  - destruct (not_usable o home site case H U) as (e & E' & _). congruence.
Qed.

(** [C105_fields] Every field of every template used gets a value, and nothing else does. *)
Theorem C105_fields : forall o home site case d jobs, prepare o home site case = Ok (Some (d, jobs)) ->
  map template jobs = ["_path_info.cfg"; "_time_info.cfg"; "_topoflow.cfg"; "_meteorology.cfg"; "_channels_kinematic_wave.cfg"; "_channels_diffusive_wave.cfg"] /\
  forall j, In j jobs -> vars j = fields (template j) /\ List.length (vals j) = List.length (vars j) /\ ~ In None (vals j).
Proof.
  intros o home site case d jobs E. destruct (made _ _ _ _ _ _ E) as [_ ->]. split; [reflexivity|].
  intros j [<-|[<-|[<-|[<-|[<-|[<-|[]]]]]]]; (split; [reflexivity|]); (split; [reflexivity|]); cbn; intuition discriminate.
Qed.
Print Assumptions C105_fields.

(** [C105_period] Start, end and length of the run agree: the minutes between the dates are those given as stop time. *)
Theorem C105_period : forall o home site case d jobs, prepare o home site case = Ok (Some (d, jobs)) ->
  exists s e t z q, field_value "_time_info.cfg" "start_date" jobs s /\ field_value "_time_info.cfg" "end_date" jobs e /\
    field_value "_topoflow.cfg" "T_stop_model" jobs t /\
    py_int t = Ok z /\ get_duration s "00:00:00" e "00:00:00" "minutes" = Ok q /\ (q == inject_Z z)%Q.
Proof.
  intros o home site case d jobs E. destruct (made _ _ _ _ _ _ E) as [_ ->].
  set (p := nth (the_period o) periods (Period "" "" "" "" "" "")).
  assert (K : exists z q, py_int (p_stop p) = Ok z /\ get_duration (p_start p) "00:00:00" (p_end p) "00:00:00" "minutes" = Ok q /\ (q == inject_Z z)%Q).
  { unfold p, the_period. destruct (ngen_on o); [|destruct (chirps o || gldas o)]; cbn [nth periods p_stop p_start p_end].
    - exists 43200%Z. eexists. split; [vm_compute; reflexivity|]. split; [vm_compute; reflexivity|]. vm_compute; reflexivity.
    - exists 1578240%Z. eexists. split; [vm_compute; reflexivity|]. split; [vm_compute; reflexivity|]. vm_compute; reflexivity.
    - exists 5258880%Z. eexists. split; [vm_compute; reflexivity|]. split; [vm_compute; reflexivity|]. vm_compute; reflexivity. }
  destruct K as (z & q & K). exists (p_start p), (p_end p), (p_stop p), z, q.
  split; [eexists; exists 0%nat; split; [right; left; reflexivity|split; [reflexivity|split; reflexivity]]|].
  split; [eexists; exists 2%nat; split; [right; left; reflexivity|split; [reflexivity|split; reflexivity]]|].
  split; [eexists; exists 1%nat; split; [right; right; left; reflexivity|split; [reflexivity|split; reflexivity]]|]. exact K.
Qed.
Print Assumptions C105_period.

(** [C105_rain] With one source of rainfall, the meteorology reads its file in its own way and with its own step, and output is saved
    with that step. *)
Theorem C105_rain : forall o home site case d jobs src, prepare o home site case = Ok (Some (d, jobs)) ->
  chosen o src -> (forall s, chosen o s -> s = src) ->
  field_value "_meteorology.cfg" "dt" jobs (seconds src) /\ field_value "_meteorology.cfg" "save_grid_dt" jobs (seconds src) /\
  field_value "_meteorology.cfg" "P_type" jobs (kind src) /\
  exists p, In p periods /\ field_value "_time_info.cfg" "start_date" jobs (p_start p) /\ field_value "_meteorology.cfg" "P" jobs (file_name src site case (p_range p)).
Proof.
  intros o home site case d jobs src E C U. destruct (made _ _ _ _ _ _ E) as [(_ & n & N & D) ->].
  assert (F : step_str o = seconds src /\ (if ngen_on o || test_rain o then "Time_Series" else "Grid_Sequence") = kind src /\
              forall r, the_file o site case r = file_name src site case r).
  { pose proof (U Csv) as U1. pose proof (U TestRain) as U2. pose proof (U Chirps) as U3. pose proof (U Chirps2) as U4. pose proof (U Gldas) as U5.
    unfold step_str, the_file, ngen_on, chosen in *. rewrite N in *. clear U E.
    destruct src; cbn [seconds kind file_name] in *; destruct n; destruct (test_rain o); destruct (chirps o); destruct (chirps2 o); destruct (gldas o);
    try discriminate; try (specialize (U1 eq_refl); discriminate); try (specialize (U2 eq_refl); discriminate); try (specialize (U3 eq_refl); discriminate);
    try (specialize (U4 eq_refl); discriminate); try (specialize (U5 eq_refl); discriminate); cbn; auto. }
  destruct F as (F1 & F2 & F3). set (p := nth (the_period o) periods (Period "" "" "" "" "" "")).
  split; [rewrite <- F1; eexists; exists 0%nat; split; [right; right; right; left; reflexivity|split; [reflexivity|split; reflexivity]]|].
  split; [rewrite <- F1; eexists; exists 7%nat; split; [right; right; right; left; reflexivity|split; [reflexivity|split; reflexivity]]|].
  split; [rewrite <- F2; eexists; exists 1%nat; split; [right; right; right; left; reflexivity|split; [reflexivity|split; reflexivity]]|].
  exists p. split; [apply nth_In; unfold the_period; destruct (ngen_on o); [|destruct (chirps o || gldas o)]; cbn; lia|].
  split; [eexists; exists 0%nat; split; [right; left; reflexivity|split; [reflexivity|split; reflexivity]]|].
  rewrite <- F3. eexists; exists 2%nat; split; [right; right; right; left; reflexivity|split; [reflexivity|split; reflexivity]].
Qed.
Print Assumptions C105_rain.

(** [C105_two_refuted] "The step is that of the rainfall read": with the CSV file and CHIRPS both on, the hourly
    values of the CSV file are read with a step of six hours. *)
Theorem C105_two_refuted : exists o, chosen o Csv /\ forall home site case, exists d jobs, prepare o home site case = Ok (Some (d, jobs)) /\
  field_value "_meteorology.cfg" "P" jobs (file_name Csv site case "2012-06_to_2012-07") /\ field_value "_meteorology.cfg" "dt" jobs (seconds Chirps).
Proof.
  set (o := {| nextgen := true; east_africa := false; chirps := true; chirps2 := false; gldas := false; gpm := false; test_rain := false; ngen_csv := Some true; no_met := true |}).
  exists o. split; [reflexivity|]. intros home site case.
  assert (U : usable o) by (split; [reflexivity|exists true; auto]).
  destruct (shape o home site case (or_introl eq_refl) U) as (d & E). exists d, (the_jobs o home site case). split; [exact E|].
  split; [eexists; exists 2%nat|eexists; exists 0%nat]; (split; [right; right; right; left; reflexivity|split; [reflexivity|split; reflexivity]]).
Qed.
Print Assumptions C105_two_refuted.

(** [C105_csv_stack_refuted] "NO_MET=False makes the rainfall input": with the CSV file alone there is no name for
    the grids, a TypeError. *)
Theorem C105_csv_stack_refuted : forall o home site case d jobs, prepare o home site case = Ok (Some (d, jobs)) ->
  (forall s, chosen o s -> s = Csv) -> rain_rts_path d = Err TypeError.
Proof.
  intros o home site case d jobs E U.
  pose proof (U TestRain) as U2. pose proof (U Chirps) as U3. pose proof (U Chirps2) as U4. pose proof (U Gldas) as U5. clear U.
  destruct (made _ _ _ _ _ _ E) as [(G & n & N & D) _]. unfold chosen in *. destruct o as [ne ea c1 c2 gl gp tr nc nm]. cbn in *. subst gp nc.
  destruct tr; [specialize (U2 eq_refl); discriminate|]. destruct c1; [specialize (U3 eq_refl); discriminate|].
  destruct c2; [specialize (U4 eq_refl); discriminate|]. destruct gl; [specialize (U5 eq_refl); discriminate|].
  destruct n; [|destruct D as [D|[_ [D|[D|D]]]]; discriminate].
  unfold prepare in E. cbn [nextgen east_africa] in E. destruct (negb ne && negb ea); [discriminate|].
  destruct ea, nm; vm_compute in E; injection E as <- _; reflexivity.
Qed.
Print Assumptions C105_csv_stack_refuted.

Lemma drop_all n : forall a t, n = String.length a -> drop n (a ++ t) = t.
Proof. induction n as [|n IH]; intros [|c a] t H; cbn in *; try discriminate; [reflexivity|]. apply IH. now injection H. Qed.
Lemma len_app a t : String.length (a ++ t) = (String.length a + String.length t)%nat.
Proof. induction a as [|c a IH]; cbn; [reflexivity|now rewrite IH]. Qed.
Lemma app_tail a : forall b t, a ++ t = b ++ t -> a = b.
Proof.
  intros b t E. assert (L : String.length a = String.length b) by (apply (f_equal String.length) in E; rewrite !len_app in E; lia).
  revert b L E. induction a as [|c a IH]; intros [|d b] L E; cbn in *; try discriminate; [reflexivity|].
  injection E as -> E. f_equal. apply IH; [now injection L|exact E].
Qed.
Definition ends (t f : string) : bool := String.eqb (drop (String.length f - String.length t) f) t.
Lemma ends_of case t : ends t (case ++ t) = true.
Proof. unfold ends. rewrite len_app. rewrite (drop_all _ case t) by lia. apply String.eqb_refl. Qed.
Definition only_one (t : string) : bool := forallb (fun f => negb (ends t f) || String.eqb f ("Test1" ++ t)) template_files && existsb (String.eqb ("Test1" ++ t)) template_files.
Lemma only t case : only_one t = true -> In (case ++ t) template_files <-> case = "Test1".
Proof.
  intros H. apply andb_true_iff in H. destruct H as [H1 H2]. rewrite forallb_forall in H1. split.
  - intros I. specialize (H1 _ I). rewrite ends_of in H1. cbn [negb orb] in H1. apply String.eqb_eq in H1. now apply app_tail in H1.
  - intros ->. apply existsb_exists in H2. destruct H2 as (f & Hf & E). apply String.eqb_eq in E. now rewrite E.
Qed.

(** [C105_case_refuted] "The case prefix is free": only Test1 has a provider file and templates. *)
Theorem C105_case_refuted : forall case, (copy_provider_file case = true <-> case = "Test1") /\
  forall home o site d jobs j, prepare o home site case = Ok (Some (d, jobs)) -> In j jobs ->
    In (case ++ template j) template_files <-> case = "Test1".
Proof.
  intros case. split.
  - rewrite <- (only "_providers.txt" case) by (vm_compute; reflexivity). unfold copy_provider_file. rewrite existsb_exists. split.
    + intros (f & Hf & E). apply String.eqb_eq in E. now rewrite E.
    + intros I. eexists. split; [exact I|apply String.eqb_refl].
  - intros home o site d jobs j E I. apply only. destruct (made _ _ _ _ _ _ E) as [_ ->].
    destruct I as [<-|[<-|[<-|[<-|[<-|[<-|[]]]]]]]; vm_compute; reflexivity.
Qed.
Print Assumptions C105_case_refuted.

(** ** The outlet *)

Local Open Scope Q_scope.

Lemma max_ge l : forall m, m <= qmax_list m l /\ (forall x, In x l -> x <= qmax_list m l) /\ (qmax_list m l = m \/ In (qmax_list m l) l).
Proof.
  induction l as [|y l IH]; intros m; cbn [qmax_list].
  - split; [lra|]. split; [intros x []|now left].
  - destruct (Qle_bool y m) eqn:E.
    + apply Qle_bool_iff in E. destruct (IH m) as (A & B & C). split; [exact A|]. split.
      * intros x [<-|H]; [lra|now apply B].
      * destruct C as [C|C]; [now left|right; now right].
    + assert (E' : m < y) by (apply Qnot_le_lt; intros Y; apply Qle_bool_iff in Y; congruence).
      destruct (IH y) as (A & B & C). split; [lra|]. split.
      * intros x [<-|H]; [exact A|now apply B].
      * right. destruct C as [C|C]; [left; now symmetry|now right].
Qed.
Lemma first_at_spec v l : In v l -> (first_at v l < List.length l)%nat /\ nth (first_at v l) l 0 == v /\
  forall i, (i < first_at v l)%nat -> ~ nth i l 0 == v.
Proof.
  induction l as [|y l IH]; [intros []|]. cbn [first_at List.length nth]. intros H. destruct (Qeq_bool y v) eqn:E.
  - apply Qeq_bool_iff in E. split; [lia|]. split; [exact E|]. intros i Hi. lia.
  - assert (N : ~ y == v) by (intros Y; apply Qeq_bool_iff in Y; congruence).
    destruct H as [->|H]; [exfalso; apply N; reflexivity|]. destruct (IH H) as (A & B & C).
    split; [lia|]. split; [exact B|]. intros [|i] Hi; [exact N|]. apply C. lia.
Qed.

(** [C105_outlet] The outlet is a cell of the grid with the largest area, the first of them row by row, and its coordinates are
    those of the middle of the cell, inside the box of the grid. *)
Theorem C105_outlet : forall A nrows ncols g, (0 < nrows)%nat -> (0 < ncols)%nat -> List.length A = (nrows * ncols)%nat ->
  pixel_geom g = 0%Z -> 0 < xres g -> 0 < yres g ->
  exists col row area lon lat, get_outlet A ncols g 0 = Ok (col, row, area, lon, lat) /\
    (row < nrows)%nat /\ (col < ncols)%nat /\ nth (row * ncols + col) A 0 == area /\
    (forall k, (k < List.length A)%nat -> nth k A 0 <= area) /\
    (forall k, (k < row * ncols + col)%nat -> nth k A 0 < area) /\
    lon == x_west g + (inject_Z (Z.of_nat col) + (1#2)) * (xres g / 3600) /\
    lat == y_north g - (inject_Z (Z.of_nat row) + (1#2)) * (yres g / 3600) /\
    x_west g < lon < x_west g + inject_Z (Z.of_nat ncols) * (xres g / 3600) /\
    y_north g - inject_Z (Z.of_nat nrows) * (yres g / 3600) < lat < y_north g.
Proof.
  intros A nrows ncols g Hr Hc L P X Y. unfold get_outlet. rewrite P. cbn [Z.eqb].
  set (m := qmax_list (hd 0 A) (tl A)). set (k := first_at m A).
  assert (M : (forall x, In x A -> x <= m) /\ In m A).
  { destruct A as [|a A]; [exfalso; cbn in L; nia|]. cbn [hd tl] in m. destruct (max_ge A a) as (A1 & A2 & A3). split.
    - intros x [<-|H]; [exact A1|now apply A2].
    - destruct A3 as [E|E]; [left; now symmetry|now right]. }
  destruct M as [M1 M2]. destruct (first_at_spec m A M2) as (F1 & F2 & F3). fold k in F1, F2, F3.
  assert (K : (k / ncols * ncols + k mod ncols = k)%nat) by (rewrite Nat.mul_comm; symmetry; apply Nat.div_mod; lia).
  assert (Kr : (k / ncols < nrows)%nat) by (apply Nat.div_lt_upper_bound; lia).
  assert (Kc : (k mod ncols < ncols)%nat) by (apply Nat.mod_upper_bound; lia).
  eexists (k mod ncols)%nat, (k / ncols)%nat, m, _, _. split; [reflexivity|]. rewrite K.
  assert (B : forall i, (i < List.length A)%nat -> nth i A 0 <= m) by (intros i Hi; apply M1, nth_In, Hi).
  set (c := (k mod ncols)%nat) in *. set (r := (k / ncols)%nat) in *.
  assert (C1 : inject_Z (Z.of_nat c) + 1 <= inject_Z (Z.of_nat ncols)).
  { change 1 with (inject_Z 1). rewrite <- inject_Z_plus, <- Zle_Qle. lia. }
  assert (R1 : inject_Z (Z.of_nat r) + 1 <= inject_Z (Z.of_nat nrows)).
  { change 1 with (inject_Z 1). rewrite <- inject_Z_plus, <- Zle_Qle. lia. }
  assert (C0 : 0 <= inject_Z (Z.of_nat c)) by (change 0 with (inject_Z 0); rewrite <- Zle_Qle; lia).
  assert (R0 : 0 <= inject_Z (Z.of_nat r)) by (change 0 with (inject_Z 0); rewrite <- Zle_Qle; lia).
  assert (DX : 0 < xres g / 3600) by (apply Qlt_shift_div_l; lra). assert (DY : 0 < yres g / 3600) by (apply Qlt_shift_div_l; lra).
  set (dx := xres g / 3600) in *. set (dy := yres g / 3600) in *.
  set (qc := inject_Z (Z.of_nat c)) in *. set (qr := inject_Z (Z.of_nat r)) in *.
  set (nc := inject_Z (Z.of_nat ncols)) in *. set (nr := inject_Z (Z.of_nat nrows)) in *.
  split; [exact Kr|]. split; [exact Kc|]. split; [exact F2|]. split; [exact B|]. split.
  { intros i Hi. specialize (F3 i Hi). assert (Q := B i ltac:(lia)). apply Qle_lteq in Q. destruct Q as [Q|Q]; [exact Q|contradiction]. }
  split; [field|]. split; [field|].
  assert (E2 : forall u, u / 2 == (1#2) * u) by (intros u; field).
  split; [split|split]; rewrite E2; nra.
Qed.
Print Assumptions C105_outlet.

Lemma smaller_between m x y z : smaller m x -> smaller m z -> x <= y -> y <= z -> smaller m y.
Proof.
  unfold smaller. intros A B C D. apply Qabs_Qlt_condition in A. apply Qabs_Qlt_condition in B. apply Qabs_Qlt_condition. lra.
Qed.

(** [C105_outlet_file] The file written is read back as that cell. *)
Theorem C105_outlet_file : forall A nrows ncols g, (0 < nrows)%nat -> (0 < ncols)%nat -> (Z.of_nat nrows < 100000000)%Z -> (Z.of_nat ncols < 100000000)%Z ->
  List.length A = (nrows * ncols)%nat -> pixel_geom g = 0%Z -> 0 < xres g -> 0 < yres g ->
  (forall a, In a A -> smaller 11 a) ->
  smaller 5 (x_west g) -> smaller 5 (x_west g + inject_Z (Z.of_nat ncols) * (xres g / 3600)) ->
  smaller 5 (y_north g) -> smaller 5 (y_north g - inject_Z (Z.of_nat nrows) * (yres g / 3600)) ->
  exists text row col a h, get_outlets_file A ncols g 0 = Ok text /\
    read_outlet_file (Z.of_nat ncols) (Z.of_nat ncols * Z.of_nat nrows) text = Ok (Some [mkoutlet (Z.of_nat row) (Z.of_nat col) a h]) /\
    (row < nrows)%nat /\ (col < ncols)%nat /\ (forall k, (k < List.length A)%nat -> nth k A 0 <= nth (row * ncols + col) A 0) /\
    close_to 2 a (nth (row * ncols + col) A 0).
Proof.
  intros A nrows ncols g Hr Hc Lr Lc L P X Y S W E N T.
  destruct (C105_outlet A nrows ncols g Hr Hc L P X Y) as (col & row & area & lon & lat & G & R & C & Ha & Hm & _ & _ & _ & Blon & Blat).
  assert (SA : smaller 11 area).
  { assert (I : In (nth (row * ncols + col) A 0) A) by (apply nth_In; nia). specialize (S _ I). unfold smaller in *. now rewrite <- Ha. }
  destruct (C45_written_outlet_comes_back (Z.of_nat ncols) (Z.of_nat nrows) (Z.of_nat col) (Z.of_nat row) area (-9999) lon lat) as (a & h & R1 & R2 & R3);
    try lia; try assumption.
  - reflexivity.
  - apply (smaller_between 5 _ lon _ W E); lra.
  - apply (smaller_between 5 _ lat _ T N); lra.
  - unfold get_outlets_file. rewrite G. cbn [rbind]. eexists. exists row, col, a, h. split; [reflexivity|].
    split; [exact R1|]. split; [exact R|]. split; [exact C|]. split; [intros k Hk; rewrite Ha; now apply Hm|].
    unfold close_to in *. now rewrite Ha.
Qed.
Print Assumptions C105_outlet_file.

(** [C105_step_back_refuted] "The outlet can be moved back upstream (STEP_BACKS)": any number of steps ends in an IndexError. *)
Theorem C105_step_back_refuted : forall A ncols g n, (0 < n)%nat -> get_outlets_file A ncols g n = Err IndexError.
Proof. intros A ncols g [|n] H; [lia|]. reflexivity. Qed.
Print Assumptions C105_step_back_refuted.

(** ** The part of a CSV file *)

Local Open Scope string_scope.

(** the date of a line, its first ten characters *)
Definition date (l : string) : string := take 10 l.
Definition in_order (lines : list string) : Prop := StronglySorted (fun a b => String.leb (date a) (date b) = true) lines.
(** within the period: from the start date to before the end date *)
Definition within (s e : string) (l : string) : bool := String.leb s (date l) && negb (String.leb e (date l)).

Lemma prefix_date d : String.length d = 10%nat -> forall l, String.prefix d l = true <-> date l = d.
Proof.
  unfold date. generalize 10%nat. intros n H l. revert n d H. induction l as [|c l IH]; intros n d H.
  - destruct d as [|x d]; cbn [String.prefix]; [destruct n; tauto|]. destruct n; [discriminate|]. cbn. split; discriminate.
  - destruct d as [|x d]; cbn in H; subst n; cbn [String.prefix take]; [tauto|].
    destruct (ascii_dec x c) as [->|N].
    + rewrite (IH _ d eq_refl). split; [now intros ->|intros E; now injection E].
    + split; [discriminate|]. intros E. injection E as -> _. now contradict N.
Qed.
Lemma within_none s e ls : (forall l, In l ls -> within s e l = false) -> filter (within s e) ls = [].
Proof. induction ls as [|l ls IH]; intros H; [reflexivity|]. cbn [filter]. rewrite (H l (or_introl eq_refl)). apply IH. intros x Hx. apply H. now right. Qed.
Lemma leb_anti a b : String.leb a b = true -> String.leb b a = true -> a = b.
Proof. apply String.leb_antisym. Qed.

Lemma to_date_spec s e : String.length e = 10%nat -> forall r, in_order r -> (forall l, In l r -> String.leb s (date l) = true) ->
  fst (to_date e r) = (if existsb (String.prefix e) r then filter (within s e) r else r) /\ snd (to_date e r) = existsb (String.prefix e) r.
Proof.
  intros He. induction r as [|l r IH]; intros O S; [split; reflexivity|]. cbn [to_date existsb filter].
  inversion O as [|? ? O1 O2]; subst. rewrite Forall_forall in O2.
  destruct (String.prefix e l) eqn:P; cbn [orb].
  - apply (prefix_date e He) in P. split; [|reflexivity]. cbn [fst].
    assert (W : forall x, String.leb e (date x) = true -> within s e x = false) by (intros x Hx; unfold within; rewrite Hx; apply andb_false_r).
    rewrite (W l) by (rewrite P; destruct (String.leb_total e e); assumption). symmetry. apply within_none.
    intros x Hx. apply W. rewrite <- P. now apply O2.
  - destruct (IH O1) as [E1 E2]; [intros x Hx; apply S; now right|].
    destruct (to_date e r) as [w b]. cbn [fst snd] in *. split; [|exact E2]. rewrite E1.
    destruct (existsb (String.prefix e) r) eqn:X; [|reflexivity].
    assert (W : within s e l = true); [|now rewrite W].
    unfold within. rewrite (S l (or_introl eq_refl)). cbn [andb]. apply negb_true_iff.
    destruct (String.leb e (date l)) eqn:Y; [|reflexivity]. exfalso.
    apply existsb_exists in X. destruct X as (x & Hx & Px). apply (prefix_date e He) in Px.
    specialize (O2 x Hx). rewrite Px in O2. assert (D : date l = e) by (now apply leb_anti).
    apply (prefix_date e He) in D. congruence.
Qed.

(** [C105_csv] In a file in the order of time that has lines of both dates, the part written is the header and exactly the lines from
    the start date to before the end date, in their order. *)
Theorem C105_csv : forall s e header lines, String.length s = 10%nat -> String.length e = 10%nat -> String.leb s e = true -> s <> e ->
  in_order lines -> (exists l, In l lines /\ date l = s) -> (exists l, In l lines /\ date l = e) ->
  subset_csv s e (header :: lines) = (header :: filter (within s e) lines, true).
Proof.
  intros s e header lines Ls Le SE NE O (ls & I1 & D1) (le & I2 & D2). cbn [subset_csv].
  assert (K : forall r, in_order r -> In ls r -> In le r -> exists l r', from_date s r = Some (l :: r') /\ date l = s /\
                in_order (l :: r') /\ In le r' /\ filter (within s e) r = filter (within s e) (l :: r')).
  { induction r as [|l r IH]; intros O1 J1 J2; [destruct J1|]. cbn [from_date]. inversion O1 as [|? ? O2 O3]; subst. rewrite Forall_forall in O3.
    destruct (String.prefix (date ls) l) eqn:P.
    - apply (prefix_date _ Ls) in P. exists l, r. split; [reflexivity|]. split; [exact P|]. split; [exact O1|]. split; [|reflexivity].
      destruct J2 as [<-|J2]; [|exact J2]. exfalso. apply NE. now rewrite <- P.
    - destruct J1 as [<-|J1]; [exfalso; assert (Z := proj2 (prefix_date _ Ls l) eq_refl); congruence|].
      destruct J2 as [<-|J2].
      + exfalso. specialize (O3 ls J1). apply NE. now apply leb_anti.
      + destruct (IH O2 J1 J2) as (l' & r' & E & D & O4 & I4 & F). exists l', r'. split; [exact E|]. split; [exact D|]. split; [exact O4|].
        split; [exact I4|]. rewrite <- F. cbn [filter].
        assert (W : within (date ls) (date le) l = false); [|now rewrite W].
        unfold within. destruct (String.leb (date ls) (date l)) eqn:Y; [|reflexivity]. exfalso.
        assert (Z : date l = date ls) by (apply leb_anti; [now apply O3|exact Y]). apply (prefix_date _ Ls) in Z. congruence. }
  destruct (K lines O I1 I2) as (l & r' & E & D & O4 & I4 & F). rewrite E, F. apply StronglySorted_inv in O4. destruct O4 as [O5 O6].
  rewrite Forall_forall in O6.
  destruct (to_date_spec s e Le r' O5) as [T1 T2]; [intros x Hx; rewrite <- D; now apply O6|].
  assert (X : existsb (String.prefix e) r' = true).
  { apply existsb_exists. exists le. split; [exact I4|]. now apply (prefix_date e Le). }
  rewrite X in T1, T2. destruct (to_date e r') as [w b]. cbn [fst snd] in T1, T2. subst w b. cbn [filter].
  assert (W : within s e l = true); [|now rewrite W].
  unfold within. rewrite D. destruct (String.leb_total s s) as [Y|Y]; rewrite Y; cbn [andb]; apply negb_true_iff;
  destruct (String.leb e s) eqn:Z; try reflexivity; exfalso; apply NE; now apply leb_anti.
Qed.
Print Assumptions C105_csv.

(** [C105_csv_start_refuted] "The lines of the period are taken": if no line has the start date itself, nothing but the header is,
    whatever follows. *)
Theorem C105_csv_start_refuted : forall s e header lines, String.length s = 10%nat -> (forall l, In l lines -> date l <> s) ->
  subset_csv s e (header :: lines) = ([header], false).
Proof.
  intros s e header lines Ls N. cbn [subset_csv].
  assert (E : from_date s lines = None); [|now rewrite E].
  induction lines as [|l r IH]; [reflexivity|]. cbn [from_date].
  destruct (String.prefix s l) eqn:P; [|apply IH; intros x Hx; apply N; now right].
  apply (prefix_date s Ls) in P. exfalso. apply (N l (or_introl eq_refl) P).
Qed.
Print Assumptions C105_csv_start_refuted.

(** [C105_csv_end_refuted] "No line after the end date is taken": if no line has the end date itself, all that follow the
    start are. *)
Theorem C105_csv_end_refuted : forall s e header l r, String.length s = 10%nat -> String.length e = 10%nat -> date l = s ->
  (forall x, In x r -> date x <> e) -> subset_csv s e (header :: l :: r) = (header :: l :: r, false).
Proof.
  intros s e header l r Ls Le D N. cbn [subset_csv from_date]. rewrite (proj2 (prefix_date s Ls l) D).
  assert (E : to_date e r = (r, false)); [|now rewrite E].
  induction r as [|x r IH]; [reflexivity|]. cbn [to_date]. destruct (String.prefix e x) eqn:P.
  - apply (prefix_date e Le) in P. exfalso. apply (N x (or_introl eq_refl) P).
  - now rewrite IH by (intros y Hy; apply N; now right).
Qed.
Print Assumptions C105_csv_end_refuted.

Example C105_case :
  (exists d jobs, prepare {| nextgen := true; east_africa := true; chirps := false; chirps2 := true; gldas := false; gpm := false; test_rain := false;
                             ngen_csv := Some false; no_met := false |} "/home/a/" "Tana_120sec" "Test1" = Ok (Some (d, jobs)) /\
     find_attr "cfg_dir" d = Some (Some "/home/a/basins_TEST/Tana_120sec/Test1_2005-01_to_2015-01_CHIRPS_cfg/") /\
     nth_error (vals (nth 3 jobs (Job "" [] []))) 2 = Some (Some "CHIRPS_Rain_Tana_120sec_2005-01_to_2015-01.rts")) /\
  (exists lon lat, get_outlet [1; 3; 2; 7; 7; 5]%Q 3 (Geo 36 1 120 120 0) 0 = Ok (0, 1, 7%Q, lon, lat)%nat /\ (lon == 36 + (1#60))%Q /\ (lat == 1 - (3#60))%Q) /\
  subset_csv "2012-06-01" "2012-07-01" ["Time,APCP"; "2012-05-31 23:00,0"; "2012-06-01 00:00,1"; "2012-06-30 23:00,2"; "2012-07-01 00:00,3"] =
    (["Time,APCP"; "2012-06-01 00:00,1"; "2012-06-30 23:00,2"], true).
Proof.
  split; [|split; [|reflexivity]].
  - eexists. eexists. split; [vm_compute; reflexivity|]. split; vm_compute; reflexivity.
  - eexists. eexists. split; [vm_compute; reflexivity|]. split; vm_compute; reflexivity.
Qed.
