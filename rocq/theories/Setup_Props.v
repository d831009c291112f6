(* C92: a component starts from the path, time and component configuration files. *)
From Coq Require Import String Ascii List ZArith NArith QArith Bool Lia Lqa.
From Verif Require Import Time_Model Time_Spec Time_Proofs Time_Props Io_Model Io_Spec Io_Proofs Io_Props
  Rti_Model Rti_Proofs Fmt_Model Fmt_Proofs Cfg_Model Cfg_Spec Cfg_Proofs Cfg_Props Setup_Model.
From Verif Require Info_Model Info_Props.
Import ListNotations.
Local Open Scope string_scope.

(* ---------- specification ---------- *)
(* the last of the settings with that name has that value; no setting has that name *)
Definition last_setting (es : list entry) (X v : string) : Prop :=
  exists b e a, es = (b ++ e :: a)%list /\ e_name e = X /\ e_value e = v /\ Forall (fun e => e_name e <> X) a.
Definition unset (es : list entry) (X : string) : Prop := Forall (fun e => e_name e <> X) es.
Definition dir_names : list string := ["cfg_directory"; "in_directory"; "out_directory"; "topo_directory"; "soil_directory"; "met_directory"; "misc_directory"].
Definition derived : list string := ["duration"; "duration_units"; "start_datetime"; "end_datetime"].
(* [x] is in [s] only where [s] ends with it; [x] is nowhere in [s] *)
Definition only_at_end (x s : string) : Prop := forall a b, s = a ++ x ++ b -> b = "".
Definition nowhere (x s : string) : Prop := forall a b, s <> a ++ x ++ b.

(* ---------- the names of the files ---------- *)
Lemma prefix_true : forall x s, String.prefix x s = true -> exists b, s = x ++ b.
Proof.
  induction x as [|c x IH]; intros s H; [exists s; reflexivity|]. destruct s as [|d s]; [discriminate|]. simpl in H.
  destruct (Ascii.ascii_dec c d) as [->|]; [|discriminate]. destruct (IH s H) as (b & ->). exists b. reflexivity.
Qed.
Lemma prefix_app : forall x b, String.prefix x (x ++ b) = true.
Proof. induction x as [|c x IH]; intros b; [destruct b; reflexivity|]. simpl. destruct (Ascii.ascii_dec c c); [apply IH|congruence]. Qed.
Lemma drop_app_s : forall x b, drop (String.length x) (x ++ b) = b.
Proof. induction x as [|c x IH]; intros b; [destruct b; reflexivity|simpl; apply IH]. Qed.
Lemma remove_none : forall f x s, nowhere x s -> remove_f f x s = s.
Proof.
  induction f as [|f IH]; intros x s H; [reflexivity|]. destruct s as [|c r]; [reflexivity|]. cbn [remove_f].
  destruct (String.prefix x (String c r)) eqn:P.
  - apply prefix_true in P. destruct P as (b & P). exfalso. apply (H "" b). exact P.
  - rewrite IH; [reflexivity|]. intros a b E. apply (H (String c a) b). simpl. now rewrite E.
Qed.
Lemma remove_end : forall p x f, x <> "" -> only_at_end x (p ++ x) -> (String.length (p ++ x) <= f)%nat -> remove_f f x (p ++ x) = p.
Proof.
  induction p as [|c p IH]; intros x f Hx H Hf.
  - simpl in *. destruct f as [|f]; [destruct x; [congruence|simpl in Hf; lia]|]. destruct x as [|c x]; [congruence|].
    cbn [remove_f]. assert (P : String.prefix (String c x) (String c x) = true) by (pose proof (prefix_app (String c x) "") as P; rewrite app_nil_s in P; exact P).
    rewrite P. pose proof (drop_app_s (String c x) "") as D. rewrite app_nil_s in D. rewrite D. destruct f; reflexivity.
  - simpl in Hf. destruct f as [|f]; [lia|]. simpl append. cbn [remove_f].
    destruct (String.prefix x (String c (p ++ x))) eqn:P.
    + exfalso. apply prefix_true in P. destruct P as (b & P). pose proof (H "" b P) as ->. rewrite app_nil_s in P.
      apply (f_equal String.length) in P. simpl in P. rewrite length_app_s in P. lia.
    + rewrite IH; [reflexivity|exact Hx| |lia]. intros a b E. apply (H (String c a) b). simpl. now rewrite E.
Qed.
(* when the extension is only at the end of the file's name, it is what the suffix takes the place of *)
Theorem C92_sibling : forall p ext suffix, ext <> "" -> only_at_end ext (p ++ ext) -> sibling (p ++ ext) ext suffix = p ++ suffix.
Proof. intros p ext suffix H O. unfold sibling, remove_all. rewrite remove_end; auto. Qed.
Print Assumptions C92_sibling.
(* a configuration file with another ending: the suffix is put behind the whole name *)
Theorem C92_sibling_other_name : forall cfg ext suffix, nowhere ext cfg -> sibling cfg ext suffix = cfg ++ suffix.
Proof. intros cfg ext suffix H. unfold sibling, remove_all. now rewrite remove_none. Qed.
Print Assumptions C92_sibling_other_name.
(* false in general: with the extension also in the name of a folder, another folder is meant *)
Theorem C92_sibling_refuted : let cfg := "/home/old_topoflow.cfg/Treynor" ++ "_topoflow.cfg" in
  sibling cfg "_topoflow.cfg" "_time_info.cfg" = "/home/old/Treynor_time_info.cfg" /\ sibling cfg "_topoflow.cfg" "_time_info.cfg" <> "/home/old_topoflow.cfg/Treynor" ++ "_time_info.cfg".
Proof. split; vm_compute; [reflexivity|discriminate]. Qed.
Print Assumptions C92_sibling_refuted.

(* ---------- reading settings ---------- *)
Definition put_all (es : list entry) (A : attrs) : attrs := fold_left (fun A e => upd A (e_name e) (VStr (e_value e))) es A.
Lemma assign_is : forall l o A, line_is l o -> assign (l ++ nl) A = match o with Some e => upd A (e_name e) (VStr (e_value e)) | None => A end.
Proof.
  intros l o A [_ H]. unfold assign. destruct o as [e|].
  - destruct H as (a & b & c & d & E & Ha & Hb & Hc & D & NC & Ta & Tb & Tc).
    assert (S : split "|" (l ++ nl) = [a; b; c; (d ++ nl)%string]).
    { subst l. rewrite !app_assoc_s. cbn [append].
      rewrite split_app by (now apply bars_nosep). f_equal.
      rewrite ?app_assoc_s. cbn [append]. rewrite split_app by (now apply bars_nosep). f_equal.
      rewrite ?app_assoc_s. cbn [append]. rewrite split_app by (now apply bars_nosep). f_equal.
      apply split_last. rewrite nosep_app, bars_nosep by exact D. reflexivity. }
    rewrite S. rewrite (trimmed_strip _ _ Ta), (trimmed_strip _ _ Tb).
    replace (is_comment (l ++ nl)) with false; [reflexivity|].
    symmetry. destruct l as [|x l]; [reflexivity|]. cbn [append is_comment].
    destruct x as [[] [] [] [] [] [] [] []]; try reflexivity. exfalso. apply NC. now exists l.
  - destruct H as [[r ->]|H].
    + destruct (split "|" (String "#" r ++ nl)) as [|? [|? [|? [|? [|]]]]]; reflexivity.
    + pose proof (split_length (l ++ nl)) as L. rewrite bars_app in L. cbn [bars nl] in L.
      change (bars nl) with 0%nat in L.
      destruct (split "|" (l ++ nl)) as [|? [|? [|? [|? [|]]]]]; cbn in L; try reflexivity. exfalso. lia.
Qed.
Lemma assign_all_is : forall text es A, cfg_file text es -> assign_all text A = put_all es A.
Proof.
  intros text es A (lines & marks & -> & F & <-). unfold assign_all. rewrite (readlines_cfg _ _ F). revert A.
  induction F as [|l o lines marks Hl _ IH]; intros A; [reflexivity|]. cbn [map fold_left]. rewrite (assign_is l o A Hl).
  destruct o as [e|]; cbn [settings]; rewrite IH; reflexivity.
Qed.
Lemma put_all_unset : forall es A X, unset es X -> put_all es A X = A X.
Proof.
  induction es as [|e es IH]; intros A X H; [reflexivity|]. inversion H; subst. cbn [put_all fold_left]. fold (put_all es (upd A (e_name e) (VStr (e_value e)))).
  rewrite IH by assumption. unfold upd. destruct (String.eqb_spec (e_name e) X); [contradiction|reflexivity].
Qed.
Lemma put_all_last : forall es A X v, last_setting es X v -> put_all es A X = Some (VStr v).
Proof.
  intros es A X v (b & e & a & -> & <- & <- & H). unfold put_all. rewrite fold_left_app. cbn [fold_left].
  fold (put_all b A). fold (put_all a (upd (put_all b A) (e_name e) (VStr (e_value e)))).
  rewrite (put_all_unset a) by exact H. unfold upd. now rewrite String.eqb_refl.
Qed.
Lemma last_or_unset : forall es X, unset es X \/ exists v, last_setting es X v.
Proof.
  intros es X. induction es as [|e es IH]; [left; constructor|]. destruct IH as [IH|(v & b & e' & a & -> & H)].
  - destruct (string_dec (e_name e) X) as [<-|n].
    + right. exists (e_value e), [], e, es. auto.
    + left. constructor; assumption.
  - right. exists v, (e :: b), e', a. split; [reflexivity|exact H].
Qed.

(* ---------- time_info ---------- *)
Lemma text_of_ok : forall A n s, text_of A n = Ok s -> A n = Some (VStr s).
Proof. intros A n s H. unfold text_of in H. destruct (A n) as [[]|]; congruence. Qed.
Lemma text_of_some : forall A n s, A n = Some (VStr s) -> text_of A n = Ok s.
Proof. intros A n s H. unfold text_of. now rewrite H. Qed.
Ltac look := unfold upd; simpl.
Definition time_file (D : disk) (ext cfg text : string) : Prop := D (sibling cfg ext "_time_info.cfg") = Some text.
Lemma time_read : forall D ext cfg text es sd st ed et, time_file D ext cfg text -> cfg_file text es ->
  last_setting es "start_date" sd -> last_setting es "start_time" st -> last_setting es "end_date" ed -> last_setting es "end_time" et ->
  read_time_info D ext cfg = (let! dur := get_duration sd st ed et "minutes" in
     Ok (upd (upd (upd (upd (put_all es nothing) "duration" (VFloat dur)) "duration_units" (VStr "minutes")) "start_datetime" (VStr (sd ++ " " ++ st))) "end_datetime" (VStr (ed ++ " " ++ et)))).
Proof.
  intros D ext cfg text es sd st ed et HD F H1 H2 H3 H4. unfold read_time_info. rewrite HD. rewrite (assign_all_is _ _ _ F).
  rewrite (text_of_some _ _ _ (put_all_last _ nothing _ _ H1)), (text_of_some _ _ _ (put_all_last _ nothing _ _ H2)),
    (text_of_some _ _ _ (put_all_last _ nothing _ _ H3)), (text_of_some _ _ _ (put_all_last _ nothing _ _ H4)). reflexivity.
Qed.
Lemma put_all_need : forall es X v, text_of (put_all es nothing) X = Ok v -> last_setting es X v.
Proof.
  intros es X v H. apply text_of_ok in H. destruct (last_or_unset es X) as [U|(w & L)].
  - rewrite put_all_unset in H by exact U. discriminate H.
  - rewrite (put_all_last _ _ _ _ L) in H. congruence.
Qed.
Lemma time_inv : forall D ext cfg text es T, time_file D ext cfg text -> cfg_file text es -> read_time_info D ext cfg = Ok T ->
  exists sd st ed et dur, last_setting es "start_date" sd /\ last_setting es "start_time" st /\ last_setting es "end_date" ed /\ last_setting es "end_time" et /\
    get_duration sd st ed et "minutes" = Ok dur /\
    T = upd (upd (upd (upd (put_all es nothing) "duration" (VFloat dur)) "duration_units" (VStr "minutes")) "start_datetime" (VStr (sd ++ " " ++ st))) "end_datetime" (VStr (ed ++ " " ++ et)).
Proof.
  intros D ext cfg text es T HD F H. unfold read_time_info in H. rewrite HD in H. rewrite (assign_all_is _ _ _ F) in H.
  destruct (text_of _ "start_date") as [sd|] eqn:E1; [|discriminate]. cbn [rbind] in H.
  destruct (text_of _ "start_time") as [st|] eqn:E2; [|discriminate]. cbn [rbind] in H.
  destruct (text_of _ "end_date") as [ed|] eqn:E3; [|discriminate]. cbn [rbind] in H.
  destruct (text_of _ "end_time") as [et|] eqn:E4; [|discriminate]. cbn [rbind] in H.
  destruct (get_duration sd st ed et "minutes") as [dur|] eqn:E5; [|discriminate]. cbn [rbind] in H. injection H as <-.
  exists sd, st, ed, et, dur. repeat split; auto using put_all_need.
Qed.
(* every other setting of the file is there as a text, and nothing else *)
Theorem C92_time_settings : forall D ext cfg text es T, time_file D ext cfg text -> cfg_file text es -> read_time_info D ext cfg = Ok T ->
  forall X, ~ In X derived -> (forall v, last_setting es X v -> T X = Some (VStr v)) /\ (unset es X -> T X = None).
Proof.
  intros D ext cfg text es T HD F H X N. destruct (time_inv _ _ _ _ _ _ HD F H) as (sd & st & ed & et & dur & _ & _ & _ & _ & _ & ->).
  assert (G : forall T0 a b c d, upd (upd (upd (upd T0 "duration" a) "duration_units" b) "start_datetime" c) "end_datetime" d X = T0 X).
  { intros T0 a b c d. unfold upd. simpl in N.
    destruct (String.eqb_spec "end_datetime" X); [tauto|]. destruct (String.eqb_spec "start_datetime" X); [tauto|].
    destruct (String.eqb_spec "duration_units" X); [tauto|]. destruct (String.eqb_spec "duration" X); [tauto|reflexivity]. }
  rewrite G. split; [intros v L; now apply put_all_last|intros U; now rewrite put_all_unset].
Qed.
Print Assumptions C92_time_settings.
(* the length of the run is the time between the two dates, in minutes, whatever the file says about it *)
Theorem C92_duration : forall D ext cfg text es sd st ed et a b T, time_file D ext cfg text -> cfg_file text es ->
  last_setting es "start_date" sd -> last_setting es "start_time" st -> last_setting es "end_date" ed -> last_setting es "end_time" et ->
  get_datetime_obj_from_str sd st = Ok a -> get_datetime_obj_from_str ed et = Ok b -> read_time_info D ext cfg = Ok T ->
  T "duration_units" = Some (VStr "minutes") /\ exists q, T "duration" = Some (VFloat q) /\ (q * 60 * 1000000 == inject_Z (to_us b - to_us a))%Q.
Proof.
  intros D ext cfg text es sd st ed et a b T HD F L1 L2 L3 L4 Ha Hb H. rewrite (time_read _ _ _ _ _ _ _ _ _ HD F L1 L2 L3 L4) in H.
  destruct (get_duration sd st ed et "minutes") as [dur|] eqn:E; [|discriminate]. cbn [rbind] in H. injection H as <-.
  split; [reflexivity|]. exists dur. split; [reflexivity|].
  assert (U : fixed_unit "minutes" 60) by (unfold fixed_unit; tauto).
  destruct (C40_duration_is_time_since sd st ed et "minutes" 60 a b U ltac:(discriminate) Ha Hb dur E) as (r & Hr & ->).
  unfold get_time_since_from_datetime in Hr. cbn in Hr. injection Hr as <-. unfold total_seconds. unfold Qdiv.
  change (/ inject_Z 60)%Q with (1 # 60)%Q. change (/ 1000000)%Q with (1 # 1000000)%Q. ring.
Qed.
Print Assumptions C92_duration.
(* the times of the start and the end are the date, a blank and the time *)
Theorem C92_datetimes : forall D ext cfg text es sd st ed et T, time_file D ext cfg text -> cfg_file text es ->
  last_setting es "start_date" sd -> last_setting es "start_time" st -> last_setting es "end_date" ed -> last_setting es "end_time" et ->
  read_time_info D ext cfg = Ok T -> T "start_datetime" = Some (VStr (sd ++ " " ++ st)) /\ T "end_datetime" = Some (VStr (ed ++ " " ++ et)).
Proof.
  intros D ext cfg text es sd st ed et T HD F L1 L2 L3 L4 H. rewrite (time_read _ _ _ _ _ _ _ _ _ HD F L1 L2 L3 L4) in H.
  destruct (get_duration sd st ed et "minutes") as [dur|] eqn:E; [|discriminate]. cbn [rbind] in H. injection H as <-. split; reflexivity.
Qed.
Print Assumptions C92_datetimes.
(* settings that the code works out itself have no effect *)
Theorem C92_derived_ignored : forall D D' ext cfg text text' es T, time_file D ext cfg text -> time_file D' ext cfg text' -> cfg_file text es ->
  cfg_file text' (filter (fun e => negb (existsb (String.eqb (e_name e)) derived)) es) -> read_time_info D ext cfg = Ok T ->
  exists T', read_time_info D' ext cfg = Ok T' /\ forall X, T' X = T X.
Proof.
  intros D D' ext cfg text text' es T HD HD' F F' H.
  destruct (time_inv _ _ _ _ _ _ HD F H) as (sd & st & ed & et & dur & L1 & L2 & L3 & L4 & E & ->).
  assert (P : forall es A X, ~ In X derived -> put_all (filter (fun e => negb (existsb (String.eqb (e_name e)) derived)) es) A X = put_all es A X).
  { clear. intros es. induction es as [|e es IH]; intros A X N; [reflexivity|]. cbn [filter].
    destruct (existsb (String.eqb (e_name e)) derived) eqn:B; cbn [negb].
    - rewrite (IH A X N). cbn [put_all fold_left]. fold (put_all es A) (put_all es (upd A (e_name e) (VStr (e_value e)))).
      assert (Ne : e_name e <> X).
      { intros <-. apply N. apply existsb_exists in B. destruct B as (y & Hy & B). apply String.eqb_eq in B. now rewrite B. }
      destruct (last_or_unset es X) as [U|(v & L)]; [rewrite !put_all_unset by exact U; unfold upd; apply String.eqb_neq in Ne; now rewrite Ne|].
      now rewrite !(put_all_last _ _ _ _ L).
    - cbn [put_all fold_left]. apply (IH _ X N). }
  assert (Q : forall X v, ~ In X derived -> last_setting es X v -> last_setting (filter (fun e => negb (existsb (String.eqb (e_name e)) derived)) es) X v).
  { intros X v N L. apply put_all_need. unfold text_of. rewrite (P es nothing X N), (put_all_last _ _ _ _ L). reflexivity. }
  assert (N : forall X, In X ["start_date"; "start_time"; "end_date"; "end_time"] -> ~ In X derived).
  { intros X HX. cbn in HX. destruct HX as [<-|[<-|[<-|[<-|[]]]]]; cbn; intuition congruence. }
  rewrite (time_read _ _ _ _ _ sd st ed et HD' F') by (apply Q; [apply N; cbn; tauto|assumption]).
  rewrite E. cbn [rbind]. eexists. split; [reflexivity|]. intro X. unfold upd.
  destruct (String.eqb_spec "end_datetime" X); [reflexivity|]. destruct (String.eqb_spec "start_datetime" X); [reflexivity|].
  destruct (String.eqb_spec "duration_units" X); [reflexivity|]. destruct (String.eqb_spec "duration" X); [reflexivity|].
  apply P. cbn. intuition congruence.
Qed.
Print Assumptions C92_derived_ignored.
(* a file without one of the four dates and times: the component does not start *)
Theorem C92_dates_needed : forall D ext cfg text es X, time_file D ext cfg text -> cfg_file text es ->
  In X ["start_date"; "start_time"; "end_date"; "end_time"] -> unset es X -> read_time_info D ext cfg = Err AttributeError.
Proof.
  intros D ext cfg text es X HD F HX U. unfold read_time_info. rewrite HD, (assign_all_is _ _ _ F).
  assert (A : forall Y, text_of (put_all es nothing) Y = Err AttributeError \/ exists v, text_of (put_all es nothing) Y = Ok v).
  { intro Y. unfold text_of. destruct (last_or_unset es Y) as [V|(v & L)]; [rewrite put_all_unset by exact V; now left|].
    rewrite (put_all_last _ _ _ _ L). right. eauto. }
  assert (B : text_of (put_all es nothing) X = Err AttributeError) by (unfold text_of; now rewrite put_all_unset).
  destruct (A "start_date") as [E1|(v1 & E1)]; rewrite E1; [reflexivity|]. cbn [rbind].
  destruct (A "start_time") as [E2|(v2 & E2)]; rewrite E2; [reflexivity|]. cbn [rbind].
  destruct (A "end_date") as [E3|(v3 & E3)]; rewrite E3; [reflexivity|]. cbn [rbind].
  destruct (A "end_time") as [E4|(v4 & E4)]; rewrite E4; [reflexivity|]. cbn [rbind].
  exfalso. cbn in HX. destruct HX as [<-|[<-|[<-|[<-|[]]]]]; congruence.
Qed.
Print Assumptions C92_dates_needed.
(* with the file, output files can be opened *)
Theorem C92_output : forall D ext cfg text es T, time_file D ext cfg text -> cfg_file text es -> read_time_info D ext cfg = Ok T -> open_output T = Ok tt.
Proof.
  intros D ext cfg text es T HD F H. destruct (time_inv _ _ _ _ _ _ HD F H) as (sd & st & ed & et & dur & L1 & L2 & L3 & L4 & _ & ->).
  unfold open_output, output_needs. cbn [fold_left rbind].
  assert (G : forall X, In X ["start_date"; "start_time"; "end_date"; "end_time"] -> forall T0 a b c d, upd (upd (upd (upd T0 "duration" a) "duration_units" b) "start_datetime" c) "end_datetime" d X = T0 X).
  { intros X HX T0 a b c d. cbn in HX. destruct HX as [<-|[<-|[<-|[<-|[]]]]]; reflexivity. }
  rewrite (text_of_some _ "start_date" sd) by (rewrite G by (cbn; tauto); now apply put_all_last). cbn [rbind].
  rewrite (text_of_some _ "start_time" st) by (rewrite G by (cbn; tauto); now apply put_all_last). cbn [rbind].
  rewrite (text_of_some _ "end_date" ed) by (rewrite G by (cbn; tauto); now apply put_all_last). cbn [rbind].
  rewrite (text_of_some _ "end_time" et) by (rewrite G by (cbn; tauto); now apply put_all_last). reflexivity.
Qed.
Print Assumptions C92_output.
(* without the file: one day, whose length agrees with its dates ... *)
Theorem C92_default : forall D ext cfg, D (sibling cfg ext "_time_info.cfg") = None -> exists T, read_time_info D ext cfg = Ok T /\
  T "start_date" = Some (VStr "2020-01-01") /\ T "start_time" = Some (VStr "00:00:00") /\ T "end_date" = Some (VStr "2020-01-02") /\ T "end_time" = Some (VStr "00:00:00") /\
  T "duration_units" = Some (VStr "minutes") /\ exists q d, T "duration" = Some (VFloat q) /\ get_duration "2020-01-01" "00:00:00" "2020-01-02" "00:00:00" "minutes" = Ok d /\ (q == d)%Q.
Proof.
  intros D ext cfg H. unfold read_time_info. rewrite H. eexists. split; [reflexivity|]. repeat (split; [reflexivity|]).
  exists 1440%Q. eexists. split; [reflexivity|]. split; [vm_compute; reflexivity|]. reflexivity.
Qed.
Print Assumptions C92_default.
(* ... but no output file can be opened then *)
Theorem C92_default_output_refuted : forall D ext cfg, D (sibling cfg ext "_time_info.cfg") = None -> exists T, read_time_info D ext cfg = Ok T /\ open_output T = Err AttributeError.
Proof. intros D ext cfg H. unfold read_time_info. rewrite H. eexists. split; reflexivity. Qed.
Print Assumptions C92_default_output_refuted.

(* ---------- path_info ---------- *)
Definition path_file (D : disk) (ext : string) (A : attrs) (text : string) : Prop :=
  exists cfg, A "cfg_file" = Some (VStr cfg) /\ D (sibling cfg ext "_path_info.cfg") = Some text.
(* the value that the file gives, or the one that was there *)
Definition comes (es : list entry) (A : attrs) (X v : string) : Prop := last_setting es X v \/ unset es X /\ A X = Some (VStr v).
Lemma comes_put : forall es A X v, comes es A X v -> put_all es A X = Some (VStr v).
Proof. intros es A X v [L|[U H]]; [now apply put_all_last|now rewrite put_all_unset]. Qed.
Lemma put_comes : forall es A X v, put_all es A X = Some (VStr v) -> comes es A X v.
Proof.
  intros es A X v H. destruct (last_or_unset es X) as [U|(w & L)].
  - rewrite put_all_unset in H by exact U. right. auto.
  - rewrite (put_all_last _ _ _ _ L) in H. left. congruence.
Qed.
Lemma dirs_inv : forall E A A', set_dirs E A = Ok A' -> exists i o d, A "in_directory" = Some (VStr i) /\ A "out_directory" = Some (VStr o) /\
  Info_Model.set_directories E (Info_Model.mkDirs (opt_of A "cfg_directory") (opt_of A "cfg_file") i o "" "" "" "") = Info_Model.Ok d /\
  opt_of A' "cfg_directory" = Info_Model.cfg_directory d /\ A' "in_directory" = Some (VStr (Info_Model.in_directory d)) /\ A' "out_directory" = Some (VStr (Info_Model.out_directory d)) /\
  A' "topo_directory" = Some (VStr (Info_Model.topo_directory d)) /\ A' "soil_directory" = Some (VStr (Info_Model.soil_directory d)) /\
  A' "met_directory" = Some (VStr (Info_Model.met_directory d)) /\ A' "misc_directory" = Some (VStr (Info_Model.misc_directory d)) /\
  forall X, ~ In X dir_names -> A' X = A X.
Proof.
  intros E A A' H. unfold set_dirs in H. destruct (text_of A "in_directory") as [i|] eqn:Ei; [|discriminate]. cbn [rbind] in H.
  destruct (text_of A "out_directory") as [o|] eqn:Eo; [|discriminate]. cbn [rbind] in H.
  destruct (Info_Model.set_directories E _) as [d|] eqn:Ed; [|discriminate]. injection H as <-.
  exists i, o, d. apply text_of_ok in Ei, Eo. split; [exact Ei|]. split; [exact Eo|]. split; [exact Ed|].
  pose proof (Info_Props.C88_directories _ _ _ Ed) as (c & _ & Hc & _). rewrite Hc. cbn [upd_some].
  repeat (split; [reflexivity|]). intros X N. unfold upd. cbn in N.
  repeat match goal with |- context [String.eqb ?a X] => destruct (String.eqb_spec a X); [exfalso; tauto|] end. reflexivity.
Qed.
(* all other settings of the file become texts of the component; what it does not name stays *)
Theorem C92_path_settings : forall E D ext A text es A', path_file D ext A text -> cfg_file text es -> read_path_info E D ext A = Ok A' ->
  forall X, ~ In X dir_names -> (forall v, last_setting es X v -> A' X = Some (VStr v)) /\ (unset es X -> A' X = A X).
Proof.
  intros E D ext A text es A' (cfg & Hc & HD) F H X N. unfold read_path_info in H. rewrite (text_of_some _ _ _ Hc) in H. cbn [rbind] in H.
  rewrite HD, (assign_all_is _ _ _ F) in H. apply dirs_inv in H. destruct H as (i & o & d & _ & _ & _ & _ & _ & _ & _ & _ & _ & _ & G).
  rewrite (G X N). split; [intros v L; now apply put_all_last|intros U; now rewrite put_all_unset].
Qed.
Print Assumptions C92_path_settings.
(* the folders are the ones the file names, made absolute and closed, with the subfolders that are there *)
Theorem C92_path_folders : forall E D ext A text es A', path_file D ext A text -> cfg_file text es -> read_path_info E D ext A = Ok A' ->
  exists i o i' o' c, comes es A "in_directory" i /\ comes es A "out_directory" o /\ A' "cfg_directory" = Some (VStr c) /\
    A' "in_directory" = Some (VStr i') /\ Info_Props.placed E c i i' /\ A' "out_directory" = Some (VStr o') /\ Info_Props.placed E c o o' /\
    Forall (fun p => A' (fst p) = Some (VStr (let d := i' ++ snd p ++ "/" in if Info_Model.exists_dir E d then d else i')))
      [("topo_directory", "__topo"); ("soil_directory", "__soil"); ("met_directory", "__met"); ("misc_directory", "__misc")].
Proof.
  intros E D ext A text es A' (cfg & Hc & HD) F H. unfold read_path_info in H. rewrite (text_of_some _ _ _ Hc) in H. cbn [rbind] in H.
  rewrite HD, (assign_all_is _ _ _ F) in H. apply dirs_inv in H. destruct H as (i & o & d & Hi & Ho & Hd & Gc & Gi & Go & Gt & Gs & Gm & Gx & _).
  apply Info_Props.C88_directories in Hd. destruct Hd as (c & _ & Kc & _ & Pi & Po & Ps). cbn [Info_Model.in_directory Info_Model.out_directory] in Pi, Po.
  exists i, o, (Info_Model.in_directory d), (Info_Model.out_directory d), c.
  split; [now apply put_comes|]. split; [now apply put_comes|].
  split; [rewrite Kc in Gc; unfold opt_of in Gc; destruct (A' "cfg_directory") as [[]|]; congruence|].
  split; [exact Gi|]. split; [exact Pi|]. split; [exact Go|]. split; [exact Po|].
  rewrite Forall_forall in Ps.
  assert (P : forall x y, In (x, y) [(Info_Model.topo_directory d, "__topo"); (Info_Model.soil_directory d, "__soil"); (Info_Model.met_directory d, "__met"); (Info_Model.misc_directory d, "__misc")] ->
    x = (let z := Info_Model.in_directory d ++ y ++ "/" in if Info_Model.exists_dir E z then z else Info_Model.in_directory d)).
  { intros x y I. apply Ps in I. cbn [fst snd] in I. exact (proj2 I). }
  repeat constructor; cbn [fst snd].
  - rewrite Gt. do 2 f_equal. apply P. cbn; tauto.
  - rewrite Gs. do 2 f_equal. apply P. cbn; tauto.
  - rewrite Gm. do 2 f_equal. apply P. cbn; tauto.
  - rewrite Gx. do 2 f_equal. apply P. cbn; tauto.
Qed.
Print Assumptions C92_path_folders.
(* both folders must come from somewhere *)
Theorem C92_path_needed : forall E D ext A text es X, path_file D ext A text -> cfg_file text es -> In X ["in_directory"; "out_directory"] ->
  unset es X -> A X = None -> (A "in_directory" = None \/ exists s, A "in_directory" = Some (VStr s)) -> read_path_info E D ext A = Err AttributeError.
Proof.
  intros E D ext A text es X (cfg & Hc & HD) F HX U HA Hin. unfold read_path_info. rewrite (text_of_some _ _ _ Hc). cbn [rbind].
  rewrite HD, (assign_all_is _ _ _ F). unfold set_dirs.
  assert (B : text_of (put_all es A) X = Err AttributeError) by (unfold text_of; now rewrite put_all_unset, HA).
  cbn in HX. destruct HX as [<-|[<-|[]]]; [now rewrite B|].
  destruct (last_or_unset es "in_directory") as [V|(v & L)].
  - destruct Hin as [Hn|(s & Hs)].
    + unfold text_of at 1. rewrite put_all_unset, Hn by exact V. reflexivity.
    + rewrite (text_of_some _ "in_directory" s) by (now rewrite put_all_unset). cbn [rbind]. now rewrite B.
  - rewrite (text_of_some _ _ _ (put_all_last _ A _ _ L)). cbn [rbind]. now rewrite B.
Qed.
Print Assumptions C92_path_needed.
(* without the file nothing is set *)
Theorem C92_path_missing : forall E D ext A cfg, A "cfg_file" = Some (VStr cfg) -> D (sibling cfg ext "_path_info.cfg") = None -> read_path_info E D ext A = Ok A.
Proof. intros E D ext A cfg Hc HD. unfold read_path_info. rewrite (text_of_some _ _ _ Hc). cbn [rbind]. now rewrite HD. Qed.
Print Assumptions C92_path_missing.

(* ---------- the whole start ---------- *)
Lemma set_directories_fields : forall E c f i o a1 a2 a3 a4 b1 b2 b3 b4,
  Info_Model.set_directories E (Info_Model.mkDirs c f i o a1 a2 a3 a4) = Info_Model.set_directories E (Info_Model.mkDirs c f i o b1 b2 b3 b4).
Proof. reflexivity. Qed.
(* A component's own file that does not concern the folders: they are those of the path file *)
Theorem C92_start_folders : forall layers E D ext A A' T text A1 cfg ctext es,
  (forall p, Info_Props.starts Info_Model.sep (Info_Model.abspath E p)) -> (forall p, ~ Info_Props.starts "~"%char p -> Info_Model.expanduser E p = p) -> (forall p, ~ Info_Props.starts "~"%char (Info_Model.expanduser E p)) ->
  path_file D ext A text -> read_path_info E D ext A = Ok A1 -> A1 "cfg_file" = Some (VStr cfg) -> D cfg = Some ctext -> cfg_file ctext es ->
  (forall X, In X ("cfg_file" :: dir_names) -> Forall (leaves X) es) ->
  initialize_config_vars layers E D ext A = Ok (A', T) -> read_time_info D ext cfg = Ok T /\ forall X, In X ("cfg_file" :: dir_names) -> A' X = A1 X.
Proof.
  intros layers E D ext A A' T text A1 cfg ctext es Habs Hex Hnt (cfg0 & Hc0 & HD0) H1 Hcfg HD F L H.
  unfold initialize_config_vars in H. rewrite H1 in H. cbn [rbind] in H. rewrite (text_of_some _ _ _ Hcfg) in H. cbn [rbind] in H.
  destruct (read_time_info D ext cfg) as [T0|] eqn:ET; [|discriminate]. cbn [rbind] in H. rewrite HD in H.
  destruct (read_config_file layers A1 ctext) as [A2|] eqn:E2; [|discriminate]. cbn [rbind] in H.
  destruct (set_dirs E A2) as [A3|] eqn:E3; [|discriminate]. cbn [rbind] in H. injection H as <- <-. split; [reflexivity|].
  assert (K : forall X, In X ("cfg_file" :: dir_names) -> A2 X = A1 X) by (intros X HX; exact (C58_other_attributes_kept layers A1 A2 ctext X es F (L X HX) E2)).
  unfold read_path_info in H1. rewrite (text_of_some _ _ _ Hc0) in H1. cbn [rbind] in H1. rewrite HD0 in H1.
  apply dirs_inv in H1. destruct H1 as (i & o & d & Hi & Ho & Hd & Gc & Gi & Go & Gt & Gs & Gm & Gx & G).
  apply dirs_inv in E3. destruct E3 as (i2 & o2 & d2 & Hi2 & Ho2 & Hd2 & Gc2 & Gi2 & Go2 & Gt2 & Gs2 & Gm2 & Gx2 & G2).
  rewrite (K "in_directory"), Gi in Hi2 by (cbn; tauto). rewrite (K "out_directory"), Go in Ho2 by (cbn; tauto).
  injection Hi2 as <-. injection Ho2 as <-.
  pose proof (Info_Props.C88_directories_again E _ _ Habs Hex Hnt Hd) as Again.
  pose proof (Info_Props.C88_directories E _ _ Hd) as (c & _ & Kc & Kf & _). cbn [Info_Model.cfg_file] in Kf.
  unfold opt_of in Hd2. rewrite (K "cfg_directory"), (K "cfg_file") in Hd2 by (cbn; tauto). fold (opt_of A1 "cfg_directory") (opt_of A1 "cfg_file") in Hd2.
  assert (Hf : opt_of A1 "cfg_file" = Info_Model.cfg_file d) by (rewrite Kf; unfold opt_of; rewrite (G "cfg_file"); [reflexivity|cbn; intuition congruence]).
  rewrite Gc, Hf in Hd2. assert (Ed : d2 = d).
  { destruct d as [dc df di do_ dt ds dm dx]. cbn [Info_Model.cfg_directory Info_Model.cfg_file Info_Model.in_directory Info_Model.out_directory] in Hd2.
    rewrite (set_directories_fields _ _ _ _ _ "" "" "" "" dt ds dm dx) in Hd2. congruence. }
  subst d2. intros X HX. cbn in HX.
  destruct HX as [<-|[<-|[<-|[<-|[<-|[<-|[<-|[<-|[]]]]]]]]]; [| |congruence..].
  - rewrite G2 by (cbn; intuition congruence). apply K. cbn; tauto.
  - rewrite Kc in Gc, Gc2. unfold opt_of in Gc, Gc2. destruct (A1 "cfg_directory") as [[]|]; try discriminate. destruct (A3 "cfg_directory") as [[]|]; try discriminate. congruence.
Qed.
Print Assumptions C92_start_folders.
(* no path file, and a component file without the folders: the component does not start *)
Theorem C92_start_missing : forall layers E D ext A cfg ctext es X r, A "cfg_file" = Some (VStr cfg) -> D (sibling cfg ext "_path_info.cfg") = None ->
  D cfg = Some ctext -> cfg_file ctext es -> In X ["in_directory"; "out_directory"] -> A X = None -> Forall (leaves X) es -> initialize_config_vars layers E D ext A <> Ok r.
Proof.
  intros layers E D ext A cfg ctext es X [A' T] Hc HP HD F HX HA L H. unfold initialize_config_vars in H.
  rewrite (C92_path_missing E D ext A cfg Hc HP) in H. cbn [rbind] in H. rewrite (text_of_some _ _ _ Hc) in H. cbn [rbind] in H.
  destruct (read_time_info D ext cfg) as [T0|] eqn:ET; [|discriminate]. cbn [rbind] in H. rewrite HD in H.
  destruct (read_config_file layers A ctext) as [A2|] eqn:E2; [|discriminate]. cbn [rbind] in H.
  destruct (set_dirs E A2) as [A3|] eqn:E3; [|discriminate]. apply dirs_inv in E3. destruct E3 as (i & o & d & Hi & Ho & _).
  pose proof (C58_other_attributes_kept layers A A2 ctext X es F L E2) as K. cbn in HX. destruct HX as [<-|[<-|[]]]; congruence.
Qed.
Print Assumptions C92_start_missing.

(* ---------- a case ---------- *)
Definition nl1 : string := String (ascii_of_nat 10) "".
Definition demo_path : string := "# Path info" ++ nl1 ++ "in_directory | ./ | string | input folder" ++ nl1 ++ "out_directory | /out | string | output folder" ++ nl1 ++ "site_prefix | Treynor | string | file prefix" ++ nl1.
Definition demo_time : string := "start_date | 2019-02-27 | string | x" ++ nl1 ++ "start_time | 12:00:00 | string | x" ++ nl1 ++ "duration | 99 | float | x" ++ nl1 ++ "end_date | 2019-03-01 | string | x" ++ nl1 ++ "end_time | 12:30:00 | string | x" ++ nl1.
Definition demo_cfg : string := "comp_status | Enabled | string | x" ++ nl1 ++ "dt | 60.0 | double | timestep" ++ nl1.
Definition demo_disk : disk := fun f =>
  if String.eqb f "/cfg/June_path_info.cfg" then Some demo_path else if String.eqb f "/cfg/June_time_info.cfg" then Some demo_time
  else if String.eqb f "/cfg/June_meteorology.cfg" then Some demo_cfg else None.
Definition demo_A : attrs := upd nothing "cfg_file" (VStr "/cfg/June_meteorology.cfg").
Example C92_case : exists A T, initialize_config_vars (fun _ A => A) Info_Props.demo_os demo_disk "_meteorology.cfg" demo_A = Ok (A, T) /\
  A "in_directory" = Some (VStr "/cfg/./") /\ A "out_directory" = Some (VStr "/out/") /\ A "site_prefix" = Some (VStr "Treynor") /\ A "dt" = Some (VFloat (600 # 10)) /\
  (exists q, T "duration" = Some (VFloat q) /\ (q == 2910)%Q) /\ T "start_datetime" = Some (VStr "2019-02-27 12:00:00") /\ open_output T = Ok tt.
Proof.
  eexists. eexists. split; [vm_compute; reflexivity|]. split; [vm_compute; reflexivity|]. split; [vm_compute; reflexivity|]. split; [vm_compute; reflexivity|].
  split; [vm_compute; reflexivity|]. split; [eexists; split; [vm_compute; reflexivity|vm_compute; reflexivity]|]. split; vm_compute; reflexivity.
Qed.

(* ---------- every text is a file with settings ---------- *)
Lemma blank_dec : forall a, blank a \/ ~ blank a.
Proof. intro a. unfold blank. lia. Qed.
Lemma trim_left : forall x, exists w y, x = w ++ y /\ blanks w /\ (y = "" \/ exists a m, y = String a m /\ ~ blank a).
Proof.
  induction x as [|c x (w & y & -> & B & H)]; [exists "", ""; simpl; auto|]. destruct (blank_dec c) as [Bc|Bc].
  - exists (String c w), y. simpl. auto.
  - exists "", (String c (w ++ y)). split; [reflexivity|]. split; [exact I|]. right. exists c, (w ++ y). auto.
Qed.
Lemma trim_right : forall x, exists y w, x = y ++ w /\ blanks w /\ (y = "" \/ exists m a, y = m ++ String a "" /\ ~ blank a).
Proof.
  induction x as [|c x (y & w & -> & B & H)]; [exists "", ""; simpl; auto|]. destruct H as [->|(m & a & -> & Ha)].
  - destruct (blank_dec c) as [Bc|Bc].
    + exists "", (String c w). simpl. auto.
    + exists (String c ""), w. split; [reflexivity|]. split; [exact B|]. right. exists "", c. auto.
  - exists (String c (m ++ String a "")), w. split; [reflexivity|]. split; [exact B|]. right. exists (String c m), a. auto.
Qed.
Lemma trim_exists : forall x, exists y, trimmed x y.
Proof.
  intro x. destruct (trim_left x) as (w & y & -> & B & H). destruct (trim_right y) as (z & w' & -> & B' & H').
  exists z. split; [exists w, w'; auto|]. destruct H' as [->|R]; [now left|]. right. split; [|exact R].
  destruct R as (m & a & -> & Ha). destruct H as [H|(b & k & H & Hb)].
  - exfalso. apply (f_equal String.length) in H. rewrite !length_app_s in H. simpl in H. lia.
  - destruct m as [|c m]; simpl in H; injection H as <- H; [exists a, ""|exists c, (m ++ String a "")]; auto.
Qed.
Lemma first_field : forall s, (bars s = 0%nat) \/ exists a r, s = a ++ "|" ++ r /\ bars a = 0%nat /\ bars s = S (bars r).
Proof.
  induction s as [|c s IH]; [now left|]. cbn [bars]. destruct (Ascii.eqb_spec c bar) as [->|n].
  - right. exists "", s. split; [reflexivity|]. split; [reflexivity|]. lia.
  - destruct IH as [IH|(a & r & -> & H1 & H2)]; [left; lia|]. right. exists (String c a), r. split; [reflexivity|]. cbn [bars].
    apply Ascii.eqb_neq in n. rewrite n. lia.
Qed.
Lemma line_exists : forall l, one_line l -> exists o, line_is l o.
Proof.
  intros l H. destruct (Nat.eq_dec (bars l) 3) as [E|E]; [|exists None; split; [exact H|now right]].
  destruct (is_comment l) eqn:C.
  { exists None. split; [exact H|left]. destruct l as [|c r]; [discriminate|]. exists r. destruct c as [[] [] [] [] [] [] [] []]; try discriminate C; reflexivity. }
  destruct (first_field l) as [F|(a & r1 & E1 & Ba & F)]; [lia|].
  destruct (first_field r1) as [F1|(b & r2 & E2 & Bb & F1)]; [lia|].
  destruct (first_field r2) as [F2|(c & d & E3 & Bc & F2)]; [lia|].
  destruct (trim_exists a) as (n & Ta). destruct (trim_exists b) as (v & Tb). destruct (trim_exists c) as (t & Tc).
  exists (Some (mkentry n v t)). split; [exact H|]. exists a, b, c, d. subst r2. subst r1. split; [exact E1|].
  repeat (split; [lia|]). split; [|cbn [e_name e_value e_type]; auto].
  intros (r & Hr). rewrite Hr in C. discriminate C.
Qed.
Lemma lines_exist : forall t, exists lines, Forall one_line lines /\ t ++ nl1 = text_of_lines lines.
Proof.
  induction t as [|c t (lines & F & E)].
  - exists [""]. split; [constructor; [intros k K; destruct k; discriminate K|constructor]|reflexivity].
  - destruct (Ascii.eqb_spec c (ascii_of_nat 10)) as [->|n].
    + exists ("" :: lines). split; [constructor; [intros k K; destruct k; discriminate K|exact F]|]. cbn [text_of_lines append]. now rewrite E.
    + destruct lines as [|l lines]; [destruct t; discriminate E|]. exists (String c l :: lines). split.
      * inversion F; subst. constructor; [|assumption]. intros k K. destruct k as [|k]; [apply n; now injection K|]. exact (H1 k K).
      * cbn [text_of_lines append] in *. now rewrite E.
Qed.
(* every text whose last line is ended has its settings: the theorems above speak about every such file *)
Theorem C92_every_file : forall t, exists es, cfg_file (t ++ nl1) es.
Proof.
  intro t. destruct (lines_exist t) as (lines & F & E). 
  assert (G : exists marks, Forall2 line_is lines marks).
  { clear E. induction F as [|l lines Hl _ (marks & IH)]; [exists []; constructor|]. destruct (line_exists l Hl) as (o & Ho). exists (o :: marks). now constructor. }
  destruct G as (marks & G). exists (settings marks), lines, marks. auto.
Qed.
Print Assumptions C92_every_file.
Example C92_case_files : (exists es, cfg_file demo_time es /\ last_setting es "end_date" "2019-03-01") /\ only_at_end "_meteorology.cfg" "/cfg/June_meteorology.cfg".
Proof.
  split.
  - destruct (C92_every_file "start_date | 2019-02-27 | string | x
start_time | 12:00:00 | string | x
duration | 99 | float | x
end_date | 2019-03-01 | string | x
end_time | 12:30:00 | string | x") as (es & F). exists es. split; [exact F|]. apply put_all_need.
    rewrite <- (assign_all_is _ _ nothing F). vm_compute. reflexivity.
  - intros a b H. assert (L : (String.length a <= 9)%nat).
    { apply (f_equal String.length) in H. rewrite !length_app_s in H. simpl in H. lia. }
    do 10 (destruct a as [|? a]; [simpl in H; try discriminate H; injection H; intros; subst; try discriminate; auto|simpl in H; injection H as <- H]).
    all: try (simpl in L; lia). all: simpl in L; lia.
Qed.
