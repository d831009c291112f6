(** C58: configuration files. *)

From Coq Require Import String Ascii List ZArith NArith QArith Bool Lia Lqa.
From Verif Require Import Time_Model Time_Proofs Io_Model Io_Spec Io_Proofs Io_Props
  Rti_Model Rti_Proofs Fmt_Model Fmt_Proofs Cfg_Model Cfg_Spec Cfg_Proofs.
Import ListNotations.

Section C58.
Variable init_layers : Z -> attrs -> attrs.
Let read := read_config_file init_layers.

(** Only the settings count: comments, lines without three bars, spacing and
    help texts have no effect. *)
Theorem C58_same_settings_same_effect (A : attrs) (text1 text2 : string) (es : list entry) :
  cfg_file text1 es -> cfg_file text2 es -> read A text1 = read A text2.
Proof. intros F1 F2. unfold read. now rewrite (read_cfg _ _ _ _ F1), (read_cfg _ _ _ _ F2). Qed.

(** Attributes that the file does not name keep their values. *)
Theorem C58_other_attributes_kept (A A' : attrs) (text X : string) (es : list entry) :
  cfg_file text es -> Forall (leaves X) es -> read A text = Ok A' -> A' X = A X.
Proof.
  intros F L H. unfold read in H. rewrite (read_cfg _ _ _ _ F) in H.
  destruct (run init_layers es _) as [st|] eqn:R; [|discriminate H]. injection H as <-.
  apply (run_leaves _ _ _ _ _ L) in R. exact R.
Qed.

(** The middle of a file: states before and after one setting. *)
Lemma split_run A A' text before e after :
  cfg_file text (before ++ e :: after) -> read A text = Ok A' ->
  exists s1 s2 s3, run init_layers before (mkst A "" (VStr "")) = Ok s1 /\
    run1 init_layers e s1 = Ok s2 /\ run init_layers after s2 = Ok s3 /\ at_ s3 = A'.
Proof.
  intros F H. unfold read in H. rewrite (read_cfg _ _ _ _ F), run_app in H.
  destruct (run init_layers before _) as [s1|] eqn:R1; [|discriminate H]. cbn [rbind run] in H.
  destruct (run1 init_layers e s1) as [s2|] eqn:R2; [|discriminate H]. cbn [rbind] in H.
  destruct (run init_layers after s2) as [s3|] eqn:R3; [|discriminate H]. injection H as <-.
  now exists s1, s2, s3.
Qed.

(** A number is stored under its name, unless set again later. *)
Theorem C58_number_stored (A A' : attrs) (text X base file v t : string) (q : Q) (before after : list entry) :
  cfg_file text (before ++ mkentry X v t :: after) -> proper X base file ->
  number_type t -> numeral v q -> Forall (leaves X) after -> read A text = Ok A' ->
  exists q', A' X = Some (VFloat q') /\ (q' == q)%Q.
Proof.
  intros F P T N L H. destruct (split_run _ _ _ _ _ _ F H) as (s1 & s2 & s3 & _ & R & R3 & <-).
  rewrite (run_leaves _ _ _ _ _ L R3). unfold run1, setting in R. cbn [e_name e_value e_type] in R.
  set (g0 := if String.eqb X "n_layers" then _ else _) in R.
  destruct g0 as [A0|]; [|discriminate R]. cbn [rbind] in R. destruct (file_target X) as [b f].
  set (g := if String.prefix (b ++ "_type") (last_name s1) then _ else _) in R.
  destruct g as [[A1 md]|]; [|discriminate R]. cbn [rbind] in R.
  assert (M : mem t ["double"; "float"]%string = true) by (destruct T; subst; reflexivity).
  rewrite M in R. destruct (float_of_ok v q N) as (q' & E & Q). rewrite E in R. injection R as <-.
  exists q'. split; [apply upd_same|exact Q].
Qed.

(** The same for integers. *)
Theorem C58_integer_stored (A A' : attrs) (text X base file v t : string) (z : Z) (before after : list entry) :
  cfg_file text (before ++ mkentry X v t :: after) -> proper X base file ->
  integer_type t -> whole v z -> Forall (leaves X) after -> read A text = Ok A' ->
  A' X = Some (VInt z).
Proof.
  intros F P T N L H. destruct (split_run _ _ _ _ _ _ F H) as (s1 & s2 & s3 & _ & R & R3 & <-).
  rewrite (run_leaves _ _ _ _ _ L R3). unfold run1, setting in R. cbn [e_name e_value e_type] in R.
  set (g0 := if String.eqb X "n_layers" then _ else _) in R.
  destruct g0 as [A0|]; [|discriminate R]. cbn [rbind] in R. destruct (file_target X) as [b f].
  set (g := if String.prefix (b ++ "_type") (last_name s1) then _ else _) in R.
  destruct g as [[A1 md]|]; [|discriminate R]. cbn [rbind] in R.
  assert (M : mem t ["double"; "float"]%string = false) by (destruct T; subst; reflexivity).
  assert (M2 : mem t ["long"; "int"]%string = true) by (destruct T; subst; reflexivity).
  rewrite M, M2 in R. unfold int32_of in R. rewrite (proj1 (whole_int v z N)) in R. cbn [rbind] in R.
  destruct ((-2147483648 <=? z) && (z <=? 2147483647))%Z; [|discriminate R]. injection R as <-.
  apply upd_same.
Qed.

Ltac string_setting R :=
  unfold run1, setting in R; cbn [e_name e_value e_type] in R;
  change (mem "string" ["double"; "float"]%string) with false in R;
  change (mem "string" ["long"; "int"]%string) with false in R; cbv iota in R;
  change (String.eqb "string" "string") with true in R; cbv iota in R.

(** yes, true, on, 1 and no, false, off, 0, in any case, are stored as booleans. *)
Theorem C58_yes_no_stored (A A' : attrs) (text X base file v : string) (b : bool) (before after : list entry) :
  cfg_file text (before ++ mkentry X v "string" :: after) -> proper X base file ->
  (if b then says_yes v else says_no v) -> Forall (leaves X) after -> read A text = Ok A' ->
  A' X = Some (VBool b).
Proof.
  intros F P T L H. destruct (split_run _ _ _ _ _ _ F H) as (s1 & s2 & s3 & _ & R & R3 & <-).
  rewrite (run_leaves _ _ _ _ _ L R3). string_setting R.
  set (g0 := if String.eqb X "n_layers" then _ else _) in R.
  destruct g0 as [A0|]; [|discriminate R]. cbn [rbind] in R. destruct (file_target X) as [b0 f].
  set (g := if String.prefix (b0 ++ "_type") (last_name s1) then _ else _) in R.
  destruct g as [[A1 md]|]; [|discriminate R]. cbn [rbind] in R.
  destruct (expand A1 v); [|discriminate R]. cbn [rbind] in R.
  assert (X1 : mem (lower v) true_list = b /\ (b = false -> mem (lower v) false_list = true)).
  { destruct b.
    - apply yes_iff in T. split; [exact T|discriminate].
    - apply no_iff in T. split; [|auto]. apply mem_In in T.
      destruct (mem (lower v) true_list) eqn:E; [|reflexivity]. exfalso. apply mem_In in E.
      cbn in T, E. destruct T as [T|[T|[T|[T|[]]]]]; rewrite <- T in E;
        destruct E as [E|[E|[E|[E|[]]]]]; discriminate E. }
  destruct X1 as [X1 X2]. rewrite X1 in R. destruct b.
  - injection R as <-. apply upd_same.
  - rewrite X2 in R by reflexivity. injection R as <-. apply upd_same.
Qed.

Lemma not_yes_no v : ~ says_yes v -> ~ says_no v -> mem (lower v) true_list = false /\ mem (lower v) false_list = false.
Proof.
  intros Y N. split; apply not_true_is_false; intro H; [apply Y|apply N]; [now apply yes_iff|now apply no_iff].
Qed.
Lemma last_name_of es A st : run init_layers es (mkst A "" (VStr "")) = Ok st ->
  (es = [] /\ st = mkst A "" (VStr "")) \/
  exists b e s, es = b ++ [e] /\ run init_layers b (mkst A "" (VStr "")) = Ok s /\ run1 init_layers e s = Ok st.
Proof.
  intro H. destruct (rev es) as [|e b] eqn:E.
  - left. apply (f_equal (@rev _)) in E. rewrite rev_involutive in E. subst es. injection H as <-. auto.
  - right. apply (f_equal (@rev _)) in E. rewrite rev_involutive in E. cbn in E. subst es.
    rewrite run_app in H. destruct (run init_layers (rev b) _) as [s|] eqn:R; [|discriminate H]. cbn [rbind run] in H.
    exists (rev b), e, s. split; [reflexivity|]. split; [exact R|].
    destruct (run1 init_layers e s); [exact H|discriminate H].
Qed.
Lemma type_nonempty base : (base ++ "_type")%string <> EmptyString.
Proof. destruct base; discriminate. Qed.
Lemma no_type_prefix base before A st :
  run init_layers before (mkst A "" (VStr "")) = Ok st ->
  (forall b e, before = b ++ [e] -> ~ starts (base ++ "_type") (e_name e)) ->
  String.prefix (base ++ "_type") (last_name st) = false.
Proof.
  intros R N. apply not_true_is_false. intro H. apply prefix_iff in H.
  destruct (last_name_of _ _ _ R) as [(-> & ->)|(b & e & s & -> & _ & R1)].
  - destruct H as [r H]. cbn [last_name] in H. apply (f_equal String.length) in H. rewrite !length_app_s in H. cbn in H. lia.
  - rewrite (run1_last _ _ _ _ R1) in H. exact (N b e eq_refl H).
Qed.
Lemma expands_ext A B s w : A "case_prefix"%string = B "case_prefix"%string -> A "site_prefix"%string = B "site_prefix"%string ->
  expands_to A s w -> expands_to B s w.
Proof.
  intros E1 E2 [(r & p & H)|[(r & p & H)|H]].
  - left. exists r, p. now rewrite <- E1.
  - right. left. exists r, p. now rewrite <- E2.
  - right. right. exact H.
Qed.

(** Any other text is stored with the file prefixes put in, if the setting
    before it is not its type. *)
Theorem C58_text_stored (A A' : attrs) (text X base file v w : string) (before after : list entry) :
  cfg_file text (before ++ mkentry X v "string" :: after) -> proper X base file ->
  X <> "n_layers"%string -> ~ says_yes v -> ~ says_no v ->
  (forall b e, before = b ++ [e] -> ~ starts (base ++ "_type") (e_name e)) ->
  Forall (leaves "case_prefix") before -> Forall (leaves "site_prefix") before -> expands_to A v w ->
  Forall (leaves X) after -> read A text = Ok A' ->
  A' X = Some (VStr w).
Proof.
  intros F P NL Y N T L1 L2 W L H. destruct (split_run _ _ _ _ _ _ F H) as (s1 & s2 & s3 & R1 & R & R3 & <-).
  rewrite (run_leaves _ _ _ _ _ L R3). string_setting R.
  destruct (String.eqb_spec X "n_layers"); [congruence|]. cbn [rbind] in R.
  rewrite (file_target_proper _ _ _ P), (no_type_prefix _ _ _ _ R1 T) in R. cbn [rbind] in R.
  pose proof (run_leaves _ _ _ _ _ L1 R1) as C1. pose proof (run_leaves _ _ _ _ _ L2 R1) as C2.
  rewrite (expand_ok (at_ s1) v w) in R.
  2: { apply (expands_ext A); [symmetry; exact C1|symmetry; exact C2|exact W]. }
  cbn [rbind] in R. destruct (not_yes_no v Y N) as [-> ->] in R. injection R as <-. apply upd_same.
Qed.

Lemma app_self (a b : string) : (a ++ b)%string = a -> b = EmptyString.
Proof.
  intro E. apply (f_equal String.length) in E. rewrite length_app_s in E. destruct b; [reflexivity|cbn in E; lia].
Qed.
Lemma file_differs X base file : proper X base file -> file <> X.
Proof.
  intros [(_ & _ & ->)|(k & _ & _ & _ & -> & ->)] E; apply (f_equal String.length) in E;
    rewrite !length_app_s in E; cbn in E; rewrite ?length_app_s in E; cbn in E; lia.
Qed.

Lemma two_steps A A' text before e1 e2 after :
  cfg_file text (before ++ e1 :: e2 :: after) -> read A text = Ok A' ->
  exists s0 s1 s2 s3, run init_layers before (mkst A "" (VStr "")) = Ok s0 /\ run1 init_layers e1 s0 = Ok s1 /\
    run1 init_layers e2 s1 = Ok s2 /\ run init_layers after s2 = Ok s3 /\ at_ s3 = A'.
Proof.
  intros F H. destruct (split_run _ _ _ _ _ _ F H) as (s0 & s1 & s3 & R0 & R1 & R & E).
  cbn [run] in R. destruct (run1 init_layers e2 s1) as [s2|] eqn:R2; [|discriminate R]. cbn [rbind] in R.
  now exists s0, s1, s2, s3.
Qed.

(** After "X_type | Time_Series" (Grid, Grid_Sequence, ...) the text given for X
    is a file name: it is stored under X_file and X is zero. *)
Theorem C58_file_name_stored (A A' : attrs) (text T choice X base file v w : string) (before after : list entry) :
  cfg_file text (before ++ mkentry T choice "string" :: mkentry X v "string" :: after) ->
  proper X base file -> X <> "n_layers"%string -> starts (base ++ "_type") T ->
  ~ says_scalar choice -> ~ says_yes v -> ~ says_no v ->
  Forall (leaves "case_prefix") before -> Forall (leaves "site_prefix") before ->
  leaves "case_prefix" (mkentry T choice "string") -> leaves "site_prefix" (mkentry T choice "string") ->
  X <> "case_prefix"%string -> X <> "site_prefix"%string -> expands_to A v w ->
  Forall (leaves X) after -> Forall (leaves file) after -> read A text = Ok A' ->
  A' file = Some (VStr w) /\ A' X = Some (VFloat 0).
Proof.
  intros F P NL ST SC Y N L1 L2 L3 L4 X1 X2 W LX LF H.
  destruct (two_steps _ _ _ _ _ _ _ F H) as (s0 & s1 & s2 & s3 & R0 & R1 & R & R3 & <-).
  rewrite (run_leaves _ _ _ _ _ LX R3), (run_leaves _ _ _ _ _ LF R3). string_setting R.
  destruct (String.eqb_spec X "n_layers"); [congruence|]. cbn [rbind] in R.
  rewrite (file_target_proper _ _ _ P), (run1_last _ _ _ _ R1) in R. cbn [e_name] in R.
  rewrite (proj2 (prefix_iff _ _) ST) in R. rewrite (run1_last_text init_layers (mkentry T choice "string") _ _ eq_refl R1) in R.
  cbn [e_value] in R. destruct (String.eqb (lower choice) "scalar") eqn:E; [exfalso; apply SC; now apply scalar_iff|].
  cbn [rbind] in R.
  rewrite (expand_ok _ v w) in R.
  2: { apply (expands_ext A); [| |exact W]; rewrite upd_other by assumption.
       - rewrite (run1_leaves _ _ _ _ _ L3 R1). symmetry. exact (run_leaves _ _ _ _ _ L1 R0).
       - rewrite (run1_leaves _ _ _ _ _ L4 R1). symmetry. exact (run_leaves _ _ _ _ _ L2 R0). }
  cbn [rbind] in R. destruct (not_yes_no v Y N) as [-> ->] in R. injection R as <-. cbn [at_].
  split; [apply upd_same|]. rewrite upd_other by (apply (file_differs _ _ _ P)). apply upd_same.
Qed.

(** After "X_type | Scalar" a number given for X is stored under X, and there
    is no file. *)
Theorem C58_scalar_stored (A A' : attrs) (text T choice X base file v t : string) (q : Q) (before after : list entry) :
  cfg_file text (before ++ mkentry T choice "string" :: mkentry X v t :: after) ->
  proper X base file -> X <> "n_layers"%string -> starts (base ++ "_type") T ->
  says_scalar choice -> number_type t -> numeral v q ->
  Forall (leaves X) after -> Forall (leaves file) after -> read A text = Ok A' ->
  (exists q', A' X = Some (VFloat q') /\ (q' == q)%Q) /\ A' file = Some (VStr "").
Proof.
  intros F P NL ST SC NT NU LX LF H.
  destruct (two_steps _ _ _ _ _ _ _ F H) as (s0 & s1 & s2 & s3 & R0 & R1 & R & R3 & <-).
  rewrite (run_leaves _ _ _ _ _ LX R3), (run_leaves _ _ _ _ _ LF R3).
  unfold run1, setting in R. cbn [e_name e_value e_type] in R.
  destruct (String.eqb_spec X "n_layers"); [congruence|]. cbn [rbind] in R.
  rewrite (file_target_proper _ _ _ P), (run1_last _ _ _ _ R1) in R. cbn [e_name] in R.
  rewrite (proj2 (prefix_iff _ _) ST) in R. rewrite (run1_last_text init_layers (mkentry T choice "string") _ _ eq_refl R1) in R.
  cbn [e_value] in R. rewrite (proj1 (scalar_iff _) SC) in R. cbn [rbind] in R.
  assert (M : mem t ["double"; "float"]%string = true) by (destruct NT; subst; reflexivity).
  rewrite M in R. destruct (float_of_ok v q NU) as (q' & E & Q). rewrite E in R. injection R as <-. cbn [at_].
  split; [exists q'; split; [apply upd_same|exact Q]|].
  rewrite upd_other by (intro; apply (file_differs _ _ _ P); congruence). apply upd_same.
Qed.

(** A type line must be a text: a number there stops the program when the value
    is read. *)
Theorem C58_type_line_must_be_text (A : attrs) (text T n X base file v t : string) (q : Q) (after : list entry) (typ : string) :
  cfg_file text (mkentry T n typ :: mkentry X v t :: after) -> number_type typ -> numeral n q ->
  proper X base file -> X <> "n_layers"%string -> T <> "n_layers"%string -> starts (base ++ "_type") T ->
  read A text = Err AttributeError.
Proof.
  intros F NT NU P NL TL ST. unfold read. rewrite (read_cfg _ _ _ _ F). cbn [run].
  destruct (float_of_ok n q NU) as (q' & E & _).
  assert (M : mem typ ["double"; "float"]%string = true) by (destruct NT; subst; reflexivity).
  assert (R1 : exists s, run1 init_layers (mkentry T n typ) (mkst A "" (VStr "")) = Ok s /\ last_name s = T /\ last_value s = VFloat q').
  { unfold run1, setting. cbn [e_name e_value e_type at_ last_name]. destruct (String.eqb_spec T "n_layers"); [congruence|].
    cbn [rbind]. destruct (file_target T) as [b f].
    replace (String.prefix (b ++ "_type") "") with false.
    - cbn [rbind]. rewrite M, E. eexists. split; [reflexivity|]. split; reflexivity.
    - symmetry. apply not_true_is_false. intro H. apply prefix_iff in H as [r H].
      apply (f_equal String.length) in H. rewrite !length_app_s in H. cbn in H. lia. }
  destruct R1 as (s & -> & LN & LV). cbn [rbind].
  assert (R2 : run1 init_layers (mkentry X v t) s = Err AttributeError).
  { unfold run1, setting. cbn [e_name e_value e_type]. destruct (String.eqb_spec X "n_layers"); [congruence|]. cbn [rbind].
    rewrite (file_target_proper _ _ _ P), LN, (proj2 (prefix_iff _ _) ST), LV. reflexivity. }
  rewrite R2. reflexivity.
Qed.

(** ** A file that makes sense is read. *)

Definition sound_entry (e : entry) : Prop :=
  e_name e <> "n_layers"%string /\ (exists b f, proper (e_name e) b f) /\
  ((number_type (e_type e) /\ exists q, numeral (e_value e) q) \/
   (integer_type (e_type e) /\ exists z, whole (e_value e) z /\ (-2147483648 <= z <= 2147483647)%Z) \/
   (~ number_type (e_type e) /\ ~ integer_type (e_type e))).
(** consecutive settings: a type line is a text *)
Fixpoint type_lines_are_texts (es : list entry) : Prop :=
  match es with
  | e1 :: ((e2 :: _) as r) =>
      ((exists b f, proper (e_name e2) b f /\ starts (b ++ "_type") (e_name e1)) ->
       ~ number_type (e_type e1) /\ ~ integer_type (e_type e1)) /\ type_lines_are_texts r
  | _ => True
  end.

Lemma nonnumber_mem t : ~ number_type t -> mem t ["double"; "float"]%string = false.
Proof.
  intro H. apply not_true_is_false. intro M. apply mem_In in M. apply H.
  destruct M as [M|[M|[]]]; [now apply nt_double|now apply nt_float].
Qed.
Lemma noninteger_mem t : ~ integer_type t -> mem t ["long"; "int"]%string = false.
Proof.
  intro H. apply not_true_is_false. intro M. apply mem_In in M. apply H.
  destruct M as [M|[M|[]]]; [now apply it_long|now apply it_int].
Qed.
Lemma expand_runs A s : (exists p, A "case_prefix"%string = Some (VStr p)) ->
  (exists p, A "site_prefix"%string = Some (VStr p)) -> exists w, expand A s = Ok w.
Proof.
  intros [p P] [p' P']. unfold expand, prefixed. rewrite P, P'.
  destruct (String.eqb _ _); [eauto|]. destruct (String.eqb _ _); eauto.
Qed.

Lemma run1_ok e st : sound_entry e ->
  (exists p, at_ st "case_prefix"%string = Some (VStr p)) -> (exists p, at_ st "site_prefix"%string = Some (VStr p)) ->
  leaves "case_prefix" e -> leaves "site_prefix" e ->
  ((exists b f, proper (e_name e) b f /\ starts (b ++ "_type") (last_name st)) -> exists s, last_value st = VStr s) ->
  exists st', run1 init_layers e st = Ok st' /\
    (~ number_type (e_type e) -> ~ integer_type (e_type e) -> exists s, last_value st' = VStr s).
Proof.
  intros (NL & (b & f & P) & K) CP SP LC LS TL. unfold run1, setting.
  destruct (String.eqb_spec (e_name e) "n_layers"); [congruence|]. cbn [rbind].
  rewrite (file_target_proper _ _ _ P).
  set (g := if String.prefix (b ++ "_type") (last_name st) then _ else _).
  assert (G : exists A md, g = Ok (A, md) /\ (exists p, A "case_prefix"%string = Some (VStr p)) /\
                           (exists p, A "site_prefix"%string = Some (VStr p))).
  { unfold g. destruct (String.prefix (b ++ "_type") (last_name st)) eqn:PX.
    2: { exists (at_ st), Plain. auto. }
    destruct TL as [s ->]; [exists b, f; split; [exact P|now apply prefix_iff]|].
    assert (FN : forall X, leaves X e -> f <> X).
    { intros X (_ & _ & b' & f' & P' & NE). pose proof (file_target_proper _ _ _ P) as E1.
      rewrite (file_target_proper _ _ _ P') in E1. injection E1 as _ ->. exact NE. }
    destruct (String.eqb (lower s) "scalar"); do 2 eexists; (split; [reflexivity|]);
      rewrite !upd_other; try (split; assumption); try (now apply FN); try apply LC; apply LS. }
  destruct G as (A & md & -> & CA & SA). cbn [rbind].
  destruct K as [[NT [q N]]|[[IT (z & Z1 & Z2)]|[N1 N2]]].
  - destruct (float_of_ok _ _ N) as (q' & -> & _).
    replace (mem (e_type e) ["double"; "float"]%string) with true by (destruct NT as [-> | ->]; reflexivity).
    eexists. split; [reflexivity|]. intro X. now exfalso.
  - replace (mem (e_type e) ["double"; "float"]%string) with false by (destruct IT as [-> | ->]; reflexivity).
    replace (mem (e_type e) ["long"; "int"]%string) with true by (destruct IT as [-> | ->]; reflexivity).
    unfold int32_of. rewrite (proj1 (whole_int _ _ Z1)). cbn [rbind].
    replace ((-2147483648 <=? z) && (z <=? 2147483647))%Z with true.
    2: { symmetry. apply andb_true_iff. rewrite !Z.leb_le. exact Z2. }
    cbn [rbind]. eexists. split; [reflexivity|]. intros _ X. now exfalso.
  - rewrite nonnumber_mem, noninteger_mem by assumption.
    destruct (String.eqb (e_type e) "string"); [|eexists; split; [reflexivity|intros; eexists; reflexivity]].
    destruct (expand_runs A (e_value e) CA SA) as [w ->]. cbn [rbind].
    destruct (mem _ true_list); [eexists; split; [reflexivity|intros; eexists; reflexivity]|].
    destruct (mem _ false_list); [eexists; split; [reflexivity|intros; eexists; reflexivity]|].
    destruct md; eexists; (split; [reflexivity|intros; eexists; reflexivity]).
Qed.

Theorem C58_sound_file_is_read (A : attrs) (text p p' : string) (es : list entry) :
  cfg_file text es -> Forall sound_entry es -> type_lines_are_texts es ->
  A "case_prefix"%string = Some (VStr p) -> A "site_prefix"%string = Some (VStr p') ->
  Forall (leaves "case_prefix") es -> Forall (leaves "site_prefix") es ->
  exists A', read A text = Ok A'.
Proof.
  intros F S TT CP SP LC LS. unfold read. rewrite (read_cfg _ _ _ _ F).
  enough (G : exists st, run init_layers es (mkst A "" (VStr "")) = Ok st) by (destruct G as [st ->]; eexists; reflexivity).
  assert (G : forall es st, Forall sound_entry es -> type_lines_are_texts es ->
    at_ st "case_prefix"%string = Some (VStr p) -> at_ st "site_prefix"%string = Some (VStr p') ->
    Forall (leaves "case_prefix") es -> Forall (leaves "site_prefix") es ->
    (match es with [] => True | e :: _ =>
       (exists b f, proper (e_name e) b f /\ starts (b ++ "_type") (last_name st)) -> exists s, last_value st = VStr s end) ->
    exists st', run init_layers es st = Ok st').
  { clear. induction es as [|e es IH]; intros st S TT CP SP LC LS LV; [eexists; reflexivity|].
    inversion_clear S as [|? ? S1 S2]. inversion_clear LC as [|? ? LC1 LC2]. inversion_clear LS as [|? ? LS1 LS2].
    destruct (run1_ok e st S1 (ex_intro _ p CP) (ex_intro _ p' SP) LC1 LS1 LV) as (st' & R & V).
    cbn [run]. rewrite R. cbn [rbind]. apply IH; try assumption.
    - destruct es; [exact I|apply TT].
    - now rewrite (run1_leaves _ _ _ _ _ LC1 R).
    - now rewrite (run1_leaves _ _ _ _ _ LS1 R).
    - destruct es as [|e2 es]; [exact I|]. rewrite (run1_last _ _ _ _ R). intro X. destruct TT as [T1 _].
      destruct (T1 X) as [N1 N2]. now apply V. }
  apply G; try assumption. destruct es as [|e es]; [exact I|]. intros (b & f & _ & r & E). cbn [last_name] in E.
  apply (f_equal String.length) in E. rewrite !length_app_s in E. cbn in E. lia.
Qed.
End C58.

(** ** Files that surprise *)

Definition none : attrs := fun _ => None.
Definition no_layers : Z -> attrs -> attrs := fun _ A => A.

(** A bar in the help text makes the reader skip the line. *)
Theorem C58_bar_in_help_refuted :
  ~ (forall name value help A', read_config_file no_layers none
       (text_of_lines [name ++ " | " ++ value ++ " | string | " ++ help]%string) = Ok A' ->
       proper name name (name ++ "_file")%string -> name <> "n_layers"%string -> A' name <> None).
Proof.
  intro H. specialize (H "dt" "a" "time step | seconds" none eq_refl)%string.
  apply H; [|discriminate|reflexivity]. left. split; [|split; reflexivity].
  intro k. destruct k as [|[|k]]; cbn; split; discriminate.
Qed.

(** A setting between the type line and the value: the file name becomes the
    value. *)
Theorem C58_type_line_anywhere_refuted :
  ~ (forall other A', read_config_file no_layers none
       (text_of_lines (["T_type | Grid | string | "%string] ++ other ++ ["T | t.rtg | string | "%string])%list) = Ok A' ->
       A' "T_file"%string = Some (VStr "t.rtg")).
Proof.
  intro H. specialize (H ["dt | 1.0 | float | step"]%string).
  match type of H with forall A', ?r = _ -> _ => destruct r as [A'|] eqn:E; [|vm_compute in E; discriminate E] end.
  specialize (H A' eq_refl). vm_compute in E. injection E as <-. vm_compute in H. discriminate H.
Qed.

(** A file called "on" (or "1", "no", ...) is taken for a switch. *)
Theorem C58_any_file_name_refuted :
  ~ (forall f A', read_config_file no_layers none
       (text_of_lines ["T_type | Grid | string | "; "T | " ++ f ++ " | string | "]%string) = Ok A' ->
       A' "T_file"%string <> None).
Proof.
  intro H. specialize (H "on"%string).
  match type of H with forall A', ?r = _ -> _ => destruct r as [A'|] eqn:E; [|vm_compute in E; discriminate E] end.
  specialize (H A' eq_refl). vm_compute in E. injection E as <-. vm_compute in H. now apply H.
Qed.

(** A misspelled type is reported on the screen only: nothing is stored. *)
Theorem C58_misspelled_type_refuted :
  ~ (forall t A', read_config_file no_layers none
       (text_of_lines ["dt | 1.0 | " ++ t ++ " | time step"]%string) = Ok A' -> A' "dt"%string <> None).
Proof.
  intro H. specialize (H "Float"%string).
  match type of H with forall A', ?r = _ -> _ => destruct r as [A'|] eqn:E; [|vm_compute in E; discriminate E] end.
  specialize (H A' eq_refl). vm_compute in E. injection E as <-. vm_compute in H. now apply H.
Qed.

(** ** Instances *)

Lemma not_comment a s : a <> "#"%char -> ~ exists r, String a s = String "#" r.
Proof. intros N [r E]. congruence. Qed.

Example C58_a_file : cfg_file
  (text_of_lines ["# channels"; "nval_type  | Scalar  | string | how"; ""; "nval | 3.0e-1 | float |"]%string)
  [mkentry "nval_type" "Scalar" "string"; mkentry "nval" "3.0e-1" "float"].
Proof.
  exists ["# channels"; "nval_type  | Scalar  | string | how"; ""; "nval | 3.0e-1 | float |"]%string,
    [None; Some (mkentry "nval_type" "Scalar" "string"); None; Some (mkentry "nval" "3.0e-1" "float")].
  split; [reflexivity|]. split; [|reflexivity].
  assert (OL : forall s, nosep (ascii_of_nat 10) s = true -> one_line s) by (intros s Hs; now apply nosep_free).
  assert (BL : forall s, allspace s = true -> blanks s).
  { induction s as [|a s IH]; cbn; [tauto|]. intro Hs. apply andb_true_iff in Hs as [A B]. split; [now apply blank_is_space|auto]. }
  assert (NB : forall a, is_space a = false -> ~ blank a) by (intros a E B; apply blank_is_space in B; congruence).
  repeat apply Forall2_cons; try apply Forall2_nil; (split; [apply OL; reflexivity|]).
  - left. eexists. reflexivity.
  - exists "nval_type  "%string, " Scalar  "%string, " string "%string, " how"%string.
    split; [reflexivity|]. do 4 (split; [reflexivity|]). split; [apply not_comment; discriminate|].
    split; [|split].
    + split; [exists ""%string, "  "%string; split; [now apply BL|split; [now apply BL|reflexivity]]|right]. split.
      * exists "n"%char, "val_type"%string. split; [reflexivity|now apply NB].
      * exists "nval_typ"%string, "e"%char. split; [reflexivity|now apply NB].
    + split; [exists " "%string, "  "%string; split; [now apply BL|split; [now apply BL|reflexivity]]|right]. split.
      * exists "S"%char, "calar"%string. split; [reflexivity|now apply NB].
      * exists "Scala"%string, "r"%char. split; [reflexivity|now apply NB].
    + split; [exists " "%string, " "%string; split; [now apply BL|split; [now apply BL|reflexivity]]|right]. split.
      * exists "s"%char, "tring"%string. split; [reflexivity|now apply NB].
      * exists "strin"%string, "g"%char. split; [reflexivity|now apply NB].
  - right. discriminate.
  - exists "nval "%string, " 3.0e-1 "%string, " float "%string, ""%string.
    split; [reflexivity|]. do 4 (split; [reflexivity|]). split; [apply not_comment; discriminate|].
    split; [|split].
    + split; [exists ""%string, " "%string; split; [now apply BL|split; [now apply BL|reflexivity]]|right]. split.
      * exists "n"%char, "val"%string. split; [reflexivity|now apply NB].
      * exists "nva"%string, "l"%char. split; [reflexivity|now apply NB].
    + split; [exists " "%string, " "%string; split; [now apply BL|split; [now apply BL|reflexivity]]|right]. split.
      * exists "3"%char, ".0e-1"%string. split; [reflexivity|now apply NB].
      * exists "3.0e-"%string, "1"%char. split; [reflexivity|now apply NB].
    + split; [exists " "%string, " "%string; split; [now apply BL|split; [now apply BL|reflexivity]]|right]. split.
      * exists "f"%char, "loat"%string. split; [reflexivity|now apply NB].
      * exists "floa"%string, "t"%char. split; [reflexivity|now apply NB].
Qed.
Example C58_a_numeral : numeral "3.0e-1" (3 # 10).
Proof.
  right. exists "3.0"%string, 3%Q, "-1"%string, (-1)%Z. split; [|split; [|split; [left; reflexivity|reflexivity]]].
  - exists "3.0"%string, 3%Q. split; [|left; split; [now left|reflexivity]].
    exists "3"%string, "0"%string. split; [split; [apply is_digit_iff; reflexivity|exact I]|].
    split; [split; [apply is_digit_iff; reflexivity|exact I]|]. split; [|reflexivity].
    right. split; [reflexivity|left; discriminate].
  - exists "1"%string. split; [split; [apply is_digit_iff; reflexivity|exact I]|]. split; [discriminate|]. right. split; reflexivity.
Qed.
Example C58_a_run :
  exists A', read_config_file no_layers none
    (text_of_lines ["# channels"; "nval_type  | Scalar  | string | how"; ""; "nval | 3.0e-1 | float |"]%string) = Ok A' /\
  A' "nval"%string = Some (VFloat (30 # 100)) /\ A' "nval_file"%string = Some (VStr "").
Proof. eexists. split; [vm_compute; reflexivity|]. split; vm_compute; reflexivity. Qed.

Print Assumptions C58_same_settings_same_effect.
Print Assumptions C58_other_attributes_kept.
Print Assumptions C58_number_stored.
Print Assumptions C58_integer_stored.
Print Assumptions C58_yes_no_stored.
Print Assumptions C58_text_stored.
Print Assumptions C58_file_name_stored.
Print Assumptions C58_scalar_stored.
Print Assumptions C58_type_line_must_be_text.
Print Assumptions C58_sound_file_is_read.
Print Assumptions C58_bar_in_help_refuted.
Print Assumptions C58_type_line_anywhere_refuted.
Print Assumptions C58_any_file_name_refuted.
Print Assumptions C58_misspelled_type_refuted.
