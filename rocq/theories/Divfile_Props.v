(** C95: the files of the diversions component, and the places they name. *)

From Coq Require Import String Ascii List ZArith NArith QArith Qround Bool Lia Lqa.
From Verif Require Import Base Time_Model Time_Proofs Io_Model Io_Proofs Rti_Model Rti_Proofs Fmt_Model Fmt_Proofs Div_Model Divfile_Model Divfile_Spec Divfile_Proofs.
Import ListNotations.

(** ** Sources *)

(** How many of the steps the file fills for a source. *)
Definition steps (nt_max : nat) (nt : Z) : nat := Nat.min (Z.to_nat nt) nt_max.

(** The rate of a source in step t: its t-th value; a single value stands for
    all of its steps. *)
Definition rate (nt_max : nat) (nt : Z) (vs : list Q) (t : nat) : Q :=
  match vs with
  | [x] => if (t <? steps nt_max nt)%nat then x else 0
  | _ => nth t vs 0
  end.

Definition fits (nt_max : nat) (b : Z * Z * list Q) : Prop :=
  length (snd b) = 1%nat \/ length (snd b) = steps nt_max (snd (fst b)).

Lemma ok_inj {A} (a b : A) : Ok a = Ok b -> a = b.
Proof. congruence. Qed.

Lemma source_row_rate nt_max nt vs row : (0 <= nt)%Z ->
  source_row nt_max (slice_len nt_max nt) vs = Ok row ->
  (length vs = 1%nat \/ length vs = steps nt_max nt) /\ length row = nt_max /\
  forall t, nth t row 0%Q = rate nt_max nt vs t.
Proof.
  intros N H. unfold source_row, slice_len in H. destruct (Z.ltb_spec nt 0); [lia|].
  rewrite <- Nat.min_assoc, Nat.min_id in H. fold (steps nt_max nt) in H.
  assert (L : (steps nt_max nt <= nt_max)%nat) by (unfold steps; lia).
  assert (P : forall l t, length l = steps nt_max nt -> nth t (l ++ repeat 0%Q (nt_max - steps nt_max nt)) 0%Q = nth t l 0%Q).
  { intros l t E. destruct (Nat.lt_ge_cases t (length l)) as [A|A]; [now rewrite app_nth1|].
    rewrite app_nth2 by exact A. rewrite nth_repeat. symmetry. now apply nth_overflow. }
  destruct vs as [|x [|y vs]].
  - destruct (Nat.eqb_spec (length (@nil Q)) (steps nt_max nt)) as [E|]; [|discriminate H]. apply ok_inj in H; subst row.
    split; [now right|]. split; [cbn in E |- *; rewrite repeat_length; lia|]. intro t. now apply (P [] t).
  - apply ok_inj in H; subst row. split; [now left|]. split; [rewrite app_length, !repeat_length; lia|].
    intro t. rewrite P by apply repeat_length. cbn [rate]. destruct (Nat.ltb_spec t (steps nt_max nt)).
    + rewrite (nth_indep _ 0%Q x) by (rewrite repeat_length; lia). apply nth_repeat.
    + apply nth_overflow. rewrite repeat_length. lia.
  - destruct (Nat.eqb_spec (length (x :: y :: vs)) (steps nt_max nt)) as [E|]; [|discriminate H]. apply ok_inj in H; subst row.
    split; [now right|]. split; [rewrite app_length, repeat_length; lia|]. intro t. now apply P.
Qed.
Lemma source_row_bad nt_max nt vs : (0 <= nt)%Z ->
  ~ (length vs = 1%nat \/ length vs = steps nt_max nt) -> source_row nt_max (slice_len nt_max nt) vs = Err ValueError.
Proof.
  intros N H. unfold source_row, slice_len. destruct (Z.ltb_spec nt 0); [lia|].
  rewrite <- Nat.min_assoc, Nat.min_id. fold (steps nt_max nt).
  destruct vs as [|x [|y vs]].
  - destruct (Nat.eqb_spec (length (@nil Q)) (steps nt_max nt)); [tauto|reflexivity].
  - cbn in H. tauto.
  - destruct (Nat.eqb_spec (length (x :: y :: vs)) (steps nt_max nt)); [tauto|reflexivity].
Qed.
Lemma source_row_ok nt_max nt vs : (0 <= nt)%Z -> (length vs = 1%nat \/ length vs = steps nt_max nt) ->
  exists row, source_row nt_max (slice_len nt_max nt) vs = Ok row.
Proof.
  intros N H. unfold source_row, slice_len. destruct (Z.ltb_spec nt 0); [lia|].
  rewrite <- Nat.min_assoc, Nat.min_id. fold (steps nt_max nt).
  destruct vs as [|x [|y vs]]; [| |cbn in H]; try (eexists; reflexivity);
    (match goal with |- context [Nat.eqb ?a ?b] => destruct (Nat.eqb_spec a b) end); try (eexists; reflexivity);
    cbn [length] in *; destruct H as [H|H]; try discriminate H; lia.
Qed.

Lemma source_loop_spec nt_max srcs : Forall (fun b => (0 <= snd (fst b))%Z) srcs ->
  forall ls t, source_blocks srcs ls -> text ls t ->
  (Forall (fits nt_max) srcs -> exists l, source_loop (length srcs) nt_max t = Ok l /\
     map (fun r => fst (fst r)) l = map (fun b => fst (fst b)) srcs /\
     map (fun r => snd (fst r)) l = map (fun b => snd (fst b)) srcs /\
     Forall2 (fun b r => length (snd r) = nt_max /\ forall t, nth t (snd r) 0%Q = rate nt_max (snd (fst b)) (snd b) t) srcs l) /\
  (~ Forall (fits nt_max) srcs -> source_loop (length srcs) nt_max t = Err ValueError).
Proof.
  intros P ls t B. revert t P. induction B as [|ID nt vs l1 l2 l3 r ls S1 S2 S3 _ IH]; intros t P T.
  - split; [|intro N; elim N; constructor]. intros _. exists []. repeat split. constructor.
  - inversion P as [|? ? P1 P2]; subst. cbn [fst snd] in P1.
    destruct (read_int_says ValueError _ _ _ _ T S1) as (v1 & t1 & R1 & V1 & T1).
    destruct (read_int_says ValueError _ _ _ _ T1 S2) as (v2 & t2 & R2 & V2 & T2).
    destruct (read_list_says _ _ _ _ T2 S3) as (t3 & R3 & T3).
    destruct (IH t3 P2 T3) as [IH1 IH2].
    cbn [length source_loop]. rewrite R1. cbn. rewrite R2. cbn. rewrite R3. cbn. rewrite V1. cbn. rewrite V2. cbn.
    split.
    + intro F. inversion F as [|? ? F1 F2]; subst. unfold fits in F1. cbn [fst snd] in F1.
      destruct (source_row_ok nt_max nt vs P1 F1) as [row R]. rewrite R. cbn.
      destruct (IH1 F2) as (l & L & A1 & A2 & A3). rewrite L. cbn. eexists. split; [reflexivity|].
      cbn [map fst snd]. rewrite A1, A2. repeat split. constructor; [|exact A3]. cbn [fst snd].
      apply source_row_rate in R; tauto.
    + intro N. destruct (source_row nt_max (slice_len nt_max nt) vs) as [row|e] eqn:R; cbn.
      * apply source_row_rate in R as (F1 & _ & _); [|exact P1].
        rewrite IH2; [reflexivity|]. intro F. apply N. constructor; [exact F1|exact F].
      * assert (X : ~ (length vs = 1%nat \/ length vs = steps nt_max nt)).
        { intro X. destruct (source_row_ok _ _ _ P1 X) as [row Y]. congruence. }
        rewrite source_row_bad in R by assumption. congruence.
Qed.

Lemma np_zeros_nat n : np_zeros (Z.of_nat n) = Ok n.
Proof. unfold np_zeros. destruct (Z.ltb_spec (Z.of_nat n) 0); [lia|]. now rewrite Nat2Z.id. Qed.

Lemma source_header nt_max srcs t : source_file nt_max srcs t ->
  exists ls t', source_blocks srcs ls /\ text ls t' /\
    read_source_data t = (let! l := source_loop (length srcs) nt_max t' in
      Ok (mksources (map (fun r => fst (fst r)) l) (map (fun r => snd (fst r)) l) nt_max (map snd l))) /\
    read_sink_data t = (let! l := sink_loop (length srcs) t' in
      Ok (mksources (map (fun r => fst (fst r)) l) (map (fun r => snd (fst r)) l) nt_max (map snd l))).
Proof.
  intros (l1 & l2 & l3 & dt & ls & T & S1 & S2 & S3 & B).
  destruct (read_int_says TypeError _ _ _ _ T S1) as (v1 & t1 & R1 & V1 & T1).
  destruct (read_int_says TypeError _ _ _ _ T1 S2) as (v2 & t2 & R2 & V2 & T2).
  destruct (read_value_says _ _ _ _ T2 S3) as (t3 & R3 & T3).
  exists ls, t3. split; [exact B|]. split; [exact T3|]. unfold read_source_data, read_sink_data.
  rewrite R1. cbn [rbind]. rewrite R2. cbn [rbind]. rewrite R3. cbn [rbind]. rewrite V1. cbn [rbind].
  rewrite np_zeros_nat. cbn [rbind]. rewrite V2. cbn [rbind]. rewrite np_zeros_nat. now split.
Qed.

(** A file of sources is accepted exactly when every list has one value or as
    many as its count says, and then each source is in its cell and gives its
    values, step after step. *)
Theorem C95_sources (nt_max : nat) (srcs : list (Z * Z * list Q)) (t : string) :
  source_file nt_max srcs t -> Forall (fun b => (0 <= snd (fst b))%Z) srcs ->
  (Forall (fits nt_max) srcs ->
     exists r, read_source_data t = Ok r /\ s_IDs r = map (fun b => fst (fst b)) srcs /\
       s_nts r = map (fun b => snd (fst b)) srcs /\ s_nt_max r = nt_max /\
       forall step k, (k < length srcs)%nat ->
         nth k (update_sources nt_max (s_all r) step) 0%Q
         = let b := nth k srcs (0%Z, 0%Z, []) in rate nt_max (snd (fst b)) (snd b) step) /\
  (~ Forall (fits nt_max) srcs -> read_source_data t = Err ValueError).
Proof.
  intros F P. destruct (source_header _ _ _ F) as (ls & t' & B & T & R & _).
  destruct (source_loop_spec nt_max srcs P ls t' B T) as [G N]. split.
  - intro FF. destruct (G FF) as (l & L & A1 & A2 & A3). rewrite R, L. cbn [rbind]. eexists. split; [reflexivity|].
    cbn. repeat split; try assumption. intros step k K. clear -A3 K.
    revert k K. induction A3 as [|b x srcs l [X Y] A3 IH]; intros k K; [cbn in K; lia|].
    destruct k as [|k].
    + unfold update_sources in *. cbn [map nth length repeat]. destruct (Nat.ltb_spec step nt_max) as [S|S].
      * unfold get. apply Y.
      * rewrite <- Y. cbn. symmetry. apply nth_overflow. lia.
    + cbn [length] in K. specialize (IH k ltac:(lia)). cbn [nth]. rewrite <- IH.
      unfold update_sources. destruct (step <? nt_max)%nat; reflexivity.
  - intro NF. rewrite R, (N NF). reflexivity.
Qed.
Print Assumptions C95_sources.

(** Of a file in the layout of the shipped example the column becomes the cell
    number, the row becomes the number of steps, and the number of steps becomes
    the rate. *)
Theorem C95_sources_example (nt_max : nat) (col row : Z) (nt : Q) (vs : list Q) (t : string) :
  source_file_rc nt_max col row nt vs t -> (0 <= row)%Z ->
  exists r, read_source_data t = Ok r /\ s_IDs r = [col] /\
    forall step, update_sources nt_max (s_all r) step
                 = [if (step <? Nat.min (Z.to_nat row) nt_max)%nat then nt else 0%Q].
Proof.
  intros (l1 & l2 & l3 & l4 & l5 & l6 & l7 & dt & T & S1 & S2 & S3 & S4 & S5 & S6 & S7) P.
  destruct (read_int_says TypeError _ _ _ _ T S1) as (v1 & t1 & R1 & V1 & T1).
  destruct (read_int_says TypeError _ _ _ _ T1 S2) as (v2 & t2 & R2 & V2 & T2).
  destruct (read_value_says _ _ _ _ T2 S3) as (t3 & R3 & T3).
  destruct (read_int_says ValueError _ _ _ _ T3 S4) as (v4 & t4 & R4 & V4 & T4).
  destruct (read_int_says ValueError _ _ _ _ T4 S5) as (v5 & t5 & R5 & V5 & T5).
  destruct (read_list_says _ _ _ _ T5 S6) as (t6 & R6 & _).
  unfold read_source_data.
  rewrite R1. cbn [rbind]. rewrite R2. cbn [rbind]. rewrite R3. cbn [rbind]. rewrite V1. cbn [rbind].
  change (np_zeros 1) with (Ok 1%nat). cbn [rbind]. rewrite V2. cbn [rbind]. rewrite np_zeros_nat. cbn [rbind].
  cbn [source_loop]. rewrite R4. cbn [rbind]. rewrite R5. cbn [rbind]. rewrite R6. cbn [rbind]. rewrite V4. cbn [rbind].
  rewrite V5. cbn [rbind]. destruct (source_row_ok nt_max row [nt] P (or_introl eq_refl)) as [w W].
  rewrite W. cbn [rbind]. eexists. split; [reflexivity|]. cbn [s_IDs s_all map fst snd]. split; [reflexivity|]. intro step.
  apply source_row_rate in W as (_ & W1 & W2); [|exact P]. unfold update_sources. cbn [map length repeat].
  change (Nat.min (Z.to_nat row) nt_max) with (steps nt_max row). specialize (W2 step). cbn [rate] in W2. rewrite <- W2.
  destruct (Nat.ltb_spec step nt_max); [reflexivity|]. now rewrite nth_overflow by lia.
Qed.
Print Assumptions C95_sources_example.

(** So such a file is not read as it says. *)
Theorem C95_sources_example_refuted :
  ~ (forall (nx : Z) (nt_max : nat) (col row : Z) (vs : list Q) (t : string),
       source_file_rc nt_max col row (inject_Z (Z.of_nat (length vs))) vs t ->
       (0 <= col < nx)%Z -> (0 <= row)%Z -> (length vs <= nt_max)%nat ->
       exists r, read_source_data t = Ok r /\ s_IDs r = [row * nx + col]%Z /\
         forall step, update_sources nt_max (s_all r) step = [nth step vs 0%Q]).
Proof.
  intro H.
  set (l1 := "n_sources: 1"%string). set (l2 := "nt_max: 2"%string). set (l3 := "dt: 0"%string).
  set (l4 := "source_col: 5"%string). set (l5 := "source_row: 3"%string). set (l6 := "nt: 2"%string).
  set (l7 := "Discharge: 1 1"%string).
  assert (W : forall key w, nosep ":" key = true -> nospace w = true -> w <> EmptyString ->
             says (key ++ ": " ++ w)%string [w]).
  { intros key w K N E. exists key, (" " ++ w)%string. split; [reflexivity|]. split; [exact K|].
    rewrite <- (app_nil_s w) at 2. apply spaced_word; try assumption; [reflexivity|now constructor|now left]. }
  assert (I : forall key w z, nosep ":" key = true -> nospace w = true -> w <> EmptyString ->
             eval_num w = Ok (inject_Z z) -> says_int (key ++ ": " ++ w)%string z).
  { intros key w z K N E V. exists (inject_Z z). split; [|reflexivity]. exists w, []. split; [now apply W|exact V]. }
  assert (F : source_file_rc 2 5 3 (inject_Z (Z.of_nat (length [1; 1]))) [1; 1] (unlines [l1; l2; l3; l4; l5; l6; l7])).
  { exists l1, l2, l3, l4, l5, l6, l7, 0%Q.
    split; [cbn [unlines]; do 7 (apply text_line; [reflexivity|]); constructor|].
    split; [apply (I "n_sources"%string "1"%string); now try reflexivity|].
    split; [apply (I "nt_max"%string "2"%string); now try reflexivity|].
    split; [exists "0"%string, []; split; [apply (W "dt"%string); now try reflexivity|reflexivity]|].
    split; [apply (I "source_col"%string "5"%string); now try reflexivity|].
    split; [apply (I "source_row"%string "3"%string); now try reflexivity|].
    split; [exists ["2"%string]; split; [apply (W "nt"%string); now try reflexivity|repeat constructor]|].
    exists ["1"%string; "1"%string]. split; [|repeat constructor].
    exists "Discharge"%string, " 1 1"%string. split; [reflexivity|]. split; [reflexivity|].
    apply (spaced_word " " "1" ["1"%string] " 1"); try easy.
    - apply (spaced_word " " "1" [] ""); try easy; [now constructor|now left].
    - right. now exists " "%char, "1"%string. }
  destruct (H 10%Z 2%nat 5%Z 3%Z [1; 1] _ F) as (r & R & E & _); [lia|lia|cbn; lia|].
  destruct (C95_sources_example _ _ _ _ _ _ F) as (r' & R' & E' & _); [lia|].
  rewrite R in R'. apply ok_inj in R'. subst r'. rewrite E in E'. vm_compute in E'. discriminate E'.
Qed.
Print Assumptions C95_sources_example_refuted.

(** ** Sinks *)

(** No sink is ever read. *)
Theorem C95_sinks_refuted (nt_max : nat) (snks : list (Z * Z * list Q)) (t : string) :
  source_file nt_max snks t -> snks <> [] -> read_sink_data t = Err NameError.
Proof.
  intros F N. destruct (source_header _ _ _ F) as (ls & t' & B & T & _ & R). rewrite R.
  destruct B as [|ID nt vs l1 l2 l3 r ls S1 S2 S3 B]; [easy|].
  destruct (read_int_says ValueError _ _ _ _ T S1) as (v1 & t1 & R1 & V1 & T1).
  destruct (read_int_says ValueError _ _ _ _ T1 S2) as (v2 & t2 & R2 & V2 & T2).
  destruct (read_list_says _ _ _ _ T2 S3) as (t3 & R3 & T3).
  cbn [length sink_loop]. rewrite R1. cbn [rbind]. rewrite R2. cbn [rbind]. rewrite R3. reflexivity.
Qed.
Print Assumptions C95_sinks_refuted.

(** ** Canals *)

Definition canal_of (c : Z * Z * Q * Q) : canal := let '(i, o, f, t) := c in mkcanal i o f t.

Lemma canal_loop_spec cs ls : canal_blocks cs ls -> forall t, text ls t ->
  canal_loop (length cs) t = Ok (map canal_of cs).
Proof.
  induction 1 as [|i o f tt l1 l2 l3 l4 r ls S1 S2 S3 S4 _ IH]; intros t T; [reflexivity|].
  destruct (read_int_says ValueError _ _ _ _ T S1) as (v1 & t1 & R1 & V1 & T1).
  destruct (read_int_says ValueError _ _ _ _ T1 S2) as (v2 & t2 & R2 & V2 & T2).
  destruct (read_value_says _ _ _ _ T2 S3) as (t3 & R3 & T3).
  destruct (read_value_says _ _ _ _ T3 S4) as (t4 & R4 & T4).
  cbn [length canal_loop]. rewrite R1. cbn [rbind]. rewrite R2. cbn [rbind]. rewrite R3. cbn [rbind].
  rewrite R4. cbn [rbind]. rewrite V1. cbn [rbind]. rewrite V2. cbn [rbind as_float]. rewrite (IH _ T4). reflexivity.
Qed.

(** With a numpy that has np.int, a file of canals gives its canals, and empty
    reaches as long as the travel times. *)
Theorem C95_canals (dt : Q) (cs : list (Z * Z * Q * Q)) (t : string) :
  canal_file cs t -> cs <> [] ->
  read_canal_data true dt t
  = match init_canals dt (map snd cs) with
    | Ok c => Ok (map canal_of cs, c)
    | Err e => Err e
    end.
Proof.
  intros (l1 & ls & T & S1 & B) N.
  destruct (read_int_says TypeError _ _ _ _ T S1) as (v1 & t1 & R1 & V1 & T1).
  unfold read_canal_data. rewrite R1. cbn [rbind]. rewrite V1. cbn [rbind]. rewrite np_zeros_nat. cbn [rbind].
  rewrite (canal_loop_spec _ _ B _ T1). cbn [rbind]. rewrite map_length.
  destruct (Nat.eqb_spec (length cs) 0) as [E|_]; [destruct cs; easy|]. cbn [negb].
  assert (M : map travel (map canal_of cs) = map snd cs).
  { rewrite map_map. apply map_ext. now intros [[[i o] f] tt]. }
  rewrite M. destruct (init_canals dt (map snd cs)); reflexivity.
Qed.
Print Assumptions C95_canals.

(** With current numpy no file of canals is read. *)
Theorem C95_canals_current_numpy_refuted (dt : Q) (cs : list (Z * Z * Q * Q)) (t : string) :
  canal_file cs t -> cs <> [] -> read_canal_data false dt t = Err AttributeError.
Proof.
  intros (l1 & ls & T & S1 & B) N.
  destruct (read_int_says TypeError _ _ _ _ T S1) as (v1 & t1 & R1 & V1 & T1).
  unfold read_canal_data. rewrite R1. cbn [rbind]. rewrite V1. cbn [rbind]. rewrite np_zeros_nat. cbn [rbind].
  rewrite (canal_loop_spec _ _ B _ T1). cbn [rbind]. rewrite map_length.
  destruct (Nat.eqb_spec (length cs) 0) as [E|_]; [destruct cs; easy|]. reflexivity.
Qed.
Print Assumptions C95_canals_current_numpy_refuted.

(** A file that says there are no canals is refused. *)
Theorem C95_no_canals_refuted (old_numpy : bool) (dt : Q) (t : string) :
  canal_file [] t -> read_canal_data old_numpy dt t = Err ValueError.
Proof.
  intros (l1 & ls & T & S1 & B).
  destruct (read_int_says TypeError _ _ _ _ T S1) as (v1 & t1 & R1 & V1 & T1).
  unfold read_canal_data. rewrite R1. cbn [rbind]. rewrite V1. reflexivity.
Qed.
Print Assumptions C95_no_canals_refuted.

(** Of a file in the layout of the shipped example the two numbers of the
    entrance become the two cells, and the column and row of the exit become the
    fraction and the travel time. *)
Theorem C95_canals_example_refuted (dt : Q) (in_col in_row : Z) (out_col out_row f tt : Q) (t : string) :
  canal_file_rc in_col in_row out_col out_row f tt t ->
  read_canal_data true dt t
  = match init_canals dt [out_row] with
    | Ok c => Ok ([mkcanal in_col in_row out_col out_row], c)
    | Err e => Err e
    end.
Proof.
  intros (l1 & l2 & l3 & l4 & l5 & l6 & l7 & T & S1 & S2 & S3 & S4 & S5 & _).
  destruct (read_int_says TypeError _ _ _ _ T S1) as (v1 & t1 & R1 & V1 & T1).
  destruct (read_int_says ValueError _ _ _ _ T1 S2) as (v2 & t2 & R2 & V2 & T2).
  destruct (read_int_says ValueError _ _ _ _ T2 S3) as (v3 & t3 & R3 & V3 & T3).
  destruct (read_value_says _ _ _ _ T3 S4) as (t4 & R4 & T4).
  destruct (read_value_says _ _ _ _ T4 S5) as (t5 & R5 & T5).
  unfold read_canal_data. rewrite R1. cbn [rbind]. rewrite V1. cbn [rbind].
  change (np_zeros 1) with (Ok 1%nat). cbn [rbind canal_loop]. rewrite R2. cbn [rbind]. rewrite R3. cbn [rbind].
  rewrite R4. cbn [rbind]. rewrite R5. cbn [rbind]. rewrite V2. cbn [rbind]. rewrite V3. cbn [rbind as_float length map travel Nat.eqb negb].
  destruct (init_canals dt [out_row]); reflexivity.
Qed.
Print Assumptions C95_canals_example_refuted.

(** ** Counts *)

(** The published number of sources is there unless sources are wanted and their
    file is missing. *)
Theorem C95_count (use : bool) (file : option string) (v : option Z) :
  n_sources use file = Ok v -> (v = None <-> use = true /\ file = None).
Proof.
  unfold n_sources. destruct use; cbn [negb]; [|intro H; injection H as <-; split; [discriminate|intros [H _]; discriminate H]].
  destruct file as [s|]; [|intro H; injection H as <-; now split].
  destruct (read_source_data s); cbn; intro H; [|discriminate H]. injection H as <-.
  split; [discriminate|intros [_ H]; discriminate H].
Qed.
Print Assumptions C95_count.
Theorem C95_count_value (nt_max : nat) (srcs : list (Z * Z * list Q)) (t : string) :
  source_file nt_max srcs t -> Forall (fun b => (0 <= snd (fst b))%Z) srcs -> Forall (fits nt_max) srcs ->
  n_sources true (Some t) = Ok (Some (Z.of_nat (length srcs))) /\ n_sources false (Some t) = Ok (Some 0%Z).
Proof.
  intros F P G. destruct (C95_sources nt_max srcs t F P) as [H _]. destruct (H G) as (r & R & I & _).
  unfold n_sources. cbn [negb]. rewrite R. cbn [rbind]. rewrite I, map_length. now split.
Qed.
Print Assumptions C95_count_value.
Theorem C95_count_refuted : ~ (forall use file v, n_sources use file = Ok v -> v <> None).
Proof. intro H. now apply (H true None None). Qed.
Print Assumptions C95_count_refuted.

(** ** Places *)

(** The published x is that of the cell's column; the published y is that of its
    row only in the first column: elsewhere it lies beyond. *)
Theorem C95_x (nx row col : Z) (dx : Q) :
  (0 <= col < nx)%Z -> (place_x nx dx (row * nx + col) == inject_Z col * dx)%Q.
Proof. intro H. unfold place_x. replace ((row * nx + col) mod nx)%Z with col; [reflexivity|].
  rewrite Z.add_comm, Z.mod_add by lia. now rewrite Z.mod_small. Qed.
Print Assumptions C95_x.

Lemma place_y_eq nx row col dy : (0 < nx)%Z ->
  (place_y nx dy (row * nx + col) == (inject_Z row + inject_Z col / inject_Z nx) * dy)%Q.
Proof.
  intro N. unfold place_y. rewrite inject_Z_plus, inject_Z_mult.
  assert (0 < inject_Z nx)%Q by (change 0%Q with (inject_Z 0); rewrite <- Zlt_Qlt; exact N).
  field. lra.
Qed.

Theorem C95_y_refuted (nx row col : Z) (dy : Q) :
  (0 <= col < nx)%Z -> (0 < dy)%Q ->
  (place_y nx dy (row * nx + col) == inject_Z row * dy)%Q <-> col = 0%Z.
Proof.
  intros C D. rewrite place_y_eq by lia.
  assert (N : (0 < inject_Z nx)%Q) by (change 0%Q with (inject_Z 0); rewrite <- Zlt_Qlt; lia).
  split.
  - intro H. assert (X : (inject_Z col / inject_Z nx * dy == 0)%Q) by lra.
    apply Qmult_integral in X as [X|X]; [|lra]. unfold Qdiv in X. apply Qmult_integral in X as [X|X].
    + change 0%Q with (inject_Z 0) in X. now apply inject_Z_injective.
    + assert (Y := Qinv_lt_0_compat _ N). lra.
  - intros ->. field. lra.
Qed.
Print Assumptions C95_y_refuted.

Lemma trunc_iff q z : (0 <= q)%Q -> trunc q = z <-> (inject_Z z <= q < inject_Z z + 1)%Q.
Proof.
  intro P. unfold trunc. destruct (Qlt_le_dec q 0) as [A|_]; [lra|].
  split.
  - intros <-. split; [apply Qfloor_le|]. pose proof (Qlt_floor q) as X. rewrite inject_Z_plus in X. exact X.
  - intros [A B]. pose proof (Qfloor_le q) as X. pose proof (Qlt_floor q) as Y. rewrite inject_Z_plus in Y.
    assert (U : (inject_Z z < inject_Z (Qfloor q + 1))%Q) by (rewrite inject_Z_plus; lra).
    assert (V : (inject_Z (Qfloor q) < inject_Z (z + 1))%Q) by (rewrite inject_Z_plus; change (inject_Z 1) with 1%Q; lra).
    rewrite <- Zlt_Qlt in U, V. lia.
Qed.

Lemma qdiv_between a b lo hi : (0 < b)%Q -> (lo <= a / b < hi)%Q <-> (lo * b <= a < hi * b)%Q.
Proof.
  intro B. assert (E : (a == a / b * b)%Q) by (field; lra). set (q := (a / b)%Q) in *. clearbody q. rewrite E.
  split; intros [X Y]; split.
  - apply Qmult_le_compat_r; lra.
  - now apply Qmult_lt_r.
  - now apply Qmult_le_r in X.
  - now apply Qmult_lt_r in Y.
Qed.

(** Where the channels look for a diversion: at its cell exactly when ... *)
Lemma cell_iff nx ny dx dy row col : (0 < nx)%Z -> (0 < ny)%Z -> (0 < dx)%Q -> (0 < dy)%Q ->
  (0 <= row)%Z -> (0 <= col < nx)%Z ->
  let X := inject_Z nx in let Y := inject_Z ny in let r := inject_Z row in let c := inject_Z col in
  place_cell nx ny (place_x nx dx (row * nx + col)) (place_y nx dy (row * nx + col)) = (row, col) <->
  (r * (X * Y) <= (r * X + c) * dy < (r + 1) * (X * Y))%Q /\ (c * X <= c * dx < (c + 1) * X)%Q.
Proof.
  intros NX NY DX DY R C X Y r c.
  assert (PX : (0 < X)%Q) by (change 0%Q with (inject_Z 0); unfold X; rewrite <- Zlt_Qlt; lia).
  assert (PY : (0 < Y)%Q) by (change 0%Q with (inject_Z 0); unfold Y; rewrite <- Zlt_Qlt; lia).
  assert (PR : (0 <= r)%Q) by (change 0%Q with (inject_Z 0); unfold r; rewrite <- Zle_Qle; lia).
  assert (PC : (0 <= c)%Q) by (change 0%Q with (inject_Z 0); unfold c; rewrite <- Zle_Qle; lia).
  unfold place_cell.
  assert (EX : (place_x nx dx (row * nx + col) / X == c * dx / X)%Q) by (rewrite C95_x by lia; reflexivity).
  assert (EY : (place_y nx dy (row * nx + col) / Y == (r * X + c) * dy / (X * Y))%Q).
  { rewrite place_y_eq by lia. fold X r c. field. split; lra. }
  fold X Y. rewrite (trunc_comp _ _ EX), (trunc_comp _ _ EY).
  assert (QX : (0 <= c * dx / X)%Q).
  { unfold Qdiv. apply Qmult_le_0_compat; [apply Qmult_le_0_compat; lra|]. apply Qlt_le_weak, Qinv_lt_0_compat, PX. }
  assert (PXY : (0 < X * Y)%Q) by (apply Qmult_lt_0_compat; assumption).
  assert (QY : (0 <= (r * X + c) * dy / (X * Y))%Q).
  { assert (0 <= r * X)%Q by (apply Qmult_le_0_compat; lra).
    unfold Qdiv. apply Qmult_le_0_compat; [apply Qmult_le_0_compat; lra|]. apply Qlt_le_weak, Qinv_lt_0_compat, PXY. }
  rewrite <- (qdiv_between _ _ _ _ PX), <- (qdiv_between _ _ _ _ PXY).
  pose proof (trunc_iff _ row QY) as TY. pose proof (trunc_iff _ col QX) as TX. fold r in TY. fold c in TX.
  rewrite <- TY, <- TX.
  split; [intro E; injection E as E1 E2; now split|intros [-> ->]; reflexivity].
Qed.

(** The channels find every diversion in its cell exactly when the cells happen
    to be about as many metres wide as there are columns, and high as rows. *)
Theorem C95_located (nx ny : Z) (dx dy : Q) :
  (2 <= nx)%Z -> (2 <= ny)%Z -> (0 < dx)%Q -> (0 < dy)%Q ->
  let X := inject_Z nx in let Y := inject_Z ny in
  (forall row col, (0 <= row < ny)%Z -> (0 <= col < nx)%Z ->
     place_cell nx ny (place_x nx dx (row * nx + col)) (place_y nx dy (row * nx + col)) = (row, col)) <->
  (X <= dx /\ dx * (X - 1) < X * X /\ Y <= dy /\ dy * (X * Y - 1) < X * Y * Y)%Q.
Proof.
  intros NX NY DX DY X Y.
  assert (PX : (2 <= X)%Q) by (change 2%Q with (inject_Z 2); unfold X; rewrite <- Zle_Qle; lia).
  assert (PY : (2 <= Y)%Q) by (change 2%Q with (inject_Z 2); unfold Y; rewrite <- Zle_Qle; lia).
  split.
  - intro H.
    pose proof (H 0%Z 1%Z ltac:(lia) ltac:(lia)) as H1. apply cell_iff in H1 as (_ & H1 & _); try lia; try lra.
    pose proof (H 0%Z (nx - 1)%Z ltac:(lia) ltac:(lia)) as H2. apply cell_iff in H2 as (_ & _ & H2); try lia; try lra.
    pose proof (H 1%Z 0%Z ltac:(lia) ltac:(lia)) as H3. apply cell_iff in H3 as ((H3 & _) & _); try lia; try lra.
    pose proof (H (ny - 1)%Z (nx - 1)%Z ltac:(lia) ltac:(lia)) as H4. apply cell_iff in H4 as ((_ & H4) & _); try lia; try lra.
    change (ny - 1)%Z with (ny + -1)%Z in *. change (nx - 1)%Z with (nx + -1)%Z in *. rewrite inject_Z_plus in H2.
    rewrite !inject_Z_plus in H4. fold X Y in H1, H2, H3, H4.
    change (inject_Z (-1)) with (-1)%Q in *. change (inject_Z 1) with 1%Q in *. change (inject_Z 0) with 0%Q in *.
    split; [lra|]. split; [nra|]. split; [|nra].
    assert (E : (X * Y <= X * dy)%Q) by lra. rewrite (Qmult_comm X Y), (Qmult_comm X dy) in E. apply Qmult_le_r in E; lra.
  - intros (A & B & C & D) row col R K. apply cell_iff; try lia; try lra. fold X Y.
    set (r := inject_Z row). set (c := inject_Z col).
    assert (PR : (0 <= r)%Q) by (change 0%Q with (inject_Z 0); unfold r; rewrite <- Zle_Qle; lia).
    assert (PC : (0 <= c)%Q) by (change 0%Q with (inject_Z 0); unfold c; rewrite <- Zle_Qle; lia).
    assert (QR : (r + 1 <= Y)%Q).
    { change 1%Q with (inject_Z 1). unfold r, Y. rewrite <- inject_Z_plus, <- Zle_Qle. lia. }
    assert (QC : (c + 1 <= X)%Q).
    { change 1%Q with (inject_Z 1). unfold c, X. rewrite <- inject_Z_plus, <- Zle_Qle. lia. }
    clearbody r c X Y. clear R K NX NY.
    assert (M : forall a b, (0 <= a -> 0 <= b -> 0 <= a * b)%Q) by (intros; now apply Qmult_le_0_compat).
    split; split.
    + pose proof (M r ((dy - Y) * X)%Q). pose proof (M c dy). pose proof (M (dy - Y)%Q X). nra.
    + (* (r X + c) dy < (r+1) X Y *)
      assert (W : (0 < X * Y - 1)%Q) by nra.
      assert (G : ((r * X + c) * (dy * (X * Y - 1)) < (r + 1) * (X * Y) * (X * Y - 1))%Q).
      { destruct (Qlt_le_dec 0 (r * X + c)) as [P|P].
        - assert (T1 : ((r * X + c) * (dy * (X * Y - 1)) < (r * X + c) * (X * Y * Y))%Q) by (apply Qmult_lt_l; assumption).
          assert (T2 : ((r * X + c) * (X * Y * Y) <= (r + 1) * (X * Y) * (X * Y - 1))%Q); [|lra].
          assert (T3 : ((r * X + c) * Y <= (r + 1) * (X * Y - 1))%Q).
          { pose proof (M (X - 1 - c)%Q Y ltac:(lra) ltac:(lra)). nra. }
          assert (T4 := Qmult_le_compat_r _ _ (X * Y)%Q T3 ltac:(nra)). lra.
        - assert (T0 : (r * X + c == 0)%Q) by (pose proof (M r X PR ltac:(lra)); lra). rewrite T0.
          setoid_replace (0 * (dy * (X * Y - 1)))%Q with 0%Q by ring.
          apply Qmult_lt_0_compat; [|exact W]. apply Qmult_lt_0_compat; [lra|nra]. }
      rewrite Qmult_assoc in G. now apply Qmult_lt_r in G.
    + rewrite (Qmult_comm c X), (Qmult_comm c dx). now apply Qmult_le_compat_r.
    + assert (G : (c * dx * (X - 1) < (c + 1) * X * (X - 1))%Q).
      { destruct (Qlt_le_dec 0 c) as [P|P].
        - assert (T1 : (c * (dx * (X - 1)) < c * (X * X))%Q) by (apply Qmult_lt_l; assumption).
          pose proof (M (X - 1 - c)%Q X ltac:(lra) ltac:(lra)). nra.
        - assert (T0 : (c == 0)%Q) by lra. rewrite T0. nra. }
      apply Qmult_lt_r in G; [exact G|lra].
Qed.
Print Assumptions C95_located.

(** The shipped example (20 columns, cells of 10 m): not so. *)
Theorem C95_located_refuted :
  ~ (forall nx ny dx dy row col, (2 <= nx)%Z -> (2 <= ny)%Z -> (0 < dx)%Q -> (0 < dy)%Q ->
       (0 <= row < ny)%Z -> (0 <= col < nx)%Z ->
       place_cell nx ny (place_x nx dx (row * nx + col)) (place_y nx dy (row * nx + col)) = (row, col)).
Proof.
  intro H. specialize (H 20%Z 20%Z 10%Q 10%Q 3%Z 5%Z ltac:(lia) ltac:(lia) ltac:(lra) ltac:(lra) ltac:(lia) ltac:(lia)).
  vm_compute in H. discriminate H.
Qed.
Print Assumptions C95_located_refuted.

Example C95_case :
  let t := unlines ["n_sources: 2"; "nt_max: 3"; "dt: 60.0"; "source_ID: 7"; "nt: 3"; "Discharge: 0.5 1.5 2";
                    "source_ID: 9"; "nt: 2"; "Discharge: 4"]%string in
  (match read_source_data t with
   | Ok r => s_IDs r = [7; 9]%Z /\ Forall2 (fun a b => Forall2 Qeq a b) (s_all r) [[1 # 2; 3 # 2; 2]; [4; 4; 0]]
   | Err _ => False
   end) /\
  (match read_canal_data true 6 (unlines ["n_canals: 1"; "canal_in_ID: 16"; "canal_out_ID: 203"; "Q_fraction: 0.25"; "travel_time: 240.0  [seconds]"]%string) with
   | Ok ([c], s) => in_ID c = 16%Z /\ out_ID c = 203%Z /\ (fraction c == 1 # 4)%Q /\ nts s = [40%Z]
   | _ => False
   end) /\
  place_cell 20 20 (place_x 20 10 65) (place_y 20 10 65) = (1, 2)%Z /\
  place_cell 20 20 (place_x 20 20 65) (place_y 20 20 65) = (3, 5)%Z.
Proof.
  vm_compute. repeat split; repeat constructor.
Qed.
