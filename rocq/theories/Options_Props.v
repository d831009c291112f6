(** C122: options that a configuration file leaves out, topoflow/components/channels_base.py, met_base.py,
    topoflow_driver.py and snow_degree_day.py. *)

From Coq Require Import String Ascii List ZArith QArith Bool.
From Verif Require Import Time_Model Cfg_Model Cfg_Proofs Options_Model.
Import ListNotations.
Local Open Scope string_scope.

(* -------------------------------------------------------------------------------------------------------------- *)
(* Specification: for every component, what an option is when the file does not give it. *)

Definition always : list (string * cval) :=
  [("CHECK_STABILITY", VBool true); ("FLOOD_OPTION", VBool false); ("ATTENUATE", VBool false);
   ("min_baseflow_flux", VFloat 0); ("d_bankfull_type", VStr "Scalar"); ("CREATE_CHANNEL_FILES", VBool false);
   ("slope_factor", VFloat 1); ("nval_factor", VFloat 1); ("z0val_factor", VFloat 1); ("width_factor", VFloat 1);
   ("angle_factor", VFloat 1); ("sinu_factor", VFloat 1); ("d0_factor", VFloat 1); ("d_bankfull_factor", VFloat 1)].
Definition of_create : list (string * cval) :=
  [("max_river_width", VFloat 140); ("channel_width_power", VFloat (1 # 2));
   ("min_manning_n", VFloat (3 # 100)); ("max_manning_n", VFloat (2 # 10));
   ("max_bankfull_depth", VFloat 8); ("bankfull_depth_power", VFloat (4 # 10))].
(** names whose value does not only depend on whether the file gives it *)
Definition others : list string :=
  ["n_days"; "SAVE_DF_GRIDS"; "SAVE_DF_PIXELS"; "min_baseflow_flux_mps"; "vol_GW"; "d_bankfull"; "d_bankfull_file"].

(* -------------------------------------------------------------------------------------------------------------- *)

Lemma default_some A n v m w : A m = Some w -> default A n v m = Some w.
Proof.
  intro H. unfold default, hasattr. destruct (A n) eqn:E; [exact H|].
  unfold upd. destruct (String.eqb_spec n m) as [->|]; congruence.
Qed.
Lemma default_other A n v m : m <> n -> default A n v m = A m.
Proof. intro H. unfold default. destruct (hasattr A n); [reflexivity|]. apply upd_other. congruence. Qed.
Lemma default_none A n v : A n = None -> default A n v n = Some v.
Proof. intro H. unfold default, hasattr. rewrite H. apply upd_same. Qed.
Lemma default_get A n v : default A n v n = Some (match A n with Some w => w | None => v end).
Proof. destruct (A n) eqn:E; [apply default_some, E|apply default_none, E]. Qed.
Lemma defaults_some l : forall A m w, A m = Some w -> defaults A l m = Some w.
Proof.
  unfold defaults. induction l as [|x l IH]; intros A m w H; [exact H|].
  cbn [fold_left]. apply IH, default_some, H.
Qed.
Lemma defaults_other l : forall A m, ~ In m (map fst l) -> defaults A l m = A m.
Proof.
  unfold defaults. induction l as [|x l IH]; intros A m H; [reflexivity|].
  cbn [fold_left]. rewrite IH; [|intro I; apply H; right; exact I].
  apply default_other. intro E; apply H; left; symmetry; exact E.
Qed.
Lemma defaults_none l : NoDup (map fst l) -> forall A m v, In (m, v) l -> A m = None -> defaults A l m = Some v.
Proof.
  unfold defaults. induction l as [|[n u] l IH]; intros N A m v I H; [destruct I|].
  cbn [map fst] in N. apply NoDup_cons_iff in N as [N1 N2].
  cbn [fold_left fst snd]. destruct I as [I|I].
  - injection I as -> ->. apply (defaults_some l), default_none, H.
  - apply (IH N2); [exact I|]. rewrite default_other; [exact H|].
    intros ->. apply N1. apply (in_map fst) in I. exact I.
Qed.

Ltac ne := let H := fresh in intro H; vm_compute in H; discriminate H.
Ltac nodup := repeat (apply NoDup_cons; [cbn; intuition discriminate|]); apply NoDup_nil.

Definition factors : list (string * cval) :=
  [("slope_factor", VFloat 1); ("nval_factor", VFloat 1); ("z0val_factor", VFloat 1); ("width_factor", VFloat 1);
   ("angle_factor", VFloat 1); ("sinu_factor", VFloat 1); ("d0_factor", VFloat 1); ("d_bankfull_factor", VFloat 1)].

Lemma ok_inj (T : Type) (a b : T) : Ok a = Ok b -> a = b.
Proof. intro H. now injection H. Qed.

(** the method, one stage after the other *)
Lemma stages A B : channels_missing A = Ok B ->
  exists A1 A2 A3 A4 A5 A6 A7 A8 A9 att flux mps create,
    A1 = default A "CHECK_STABILITY" (VBool true)
    /\ A2 = (if hasattr A1 "FLOOD_OPTION" then A1 else
         upd (upd (upd A1 "FLOOD_OPTION" (VBool false)) "SAVE_DF_GRIDS" (VBool false)) "SAVE_DF_PIXELS" (VBool false))
    /\ A3 = default A2 "ATTENUATE" (VBool false) /\ A3 "ATTENUATE" = Some att
    /\ A4 = (if is_True att then default A3 "n_days" (VInt 5) else A3)
    /\ A5 = default A4 "min_baseflow_flux" (VFloat 0) /\ A5 "min_baseflow_flux" = Some flux
    /\ times flux mmph_to_mps = Ok mps
    /\ A6 = upd (upd A5 "min_baseflow_flux_mps" mps) "vol_GW" (VFloat 0)
    /\ A7 = (if hasattr A6 "d_bankfull_type" then A6 else
         upd (upd (upd A6 "d_bankfull_type" (VStr "Scalar")) "d_bankfull" (VFloat 10)) "d_bankfull_file" (VStr ""))
    /\ A8 = default A7 "CREATE_CHANNEL_FILES" (VBool false) /\ A8 "CREATE_CHANNEL_FILES" = Some create
    /\ A9 = (if is_True create then defaults A8 of_create else A8)
    /\ B = defaults A9 factors.
Proof.
  unfold channels_missing. cbv zeta.
  match goal with |- context [getattr ?x "ATTENUATE"] => remember x as A3 eqn:E3 end.
  unfold getattr at 1. destruct (A3 "ATTENUATE") as [att|] eqn:Ha; [|discriminate]. cbn [rbind].
  match goal with |- context [getattr ?x "min_baseflow_flux"] => remember x as A5 eqn:E5 end.
  unfold getattr at 1. destruct (A5 "min_baseflow_flux") as [flux|] eqn:Hf; [|discriminate]. cbn [rbind].
  destruct (times flux mmph_to_mps) as [mps|] eqn:Hm; [|discriminate]. cbn [rbind].
  match goal with |- context [getattr ?x "CREATE_CHANNEL_FILES"] => remember x as A8 eqn:E8 end.
  unfold getattr at 1. destruct (A8 "CREATE_CHANNEL_FILES") as [create|] eqn:Hc; [|discriminate]. cbn [rbind].
  intro H. apply ok_inj in H. symmetry in H.
  eexists _, _, A3, _, A5, _, _, A8, _, att, flux, mps, create.
  split; [reflexivity|]. split; [reflexivity|]. split; [exact E3|]. split; [exact Ha|]. split; [reflexivity|].
  split; [exact E5|]. split; [exact Hf|]. split; [exact Hm|]. split; [reflexivity|]. split; [reflexivity|].
  split; [exact E8|]. split; [exact Hc|].
  split; [reflexivity|exact H].
Qed.

Lemma set3_some A (b : bool) x y z u v w m k : A m = Some k -> m <> x -> m <> y -> m <> z ->
  (if b then A else upd (upd (upd A x u) y v) z w) m = Some k.
Proof. intros H X Y Z. destruct b; [exact H|]. rewrite !upd_other by congruence. exact H. Qed.
Lemma set3_other A (b : bool) x y z u v w m : m <> x -> m <> y -> m <> z ->
  (if b then A else upd (upd (upd A x u) y v) z w) m = A m.
Proof. intros X Y Z. destruct b; [reflexivity|]. rewrite !upd_other by congruence. reflexivity. Qed.

(** from stage to stage for a name that the file does not give and that is none of these *)
Ltac out H := let E := fresh in intro E; apply H; rewrite E; cbn; tauto.

(** C122: every option that the file gives keeps its value, apart from the two flags for flood depths, the value
    and the file of the bankfull depth, and the two computed names; a name that the file does not give has the
    value of the table, and no other name appears. *)
Theorem C122_channels A B : channels_missing A = Ok B ->
  (forall n v, A n = Some v ->
     ~ In n ["SAVE_DF_GRIDS"; "SAVE_DF_PIXELS"; "min_baseflow_flux_mps"; "vol_GW"; "d_bankfull"; "d_bankfull_file"] ->
     B n = Some v)
  /\ (forall n v, In (n, v) always -> A n = None -> B n = Some v)
  /\ (forall n v, In (n, v) of_create -> A n = None ->
        B n = if match A "CREATE_CHANNEL_FILES" with Some c => is_True c | None => false end then Some v else None)
  /\ (A "n_days" = None ->
        B "n_days" = if match A "ATTENUATE" with Some c => is_True c | None => false end then Some (VInt 5) else None)
  /\ (forall n, A n = None -> ~ In n (map fst always ++ map fst of_create ++ others)%list -> B n = None).
Proof.
  intro H. apply stages in H
    as (A1&A2&A3&A4&A5&A6&A7&A8&A9&att&flux&mps&create&E1&E2&E3&Ha&E4&E5&Hf&Hm&E6&E7&E8&Hc&E9&->).
  assert (S1 : forall n v, A n = Some v -> A1 n = Some v) by (intros; rewrite E1; now apply default_some).
  assert (S2 : forall n v, A1 n = Some v -> n <> "SAVE_DF_GRIDS" -> n <> "SAVE_DF_PIXELS" -> A2 n = Some v).
  { intros n v H X Y. rewrite E2. destruct (String.eqb_spec n "FLOOD_OPTION") as [->|F].
    - unfold hasattr. rewrite H. exact H.
    - now apply set3_some. }
  assert (S3 : forall n v, A2 n = Some v -> A3 n = Some v) by (intros; rewrite E3; now apply default_some).
  assert (S4 : forall n v, A3 n = Some v -> A4 n = Some v).
  { intros n v H. rewrite E4. destruct (is_True att); [now apply default_some|exact H]. }
  assert (S5 : forall n v, A4 n = Some v -> A5 n = Some v) by (intros; rewrite E5; now apply default_some).
  assert (S6 : forall n, n <> "min_baseflow_flux_mps" -> n <> "vol_GW" -> A6 n = A5 n).
  { intros n X Y. rewrite E6. rewrite !upd_other by congruence. reflexivity. }
  assert (S7 : forall n v, A6 n = Some v -> n <> "d_bankfull" -> n <> "d_bankfull_file" -> A7 n = Some v).
  { intros n v H X Y. rewrite E7. destruct (String.eqb_spec n "d_bankfull_type") as [->|F].
    - unfold hasattr. rewrite H. exact H.
    - now apply set3_some. }
  assert (S8 : forall n v, A7 n = Some v -> A8 n = Some v) by (intros; rewrite E8; now apply default_some).
  assert (S9 : forall n v, A8 n = Some v -> A9 n = Some v).
  { intros n v H. rewrite E9. destruct (is_True create); [now apply defaults_some|exact H]. }
  assert (SB : forall n v, A9 n = Some v -> defaults A9 factors n = Some v) by (intros; now apply defaults_some).
  assert (N1 : forall n, n <> "CHECK_STABILITY" -> A1 n = A n) by (intros; rewrite E1; now apply default_other).
  assert (N2 : forall n, n <> "FLOOD_OPTION" -> n <> "SAVE_DF_GRIDS" -> n <> "SAVE_DF_PIXELS" -> A2 n = A1 n)
    by (intros; rewrite E2; now apply set3_other).
  assert (N3 : forall n, n <> "ATTENUATE" -> A3 n = A2 n) by (intros; rewrite E3; now apply default_other).
  assert (N4 : forall n, n <> "n_days" -> A4 n = A3 n).
  { intros. rewrite E4. destruct (is_True att); [now apply default_other|reflexivity]. }
  assert (N5 : forall n, n <> "min_baseflow_flux" -> A5 n = A4 n) by (intros; rewrite E5; now apply default_other).
  assert (N7 : forall n, n <> "d_bankfull_type" -> n <> "d_bankfull" -> n <> "d_bankfull_file" -> A7 n = A6 n)
    by (intros; rewrite E7; now apply set3_other).
  assert (N8 : forall n, n <> "CREATE_CHANNEL_FILES" -> A8 n = A7 n) by (intros; rewrite E8; now apply default_other).
  assert (N9 : forall n, ~ In n (map fst of_create) -> A9 n = A8 n).
  { intros. rewrite E9. destruct (is_True create); [now apply defaults_other|reflexivity]. }
  assert (NB : forall n, ~ In n (map fst factors) -> defaults A9 factors n = A9 n) by (intros; now apply defaults_other).
  assert (TA : is_True att = match A "ATTENUATE" with Some c => is_True c | None => false end).
  { assert (E : A2 "ATTENUATE" = A "ATTENUATE") by (rewrite N2, N1 by ne; reflexivity).
    rewrite E3, default_get, E in Ha. injection Ha as <-. destruct (A "ATTENUATE"); reflexivity. }
  assert (TC : is_True create = match A "CREATE_CHANNEL_FILES" with Some c => is_True c | None => false end).
  { assert (E : A7 "CREATE_CHANNEL_FILES" = A "CREATE_CHANNEL_FILES")
      by (rewrite N7, S6, N5, N4, N3, N2, N1 by ne; reflexivity).
    rewrite E8, default_get, E in Hc. injection Hc as <-. destruct (A "CREATE_CHANNEL_FILES"); reflexivity. }
  split; [|split; [|split; [|split]]].
  - intros n v H X. apply SB, S9, S8, S7; [| out X | out X]. rewrite S6; [| out X | out X].
    apply S5, S4, S3, S2; [| out X | out X]. apply S1, H.
  - intros n v I H. unfold always in I. cbn [In] in I.
    repeat (destruct I as [I|I]; [injection I as <- <-|]); [..|destruct I].
    + apply SB, S9, S8, S7; [|ne|ne]. rewrite S6 by ne. apply S5, S4, S3, S2; [|ne|ne].
      rewrite E1. now apply default_none.
    + apply SB, S9, S8, S7; [|ne|ne]. rewrite S6 by ne. apply S5, S4, S3. rewrite E2. unfold hasattr.
      rewrite N1, H by ne. rewrite !upd_other by ne. apply upd_same.
    + apply SB, S9, S8, S7; [|ne|ne]. rewrite S6 by ne. apply S5, S4. rewrite E3. apply default_none.
      rewrite N2, N1 by ne. exact H.
    + apply SB, S9, S8, S7; [|ne|ne]. rewrite S6 by ne. rewrite E5. apply default_none.
      rewrite N4, N3, N2, N1 by ne. exact H.
    + apply SB, S9, S8. rewrite E7. unfold hasattr. rewrite S6, N5, N4, N3, N2, N1, H by ne.
      rewrite !upd_other by ne. apply upd_same.
    + apply SB, S9. rewrite E8. apply default_none. rewrite N7, S6, N5, N4, N3, N2, N1 by ne. exact H.
    + apply (defaults_none factors); [nodup|cbn; tauto|].
      rewrite N9, N8, N7, S6, N5, N4, N3, N2, N1 by first [ne|cbn; intuition discriminate]. exact H.
    + apply (defaults_none factors); [nodup|cbn; tauto|].
      rewrite N9, N8, N7, S6, N5, N4, N3, N2, N1 by first [ne|cbn; intuition discriminate]. exact H.
    + apply (defaults_none factors); [nodup|cbn; tauto|].
      rewrite N9, N8, N7, S6, N5, N4, N3, N2, N1 by first [ne|cbn; intuition discriminate]. exact H.
    + apply (defaults_none factors); [nodup|cbn; tauto|].
      rewrite N9, N8, N7, S6, N5, N4, N3, N2, N1 by first [ne|cbn; intuition discriminate]. exact H.
    + apply (defaults_none factors); [nodup|cbn; tauto|].
      rewrite N9, N8, N7, S6, N5, N4, N3, N2, N1 by first [ne|cbn; intuition discriminate]. exact H.
    + apply (defaults_none factors); [nodup|cbn; tauto|].
      rewrite N9, N8, N7, S6, N5, N4, N3, N2, N1 by first [ne|cbn; intuition discriminate]. exact H.
    + apply (defaults_none factors); [nodup|cbn; tauto|].
      rewrite N9, N8, N7, S6, N5, N4, N3, N2, N1 by first [ne|cbn; intuition discriminate]. exact H.
    + apply (defaults_none factors); [nodup|cbn; tauto|].
      rewrite N9, N8, N7, S6, N5, N4, N3, N2, N1 by first [ne|cbn; intuition discriminate]. exact H.
  - intros n v I H. rewrite <- TC.
    assert (E : A8 n = None).
    { cbn [In of_create] in I. unfold of_create in I. cbn [In] in I.
      repeat (destruct I as [I|I]; [injection I as <- <-|]); [..|destruct I];
        rewrite N8, N7, S6, N5, N4, N3, N2, N1 by ne; exact H. }
    assert (F : ~ In n (map fst factors)).
    { unfold of_create in I. cbn [In] in I.
      repeat (destruct I as [I|I]; [injection I as <- <-; cbn; intuition discriminate|]). destruct I. }
    rewrite (NB n F). rewrite E9. destruct (is_True create); [|exact E].
    apply defaults_none; [nodup|exact I|exact E].
  - intro H. rewrite <- TA. rewrite NB, N9, N8, N7, S6, N5 by first [ne|cbn; intuition discriminate]. rewrite E4.
    assert (E : A3 "n_days" = None) by (rewrite N3, N2, N1 by ne; exact H).
    destruct (is_True att); [apply default_none, E|exact E].
  - intros n H X.
    rewrite NB, N9, N8, N7, S6, N5, N4, N3, N2, N1;
      [exact H|..];
      try (let E := fresh in intro E; apply X; rewrite E; cbn; tauto).
    + intro I. apply X. apply in_or_app. right. apply in_or_app. left. exact I.
    + intro I. apply X. apply in_or_app. left. cbn in I. cbn. tauto.
Qed.
Print Assumptions C122_channels.

(** C122: the method fails only where the smallest baseflow is a word, and then with TypeError; otherwise the
    smallest baseflow is taken from millimetres per hour to metres per second. *)
Theorem C122_baseflow A :
  match match A "min_baseflow_flux" with Some v => v | None => VFloat 0 end with
  | VStr _ => channels_missing A = Err TypeError
  | v => exists B q, channels_missing A = Ok B /\ B "min_baseflow_flux_mps" = Some (VFloat q)
         /\ (q * (3600 * 1000) == match v with VFloat x => x | VInt z => inject_Z z | VBool b => if b then 1 else 0
                                             | VStr _ => 0 end)%Q
         /\ B "vol_GW" = Some (VFloat 0)
  end.
Proof.
  assert (G : forall v, match A "min_baseflow_flux" with Some v => v | None => VFloat 0 end = v ->
     match times v mmph_to_mps with
     | Err e => channels_missing A = Err e
     | Ok mps => exists B, channels_missing A = Ok B /\ B "min_baseflow_flux_mps" = Some mps /\ B "vol_GW" = Some (VFloat 0)
     end).
  { intros v Hv. unfold channels_missing. cbv zeta.
    match goal with |- context [getattr ?x "ATTENUATE"] => remember x as A3 eqn:E3 end.
    assert (Ha : exists att, A3 "ATTENUATE" = Some att) by (rewrite E3, default_get; eexists; reflexivity).
    destruct Ha as [att Ha]. unfold getattr. rewrite Ha. cbn [rbind].
    match goal with |- context [default ?x "min_baseflow_flux" _] => remember x as A4 eqn:E4 end.
    assert (H4 : A4 "min_baseflow_flux" = A "min_baseflow_flux").
    { rewrite E4. assert (H3 : A3 "min_baseflow_flux" = A "min_baseflow_flux").
      { rewrite E3. rewrite default_other by ne. rewrite set3_other by ne. rewrite default_other by ne. reflexivity. }
      destruct (is_True att); [rewrite default_other by ne|]; exact H3. }
    remember (default A4 "min_baseflow_flux" (VFloat 0)) as A5 eqn:E5.
    assert (H5 : A5 "min_baseflow_flux" = Some v) by (rewrite E5, default_get, H4, Hv; reflexivity).
    rewrite H5. cbn [rbind]. destruct (times v mmph_to_mps) as [mps|e]; [|reflexivity]. cbn [rbind].
    remember (upd (upd A5 "min_baseflow_flux_mps" mps) "vol_GW" (VFloat 0)) as A6 eqn:E6.
    assert (H6 : A6 "min_baseflow_flux_mps" = Some mps) by (rewrite E6, upd_other by ne; apply upd_same).
    assert (H6' : A6 "vol_GW" = Some (VFloat 0)) by (rewrite E6; apply upd_same).
    match goal with |- context [default ?x "CREATE_CHANNEL_FILES" _] => remember x as A7 eqn:E7 end.
    assert (H7 : A7 "min_baseflow_flux_mps" = Some mps) by (rewrite E7; apply set3_some; [exact H6|ne|ne|ne]).
    assert (H7' : A7 "vol_GW" = Some (VFloat 0)) by (rewrite E7; apply set3_some; [exact H6'|ne|ne|ne]).
    rewrite default_get. cbn [rbind]. eexists. split; [reflexivity|].
    split.
    - apply defaults_some. match goal with |- context [is_True ?x] => destruct (is_True x) end;
        [apply defaults_some|]; apply default_some, H7.
    - apply defaults_some. match goal with |- context [is_True ?x] => destruct (is_True x) end;
        [apply defaults_some|]; apply default_some, H7'. }
  specialize (G _ eq_refl). destruct (match A "min_baseflow_flux" with Some v => v | None => VFloat 0 end) as [q|z|s|b].
  - destruct G as (B & HB & H1 & H2). exists B, (q * mmph_to_mps)%Q. repeat split; try assumption.
    unfold mmph_to_mps. field.
  - destruct G as (B & HB & H1 & H2). exists B, (inject_Z z * mmph_to_mps)%Q. repeat split; try assumption.
    unfold mmph_to_mps. field.
  - exact G.
  - destruct G as (B & HB & H1 & H2). exists B, ((if b then 1 else 0) * mmph_to_mps)%Q. repeat split; try assumption.
    unfold mmph_to_mps. destruct b; field.
Qed.
Print Assumptions C122_baseflow.

(** C122: the flood depths that a file asks for are kept exactly where the flood option is on; the bankfull depth
    that a file gives is kept exactly where the file gives its type. *)
Theorem C122_flood A B : channels_options A = Ok B ->
  (match A "FLOOD_OPTION" with Some f => truthy f = true | None => False end ->
     B "SAVE_DF_GRIDS" = A "SAVE_DF_GRIDS" /\ B "SAVE_DF_PIXELS" = A "SAVE_DF_PIXELS"
     /\ B "d_flood_gs_file" = A "d_flood_gs_file" /\ B "d_flood_ts_file" = A "d_flood_ts_file")
  /\ (~ match A "FLOOD_OPTION" with Some f => truthy f = true | None => False end ->
     B "SAVE_DF_GRIDS" = Some (VBool false) /\ B "SAVE_DF_PIXELS" = Some (VBool false)
     /\ B "d_flood_gs_file" = Some (VStr "") /\ B "d_flood_ts_file" = Some (VStr ""))
  /\ match A "d_bankfull_type" with
     | Some _ => B "d_bankfull" = A "d_bankfull" /\ B "d_bankfull_file" = A "d_bankfull_file"
     | None => B "d_bankfull" = Some (VFloat 10) /\ B "d_bankfull_file" = Some (VStr "")
     end.
Proof.
  unfold channels_options. destruct (channels_missing A) as [C|e] eqn:M; [|discriminate]. cbn [rbind].
  pose proof (C122_channels A C M) as (K & D & _ & _ & Z).
  assert (F : C "FLOOD_OPTION" = Some (match A "FLOOD_OPTION" with Some f => f | None => VBool false end)).
  { destruct (A "FLOOD_OPTION") as [f|] eqn:E; [apply K; [exact E|cbn; intuition discriminate]|].
    apply D; [cbn; tauto|exact E]. }
  unfold getattr. rewrite F. cbn [rbind]. intro H. apply ok_inj in H.
  assert (W : (forall n, In n ["SAVE_DF_GRIDS"; "SAVE_DF_PIXELS"] -> A "FLOOD_OPTION" <> None -> C n = A n)
     /\ match A "d_bankfull_type" with
     | Some _ => C "d_bankfull" = A "d_bankfull" /\ C "d_bankfull_file" = A "d_bankfull_file"
     | None => C "d_bankfull" = Some (VFloat 10) /\ C "d_bankfull_file" = Some (VStr "")
     end).
  { apply stages in M
      as (A1&A2&A3&A4&A5&A6&A7&A8&A9&att&flux&mps&create&E1&E2&E3&Ha&E4&E5&Hf&Hm&E6&E7&E8&Hc&E9&->).
    split.
    - intros n I N. assert (X : A1 "FLOOD_OPTION" = A "FLOOD_OPTION") by (rewrite E1; apply default_other; ne).
      assert (Y : A2 = A1).
      { rewrite E2. unfold hasattr. rewrite X. destruct (A "FLOOD_OPTION"); [reflexivity|contradiction]. }
      assert (P : forall m, ~ In m (map fst factors ++ map fst of_create ++ ["CREATE_CHANNEL_FILES"; "d_bankfull_type";
         "d_bankfull"; "d_bankfull_file"; "min_baseflow_flux_mps"; "vol_GW"; "min_baseflow_flux"; "n_days"; "ATTENUATE";
         "CHECK_STABILITY"])%list -> defaults A9 factors m = A m).
      { intros m V. rewrite defaults_other by (intro J; apply V; apply in_or_app; now left).
        transitivity (A8 m).
        { rewrite E9. destruct (is_True create); [|reflexivity]. apply defaults_other.
          intro J; apply V; apply in_or_app; right; apply in_or_app; now left. }
        rewrite E8, default_other by out V. rewrite E7, set3_other by out V.
        rewrite E6, !upd_other by (let E := fresh in intro E; apply V; rewrite <- E; cbn; tauto).
        rewrite E5, default_other by out V. transitivity (A3 m).
        { rewrite E4. destruct (is_True att); [apply default_other; out V|reflexivity]. }
        rewrite E3, default_other by out V. rewrite Y, E1, default_other by out V. reflexivity. }
      apply P. cbn [In] in I. destruct I as [<-|[<-|[]]]; cbn; intuition discriminate.
    - assert (T9 : forall n, ~ In n (map fst factors ++ map fst of_create ++ ["CREATE_CHANNEL_FILES"])%list ->
                   defaults A9 factors n = A7 n).
      { intros n X. rewrite defaults_other by (intro I; apply X; apply in_or_app; now left).
        rewrite E9. transitivity (A8 n).
        - destruct (is_True create); [|reflexivity]. apply defaults_other.
          intro I; apply X; apply in_or_app; right; apply in_or_app; now left.
        - rewrite E8. apply default_other. intros ->. apply X. cbn. tauto. }
      assert (T6 : forall n, In n ["d_bankfull_type"; "d_bankfull"; "d_bankfull_file"] -> A6 n = A n).
      { assert (T : forall n, ~ In n ["min_baseflow_flux_mps"; "vol_GW"; "min_baseflow_flux"; "n_days"; "ATTENUATE";
                                "FLOOD_OPTION"; "SAVE_DF_GRIDS"; "SAVE_DF_PIXELS"; "CHECK_STABILITY"] -> A6 n = A n).
        { intros n X. rewrite E6, !upd_other by (let E := fresh in intro E; apply X; rewrite <- E; cbn; tauto).
          rewrite E5, default_other by out X. transitivity (A3 n).
          - rewrite E4. destruct (is_True att); [apply default_other; out X|reflexivity].
          - rewrite E3, default_other by out X. rewrite E2, set3_other by out X.
            rewrite E1, default_other by out X. reflexivity. }
        intros n I. apply T. cbn [In] in I. destruct I as [<-|[<-|[<-|[]]]]; cbn; intuition discriminate. }
      rewrite !T9 by (cbn; intuition discriminate). rewrite E7. unfold hasattr. rewrite !T6 by (cbn; tauto).
      destruct (A "d_bankfull_type").
      + rewrite !T6 by (cbn; tauto). split; reflexivity.
      + split; [rewrite upd_other by ne|]; apply upd_same. }
  destruct W as [W1 W2].
  assert (G : forall n, n = "d_flood_gs_file" \/ n = "d_flood_ts_file" -> C n = A n).
  { intros n N. destruct (A n) as [v|] eqn:E.
    - apply K; [exact E|]. destruct N as [-> | ->]; cbn; intuition discriminate.
    - apply Z; [exact E|]. destruct N as [-> | ->]; cbn; intuition discriminate. }
  set (t := truthy match A "FLOOD_OPTION" with Some f => f | None => VBool false end) in *.
  split; [|split].
  - intro X. assert (T : t = true) by (unfold t; destruct (A "FLOOD_OPTION"); [exact X|destruct X]).
    rewrite T in H. subst B.
    assert (N : A "FLOOD_OPTION" <> None) by (intro E; rewrite E in X; exact X).
    rewrite (W1 "SAVE_DF_GRIDS"), (W1 "SAVE_DF_PIXELS") by (cbn; auto).
    rewrite (G "d_flood_gs_file"), (G "d_flood_ts_file") by auto. repeat split.
  - intro X. assert (T : t = false).
    { unfold t. destruct (A "FLOOD_OPTION") as [f|]; [destruct (truthy f); [exfalso; now apply X|reflexivity]|reflexivity]. }
    rewrite T in H. subst B. unfold upd. cbn. repeat split.
  - destruct t; subst B; [exact W2|].
    destruct (A "d_bankfull_type"); rewrite !upd_other by ne; exact W2.
Qed.
Print Assumptions C122_flood.

(** C122: the flags for flood depths that a file switches on are off where the file does not name the flood option,
    and the bankfull depth of a file without its type is replaced by ten metres. *)
Theorem C122_given_refuted :
  exists text A B, read_config_file (fun _ A => A) (fun _ => None) text = Ok A /\ channels_options A = Ok B
    /\ A "SAVE_DF_GRIDS" = Some (VBool true) /\ B "SAVE_DF_GRIDS" = Some (VBool false)
    /\ A "d_bankfull" = Some (VFloat 2) /\ B "d_bankfull" = Some (VFloat 10).
Proof.
  pose (text := "SAVE_DF_GRIDS | Yes | string | save depths
d_bankfull | 2 | float | bankfull depth
").
  destruct (read_config_file (fun _ A => A) (fun _ => None) text) as [A|] eqn:E; [|vm_compute in E; discriminate].
  assert (G : A "SAVE_DF_GRIDS" = Some (VBool true) /\ A "d_bankfull" = Some (VFloat 2)
     /\ A "FLOOD_OPTION" = None /\ A "d_bankfull_type" = None /\ A "min_baseflow_flux" = None).
  { assert (X : forall n, match read_config_file (fun _ A => A) (fun _ => None) text with Ok a => a n | Err _ => None end = A n)
      by (intro n; rewrite E; reflexivity).
    rewrite <- !X. vm_compute. repeat split. }
  destruct G as (G1 & G2 & G3 & G4 & G5).
  pose proof (C122_baseflow A) as M. rewrite G5 in M. destruct M as (C & _ & M & _ & _ & _).
  destruct (channels_options A) as [B|e] eqn:O.
  - exists text, A, B. pose proof (C122_flood A B O) as (_ & F & K). rewrite G3 in F. rewrite G4 in K.
    destruct (F (fun x => x)) as (F1 & _). destruct K as [K _]. repeat split; assumption.
  - exfalso. unfold channels_options in O. rewrite M in O. cbn [rbind] in O.
    pose proof (C122_channels A C M) as (_ & D & _).
    unfold getattr in O. rewrite (D "FLOOD_OPTION" (VBool false)) in O; [discriminate|cbn; tauto|exact G3].
Qed.
Print Assumptions C122_given_refuted.

Definition yes_or_no (o : option cval) : Prop := match o with None | Some (VBool _) => True | _ => False end.

(** C122: where the attenuation option is yes, no or not given, the step finds its drain time: of the days of the
    file, or of five days. *)
Theorem C122_attenuate A B : channels_missing A = Ok B -> yes_or_no (A "ATTENUATE") ->
  match A "n_days" with Some (VStr _) => False | _ => True end ->
  exists t, drain_time B = Ok t
    /\ (A "ATTENUATE" <> Some (VBool true) -> t = None)
    /\ (A "ATTENUATE" = Some (VBool true) -> A "n_days" = None -> exists q, t = Some (VFloat q) /\ q == 432000)
    /\ (forall n, A "ATTENUATE" = Some (VBool true) -> A "n_days" = Some (VFloat n) ->
          exists q, t = Some (VFloat q) /\ q == n * 86400).
Proof.
  intros M Y N. pose proof (C122_channels A B M) as (K & D & _ & H & _).
  assert (F : B "ATTENUATE" = Some (match A "ATTENUATE" with Some f => f | None => VBool false end)).
  { destruct (A "ATTENUATE") as [f|] eqn:E; [apply K; [exact E|cbn; intuition discriminate]|].
    apply D; [cbn; tauto|exact E]. }
  unfold drain_time, getattr. rewrite F. cbn [rbind].
  destruct (A "ATTENUATE") as [[q|z|s|[|]]|] eqn:E; try destruct Y; cbn [truthy].
  - assert (Q : exists v, B "n_days" = Some v /\ v = match A "n_days" with Some v => v | None => VInt 5 end).
    { destruct (A "n_days") as [v|] eqn:En.
      - exists v. split; [apply K; [exact En|cbn; intuition discriminate]|reflexivity].
      - exists (VInt 5). split; [apply H; reflexivity|reflexivity]. }
    destruct Q as (v & Hv & Ev). rewrite Hv. cbn [rbind].
    assert (S' : exists t, times v (3600 * 24) = Ok t).
    { rewrite Ev. destruct (A "n_days") as [[q|z|s|b]|]; try (eexists; reflexivity). destruct N. }
    destruct S' as [t Ht]. rewrite Ht. cbn [rbind]. exists (Some t). split; [reflexivity|]. split; [congruence|]. split.
    + intros _ En. rewrite En in Ev. rewrite Ev in Ht. cbn [times] in Ht. injection Ht as <-.
      eexists. split; [reflexivity|]. reflexivity.
    + intros n _ En. rewrite En in Ev. rewrite Ev in Ht. cbn [times] in Ht. injection Ht as <-.
      eexists. split; [reflexivity|]. ring.
  - exists None. split; [reflexivity|]. split; [reflexivity|]. split; intros; discriminate.
  - exists None. split; [reflexivity|]. split; [reflexivity|]. split; intros; discriminate.
Qed.
Print Assumptions C122_attenuate.

(** C122: any other word switches attenuation on, but the days are then not set and the first step fails. *)
Theorem C122_attenuate_refuted A B s : channels_missing A = Ok B -> A "ATTENUATE" = Some (VStr s) -> s <> "" ->
  A "n_days" = None -> drain_time B = Err AttributeError.
Proof.
  intros M E S' N. pose proof (C122_channels A B M) as (K & _ & _ & H & _).
  unfold drain_time, getattr. rewrite (K "ATTENUATE" (VStr s) E) by (cbn; intuition discriminate). cbn [rbind truthy].
  destruct (String.eqb_spec s "") as [->|_]; [congruence|]. cbn [negb].
  rewrite (H N), E. reflexivity.
Qed.
Print Assumptions C122_attenuate_refuted.

(** C122: where the option to make channel files is yes and the file gives the three names, three grids are made
    with the numbers of the file or of the table; where it is no or not given, none is made. *)
Theorem C122_create A B w n : channels_missing A = Ok B ->
  match A "CREATE_CHANNEL_FILES" with Some (VBool b) => b = false | None => True | _ => False end \/
  A "CREATE_CHANNEL_FILES" = Some (VBool true) /\ A "width_file" = Some w /\ A "manning_file" = Some n ->
  create_channel_files B =
  if match A "CREATE_CHANNEL_FILES" with Some (VBool b) => b | _ => false end then
    ([(w, [match A "max_river_width" with Some v => v | None => VFloat 140 end;
           match A "channel_width_power" with Some v => v | None => VFloat (1 # 2) end]);
      (n, [match A "min_manning_n" with Some v => v | None => VFloat (3 # 100) end;
           match A "max_manning_n" with Some v => v | None => VFloat (2 # 10) end])]
     ++ match B "d_bankfull_file" with
        | Some f => [(f, [match A "max_bankfull_depth" with Some v => v | None => VFloat 8 end;
                          match A "bankfull_depth_power" with Some v => v | None => VFloat (4 # 10) end])]
        | None => []
        end,
     match B "d_bankfull_file" with Some _ => None | None => Some AttributeError end)%list
  else ([], None).
Proof.
  intros M C. pose proof (C122_channels A B M) as (K & D & T & _ & _).
  assert (F : B "CREATE_CHANNEL_FILES" = Some (match A "CREATE_CHANNEL_FILES" with Some f => f | None => VBool false end)).
  { destruct (A "CREATE_CHANNEL_FILES") as [f|] eqn:E; [apply K; [exact E|cbn; intuition discriminate]|].
    apply D; [cbn; tauto|exact E]. }
  unfold create_channel_files. unfold getattr at 1. rewrite F.
  destruct C as [C|(C & Cw & Cn)].
  - destruct (A "CREATE_CHANNEL_FILES") as [[q|z|s|[|]]|]; try contradiction; try discriminate; reflexivity.
  - rewrite C in *. cbn [truthy negb is_True] in *.
    assert (V : forall x v, In (x, v) of_create -> B x = Some match A x with Some u => u | None => v end).
    { intros x v I. destruct (A x) as [u|] eqn:E.
      - apply K; [exact E|]. unfold of_create in I. cbn [In] in I.
        repeat (destruct I as [I|I]; [injection I as <- <-; cbn; intuition discriminate|]). destruct I.
      - apply T; assumption. }
    unfold getattr.
    rewrite (K "width_file" w Cw), (K "manning_file" n Cn) by (cbn; intuition discriminate).
    rewrite (V "max_river_width" (VFloat 140)), (V "channel_width_power" (VFloat (1 # 2))),
      (V "min_manning_n" (VFloat (3 # 100))), (V "max_manning_n" (VFloat (2 # 10))),
      (V "max_bankfull_depth" (VFloat 8)), (V "bankfull_depth_power" (VFloat (4 # 10))) by (cbn; tauto).
    cbn [rbind]. destruct (B "d_bankfull_file"); reflexivity.
Qed.
Print Assumptions C122_create.

(** C122: no name of a Manning file is ever set by the component: with the option on and a file that does not give
    one, the width grid is written and initialize fails. *)
Theorem C122_create_refuted A B w : channels_missing A = Ok B ->
  A "CREATE_CHANNEL_FILES" = Some (VBool true) -> A "width_file" = Some w -> A "manning_file" = None ->
  exists width, create_channel_files B = ([width], Some AttributeError) /\ fst width = w.
Proof.
  intros M C W N. pose proof (C122_channels A B M) as (K & D & T & _ & Z).
  rewrite C in T. cbn [is_True] in T.
  unfold create_channel_files, getattr.
  rewrite (K _ _ C) by (cbn; intuition discriminate). cbn [truthy negb].
  rewrite (K _ _ W) by (cbn; intuition discriminate). cbn [rbind].
  rewrite (Z _ N) by (cbn; intuition discriminate).
  assert (V : forall x v, In (x, v) of_create -> exists u, B x = Some u).
  { intros x v I. destruct (A x) as [u|] eqn:E; [|exists v; apply T; assumption].
    exists u. apply K; [exact E|]. unfold of_create in I. cbn [In] in I.
    repeat (destruct I as [I|I]; [injection I as <- <-; cbn; intuition discriminate|]). destruct I. }
  destruct (V "max_river_width" (VFloat 140)) as [u1 ->]; [cbn; tauto|].
  destruct (V "channel_width_power" (VFloat (1 # 2))) as [u2 ->]; [cbn; tauto|].
  cbn [rbind]. exists (w, [u1; u2]). split; reflexivity.
Qed.
Print Assumptions C122_create_refuted.

(** The options of the other components. *)
Definition met_table (year : Z) : list (string * cval) :=
  [("PRECIP_ONLY", VBool false); ("P_factor", VFloat 1); ("T_rain_snow_type", VStr "Scalar"); ("T_rain_snow", VFloat 1);
   ("SATTERLUND", VBool false); ("NGEN_CSV", VBool false); ("start_year", VInt year);
   ("SAVE_QSW_GRIDS", VBool false); ("SAVE_QSW_PIXELS", VBool false); ("SAVE_QLW_GRIDS", VBool false);
   ("SAVE_QLW_PIXELS", VBool false); ("SAVE_TSURF_GRIDS", VBool false); ("SAVE_TSURF_PIXELS", VBool false);
   ("SAVE_ALB_GRIDS", VBool false); ("SAVE_ALB_PIXELS", VBool false)].
Definition driver_table (home : string) : list (string * cval) :=
  [("COMPUTE_STAT_GRIDS", VBool false); ("CREATE_INDICATORS", VBool false); ("CREATE_MEDIA_FILES", VBool false);
   ("media_directory", VStr (home ++ "media/"))].
Definition snow_table : list (string * cval) := [("T0_cc", VFloat 0)].

(** what it means that the options of a table are filled in *)
Definition filled (table : list (string * cval)) (A B : attrs) : Prop :=
  (forall n v, A n = Some v -> B n = Some v)
  /\ (forall n v, In (n, v) table -> A n = None -> B n = Some v)
  /\ (forall n, A n = None -> ~ In n (map fst table) -> B n = None).

Lemma filled_defaults l t A : NoDup (map fst l) -> (forall x, In x t <-> In x l) -> filled t A (defaults A l).
Proof.
  intros N E. split; [|split].
  - intros n v H. now apply defaults_some.
  - intros n v I H. apply defaults_none; [exact N|now apply E|exact H].
  - intros n H X. rewrite defaults_other; [exact H|]. intro I. apply X.
    apply in_map_iff in I as (x & <- & I). apply in_map, E, I.
Qed.

(** C122: in the meteorology, driver and degree-day components every option that the file gives keeps its value,
    every option of the table that it does not give has the value of the table, and nothing else appears. *)
Theorem C122_components year home A :
  filled (met_table year) A (met_missing year A) /\ filled (driver_table home) A (driver_missing home A)
  /\ filled snow_table A (snow_missing A).
Proof.
  split; [|split].
  - apply filled_defaults; [nodup|]. intro x.
    split; intro I; unfold met_table in *; cbn [In] in I;
      repeat (destruct I as [I|I]; [rewrite <- I; repeat (first [left; reflexivity|right])|]); destruct I.
  - apply filled_defaults; [nodup|]. intro x. unfold driver_table. cbn [In]. tauto.
  - change (snow_missing A) with (defaults A [("T0_cc", VFloat 0)]).
    apply filled_defaults; [nodup|]. intro x. unfold snow_table. cbn [In]. tauto.
Qed.
Print Assumptions C122_components.

Definition is_ok {T : Type} (r : res T) : bool := match r with Ok _ => true | Err _ => false end.
Ltac fails E :=
  exfalso;
  match type of E with ?x = _ =>
    let H := fresh in assert (H : is_ok x = true) by (vm_compute; reflexivity); rewrite E in H; discriminate H end.

(** C122: initialized a second time with another file, a component keeps the options of the first file that the
    second does not give: the default is not used. *)
Theorem C122_again_refuted : exists first second A1 A2 A2',
  read_config_file (fun _ A => A) (fun _ => None) first = Ok A1
  /\ read_config_file (fun _ A => A) (fun _ => None) second = Ok A2
  /\ read_config_file (fun _ A => A) (met_missing 2020 A1) second = Ok A2'
  /\ met_missing 2020 A2 "P_factor" = Some (VFloat 1) /\ met_missing 2020 A2' "P_factor" = Some (VFloat 3).
Proof.
  pose (first := "P_factor | 3 | float | factor
").
  pose (second := "comp_status | Enabled | string | status
").
  destruct (read_config_file (fun _ A => A) (fun _ => None) first) as [A1|] eqn:E1; [|fails E1].
  destruct (read_config_file (fun _ A => A) (fun _ => None) second) as [A2|] eqn:E2; [|fails E2].
  assert (R : forall X, is_ok (read_config_file (fun _ A => A) X second) = true) by (intro X; vm_compute; reflexivity).
  destruct (read_config_file (fun _ A => A) (met_missing 2020 A1) second) as [A2'|] eqn:E3;
    [|specialize (R (met_missing 2020 A1)); rewrite E3 in R; discriminate R].
  exists first, second, A1, A2, A2'. do 3 (split; [assumption || reflexivity|]).
  assert (P1 : A1 "P_factor" = Some (VFloat 3)).
  { transitivity (match read_config_file (fun _ A => A) (fun _ => None) first with Ok a => a "P_factor" | Err _ => None end);
      [rewrite E1; reflexivity|vm_compute; reflexivity]. }
  assert (P2 : A2 "P_factor" = None).
  { transitivity (match read_config_file (fun _ A => A) (fun _ => None) second with Ok a => a "P_factor" | Err _ => None end);
      [rewrite E2; reflexivity|vm_compute; reflexivity]. }
  assert (P3 : A2' "P_factor" = met_missing 2020 A1 "P_factor").
  { transitivity (match read_config_file (fun _ A => A) (met_missing 2020 A1) second with
                  | Ok a => a "P_factor" | Err _ => None end);
      [rewrite E3; reflexivity|]. generalize (met_missing 2020 A1). intro X. vm_compute. reflexivity. }
  pose proof (C122_components 2020 "" A1) as ((K1 & _) & _).
  pose proof (C122_components 2020 "" A2) as ((_ & D & _) & _).
  pose proof (C122_components 2020 "" A2') as ((K2 & _) & _).
  split; [apply D; [cbn; tauto|exact P2]|]. apply K2. rewrite P3. apply K1, P1.
Qed.
Print Assumptions C122_again_refuted.

(** A file with some options: the flood option and depths, attenuation, channel files and a baseflow of 36 mm/h. *)
Example C122_case : exists A B,
  read_config_file (fun _ A => A) (fun _ => None) "FLOOD_OPTION | Yes | string | floods
SAVE_DF_GRIDS | Yes | string | save depths
ATTENUATE | Yes | string | attenuate
CREATE_CHANNEL_FILES | Yes | string | make grids
width_file | w.rtg | string | width
manning_file | n.rtg | string | manning
min_baseflow_flux | 36 | float | mm/h
" = Ok A /\ channels_options A = Ok B
  /\ map B ["SAVE_DF_GRIDS"; "n_days"; "max_river_width"; "slope_factor"; "d_bankfull"] =
     [Some (VBool true); Some (VInt 5); Some (VFloat 140); Some (VFloat 1); Some (VFloat 10)]
  /\ (match B "min_baseflow_flux_mps" with Some (VFloat q) => q | _ => 0 end == 1 # 100000)%Q
  /\ drain_time B = Ok (Some (VFloat 432000))
  /\ length (fst (create_channel_files B)) = 3%nat /\ snd (create_channel_files B) = None
  /\ B "min_manning_n" = Some (VFloat (3 # 100)) /\ B "nothing" = None.
Proof.
  match goal with |- exists A B, ?x = Ok A /\ _ => destruct x as [A|] eqn:E1; [|fails E1];
    assert (X : forall T (f : attrs -> T) d, match x with Ok a => f a | Err _ => d end = f A)
      by (intros; rewrite E1; reflexivity) end.
  exists A.
  destruct (channels_options A) as [B|] eqn:E2.
  2:{ exfalso. assert (H : is_ok (channels_options A) = true)
        by (rewrite <- (X _ (fun a => is_ok (channels_options a)) false); vm_compute; reflexivity).
      rewrite E2 in H. discriminate. }
  assert (Y : forall T (f : attrs -> T) d,
    match channels_options A with Ok b => f b | Err _ => d end = f B) by (intros; rewrite E2; reflexivity).
  exists B. split; [reflexivity|]. split; [reflexivity|].
  assert (W : forall T (f : attrs -> T) d r,
     f B = r <-> match channels_options A with Ok b => f b | Err _ => d end = r) by (intros; rewrite Y; tauto).
  split; [apply (W _ (fun b => map b _) []); rewrite <- (X _ (fun a => match channels_options a with Ok b => map b _ | Err _ => [] end) []); vm_compute; reflexivity|].
  split.
  { rewrite <- (Y _ (fun b => match b "min_baseflow_flux_mps" with Some (VFloat q) => q | _ => 0%Q end) 0%Q).
    rewrite <- (X _ (fun a => match channels_options a with
       Ok b => match b "min_baseflow_flux_mps" with Some (VFloat q) => q | _ => 0%Q end | Err _ => 0%Q end) 0%Q).
    vm_compute. reflexivity. }
  split.
  { rewrite <- (Y _ drain_time (Err KeyError)).
    rewrite <- (X _ (fun a => match channels_options a with Ok b => drain_time b | Err _ => Err KeyError end) (Err KeyError)).
    vm_compute. reflexivity. }
  rewrite <- (Y _ create_channel_files ([], Some KeyError)).
  rewrite <- (X _ (fun a => match channels_options a with Ok b => create_channel_files b | Err _ => ([], Some KeyError) end)
                ([], Some KeyError)).
  split; [vm_compute; reflexivity|]. split; [vm_compute; reflexivity|].
  split.
  - rewrite <- (Y _ (fun b => b "min_manning_n") None).
    rewrite <- (X _ (fun a => match channels_options a with Ok b => b "min_manning_n" | Err _ => None end) None).
    vm_compute. reflexivity.
  - rewrite <- (Y _ (fun b => b "nothing") None).
    rewrite <- (X _ (fun a => match channels_options a with Ok b => b "nothing" | Err _ => None end) None).
    vm_compute. reflexivity.
Qed.
