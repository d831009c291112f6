(** C103: calls pass the arguments that functions take. *)

From Coq Require Import String List Bool Arith NArith Lia.
From Verif Require Import Time_Model Calls_Model.
Import ListNotations.
Local Open Scope string_scope.

(** ** Specification *)

(** a call with [n] positional and the keyword arguments [ks] suits a function whose last [d] parameters
    have defaults *)
Definition suits (params : list string) (d n : nat) (ks : list string) : Prop :=
  n <= List.length params /\
  (forall k, In k ks -> exists i, n <= i /\ nth_error params i = Some k) /\
  (forall i p, nth_error params i = Some p -> i < n \/ In p ks \/ List.length params <= i + d).

(** the calls that do not suit their functions: file and line *)
Definition wrong : list (string * N) :=
  (map (pair "components/erode_d8_local.py")
     [5423; 5443; 5450; 5466; 5473; 5480; 5487; 5494; 5501; 5508; 5515; 5522; 5529; 5536]%N ++
   [("components/evap_read_file.py", 257%N); ("components/ice_base.py", 573%N); ("utils/BMI_base.py", 897%N);
    ("utils/parameterize.py", 45%N); ("utils/parameterize.py", 59%N); ("utils/parameterize.py", 72%N);
    ("utils/parameterize.py", 84%N); ("utils/pedotransfer.py", 53%N); ("utils/pedotransfer.py", 82%N);
    ("utils/visualize.py", 1710%N)])%list.

(** ** Binding *)

Lemma member_iff s l : member s l = true <-> In s l.
Proof.
  unfold member. rewrite existsb_exists. split; [intros (x & Hx & E); apply String.eqb_eq in E; now subst|].
  intros H. exists s. split; [exact H|apply String.eqb_refl].
Qed.
Lemma value_none {V} k (l : list (string * V)) : value k l = None <-> ~ In k (map fst l).
Proof.
  induction l as [|[a v] r IH]; cbn [value map fst In]; [tauto|].
  destruct (String.eqb_spec a k) as [->|]; [split; [discriminate|tauto]|]. rewrite IH. tauto.
Qed.
Lemma value_app {V} k (l m : list (string * V)) : value k (l ++ m) = match value k l with Some v => Some v | None => value k m end.
Proof. induction l as [|[a v] r IH]; cbn [value app]; [reflexivity|]. now destruct (String.eqb a k). Qed.
Lemma value_combine {V} (ps : list string) : NoDup ps -> forall (vs : list V) i p, nth_error ps i = Some p ->
  value p (combine ps vs) = nth_error vs i.
Proof.
  induction 1 as [|q ps Hq _ IH]; intros vs i p H; [now destruct i|].
  destruct vs as [|v vs]; [cbn; now destruct i|]. cbn [combine value]. destruct i as [|i]; cbn [nth_error] in *.
  - injection H as ->. now rewrite String.eqb_refl.
  - destruct (String.eqb_spec q p) as [->|]; [|now apply IH]. apply nth_error_In in H. contradiction.
Qed.

Lemma bind_pos_ok {V} (args : list V) : forall ps, List.length args <= List.length ps ->
  bind_pos ps args = Ok (combine ps args, skipn (List.length args) ps).
Proof.
  induction args as [|a r IH]; intros [|p ps] H; cbn [bind_pos combine length skipn] in *; try reflexivity; [lia|].
  now rewrite IH by lia.
Qed.
Lemma bind_pos_err {V} (args : list V) : forall ps, List.length ps < List.length args -> bind_pos ps args = Err TypeError.
Proof.
  induction args as [|a r IH]; intros [|p ps] H; cbn [bind_pos length] in *; try lia; [reflexivity|].
  now rewrite IH by lia.
Qed.
Definition given {V} (kws ds : list (string * V)) (p : string) : option V :=
  match value p kws with Some v => Some v | None => value p ds end.
Lemma fill_spec {V} (kws ds : list (string * V)) rest :
  match fill rest kws ds with
  | Ok e => map fst e = rest /\ (forall p, In p rest -> given kws ds p <> None /\ value p e = given kws ds p)
  | Err x => x = TypeError /\ exists p, In p rest /\ given kws ds p = None
  end.
Proof.
  induction rest as [|q r IH]; cbn [fill]; [split; [reflexivity|intros p []]|].
  change (match value q kws with Some v => Some v | None => value q ds end) with (given kws ds q).
  destruct (given kws ds q) as [v|] eqn:G; [|split; [reflexivity|exists q; split; [now left|exact G]]].
  destruct (fill r kws ds) as [e|x]; cbn [rbind].
  - destruct IH as [M IH]. split; [cbn; now rewrite M|]. intros p [->|Hp].
    + rewrite G. split; [discriminate|]. cbn [value]. now rewrite String.eqb_refl.
    + destruct (IH p Hp) as [A B]. split; [exact A|]. cbn [value]. destruct (String.eqb_spec q p) as [->|]; [now rewrite G|exact B].
  - destruct IH as [-> (p & Hp & E)]. split; [reflexivity|]. exists p. split; [now right|exact E].
Qed.

Lemma nth_skipn {A} (l : list A) : forall n i, nth_error (skipn n l) i = nth_error l (n + i).
Proof. induction l as [|x l IH]; intros [|n] i; cbn; [now destruct i|now destruct i|reflexivity|apply IH]. Qed.
Lemma in_skipn {A} (l : list A) n x : In x (skipn n l) <-> exists i, n <= i /\ nth_error l i = Some x.
Proof.
  split.
  - intros H. apply In_nth_error in H. destruct H as [i H]. rewrite nth_skipn in H. exists (n + i). split; [lia|exact H].
  - intros (i & Hi & H). apply nth_error_In with (n := i - n). rewrite nth_skipn. now replace (n + (i - n)) with i by lia.
Qed.
Lemma fst_combine {A B} (l : list A) : forall m : list B, List.length l <= List.length m -> map fst (combine l m) = l.
Proof. induction l as [|x l IH]; intros [|y m] H; cbn in *; try reflexivity; [lia|]. now rewrite IH by lia. Qed.
Lemma fst_combine_firstn {A B} (l : list A) : forall m : list B, map fst (combine l m) = firstn (List.length m) l.
Proof. induction l as [|x l IH]; intros [|y m]; cbn; try reflexivity. now rewrite IH. Qed.
Lemma nodup_skipn {A} (l : list A) n : NoDup l -> NoDup (skipn n l).
Proof. revert n. induction l as [|x l IH]; intros [|n] H; cbn; auto. inversion H; auto. Qed.
Lemma nodup_at {A} (l : list A) i j x : NoDup l -> nth_error l i = Some x -> nth_error l j = Some x -> i = j.
Proof.
  intros N H K. apply (NoDup_nth_error l); [exact N|apply nth_error_Some; congruence|congruence].
Qed.

(** [C103_bind] A call succeeds if and only if it suits the function, and is a TypeError otherwise. *)
Theorem C103_bind : forall V (params : list string) (defaults args : list V) (kws : list (string * V)),
  NoDup params -> List.length defaults <= List.length params ->
  (suits params (List.length defaults) (List.length args) (map fst kws) -> exists env, bind params defaults args kws = Ok env) /\
  (~ suits params (List.length defaults) (List.length args) (map fst kws) -> bind params defaults args kws = Err TypeError).
Proof.
  intros V ps ds args kws N D. unfold bind.
  destruct (le_lt_dec (List.length args) (List.length ps)) as [L|L].
  2:{ rewrite bind_pos_err by exact L. split; [intros [A _]; lia|reflexivity]. }
  rewrite bind_pos_ok by exact L. cbn [rbind].
  set (dd := combine (skipn (List.length ps - List.length ds) ps) ds).
  assert (HD : forall p, In p (map fst dd) <-> exists i, List.length ps - List.length ds <= i /\ nth_error ps i = Some p).
  { intros p. unfold dd. rewrite fst_combine by (rewrite skipn_length; lia). apply in_skipn. }
  pose proof (fill_spec kws dd (skipn (List.length args) ps)) as F.
  destruct (forallb _ kws) eqn:K.
  - destruct (fill _ kws dd) as [e|x]; cbn [rbind].
    + split; [intros _; eauto|]. intros B. exfalso. apply B. split; [exact L|]. destruct F as [_ F]. split.
      * intros k Hk. apply in_map_iff in Hk. destruct Hk as (kv & <- & Hk).
        rewrite forallb_forall in K. specialize (K kv Hk). apply member_iff in K. now apply in_skipn.
      * intros i p Hp. destruct (le_lt_dec (List.length args) i) as [Hi|Hi]; [right|now left].
        destruct (F p) as [A _]; [apply in_skipn; eauto|]. unfold given in A.
        destruct (value p kws) eqn:E.
        -- left. destruct (in_dec string_dec p (map fst kws)) as [Y|Y]; [exact Y|]. apply value_none in Y. congruence.
        -- right. destruct (in_dec string_dec p (map fst dd)) as [Y|Y]; [|apply value_none in Y; contradiction].
           apply HD in Y. destruct Y as (j & Hj & Ej). rewrite (nodup_at ps i j p N Hp Ej). lia.
    + destruct F as [-> (p & Hp & G)]. split; [|reflexivity]. intros (_ & _ & B). exfalso.
      apply in_skipn in Hp. destruct Hp as (i & Hi & Ei). unfold given in G. destruct (value p kws) eqn:E; [discriminate|].
      apply value_none in E. apply value_none in G. destruct (B i p Ei) as [Hl|[Hk|Hd]]; [lia|contradiction|].
      apply G, HD. exists i. split; [lia|exact Ei].
  - split; [|reflexivity]. intros (_ & B & _). exfalso.
    assert (T : forallb (fun k => member (fst k) (skipn (List.length args) ps)) kws = true); [|congruence].
    apply forallb_forall. intros kv Hk. apply member_iff, in_skipn, B. now apply in_map.
Qed.
Print Assumptions C103_bind.

(** [C103_values] Each parameter then gets its positional argument, else its keyword argument, else its
    default. *)
Theorem C103_values : forall V (params : list string) (defaults args : list V) (kws : list (string * V)) env,
  NoDup params -> List.length defaults <= List.length params -> bind params defaults args kws = Ok env ->
  map fst env = params /\
  forall i p, nth_error params i = Some p ->
    value p env = match nth_error args i with
                  | Some v => Some v
                  | None => match value p kws with
                            | Some v => Some v
                            | None => nth_error defaults (i - (List.length params - List.length defaults))
                            end
                  end.
Proof.
  intros V ps ds args kws env N D H. unfold bind in H.
  destruct (le_lt_dec (List.length args) (List.length ps)) as [L|L]; [|rewrite bind_pos_err in H by exact L; discriminate].
  rewrite bind_pos_ok in H by exact L. cbn [rbind] in H.
  set (dd := combine (skipn (List.length ps - List.length ds) ps) ds) in *.
  pose proof (fill_spec kws dd (skipn (List.length args) ps)) as F.
  destruct (forallb _ kws); [|discriminate]. destruct (fill _ kws dd) as [e|x]; [|discriminate]. cbn [rbind] in H.
  injection H as <-. destruct F as [M F]. split.
  { rewrite map_app, fst_combine_firstn, M. apply firstn_skipn. }
  intros i p Hp. rewrite value_app, (value_combine ps N args i p Hp).
  destruct (nth_error args i) as [v|] eqn:E; [reflexivity|]. apply nth_error_None in E.
  destruct (F p) as [G ->]; [apply in_skipn; eauto|]. unfold given in *. destruct (value p kws); [reflexivity|].
  destruct (le_lt_dec (List.length ps - List.length ds) i) as [Hi|Hi].
  - unfold dd. apply value_combine; [now apply nodup_skipn|].
    rewrite nth_skipn. now replace (List.length ps - List.length ds + (i - (List.length ps - List.length ds))) with i by lia.
  - exfalso. apply G. apply value_none. unfold dd. rewrite fst_combine by (rewrite skipn_length; lia).
    intros Y. apply in_skipn in Y. destruct Y as (j & Hj & Ej). rewrite (nodup_at ps i j p N Hp Ej) in Hi. lia.
Qed.
Print Assumptions C103_values.

(** ** The calls of the project *)

Fixpoint distinct (l : list string) : bool := match l with [] => true | x :: r => negb (member x r) && distinct r end.
Lemma distinct_iff l : distinct l = true -> NoDup l.
Proof.
  induction l as [|x l IH]; cbn [distinct]; intros H; constructor; apply andb_true_iff in H; destruct H as [A B].
  - apply negb_true_iff in A. intros Y. apply member_iff in Y. congruence.
  - now apply IH.
Qed.
Definition suitsb (ps : list string) (d n : nat) (ks : list string) : bool :=
  (n <=? List.length ps)%nat && forallb (fun k => member k (skipn n ps)) ks &&
  forallb (fun p => member p ks) (firstn (List.length ps - d - n) (skipn n ps)).
Lemma nth_firstn {A} (l : list A) : forall n i, i < n -> nth_error (firstn n l) i = nth_error l i.
Proof. induction l as [|x l IH]; intros [|n] [|i] H; cbn; try reflexivity; try lia. apply IH. lia. Qed.
Lemma suitsb_iff ps d n ks : suitsb ps d n ks = true <-> suits ps d n ks.
Proof.
  unfold suitsb, suits. rewrite !andb_true_iff, Nat.leb_le, !forallb_forall. split.
  - intros [[A B] C]. split; [exact A|]. split.
    + intros k Hk. apply in_skipn, member_iff, B, Hk.
    + intros i p Hp. destruct (le_lt_dec n i); [right|now left]. destruct (le_lt_dec (List.length ps) (i + d)); [now right|left].
      apply member_iff, C. apply nth_error_In with (n := i - n). rewrite nth_firstn by lia. rewrite nth_skipn.
      now replace (n + (i - n)) with i by lia.
  - intros (A & B & C). split; [split; [exact A|]|].
    + intros k Hk. apply member_iff, in_skipn, B, Hk.
    + intros p Hp. apply member_iff. apply In_nth_error in Hp. destruct Hp as [i Hp].
      assert (Hi : i < List.length ps - d - n).
      { assert (K : i < List.length (firstn (List.length ps - d - n) (skipn n ps))) by (apply nth_error_Some; congruence).
        rewrite firstn_length in K. lia. }
      rewrite nth_firstn, nth_skipn in Hp by exact Hi. destruct (C _ _ Hp) as [Y|[Y|Y]]; [lia|exact Y|lia].
Qed.
Definition is_wrong (s : site) : bool := existsb (fun w => String.eqb (fst w) (file s) && N.eqb (snd w) (line s)) wrong.
Lemma is_wrong_iff s : is_wrong s = true <-> In (file s, line s) wrong.
Proof.
  unfold is_wrong. rewrite existsb_exists. split.
  - intros ([a b] & Hw & E). cbn [fst snd] in E. apply andb_true_iff in E. destruct E as [E1 E2].
    apply String.eqb_eq in E1. apply N.eqb_eq in E2. now subst.
  - intros H. eexists. split; [exact H|]. cbn [fst snd]. now rewrite String.eqb_refl, N.eqb_refl.
Qed.
Definition checked (f : func) : bool :=
  distinct (params f) && (ndefaults f <=? List.length (params f))%nat &&
  forallb (fun s => Bool.eqb (suitsb (params f) (ndefaults f) (npos s) (keywords s)) (negb (is_wrong s))) (calls f).
Lemma all_checked : forallb checked all_calls = true.
Proof. vm_compute. reflexivity. Qed.

Lemma call_in l : forallb checked l = true ->
  forall f s, In f l -> In s (calls f) ->
  NoDup (params f) /\ ndefaults f <= List.length (params f) /\
  (suits (params f) (ndefaults f) (npos s) (keywords s) <-> ~ In (file s, line s) wrong).
Proof.
  intros C f s Hf Hs. rewrite forallb_forall in C. specialize (C f Hf). unfold checked in C.
  apply andb_true_iff in C. destruct C as [C C3]. apply andb_true_iff in C. destruct C as [C1 C2].
  rewrite forallb_forall in C3. specialize (C3 s Hs). apply Bool.eqb_prop in C3.
  split; [now apply distinct_iff|]. split; [now apply Nat.leb_le|].
  rewrite <- suitsb_iff, C3, negb_true_iff, <- is_wrong_iff. now rewrite Bool.not_true_iff_false.
Qed.

(** [C103_calls] Every call of one of the project's functions, but for 24, binds its arguments whatever their
    values are; these 24 raise a TypeError whenever they are reached. *)
Theorem C103_calls : forall f s, In f all_calls -> In s (calls f) ->
  forall V (defaults args : list V) (kws : list (string * V)),
  List.length defaults = ndefaults f -> List.length args = npos s -> map fst kws = keywords s ->
  (~ In (file s, line s) wrong -> exists env, bind (params f) defaults args kws = Ok env) /\
  (In (file s, line s) wrong -> bind (params f) defaults args kws = Err TypeError).
Proof.
  intros f s Hf Hs V ds args kws Hd Ha Hk. destruct (call_in _ all_checked f s Hf Hs) as (N & D & E).
  rewrite <- Hd in D, E. rewrite <- Ha, <- Hk in E. destruct (C103_bind V (params f) ds args kws N D) as [A B].
  split; [intros W; apply A, E, W|intros W; apply B; intros Y; now apply (proj1 E Y)].
Qed.
Print Assumptions C103_calls.

(** the initialize methods of the classes that inherit run_model *)
Definition initializers : list string :=
  ["BMI_base.BMI_component.initialize"; "HIS_base.HIS_component.initialize"; "channels_base.channels_component.initialize";
   "d8_base.d8_component.initialize"; "diversions_base.diversions_component.initialize"; "erode_base.erosion_component.initialize";
   "evap_base.evap_component.initialize"; "glacier_base.glacier_component.initialize"; "ice_base.ice_component.initialize";
   "infil_base.infil_component.initialize"; "met_base.met_component.initialize"; "multi_bmi.multi_bmi.initialize";
   "satzone_base.satzone_component.initialize"; "smooth_DEM.DEM_smoother.initialize"; "snow_base.snow_component.initialize";
   "soil_base.soil_base.initialize"; "topoflow_driver.topoflow_driver.initialize"].
Definition called_at (path : string) (n : N) (f : func) : bool := existsb (fun s => String.eqb (file s) path && N.eqb (line s) n) (calls f).
Definition refuses (path : string) (n : N) (kw : string) (name : string) (f : func) : bool :=
  String.eqb (callee f) name && called_at path n f && negb (member kw (params f)).
Lemma refuses_in l path n kw name : existsb (refuses path n kw name) l = true ->
  exists f, In f l /\ callee f = name /\ (exists s, In s (calls f) /\ file s = path /\ line s = n) /\ ~ In kw (params f).
Proof.
  intros H. apply existsb_exists in H. destruct H as (f & Hf & E). exists f. split; [exact Hf|].
  unfold refuses in E. apply andb_true_iff in E. destruct E as [E E3]. apply andb_true_iff in E. destruct E as [E1 E2].
  split; [now apply String.eqb_eq|]. split.
  - apply existsb_exists in E2. destruct E2 as (s & Hs & E). apply andb_true_iff in E. destruct E as [A B].
    exists s. split; [exact Hs|]. split; [now apply String.eqb_eq|now apply N.eqb_eq].
  - apply negb_true_iff in E3. intros Y. apply member_iff in Y. congruence.
Qed.
Lemma unknown_keyword {V} ps (ds args : list V) kws k : ~ In k ps -> In k (map fst kws) -> bind ps ds args kws = Err TypeError.
Proof.
  intros Hn Hk. unfold bind. destruct (le_lt_dec (List.length args) (List.length ps)) as [L|L]; [|now rewrite bind_pos_err by exact L].
  rewrite bind_pos_ok by exact L. cbn [rbind]. destruct (forallb _ kws) eqn:E; [|reflexivity]. exfalso.
  rewrite forallb_forall in E. apply in_map_iff in Hk. destruct Hk as (kv & <- & Hk). specialize (E kv Hk).
  apply member_iff in E. apply in_skipn in E. destruct E as (i & _ & E). apply nth_error_In in E. contradiction.
Qed.

(** [C103_run_model_refuted] "A component can be run with its run_model method": the initialize method it calls
    refuses the keyword cfg_prefix, for each of the 17, whatever the prefix and the defaults. *)
Theorem C103_run_model_refuted : forall name, In name initializers ->
  exists f, In f all_calls /\ callee f = name /\ (exists s, In s (calls f) /\ file s = "utils/BMI_base.py" /\ line s = 897%N) /\
  forall V (defaults : list V) cfg_prefix mode, bind (params f) defaults [] [("cfg_prefix", cfg_prefix); ("mode", mode)] = Err TypeError.
Proof.
  assert (C : forallb (fun name => existsb (refuses "utils/BMI_base.py" 897 "cfg_prefix" name) all_calls) initializers = true)
    by (vm_compute; reflexivity).
  revert C. generalize all_calls. intros l C name Hn. rewrite forallb_forall in C. specialize (C name Hn).
  apply refuses_in in C. destruct C as (f & Hf & E & Hs & Hk). exists f. split; [exact Hf|]. split; [exact E|]. split; [exact Hs|].
  intros. apply (unknown_keyword _ _ _ _ "cfg_prefix" Hk). now left.
Qed.
Print Assumptions C103_run_model_refuted.

(** [C103_read_file_refuted] "Evaporation rates can be read from a file": the call that reads the next values
    names its factor as the reading function does not. *)
Theorem C103_read_file_refuted : exists f, In f all_calls /\ callee f = "model_input.read_next" /\
  (exists s, In s (calls f) /\ file s = "components/evap_read_file.py" /\ line s = 257%N) /\
  forall V (defaults : list V) unit type rti factor, bind (params f) defaults [unit; type; rti] [("factor", factor)] = Err TypeError.
Proof.
  assert (C : existsb (refuses "components/evap_read_file.py" 257 "factor" "model_input.read_next") all_calls = true) by (vm_compute; reflexivity).
  revert C. generalize all_calls. intros l C. apply refuses_in in C. destruct C as (f & Hf & E & Hs & Hk).
  exists f. split; [exact Hf|]. split; [exact E|]. split; [exact Hs|].
  intros. apply (unknown_keyword _ _ _ _ "factor" Hk). now left.
Qed.
Print Assumptions C103_read_file_refuted.

Example C103_case :
  bind ["file_unit"; "var_type"; "rti"; "dtype"; "units_factor"; "NGEN_CSV"] [4; 5; 6] [1; 2; 3] [("units_factor", 50)]
    = Ok [("file_unit", 1); ("var_type", 2); ("rti", 3); ("dtype", 4); ("units_factor", 50); ("NGEN_CSV", 6)] /\
  bind ["a"; "b"] [2] [7] [("a", 8)] = Err TypeError /\ bind ["a"; "b"] [2] [] [("b", 8)] = Err TypeError /\
  bind ["a"; "b"] [2] [1; 2; 3] [] = Err TypeError /\
  List.length wrong = 24 /\ (3000 <? fold_right Nat.add 0 (map (fun f => List.length (calls f)) all_calls))%nat = true.
Proof. repeat (split; [vm_compute; reflexivity|]). vm_compute. reflexivity. Qed.
