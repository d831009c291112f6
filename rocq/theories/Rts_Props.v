(** C41: RTS grid-stack files return what was written; C44 for grids. *)

From Coq Require Import String Ascii List ZArith NArith QArith Bool Lia.
From Verif Require Import Time_Model Time_Proofs Io_Model Io_Spec Io_Proofs Io_Props
  Rti_Model Rti_Spec Rti_Proofs Rti_Props Rts_Model Rts_Spec Rts_Proofs.
Import ListNotations.

(** ** Names *)

Lemma app_len_inj a b c d : (a ++ b = c ++ d)%string -> String.length a = String.length c -> a = c /\ b = d.
Proof.
  revert c. induction a as [|x a IH]; intros [|y c] E L; cbn in *; try discriminate; [auto|].
  injection E as -> E. injection L as L. destruct (IH c E L) as [-> ->]. auto.
Qed.
Lemma not_header stem ext p : free_of "." ext -> ext <> "rti"%string ->
  (p ++ ".rti" <> stem ++ "." ++ ext)%string.
Proof.
  intros H N E. apply free_nosep in H.
  assert (R1 : rfind "." (p ++ ".rti") = Some (String.length p)) by (apply (rfind_app "." p "rti"); reflexivity).
  assert (R2 : rfind "." (stem ++ "." ++ ext) = Some (String.length stem)) by (apply (rfind_app "." stem ext H)).
  rewrite E, R2 in R1. injection R1 as L.
  apply app_len_inj in E as [_ E]; [|congruence]. injection E as E. congruence.
Qed.

Lemma lstrip_le s : (String.length (lstrip s) <= String.length s)%nat.
Proof. induction s as [|a s IH]; cbn; [lia|]. destruct (is_space a); cbn; lia. Qed.
Lemma rstrip_le s : (String.length (rstrip s) <= String.length s)%nat.
Proof.
  induction s as [|a s IH]; cbn; [lia|]. destruct (rstrip s); [destruct (is_space a); cbn; lia|].
  cbn in *. lia.
Qed.
Lemma rstrip_app_keep a b : rstrip b <> EmptyString -> rstrip (a ++ b) = (a ++ rstrip b)%string.
Proof.
  intro H. induction a as [|x a IH]; cbn [append]; [reflexivity|]. cbn [rstrip]. rewrite IH.
  destruct (a ++ rstrip b)%string eqn:E; [|reflexivity].
  destruct a; cbn in E; [easy|discriminate].
Qed.
Lemma rstrip_dot ext : rstrip (String "." ext) = String "." (rstrip ext).
Proof. cbn. destruct (rstrip ext); reflexivity. Qed.

Definition good_name (stem ext : string) : Prop :=
  free_of "." ext /\ ext <> "rti"%string /\ one_line (stem ++ "." ++ ext).

(** Version numbers keep a name good. *)
Lemma good_version stem ext k : good_name stem ext -> (0 <= k)%Z -> good_name (stem ++ "_" ++ py_str k) ext.
Proof.
  intros (A & B & [C D]) K. split; [exact A|]. split; [exact B|].
  assert (PS : nospace (py_str k) = true) by apply py_str_nospace.
  split.
  - apply nosep_free. apply free_nosep in C. rewrite !nosep_app in *.
    apply andb_true_iff in C as [C1 C2]. rewrite C1, C2.
    change (ascii_of_nat 10) with newline in *. rewrite (nospace_nonl _ PS). reflexivity.
  - cbn [append] in D. unfold strip in *.
    assert (NE : rstrip (String "." ext) <> EmptyString) by (rewrite rstrip_dot; discriminate).
    rewrite rstrip_app_keep in D by exact NE.
    assert (RD : rstrip (String "." ext) = String "." ext).
    { pose proof (lstrip_le (stem ++ rstrip (String "." ext))%string) as L1.
      pose proof (rstrip_le (String "." ext)) as L2. rewrite D, !length_app_s in L1.
      rewrite rstrip_dot in *. f_equal. cbn [String.length] in *.
      assert (LE : String.length (rstrip ext) = String.length ext) by (pose proof (rstrip_le ext); lia).
      clear -LE. induction ext as [|a e IH]; [reflexivity|]. cbn in *.
      destruct (rstrip e) as [|b r] eqn:Q.
      - destruct (is_space a); cbn in LE; [discriminate|]. destruct e; [reflexivity|cbn in LE; discriminate].
      - cbn in LE. injection LE as LE. f_equal. apply IH. cbn. exact LE. }
    rewrite RD in D. cbn [append]. rewrite rstrip_app_keep by (rewrite RD; discriminate). rewrite RD.
    destruct stem as [|a stem]; [reflexivity|]. cbn [append lstrip] in *.
    destruct (is_space a) eqn:SP; [|reflexivity]. exfalso.
    pose proof (lstrip_le (stem ++ String "." ext)%string) as L1. rewrite D in L1. cbn in L1. lia.
Qed.

Lemma new_name F stem ext (ow : bool) : good_name stem ext ->
  exists s, (if ow then Some (stem ++ "." ++ ext)%string else check_overwrite F (stem ++ "." ++ ext))
            = Some (s ++ "." ++ ext)%string /\ good_name s ext /\
    (ow = false -> exists_file F (s ++ "." ++ ext) = false) /\ (ow = true -> s = stem).
Proof.
  intro G. destruct ow.
  - exists stem. split; [reflexivity|]. split; [exact G|]. split; [discriminate|reflexivity].
  - destruct (exists_file F (stem ++ "." ++ ext)) eqn:E.
    + destruct (C43_first_free_version F stem ext (proj1 G) E) as (k & K & R & _).
      exists (stem ++ "_" ++ py_str k)%string. split; [|split; [|split]].
      * rewrite R. f_equal. rewrite !app_assoc_s. reflexivity.
      * apply good_version; [exact G|lia].
      * intros _. destruct (C43_returned_name_is_free F (stem ++ "." ++ ext)) as (r & R' & X).
        rewrite R in R'. injection R' as <-. rewrite !app_assoc_s. exact X.
      * discriminate.
    + exists stem. split; [now apply C43_free_name_kept|]. split; [exact G|]. split; [auto|discriminate].
Qed.

Lemma type_tables dtype b : In (lower dtype, b) type_bytes ->
  exists t, get_rti_data_type dtype = Ok t /\ get_bpe t = Ok b /\ upper t = t /\ one_line t /\
    In t ["BYTE"; "INTEGER"; "LONG"; "LONG64"; "FLOAT"; "DOUBLE"]%string.
Proof.
  unfold get_rti_data_type. set (l := lower dtype). clearbody l. unfold type_bytes.
  intros [E|[E|[E|[E|[E|[E|[]]]]]]]; injection E as <- <-; eexists; (split; [reflexivity|]);
    (split; [reflexivity|]); (split; [reflexivity|]); (split; [apply one_line_dec; reflexivity|]); cbn; tauto.
Qed.

Definition new_info (name t : string) (i : info) : info :=
  mkinfo name "TopoFlow 3.0" (ncols i) (nrows i) t (byte_order i) (pixel_geom i)
    (xres i) (yres i) (zres i) (z_units i) (y_south_edge i) (y_north_edge i)
    (x_east_edge i) (x_west_edge i) (box_units i) (-9999) (-9999) (UTM_zone i).

Lemma new_info_writable name t i : writable i -> one_line name -> one_line t -> upper t = t ->
  In t ["BYTE"; "INTEGER"; "LONG"; "LONG64"; "FLOAT"; "DOUBLE"]%string -> writable (new_info name t i).
Proof.
  intros (A1 & A2 & A3 & A4 & A5 & A6 & A7 & C & R & P & _) N T U I. unfold writable. cbn -[one_line upper].
  rewrite U. split; [exact N|]. split; [apply one_line_dec; reflexivity|].
  repeat (split; [assumption|]). exact I.
Qed.

Lemma header_name stem ext : free_of "." ext -> get_rti_file_name (stem ++ "." ++ ext) = (stem ++ ".rti")%string.
Proof.
  intro H. apply free_nosep in H. unfold get_rti_file_name, get_file_prefix, cut_pos. cbn [append].
  rewrite rfind_app by exact H. now rewrite take_app.
Qed.

(** Opening a file with a readable header gives a reader. *)
Lemma open_reader m F name i j (upd : bool) d n b :
  read_info F name = Ok (Some j) -> ncols j = ncols i -> nrows j = nrows i -> byte_order j = byte_order i ->
  get_bpe (data_type j) = Ok b -> fits i n b ->
  exists r, open_file m F name upd d = Ok r /\ reader m r (byte_order i) n b /\ o_name r = name /\
    o_dtype r = d /\ o_mode r = (if upd then RBplus else RB) /\ o_pos r = 0%nat.
Proof.
  intros R C W B T (F1 & F2 & F3 & F4 & F5 & F6). unfold open_file. rewrite R. cbn [rbind]. rewrite T. cbn [rbind].
  eexists. split; [reflexivity|]. split; [|auto]. split; cbn [o_swap o_nx o_ny o_grid_size o_mode].
  - now rewrite B.
  - rewrite C, W, <- F3. apply Nat2Z.id.
  - f_equal. rewrite C, W, <- F3, Nat2Z.inj_mul. clear -F4 F5.
    assert (1 <= Z.of_nat b)%Z by lia. assert (0 <= Z.of_nat n)%Z by lia.
    rewrite (wrap32_small (Z.of_nat n)) by nia. rewrite wrap32_small; [reflexivity|nia].
  - now destruct upd.
Qed.

Lemma upper_order bo : valid_order bo -> upper bo = bo.
Proof. intros [->| ->]; reflexivity. Qed.

(** ** C41 *)

(** Grids written to a new stack by a machine of either byte order are all
    there, and come back one by one, on a machine of either byte order. *)
Theorem C41_stack_returns_what_was_written
    (mw mr : machine) (F : fs) (stem ext : string) (i : info) (dtype : string) (overwrite : bool)
    (update : bool) (d : option string) (n b : nat) (gs : list grid) :
  free_of "." ext -> ext <> "rti"%string -> one_line (stem ++ "." ++ ext) ->
  writable i -> fits i n b -> In (lower dtype, b) type_bytes ->
  Forall (acceptable mw (byte_order i) n b) gs ->
  exists F1 o1 F2 o2 r name,
    open_new_file mw F (stem ++ "." ++ ext) i dtype overwrite None = Some (Ok (F1, o1)) /\
    add_grids mw F1 o1 gs = Ok (F2, o2) /\
    o_name o1 = name /\
    open_file mr F2 name update d = Ok r /\
    number_of_grids F2 r = Ok (Z.of_nat (List.length gs)) /\
    (forall k g, nth_error gs k = Some g ->
       exists r', get_grid mr F2 r (Z.of_nat k) b = Ok (contents n g, r')) /\
    (forall k, (k < 0 \/ Z.of_nat (List.length gs) <= k)%Z ->
       get_grid mr F2 r k b = Err ValueError) /\
    lookup F2 name = Some (stack (byte_order i) (map (contents n) gs)) /\
    (overwrite = false -> exists_file F name = false) /\
    (forall f, f <> name -> f <> get_rti_file_name name -> lookup F2 f = lookup F f).
Proof.
  intros X1 X2 X3 W Fit T A.
  destruct (new_name F stem ext overwrite (conj X1 (conj X2 X3))) as (s & N1 & (G1 & G2 & G3) & N2 & N3).
  destruct (type_tables dtype b T) as (t & T1 & T2 & T3 & T4 & T5).
  set (name := (s ++ "." ++ ext)%string) in *.
  set (i' := new_info name t i).
  set (F0 := write_info F name i'). set (F1 := put F0 name EmptyString).
  set (o1 := mkrts i' (swap_needed mw (byte_order i)) (ncols i) (nrows i) (Some dtype) None name WB 0 0).
  assert (W' : writable i') by (now apply new_info_writable).
  pose proof Fit as (Q1 & Q2 & Q3 & Q4 & Q5 & Q6).
  assert (R1 : ready mw o1 (byte_order i) n b WB).
  { split; cbn; [reflexivity|rewrite <- Q3; apply Nat2Z.id|eauto|reflexivity]. }
  assert (A' : Forall (accepted (swap_needed mw (byte_order i)) n b) gs).
  { eapply Forall_impl; [|exact A]. intro g. apply acceptable_accepted. }
  destruct (append_all mw (byte_order i) n b gs Q6 A' F1 o1 []) as (F2 & o2 & P1 & P2 & P3 & P4).
  { exact R1. } { apply Forall_nil. } { apply lookup_put_same. } { reflexivity. }
  cbn [app] in P2. change (o_name o1) with name in *.
  assert (HN : get_rti_file_name name = (s ++ ".rti")%string) by (now apply header_name).
  assert (NE : get_rti_file_name name <> name) by (rewrite HN; now apply not_header).
  assert (RI : read_info F2 name = Ok (Some (info_back i'))).
  { rewrite <- (read_back F name i' W'). unfold read_info, try_to_find_rti_file.
    assert (LH : lookup F2 (get_rti_file_name name) = lookup F0 (get_rti_file_name name)).
    { rewrite P3 by exact NE. unfold F1. apply lookup_put_other. congruence. }
    unfold exists_file. fold F0. rewrite LH. unfold F0, write_info. rewrite lookup_put_same.
    rewrite LH. unfold F0, write_info. rewrite lookup_put_same. reflexivity. }
  destruct (open_reader mr F2 name i (info_back i') update d n b RI eq_refl eq_refl) as (r & O1 & O2 & O3 & O4 & O5 & O6).
  { cbn. now apply upper_order. }
  { cbn -[upper get_bpe]. now rewrite get_bpe_upper. }
  { exact Fit. }
  assert (PP : Forall (proper n b) (map (contents n) gs)).
  { apply Forall_map. eapply Forall_impl; [|exact A']. intro g. apply accepted_proper. }
  assert (NP : (0 < n)%nat) by nia.
  exists F1, o1, F2, o2, r, name.
  split. { unfold open_new_file. rewrite N1, T1. reflexivity. }
  split; [exact P1|]. split; [reflexivity|]. split; [exact O1|].
  split. { rewrite (count_grids mr F2 r (byte_order i) n b (map (contents n) gs)); try assumption.
           - now rewrite map_length.
           - now rewrite O3. }
  split. { intros k g K. eexists. apply (get_hit mr F2 r (byte_order i) n b (map (contents n) gs)); try assumption.
           - now rewrite O3.
           - now apply map_nth_error. }
  split. { intros k K. apply (get_miss mr F2 r (byte_order i) n b (map (contents n) gs)); try assumption.
           - now rewrite O3.
           - now rewrite map_length. }
  split; [exact P2|]. split; [exact N2|].
  intros f F_1 F_2. rewrite P3 by exact F_1. unfold F1. rewrite lookup_put_other by congruence.
  unfold F0, write_info. apply lookup_put_other. congruence.
Qed.

(** The bytes of the file do not depend on the machine that wrote it. *)
Theorem C41_file_independent_of_machine (F : fs) stem ext i dtype ow n b gs FL ol FL' ol' FB ob FB' ob' :
  free_of "." ext -> ext <> "rti"%string -> one_line (stem ++ "." ++ ext) ->
  writable i -> fits i n b -> In (lower dtype, b) type_bytes -> Forall (proper n b) gs ->
  open_new_file Little F (stem ++ "." ++ ext) i dtype ow None = Some (Ok (FL, ol)) ->
  add_grids Little FL ol (map GGrid gs) = Ok (FL', ol') ->
  open_new_file Big F (stem ++ "." ++ ext) i dtype ow None = Some (Ok (FB, ob)) ->
  add_grids Big FB ob (map GGrid gs) = Ok (FB', ob') ->
  o_name ol = o_name ob /\ forall f, lookup FL' f = lookup FB' f.
Proof.
  intros X1 X2 X3 W Fit T P OL AL OB AB.
  assert (AC : forall m, Forall (acceptable m (byte_order i) n b) (map GGrid gs)).
  { intro m. apply Forall_map. exact P. }
  destruct (C41_stack_returns_what_was_written Little Little F stem ext i dtype ow false None n b _ X1 X2 X3 W Fit T (AC Little))
    as (F1 & o1 & F2 & o2 & r & nm & E1 & E2 & E3 & _ & _ & _ & _ & E4 & _ & E5).
  destruct (C41_stack_returns_what_was_written Big Little F stem ext i dtype ow false None n b _ X1 X2 X3 W Fit T (AC Big))
    as (G1 & p1 & G2 & p2 & r' & nm' & H1 & H2 & H3 & _ & _ & _ & _ & H4 & _ & H5).
  rewrite OL in E1. injection E1 as <- <-. rewrite OB in H1. injection H1 as <- <-.
  rewrite AL in E2. injection E2 as <- <-. rewrite AB in H2. injection H2 as <- <-.
  assert (NN : o_name ol = o_name ob /\ lookup FL (get_rti_file_name (o_name ol)) = lookup FB (get_rti_file_name (o_name ob))).
  { destruct (new_name F stem ext ow (conj X1 (conj X2 X3))) as (s & N1 & (G1' & G2' & G3') & _).
    unfold open_new_file in OL, OB. rewrite N1 in OL, OB.
    destruct (get_rti_data_type dtype) as [t|]; [|discriminate]. cbn [rbind] in OL, OB.
    injection OL as <- <-. injection OB as <- <-. cbn [o_name].
    split; [reflexivity|].
    assert (NE : get_rti_file_name (s ++ "." ++ ext) <> (s ++ "." ++ ext)%string).
    { rewrite header_name by exact G1'. now apply not_header. }
    unfold write_info. cbn [append] in *. rewrite !lookup_put_other by congruence. now rewrite !lookup_put_same. }
  destruct NN as [NN NH]. split; [exact NN|]. intro f. subst nm nm'.
  destruct (string_dec f (o_name ol)) as [->|D1]; [rewrite E4, NN, H4; reflexivity|].
  destruct (string_dec f (get_rti_file_name (o_name ol))) as [->|D2].
  - (* the header: add_grids leaves it *)
    assert (KEEP : forall m gs F o F' o', add_grids m F o gs = Ok (F', o') ->
              forall f, f <> o_name o -> lookup F' f = lookup F f).
    { clear. intros m gs. induction gs as [|g gs IH]; intros F o F' o' E f Hf; cbn [add_grids] in E.
      - now injection E as <- <-.
      - destruct (add_grid m F o g (-1)) as [[Fa oa]|] eqn:Ea; cbn [rbind] in E; [|discriminate].
        assert (oa_n : o_name oa = o_name o /\ lookup Fa f = lookup F f).
        { unfold add_grid in Ea. destruct (o_dtype o); [|discriminate]. cbn [Z.leb Z.compare rbind] in Ea.
          destruct g as [v|v|l]; cbn [rbind] in Ea.
          - destruct (o_swap o); cbn [rbind] in Ea; [discriminate|].
            destruct (o_mode o); [|discriminate|]; injection Ea as <- <-; cbn [o_name];
              (split; [reflexivity|apply lookup_put_other; congruence]).
          - discriminate.
          - destruct (o_mode o); [|discriminate|]; injection Ea as <- <-; cbn [o_name];
              (split; [reflexivity|apply lookup_put_other; congruence]). }
        destruct oa_n as [O1 O2]. rewrite <- O2. eapply IH; [exact E|]. congruence. }
    rewrite (KEEP _ _ _ _ _ _ AL) by exact D1. rewrite (KEEP _ _ _ _ _ _ AB) by congruence.
    rewrite NH. now rewrite <- NN.
  - rewrite E5 by assumption. rewrite H5 by congruence. reflexivity.
Qed.

Lemma find_put F stem ext c : free_of "." ext -> ext <> "rti"%string ->
  forall p, exists_file (put F (stem ++ "." ++ ext) c) (p ++ ".rti") = exists_file F (p ++ ".rti").
Proof.
  intros A B p. unfold exists_file. rewrite lookup_put_other; [reflexivity|].
  intro E. symmetry in E. revert E. now apply not_header.
Qed.
Lemma find_loop_put F stem ext c : free_of "." ext -> ext <> "rti"%string ->
  forall fuel p, find_loop fuel (put F (stem ++ "." ++ ext) c) p = find_loop fuel F p.
Proof.
  intros A B. induction fuel as [|f IH]; intro p; cbn [find_loop]; [reflexivity|].
  destruct (rfind "_" p); [|reflexivity]. rewrite find_put by assumption. now rewrite IH.
Qed.
Lemma read_info_put F stem ext c : free_of "." ext -> ext <> "rti"%string ->
  read_info (put F (stem ++ "." ++ ext) c) (stem ++ "." ++ ext) = read_info F (stem ++ "." ++ ext).
Proof.
  intros A B. unfold read_info, try_to_find_rti_file. rewrite header_name by exact A.
  rewrite find_put, find_loop_put by assumption.
  destruct (exists_file F (stem ++ ".rti")).
  - rewrite lookup_put_other; [reflexivity|]. intro E. symmetry in E. revert E. now apply not_header.
  - destruct (find_loop _ F _) as [R|] eqn:E; [|reflexivity].
    apply find_loop_sound in E as (_ & k & _ & _ & ->).
    rewrite lookup_put_other; [reflexivity|]. intro E. symmetry in E. revert E. now apply not_header.
Qed.

Lemma replaced_length {A} (l : list A) k x : (k <= List.length l)%nat ->
  List.length (replaced l k x) = Nat.max (List.length l) (S k).
Proof.
  intro H. unfold replaced. rewrite app_length, firstn_length. cbn [List.length]. rewrite skipn_length. lia.
Qed.

(** A stack opened for update: any number of grids may be replaced or added by
    index, in any order; afterwards every grid is the one written last under
    its index, and all others are as before. *)
Theorem C41_updates_by_index
    (m mr : machine) (F : fs) (stem ext d : string) (i : info) (r : rts) (n b : nat)
    (gs : list (list cell)) (ops : list (nat * grid)) :
  let name := (stem ++ "." ++ ext)%string in
  free_of "." ext -> ext <> "rti"%string ->
  read_info F name = Ok (Some i) -> get_bpe (data_type i) = Ok b -> fits i n b ->
  lookup F name = Some (stack (byte_order i) gs) -> Forall (proper n b) gs ->
  open_file m F name true (Some d) = Ok r ->
  Forall (fun kg => acceptable m (byte_order i) n b (snd kg)) ops -> in_range (List.length gs) ops ->
  exists F' o' r',
    updates m F r ops = Some (F', o') /\
    open_file mr F' name false None = Ok r' /\
    number_of_grids F' r' = Ok (Z.of_nat (List.length (after_updates n gs ops))) /\
    (forall k g, nth_error (after_updates n gs ops) k = Some g ->
       exists r2, get_grid mr F' r' (Z.of_nat k) b = Ok (g, r2)) /\
    (forall f, f <> name -> lookup F' f = lookup F f).
Proof.
  intros name X1 X2 RI BP Fit L P O A K.
  destruct (open_reader m F name i i true (Some d) n b RI eq_refl eq_refl eq_refl BP Fit) as (r0 & O1 & O2 & O3 & O4 & O5 & O6).
  rewrite O in O1. injection O1 as <-. pose proof Fit as (Q1 & Q2 & Q3 & Q4 & Q5 & Q6).
  assert (NP : (0 < n)%nat) by nia.
  assert (RD : ready m r (byte_order i) n b RBplus).
  { destruct O2 as [S1 S2 S3 S4]. split; [exact S1|exact S2|rewrite O4; eauto|rewrite O5; reflexivity]. }
  assert (SZ : o_grid_size r = Some (Z.of_nat (n * b))) by apply O2.
  assert (MAIN : exists F' o', updates m F r ops = Some (F', o') /\
             lookup F' name = Some (stack (byte_order i) (after_updates n gs ops)) /\
             Forall (proper n b) (after_updates n gs ops) /\
             read_info F' name = Ok (Some i) /\ (forall f, f <> name -> lookup F' f = lookup F f)).
  { clear O O2 O4 O5 O6. revert F gs r K A L P RI RD SZ O3.
    induction ops as [|[k g] ops IH]; intros F gs r K A L P RI RD SZ O3.
    - exists F, r. cbn. auto.
    - destruct K as [K1 K2]. inversion A as [|? ? A1 A2]; subst. cbn [snd] in A1.
      assert (AG := acceptable_accepted _ _ _ _ _ A1).
      cbn [updates after_updates].
      rewrite (add_at m F r (byte_order i) n b gs g (Z.of_nat k) k RBplus RD ltac:(discriminate) Q6 AG P).
      + rewrite O3. 
        destruct (IH (put F name (stack (byte_order i) (replaced gs k (contents n g)))) (replaced gs k (contents n g))
                    (moved r (S k * (n * b)))) as (F' & o' & U1 & U2 & U3 & U4 & U5).
        * rewrite replaced_length by exact K1. exact K2.
        * exact A2.
        * apply lookup_put_same.
        * apply replaced_proper; [exact P|]. now apply accepted_proper in AG.
        * unfold name. rewrite read_info_put by assumption. exact RI.
        * now apply ready_moved.
        * exact SZ.
        * exact O3.
        * exists F', o'. split; [exact U1|]. split; [exact U2|]. split; [exact U3|]. split; [exact U4|].
          intros f Hf. rewrite U5 by exact Hf. apply lookup_put_other. congruence.
      + now rewrite O3.
      + exact K1.
      + replace (0 <=? Z.of_nat k)%Z with true by (symmetry; apply Z.leb_le; lia).
        rewrite SZ. replace (Z.of_nat k * Z.of_nat (n * b) <? 0)%Z with false by (symmetry; apply Z.ltb_ge; nia).
        f_equal. rewrite <- Nat2Z.inj_mul. apply Nat2Z.id. }
  destruct MAIN as (F' & o' & U1 & U2 & U3 & U4 & U5).
  destruct (open_reader mr F' name i i false None n b U4 eq_refl eq_refl eq_refl BP Fit) as (r' & V1 & V2 & V3 & _).
  exists F', o', r'. split; [exact U1|]. split; [exact V1|]. split; [|split; [|exact U5]].
  - apply (count_grids mr F' r' (byte_order i) n b); try assumption. now rewrite V3.
  - intros k g Hk. eexists. apply (get_hit mr F' r' (byte_order i) n b (after_updates n gs ops)); try assumption.
    now rewrite V3.
Qed.

(** What [after_updates] means for one grid: the last update of index k, or the
    grid that was there. *)
Theorem C41_last_update_wins (n : nat) (gs : list (list cell)) (ops : list (nat * grid)) (k : nat) :
  in_range (List.length gs) ops ->
  nth_error (after_updates n gs ops) k =
  match find (fun kg => Nat.eqb (fst kg) k) (rev ops) with
  | Some (_, g) => Some (contents n g)
  | None => nth_error gs k
  end.
Proof.
  revert gs. induction ops as [|[j g] ops IH]; intros gs R; [reflexivity|].
  destruct R as [R1 R2]. cbn [after_updates rev]. rewrite IH by (rewrite replaced_length by exact R1; exact R2).
  assert (FA : forall (p : nat * grid -> bool) l x, find p (l ++ [x]) = match find p l with Some y => Some y | None => if p x then Some x else None end).
  { intros p l x. induction l as [|y l IHl]; cbn; [reflexivity|]. destruct (p y); [reflexivity|exact IHl]. }
  rewrite FA. destruct (find _ (rev ops)) as [[k' g']|]; [reflexivity|]. cbn [fst].
  unfold replaced. destruct (Nat.eqb_spec j k) as [->|NE].
  - rewrite nth_error_app2 by (rewrite firstn_length; lia).
    rewrite firstn_length, Nat.min_l, Nat.sub_diag by lia. reflexivity.
  - destruct (Nat.lt_ge_cases k j).
    + rewrite nth_error_app1 by (rewrite firstn_length; lia).
      rewrite <- (firstn_skipn j gs) at 2. rewrite nth_error_app1; [reflexivity|rewrite firstn_length; lia].
    + rewrite nth_error_app2 by (rewrite firstn_length; lia). rewrite firstn_length, Nat.min_l by lia.
      destruct (k - j)%nat as [|e] eqn:E; [lia|]. cbn [nth_error].
      rewrite <- (firstn_skipn (S j) gs) at 2.
      destruct (Nat.le_gt_cases (S j) (List.length gs)).
      * rewrite nth_error_app2 by (rewrite firstn_length; lia). rewrite firstn_length, Nat.min_l by lia. f_equal. lia.
      * rewrite (skipn_all2 gs) by lia. rewrite app_nil_r, firstn_all2 by lia.
        destruct e; cbn [nth_error]; symmetry; apply nth_error_None; lia.
Qed.

(** ** C44 for grids: one grid per call, in order, then None. *)
Theorem C44_grids_in_order (m : machine) (bo : string) (n b k : nat) (gs : list (list cell)) :
  valid_order bo -> (0 < n)%nat -> (0 < b)%nat -> Forall (proper n b) gs ->
  read_grids m (negb (String.eqb (own_order m) bo)) n b (List.length gs + k) (stack bo gs)
  = Ok (map Some gs ++ repeat None k).
Proof.
  intros V N B P. change (negb (String.eqb (own_order m) bo)) with (swap_needed m bo).
  induction P as [|g gs Pg P IH].
  - cbn [List.length map app Nat.add]. induction k as [|k IH]; [reflexivity|].
    cbn [read_grids repeat]. rewrite read_end by exact B. cbn [rbind]. rewrite IH. reflexivity.
  - cbn [List.length Nat.add read_grids map app].
    rewrite read_next_grid by (try assumption; now constructor). cbn [rbind]. rewrite IH. reflexivity.
Qed.

(** ** What does not hold *)

Definition demo_i : info :=
  mkinfo "dem.rtg" "me" 2 1 "FLOAT" "LSB" 1 1 1 1 "METERS" 0 0 0 0 "METERS" 0 0 "12".
Lemma demo_i_writable : writable demo_i.
Proof. writable_tac. Qed.

Definition cellA : cell := "AAAA"%string.
Definition cellB : cell := "ABCD"%string.
Definition gA := GGrid [cellA; cellA].
Definition gB := GGrid [cellB; cellB].
Definition demo_stack : fs :=
  match open_new_file Little [] "h.rts" demo_i "float32" true None with
  | Some (Ok (F, o)) => match add_grids Little F o [gA; gA] with Ok (F', _) => F' | _ => [] end
  | _ => []
  end.

(** A grid added without an index after opening for update is not appended: it
    overwrites the first grid. *)
Theorem C41_added_grid_is_appended_refuted :
  ~ (forall F r F' o' g, open_file Little F "h.rts" true (Some "float32"%string) = Ok r ->
       add_grid Little F r g (-1) = Ok (F', o') ->
       forall c c', lookup F "h.rts" = Some c -> lookup F' "h.rts" = Some c' ->
       exists x, c' = (c ++ x)%string).
Proof.
  intro H.
  destruct (open_file Little demo_stack "h.rts" true (Some "float32"%string)) as [r|] eqn:O; [|vm_compute in O; discriminate O].
  destruct (add_grid Little demo_stack r gB (-1)) as [[F' o']|] eqn:A.
  - specialize (H _ _ _ _ _ O A "AAAAAAAAAAAAAAAA"%string "DCBADCBAAAAAAAAA"%string).
    destruct H as [x E].
    + vm_compute. reflexivity.
    + vm_compute in O. injection O as <-. vm_compute in A. injection A as <- <-. vm_compute. reflexivity.
    + vm_compute in E. discriminate E.
  - vm_compute in O. injection O as <-. vm_compute in A. discriminate A.
Qed.

(** An index cannot be used on a new file. *)
Theorem C41_index_on_new_file_refuted :
  ~ (forall F o g, open_new_file Little [] "h.rts" demo_i "float32" true None = Some (Ok (F, o)) ->
       acceptable Little "LSB" 2 4 g -> exists F' o', add_grid Little F o g 0 = Ok (F', o')).
Proof.
  intro H. edestruct H as (F' & o' & E).
  - vm_compute. reflexivity.
  - instantiate (1 := gA). cbn. split; [reflexivity|]. apply Forall_cons; [reflexivity|]. apply Forall_cons; [reflexivity|]. apply Forall_nil.
  - vm_compute in E. discriminate E.
Qed.

(** A single number is refused where the byte order differs, and a
    0-dimensional array always. *)
Theorem C41_single_number_accepted_refuted :
  ~ (forall m F o v, open_new_file m [] "h.rts" demo_i "float32" true None = Some (Ok (F, o)) ->
       String.length v = 4%nat -> exists F' o', add_grid m F o (GScalar v) (-1) = Ok (F', o')).
Proof.
  intro H. edestruct (H Big) as (F' & o' & E).
  - vm_compute. reflexivity.
  - instantiate (1 := cellA). reflexivity.
  - vm_compute in E. discriminate E.
Qed.
Theorem C41_array0_always_refused m F o v k : exists e, add_grid m F o (GArray0 v) k = Err e.
Proof.
  unfold add_grid. destruct (o_dtype o) as [d|]; [|eexists; reflexivity].
  destruct (0 <=? k)%Z; [destruct (o_grid_size o) as [s|]; [destruct (k * s <? 0)%Z|]|]; eexists; reflexivity.
Qed.

(** Opening a new stack without leave to overwrite can still replace a file
    that exists: the header. *)
Theorem C41_existing_files_kept_refuted :
  ~ (forall m F name i dtype F1 o1, open_new_file m F name i dtype false None = Some (Ok (F1, o1)) ->
       forall f, exists_file F f = true -> lookup F1 f = lookup F f).
Proof.
  intro H.
  destruct (open_new_file Little [("h.rti", "mine")]%string "h.rts" demo_i "float32" false None)
    as [[[F1 o1]|]|] eqn:E; [|vm_compute in E; discriminate E|vm_compute in E; discriminate E].
  specialize (H _ _ _ _ _ _ _ E "h.rti"%string eq_refl).
  vm_compute in E. injection E as <- <-. vm_compute in H. discriminate H.
Qed.

(** The byte order must be in upper case: with "lsb" a little-endian machine
    swaps, and the header then read says LSB. *)
Theorem C41_lower_case_order_refuted :
  ~ (forall F i F1 o1 F2 o2 r g, writable i -> upper (byte_order i) = "LSB"%string ->
       (0 < ncols i)%Z -> (0 < nrows i)%Z ->
       open_new_file Little F "h.rts" i "float32" true None = Some (Ok (F1, o1)) ->
       add_grids Little F1 o1 [GGrid g] = Ok (F2, o2) ->
       open_file Little F2 "h.rts" false None = Ok r ->
       proper (Z.to_nat (ncols i * nrows i)) 4 g ->
       exists r', get_grid Little F2 r 0 4 = Ok (g, r')).
Proof.
  intro H.
  set (i := mkinfo "dem.rtg" "me" 2 1 "FLOAT" "lsb" 1 1 1 1 "METERS" 0 0 0 0 "METERS" 0 0 "12").
  destruct (open_new_file Little [] "h.rts" i "float32" true None)
    as [[[F1 o1]|]|] eqn:E1; [|vm_compute in E1; discriminate E1|vm_compute in E1; discriminate E1].
  destruct (add_grids Little F1 o1 [GGrid [cellB; cellB]]) as [[F2 o2]|] eqn:E2.
  - destruct (open_file Little F2 "h.rts" false None) as [r|] eqn:E3.
    + assert (W : writable i) by writable_tac.
      assert (P : proper (Z.to_nat (ncols i * nrows i)) 4 [cellB; cellB]).
      { split; [reflexivity|]. apply Forall_cons; [reflexivity|]. apply Forall_cons; [reflexivity|apply Forall_nil]. }
      specialize (H [] i F1 o1 F2 o2 r _ W eq_refl eq_refl eq_refl E1 E2 E3 P). destruct H as [r' E4].
      vm_compute in E1. injection E1 as <- <-. vm_compute in E2. injection E2 as <- <-.
      vm_compute in E3. injection E3 as <-. vm_compute in E4. discriminate E4.
    + vm_compute in E1. injection E1 as <- <-. vm_compute in E2. injection E2 as <- <-.
      vm_compute in E3. discriminate E3.
  - vm_compute in E1. injection E1 as <- <-. vm_compute in E2. discriminate E2.
Qed.

(** A stack of 8-byte numbers read with get_grid's default type (4 bytes)
    gives other grids. *)
Theorem C41_default_type_reads_refuted :
  ~ (forall F i g F1 o1 F2 o2 r, writable i -> proper 2 8 g -> fits i 2 8 ->
       open_new_file Little F "h.rts" i "float64" true None = Some (Ok (F1, o1)) ->
       add_grids Little F1 o1 [GGrid g] = Ok (F2, o2) ->
       open_file Little F2 "h.rts" false None = Ok r ->
       exists r', get_grid Little F2 r 0 4 = Ok (g, r')).
Proof.
  intro H.
  destruct (open_new_file Little [] "h.rts" demo_i "float64" true None)
    as [[[F1 o1]|]|] eqn:E1; [|vm_compute in E1; discriminate E1|vm_compute in E1; discriminate E1].
  destruct (add_grids Little F1 o1 [GGrid ["12345678"; "12345678"]%string]) as [[F2 o2]|] eqn:E2.
  - destruct (open_file Little F2 "h.rts" false None) as [r|] eqn:E3.
    + assert (P : proper 2 8 ["12345678"; "12345678"]%string).
      { split; [reflexivity|]. apply Forall_cons; [reflexivity|]. apply Forall_cons; [reflexivity|apply Forall_nil]. }
      assert (Ft : fits demo_i 2 8).
      { unfold fits, valid_order. cbn. repeat (split; [lia|]). now left. }
      specialize (H [] demo_i _ F1 o1 F2 o2 r demo_i_writable P Ft E1 E2 E3). destruct H as [r' E4].
      vm_compute in E1. injection E1 as <- <-. vm_compute in E2. injection E2 as <- <-.
      vm_compute in E3. injection E3 as <-. vm_compute in E4. discriminate E4.
    + vm_compute in E1. injection E1 as <- <-. vm_compute in E2. injection E2 as <- <-.
      vm_compute in E3. discriminate E3.
  - vm_compute in E1. injection E1 as <- <-. vm_compute in E2. discriminate E2.
Qed.

(** ** Single-grid files (RTG) *)

(** The file holds the grid in the byte order of the header. *)
Theorem C41_single_grid_file (mw mr : machine) (bo : string) (n b : nat) (g : list cell) :
  valid_order bo -> (0 < n)%nat -> (0 < b)%nat -> proper n b g ->
  let file := fst (rtg_write_grid (negb (String.eqb (own_order mw) bo)) (map (native mw) g)) in
  file = stack bo [g] /\
  read_grid mr (negb (String.eqb (own_order mr) bo)) n b file = Ok (Some g, EmptyString).
Proof.
  intros V N B P file.
  assert (E : file = stack bo [g]).
  { unfold file, rtg_write_grid. cbn [fst]. change (negb (String.eqb (own_order mw) bo)) with (swap_needed mw bo).
    rewrite stack_cons. unfold stack. cbn [concat fold_right]. rewrite app_nil_s. f_equal.
    rewrite (map_ext (disk bo) (out mw bo)) by (intro; symmetry; now apply out_disk).
    unfold out. destruct (swap_needed mw bo); [now rewrite map_map|reflexivity]. }
  split; [exact E|]. rewrite E. change (negb (String.eqb (own_order mr) bo)) with (swap_needed mr bo).
  rewrite read_next_grid; try assumption; [reflexivity|]. apply Forall_cons; [exact P|apply Forall_nil].
Qed.

(** But writing can change the caller's grid. *)
Theorem C41_caller_grid_kept_refuted :
  ~ (forall mw bo g, valid_order bo ->
       snd (rtg_write_grid (negb (String.eqb (own_order mw) bo)) (map (native mw) g)) = map (native mw) g).
Proof.
  intro H. specialize (H Little "MSB"%string [cellB] (or_intror eq_refl)). vm_compute in H. discriminate H.
Qed.

(** ** A case *)
Example C41_demo :
  writable demo_i /\ fits demo_i 2 4 /\
  lookup demo_stack "h.rts" = Some "AAAAAAAAAAAAAAAA"%string /\
  (exists r, open_file Big demo_stack "h.rts" true (Some "float32"%string) = Ok r /\
     number_of_grids demo_stack r = Ok 2%Z /\
     exists F' o', updates Big demo_stack r [(1%nat, gB); (2%nat, gA); (1%nat, gB)] = Some (F', o') /\
       lookup F' "h.rts" = Some "AAAAAAAADCBADCBAAAAAAAAA"%string /\
       number_of_grids F' o' = Ok 3%Z) /\
  in_range 2 [(1%nat, gB); (2%nat, gA); (1%nat, gB)] /\
  read_grids Big true 2 4 3 "AAAAAAAADCBADCBA" = Ok [Some [cellA; cellA]; Some [cellB; cellB]; None].
Proof.
  split; [exact demo_i_writable|]. split; [unfold fits, valid_order; cbn; repeat (split; [lia|]); now left|].
  split; [vm_compute; reflexivity|]. split; [|split; [cbn; lia|vm_compute; reflexivity]].
  eexists. split; [vm_compute; reflexivity|]. split; [vm_compute; reflexivity|].
  eexists. eexists. split; [vm_compute; reflexivity|]. split; vm_compute; reflexivity.
Qed.

Print Assumptions C41_stack_returns_what_was_written.
Print Assumptions C41_file_independent_of_machine.
Print Assumptions C41_updates_by_index.
Print Assumptions C41_last_update_wins.
Print Assumptions C44_grids_in_order.
Print Assumptions C41_added_grid_is_appended_refuted.
Print Assumptions C41_index_on_new_file_refuted.
Print Assumptions C41_single_number_accepted_refuted.
Print Assumptions C41_array0_always_refused.
Print Assumptions C41_existing_files_kept_refuted.
Print Assumptions C41_lower_case_order_refuted.
Print Assumptions C41_default_type_reads_refuted.
Print Assumptions C41_single_grid_file.
Print Assumptions C41_caller_grid_kept_refuted.
