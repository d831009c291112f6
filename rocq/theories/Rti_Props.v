(** C42: RTI header round trip. *)

From Coq Require Import String Ascii List ZArith NArith QArith Qabs Bool Lia Lqa.
From Verif Require Import Time_Model Time_Proofs Io_Model Io_Spec Io_Proofs Io_Props Rti_Model Rti_Spec Rti_Proofs.
Import ListNotations.

Lemma one_line_clean s : one_line s -> clean s.
Proof. intros [A B]. split; [|exact B]. apply free_nosep. exact A. Qed.
Lemma one_line_dec s : nosep newline s = true -> strip s = s -> one_line s.
Proof. intros A B. split; [exact (nosep_free _ _ A)|exact B]. Qed.
Ltac writable_tac :=
  unfold writable; repeat (split; [apply one_line_dec; reflexivity|]);
  split; [cbn; lia|]; split; [cbn; lia|]; split; [cbn; lia|]; vm_compute; tauto.
Lemma writable_good i : writable i -> good_info i.
Proof.
  intros (A1 & A2 & A3 & A4 & A5 & A6 & A7 & C & R & P & T).
  split; try (now apply one_line_clean); try assumption.
  unfold get_bpe. set (u := upper (data_type i)) in *. clearbody u.
  destruct T as [<-|[<-|[<-|[<-|[<-|[<-|[]]]]]]]; eexists; reflexivity.
Qed.

Lemma file_header F name i : try_to_find_rti_file (write_info F name i) name = Some (get_rti_file_name name).
Proof.
  unfold try_to_find_rti_file, exists_file, write_info. rewrite lookup_put_same. reflexivity.
Qed.
Lemma read_back F name i : writable i -> read_info (write_info F name i) name = Ok (Some (info_back i)).
Proof.
  intro W. unfold read_info. rewrite file_header. unfold write_info. rewrite lookup_put_same.
  rewrite read_written by (now apply writable_good). reflexivity.
Qed.

(** A header written for a grid file is found again and describes the same grid. *)
Theorem C42_header_comes_back (F : fs) (name : string) (i : info) :
  writable i ->
  exists j, read_info (write_info F name i) name = Ok (Some j) /\ describes i j /\
    (upper (UTM_zone i) <> "-1"%string -> UTM_zone j = upper (UTM_zone i)).
Proof.
  intro W. exists (info_back i). split; [now apply read_back|].
  split; [|intro U; cbn; destruct (String.eqb_spec (upper (UTM_zone i)) "-1"); [easy|reflexivity]].
  unfold describes, close. cbn -[upper Qabs rounded]. auto 30 using rounded_near.
Qed.

(** With upper-case keywords and numbers of at most twelve decimals nothing
    changes at all. *)
Theorem C42_exact_round_trip (F : fs) (name : string) (i : info) :
  writable i ->
  upper (data_type i) = data_type i -> upper (byte_order i) = byte_order i ->
  upper (z_units i) = z_units i -> upper (box_units i) = box_units i ->
  upper (UTM_zone i) = UTM_zone i -> UTM_zone i <> "-1"%string ->
  Forall twelve_decimals [xres i; yres i; zres i; y_south_edge i; y_north_edge i;
                          x_east_edge i; x_west_edge i; gmin i; gmax i] ->
  exists j, read_info (write_info F name i) name = Ok (Some j) /\ same_info i j.
Proof.
  intros W U1 U2 U3 U4 U5 N D. exists (info_back i). split; [now apply read_back|].
  assert (E : forall x, twelve_decimals x -> (rounded x == x)%Q).
  { intros x [k K]. apply (rounded_exact x k). rewrite K. field. }
  repeat match goal with H : Forall _ (_ :: _) |- _ => inversion H; subst; clear H end.
  unfold same_info. cbn -[upper Qeq rounded String.eqb]. rewrite U1, U2, U3, U4, U5.
  destruct (String.eqb_spec (UTM_zone i) "-1"); [easy|]. auto 30.
Qed.

(** A second round trip changes nothing: reading, writing and reading again
    gives the header read first. *)
Theorem C42_second_round_trip (F G : fs) (name name' : string) (i j : info) :
  writable i -> read_info (write_info F name i) name = Ok (Some j) ->
  UTM_zone j <> "unknown"%string ->
  exists k, read_info (write_info G name' j) name' = Ok (Some k) /\ same_info j k.
Proof.
  intros W E UN. rewrite read_back in E by exact W. injection E as <-.
  assert (UL : forall s, one_line s -> one_line (upper s)).
  { intros s [A B]. split.
    - apply nosep_free. apply free_nosep in A. fold newline in *. revert A. clear.
      unfold upper. induction s as [|a s IH]; [reflexivity|]. cbn [smap nosep]. intro H.
      apply andb_true_iff in H as [H1 H2]. rewrite IH by exact H2. rewrite andb_true_r.
      clear -H1. change (ascii_of_nat 10) with newline in *.
      destruct a as [[] [] [] [] [] [] [] []]; try reflexivity; exact H1.
    - assert (SP : forall a, is_space (upper_char a) = is_space a)
        by (intros [[] [] [] [] [] [] [] []]; reflexivity).
      assert (RS : forall s, rstrip (upper s) = upper (rstrip s)).
      { clear -SP. unfold upper. induction s as [|a s IH]; cbn [smap rstrip]; [reflexivity|].
        rewrite IH. destruct (rstrip s) as [|b t]; cbn [smap]; [|reflexivity].
        rewrite SP. destruct (is_space a); reflexivity. }
      assert (LS : forall s, lstrip (upper s) = upper (lstrip s)).
      { clear -SP. unfold upper. induction s as [|a s IH]; cbn [smap lstrip]; [reflexivity|].
        rewrite SP. destruct (is_space a); [exact IH|reflexivity]. }
      unfold strip in *. now rewrite RS, LS, B. }
  destruct W as (A1 & A2 & A3 & A4 & A5 & A6 & A7 & C & R & P & T).
  assert (TD : forall x, twelve_decimals (rounded x)).
  { intro x. unfold rounded, twelve_decimals.
    destruct (Qcompare x 0); [eexists; reflexivity| |eexists; reflexivity].
    exists (- round_even (Qabs x * 1000000000000))%Z. rewrite inject_Z_opp. 
    change (inject_Z (10 ^ 12)) with 1000000000000%Q. field. }
  assert (UZ : UTM_zone (info_back i) = upper (UTM_zone i)).
  { cbn in *. destruct (String.eqb_spec (upper (UTM_zone i)) "-1"); [easy|reflexivity]. }
  apply C42_exact_round_trip.
  - unfold writable. rewrite UZ. cbn -[one_line upper]. rewrite upper_upper.
    repeat (split; [auto; fail|]). exact T.
  - apply upper_upper.
  - apply upper_upper.
  - apply upper_upper.
  - apply upper_upper.
  - rewrite UZ. apply upper_upper.
  - rewrite UZ. cbn in UN. destruct (String.eqb_spec (upper (UTM_zone i)) "-1") as [E|E]; [easy|exact E].
  - cbn -[rounded]. repeat apply Forall_cons; try apply TD. apply Forall_nil.
Qed.

(** Keywords in lower case are not kept as they are. *)
Theorem C42_text_kept_refuted :
  ~ (forall F name i, writable i -> exists j, read_info (write_info F name i) name = Ok (Some j) /\
       z_units j = z_units i).
Proof.
  intro H.
  specialize (H [] "a.rtg"%string
    (mkinfo "a.rtg" "me" 3 2 "FLOAT" "LSB" 1 1 1 1 "meters" 0 0 0 0 "METERS" 0 0 "12")).
  assert (W : writable (mkinfo "a.rtg" "me" 3 2 "FLOAT" "LSB" 1 1 1 1 "meters" 0 0 0 0 "METERS" 0 0 "12")).
  { writable_tac. }
  destruct (H W) as (j & E & Z). vm_compute in E. injection E as <-. discriminate Z.
Qed.

(** The UTM zone -1 comes back as the word "unknown". *)
Theorem C42_zone_kept_refuted :
  ~ (forall F name i, writable i -> upper (UTM_zone i) = UTM_zone i ->
       exists j, read_info (write_info F name i) name = Ok (Some j) /\ UTM_zone j = UTM_zone i).
Proof.
  intro H.
  specialize (H [] "a.rtg"%string
    (mkinfo "a.rtg" "me" 3 2 "FLOAT" "LSB" 1 1 1 1 "METERS" 0 0 0 0 "METERS" 0 0 "-1")).
  assert (W : writable (mkinfo "a.rtg" "me" 3 2 "FLOAT" "LSB" 1 1 1 1 "METERS" 0 0 0 0 "METERS" 0 0 "-1")).
  { writable_tac. }
  destruct (H W eq_refl) as (j & E & Z). vm_compute in E. injection E as <-. discriminate Z.
Qed.

(** ** Which header is used *)

Lemma take_take p : forall n s, (p <= n)%nat -> take p (take n s) = take p s.
Proof.
  induction p as [|p IH]; intros n s L; [reflexivity|]. destruct n; [lia|]. destruct s; [reflexivity|].
  cbn. f_equal. apply IH. lia.
Qed.
Lemma rfind_le c s k : rfind c s = Some k -> (k < String.length s)%nat.
Proof.
  revert k. induction s as [|a s IH]; cbn; intros k H; [discriminate|].
  destruct (rfind c s) as [j|] eqn:E.
  - injection H as <-. specialize (IH j eq_refl). lia.
  - destruct (Ascii.eqb a c); [injection H as <-; lia|discriminate].
Qed.
Lemma rfind_get c s k : rfind c s = Some k -> String.get k s = Some c.
Proof.
  revert k. induction s as [|a s IH]; cbn; intros k H; [discriminate|].
  destruct (rfind c s) as [j|] eqn:E.
  - injection H as <-. apply IH. reflexivity.
  - destruct (Ascii.eqb_spec a c) as [->|]; [injection H as <-; reflexivity|discriminate].
Qed.
Lemma length_take n s : String.length (take n s) = Nat.min n (String.length s).
Proof.
  revert n; induction s as [|a s IH]; intros [|n]; cbn; try reflexivity. now rewrite IH.
Qed.
Lemma get_take k n s : (k < n)%nat -> String.get k (take n s) = String.get k s.
Proof.
  revert k n; induction s as [|a s IH]; intros k n L; (destruct n; [lia|]); cbn; [reflexivity|].
  destruct k; [reflexivity|]. apply IH. lia.
Qed.

Lemma find_loop_sound fuel F : forall p R, find_loop fuel F p = Some R ->
  exists_file F R = true /\ exists k, (k < String.length p)%nat /\
    String.get k p = Some "_"%char /\ R = (take k p ++ ".rti")%string.
Proof.
  induction fuel as [|f IH]; intros p R H; cbn in H; [discriminate|].
  destruct (rfind "_" p) as [k|] eqn:E; [|discriminate].
  pose proof (rfind_le _ _ _ E) as L.
  destruct (exists_file F (take k p ++ ".rti")) eqn:X.
  - injection H as <-. split; [exact X|]. exists k. repeat split; [exact L|now apply rfind_get].
  - apply IH in H as (A & j & B & C & D). split; [exact A|]. exists j.
    rewrite length_take in B. rewrite get_take in C by lia. rewrite take_take in D by lia.
    repeat split; [lia|exact C|exact D].
Qed.
Lemma find_loop_complete F : forall fuel p k, (String.length p <= fuel)%nat ->
  (k < String.length p)%nat -> String.get k p = Some "_"%char ->
  exists_file F (take k p ++ ".rti") = true -> exists R, find_loop fuel F p = Some R.
Proof.
  induction fuel as [|f IH]; intros p k L K G X; [lia|]. cbn.
  destruct (rfind "_" p) as [j|] eqn:E.
  - pose proof (rfind_le _ _ _ E) as J.
    destruct (exists_file F (take j p ++ ".rti")) eqn:Y; [eexists; reflexivity|].
    assert (KJ : (k < j)%nat).
    { assert (k <= j)%nat; [|destruct (Nat.eq_dec k j) as [->|]; [congruence|lia]].
      clear -E G K. revert k j E G K. induction p as [|a p IHp]; cbn; intros k j E G K; [lia|].
      destruct (rfind "_" p) as [m|] eqn:M.
      - injection E as <-. destruct k; [lia|]. specialize (IHp k m eq_refl G). lia.
      - destruct k; [lia|]. exfalso. clear -M G. revert k G.
        induction p as [|b p IHq]; cbn in *; intros k G; [destruct k; discriminate|].
        destruct (rfind "_" p); [discriminate|]. destruct k.
        + injection G as ->. discriminate M.
        + exact (IHq eq_refl k G). }
    apply (IH _ k).
    + rewrite length_take. lia.
    + rewrite length_take. lia.
    + rewrite get_take by lia. exact G.
    + rewrite take_take by lia. exact X.
  - exfalso. clear -E G. revert k G. induction p as [|b p IHq]; cbn in *; intros k G; [destruct k; discriminate|].
    destruct (rfind "_" p); [discriminate|]. destruct k.
    + injection G as ->. discriminate E.
    + exact (IHq eq_refl k G).
Qed.

(** The header looked up for stem.ext is stem.rti when that exists; otherwise
    the stem cut at one of its underscores; and None only when no such file
    exists. *)
Theorem C42_header_found (F : fs) (stem ext : string) :
  free_of "." ext ->
  let cut k := (take k stem ++ ".rti")%string in
  match try_to_find_rti_file F (stem ++ "." ++ ext) with
  | Some R => exists_file F R = true /\
      (R = (stem ++ ".rti")%string \/
       exists_file F (stem ++ ".rti") = false /\ exists k, String.get k stem = Some "_"%char /\ R = cut k)
  | None => exists_file F (stem ++ ".rti") = false /\
      forall k, String.get k stem = Some "_"%char -> exists_file F (cut k) = false
  end.
Proof.
  intros Hx cut. apply free_nosep in Hx. unfold try_to_find_rti_file, get_rti_file_name.
  assert (P : get_file_prefix (stem ++ "." ++ ext) = stem).
  { unfold get_file_prefix, cut_pos. cbn [append]. rewrite rfind_app by exact Hx. now apply take_app. }
  rewrite P. destruct (exists_file F (stem ++ ".rti")) eqn:E; [auto|].
  destruct (find_loop _ F stem) as [R|] eqn:L.
  - apply find_loop_sound in L as (A & k & _ & B & C). split; [exact A|]. right. split; [reflexivity|].
    exists k. split; [exact B|exact C].
  - split; [reflexivity|]. intros k K. destruct (exists_file F (cut k)) eqn:X; [|reflexivity]. exfalso.
    assert (KL : (k < String.length stem)%nat).
    { clear -K. revert k K. induction stem as [|a s IH]; intros [|k] K; cbn in *; try discriminate; [lia|].
      apply IH in K. lia. }
    destruct (find_loop_complete F (String.length (stem ++ "." ++ ext)) stem k) as [R HR];
      [rewrite length_app_s; lia|exact KL|exact K|exact X|]. congruence.
Qed.

(** ** make_info: the edges enclose ncols by nrows cells. *)
Theorem C42_edges_enclose_cells gf nc nr xr yr ds dt bo pg zr zu ys xw bu gn gx utm i :
  make_info gf nc nr xr yr ds dt bo pg zr zu ys xw bu gn gx utm = Ok i ->
  let unit := if (pg =? 1)%Z then 1%Q else (1 # 3600)%Q in
  (x_east_edge i - x_west_edge i == inject_Z nc * xr * unit)%Q /\
  (y_north_edge i - y_south_edge i == inject_Z nr * yr * unit)%Q /\
  (x_west_edge i == xw)%Q /\ (y_south_edge i == ys)%Q.
Proof.
  unfold make_info. destruct (get_bpe dt); cbn [rbind]; [|discriminate].
  intro E. injection E as <-. cbn -[Qeq]. 
  destruct (pg =? 1)%Z; split; try split; try split; try reflexivity; unfold Qdiv; try ring;
    change (/ 3600)%Q with (1 # 3600)%Q; ring.
Qed.

(** ** Data type names *)
Theorem C42_type_names_inverse (d t : string) :
  get_rti_data_type d = Ok t -> get_numpy_data_type t = Ok (lower d).
Proof.
  unfold get_rti_data_type. set (l := lower d). clearbody l.
  repeat match goal with |- context [String.eqb l ?x] => destruct (String.eqb_spec l x) as [->|] end;
    intro E; try discriminate E; injection E as <-; reflexivity.
Qed.

(** ** A case *)
Definition demo_info : info :=
  mkinfo "June_20_67_rain.rtg" "TopoFlow 3.0" 44 29 "FLOAT" "LSB" 1 30 30 (1 # 100) "METERS"
    4560000 (4560870 # 1) (612345 # 10) (599145 # 10) "METERS" (-9999) (-9999) "UNKNOWN".
Example C42_demo :
  let F := write_info [] "June_20_67_rain.rtg" demo_info in
  writable demo_info /\
  (exists j, read_info F "June_20_67_rain.rtg" = Ok (Some j) /\ same_info demo_info j) /\
  try_to_find_rti_file (put [] "June_20_67.rti" "x") "June_20_67_rain.rtg" = Some "June_20_67.rti"%string /\
  try_to_find_rti_file [] "June_20_67_rain.rtg" = None.
Proof.
  split; [writable_tac|]. split; [|split; reflexivity]. eexists. split; [vm_compute; reflexivity|].
  unfold same_info. repeat split; vm_compute; reflexivity.
Qed.

Print Assumptions C42_header_comes_back.
Print Assumptions C42_exact_round_trip.
Print Assumptions C42_second_round_trip.
Print Assumptions C42_text_kept_refuted.
Print Assumptions C42_zone_kept_refuted.
Print Assumptions C42_header_found.
Print Assumptions C42_edges_enclose_cells.
Print Assumptions C42_type_names_inverse.
