(** C126: converting the units of a stack of grids, topoflow/utils/rts_files.py. *)

From Coq Require Import String Ascii List ZArith NArith QArith Bool Lia.
From Verif Require Import Time_Model Time_Proofs Io_Model Io_Spec Io_Proofs Io_Props
  Rti_Model Rti_Spec Rti_Proofs Rti_Props Rts_Model Rts_Spec Rts_Proofs Rts_Props Rtsconv_Model.
Import ListNotations.

(** what happens to one number *)
Definition new_value (factor add_val : option (cell -> cell)) (v : cell) : cell :=
  let w := match factor with Some f => f v | None => v end in match add_val with Some f => f w | None => w end.
(** results are numbers of 4 bytes *)
Definition float32 (f : option (cell -> cell)) : Prop :=
  match f with Some f => forall v, String.length v = 4%nat -> String.length (f v) = 4%nat | None => True end.

Lemma converted_map factor add_val g : converted factor add_val g = map (new_value factor add_val) g.
Proof.
  unfold converted, new_value. destruct factor, add_val; rewrite ?map_map; try reflexivity.
  all: try (symmetry; apply map_id).
Qed.
Lemma new_value_4 factor add_val v : float32 factor -> float32 add_val -> String.length v = 4%nat ->
  String.length (new_value factor add_val v) = 4%nat.
Proof. unfold float32, new_value. destruct factor, add_val; auto. Qed.
Lemma converted_proper factor add_val n g : float32 factor -> float32 add_val -> proper n 4 g ->
  proper n 4 (map (new_value factor add_val) g).
Proof.
  intros A B [L P]. split; [rewrite map_length; exact L|]. apply Forall_map. eapply Forall_impl; [|exact P].
  intros v V. apply new_value_4; assumption.
Qed.
Lemma add_grid_keeps m F o g F' o' : add_grid m F o g (-1) = Ok (F', o') ->
  o_name o' = o_name o /\ forall f, f <> o_name o -> lookup F' f = lookup F f.
Proof.
  unfold add_grid. destruct (o_dtype o); [|discriminate]. cbn [Z.leb Z.compare rbind].
  destruct g as [v|v|l]; cbn [rbind]; [destruct (o_swap o); [discriminate|cbn [rbind]]|discriminate|];
    (destruct (o_mode o); [|discriminate|]); intro H; injection H as <- <-; (split; [reflexivity|]);
    intros f NF; apply lookup_put_other; congruence.
Qed.
Lemma reader_at m o bo n b p : reader m o bo n b -> reader m (at_pos o p) bo n b.
Proof. intros [R1 R2 R3 R4]. split; assumption. Qed.
(** the loop reads and writes what reading all grids first and then writing all would *)
Lemma loop_all m factor add_val bo n gs : valid_order bo -> Forall (proper n 4) gs ->
  forall rest done F o new F' new', gs = done ++ rest ->
  reader m o bo n 4 -> lookup F (o_name o) = Some (stack bo gs) -> o_name new <> o_name o ->
  add_grids m F new (map (fun g => GGrid (map (new_value factor add_val) g)) rest) = Ok (F', new') ->
  exists p, convert_loop m factor add_val (List.length rest) (Z.of_nat (List.length done)) F o new = Ok (F', at_pos o p, new').
Proof.
  intros V P. induction rest as [|g rest IH]; intros dn F o new F' new' E R L N A.
  - cbn in A. injection A as <- <-. exists (o_pos o). cbn. destruct o; reflexivity.
  - cbn [map add_grids] in A. destruct (add_grid m F new (GGrid (map (new_value factor add_val) g)) (-1)) as [[F1 n1]|] eqn:A1; [|discriminate A].
    cbn [rbind] in A. cbn [List.length convert_loop].
    assert (NT : nth_error gs (List.length dn) = Some g) by (rewrite E, nth_error_app2, Nat.sub_diag by lia; reflexivity).
    rewrite (get_hit m F o bo n 4 gs _ g R V ltac:(lia) P L NT). cbn [rbind fst snd]. rewrite converted_map, A1. cbn [rbind fst snd].
    destruct (add_grid_keeps _ _ _ _ _ _ A1) as [K1 K2].
    destruct (IH (dn ++ [g]) F1 (at_pos o (S (List.length dn) * (n * 4))) n1 F' new') as [p Q].
    + rewrite E, <- app_assoc. reflexivity.
    + apply reader_at, R.
    + cbn [o_name at_pos]. rewrite K2; [exact L|congruence].
    + cbn [o_name at_pos]. congruence.
    + exact A.
    + exists p. rewrite app_length in Q. cbn [List.length] in Q. rewrite Nat2Z.inj_add in Q. change (Z.of_nat 1) with 1%Z in Q. exact Q.
Qed.

(** The new file has as many grids, each number of them converted, and a header that any machine can read; the old
    file and all others are as before.  The name may be the old one or any other in use: then a number is put to it. *)
Theorem C126_converted (m mr : machine) (F : fs) (old stem ext : string) (j : info) (update : bool) (d : option string)
    (factor add_val : option (cell -> cell)) (n : nat) (gs : list (list cell)) :
  free_of "." ext -> ext <> "rti"%string -> one_line (stem ++ "." ++ ext) ->
  read_info F old = Ok (Some j) -> writable j -> fits j n 4 -> get_bpe (data_type j) = Ok 4%nat ->
  lookup F old = Some (stack (byte_order j) gs) -> Forall (proper n 4) gs ->
  (forall s, old <> s ++ ".rti")%string ->
  float32 factor -> float32 add_val ->
  exists o o' new F' r, open_file m F old update d = Ok o /\
    convert_units m F o (stem ++ "." ++ ext) factor add_val = Some (Ok (F', o', new)) /\
    exists_file F (o_name new) = false /\
    lookup F' old = Some (stack (byte_order j) gs) /\
    lookup F' (o_name new) = Some (stack (byte_order j) (map (map (new_value factor add_val)) gs)) /\
    open_file mr F' (o_name new) false d = Ok r /\
    number_of_grids F' r = Ok (Z.of_nat (List.length gs)) /\
    (forall k g, nth_error gs k = Some g ->
       exists r', get_grid mr F' r (Z.of_nat k) 4 = Ok (map (new_value factor add_val) g, r')) /\
    (forall f, f <> o_name new -> f <> get_rti_file_name (o_name new) -> lookup F' f = lookup F f).
Proof.
  intros X1 X2 X3 RI W Fit T L P NH FA FB. pose proof Fit as (Q1 & Q2 & Q3 & Q4 & Q5 & Q6).
  destruct (open_reader m F old j j update d n 4 RI eq_refl eq_refl eq_refl T Fit) as (o & O1 & O2 & O3 & O4 & O5 & O6).
  assert (OI : o_info o = j).
  { unfold open_file in O1. rewrite RI in O1. cbn [rbind] in O1. rewrite T in O1. cbn [rbind] in O1. injection O1 as <-. reflexivity. }
  set (h := map (new_value factor add_val)).
  assert (A : Forall (acceptable m (byte_order j) n 4) (map (fun g => GGrid (h g)) gs)).
  { apply Forall_map. eapply Forall_impl; [|exact P]. intros g G. apply converted_proper; assumption. }
  destruct (C41_stack_returns_what_was_written m mr F stem ext j "float32" false false d n 4 (map (fun g => GGrid (h g)) gs) X1 X2 X3 W Fit)
    as (F1 & o1 & F2 & o2 & r & name & B1 & B2 & B3 & B4 & B5 & B6 & _ & B8 & B9 & B10);
    [right; right; right; right; left; reflexivity|exact A|].
  specialize (B9 eq_refl).
  assert (NEW : old <> name) by (intros ->; unfold exists_file in B9; rewrite L in B9; discriminate B9).
  assert (NM : exists s, get_rti_file_name name = (s ++ ".rti")%string).
  { unfold get_rti_file_name. eexists. reflexivity. }
  destruct NM as [s NM].
  assert (HD : old <> get_rti_file_name name) by (rewrite NM; apply NH).
  assert (CC : forall l, map (contents n) (map (fun g => GGrid (h g)) l) = map h l) by (intro l; rewrite map_map; reflexivity).
  rewrite CC in B8. rewrite map_length in B5.
  assert (L2 : lookup F2 old = Some (stack (byte_order j) gs)) by (rewrite B10 by assumption; exact L).
  assert (L1 : lookup F1 old = Some (stack (byte_order j) gs)).
  { unfold open_new_file in B1. destruct (check_overwrite F (stem ++ "." ++ ext)) as [nm|]; [|discriminate B1].
    cbn in B1. injection B1 as <- <-. cbn in B3. subst nm. rewrite lookup_put_other by congruence.
    unfold write_info. rewrite lookup_put_other by congruence. exact L. }
  assert (RW : reader m (with_info o (o_info o1)) (byte_order j) n 4) by (destruct O2; split; assumption).
  destruct (loop_all m factor add_val (byte_order j) n gs Q6 P gs [] F1 (with_info o (o_info o1)) o1 F2 o2 eq_refl RW) as [p C].
  { cbn. rewrite O3. exact L1. } { cbn. rewrite O3, B3. congruence. } { exact B2. }
  assert (NN : o_name o2 = name).
  { clear - B2 B3. revert F1 o1 B2 B3. induction gs as [|g l IH]; intros F1 o1 B2 B3.
    - cbn in B2. injection B2 as <- <-. exact B3.
    - cbn [map add_grids] in B2. destruct (add_grid m F1 o1 (GGrid (h g)) (-1)) as [[F3 o3]|] eqn:E; [|discriminate B2].
      cbn [rbind] in B2. apply (IH F3 o3 B2). rewrite <- B3. apply (add_grid_keeps _ _ _ _ _ _ E). }
  exists o, (at_pos (with_info o (o_info o1)) p), o2, F2, r. rewrite NN.
  split; [exact O1|]. split.
  { unfold convert_units.
    assert (NP : (0 < n)%nat) by nia.
    rewrite (count_grids m F o (byte_order j) n 4 gs O2 Q4 NP P) by (rewrite O3; exact L).
    rewrite OI, B1, Nat2Z.id. cbn [List.length Z.of_nat] in C. rewrite C. reflexivity. }
  split; [exact B9|]. split; [exact L2|]. split; [exact B8|]. split; [exact B4|]. split; [exact B5|].
  split; [|exact B10]. intros k g K. specialize (B6 k (GGrid (h g))). apply B6. now rewrite (map_nth_error _ _ _ K).
Qed.
Print Assumptions C126_converted.

(** The description of the old file that the object holds is that of the new one afterwards, and says FLOAT *)
Theorem C126_info_refuted m F o name factor add_val F' o' new : convert_units m F o name factor add_val = Some (Ok (F', o', new)) ->
  o_name o' = o_name o /\ grid_file (o_info o') = o_name new /\ data_type (o_info o') = "FLOAT"%string.
Proof.
  unfold convert_units. destruct (number_of_grids F o) as [k|]; [|discriminate].
  destruct (open_new_file m F name (o_info o) "float32" false None) as [[[F1 n1]|]|] eqn:E; try discriminate. intro H.
  assert (N1 : grid_file (o_info n1) = o_name n1 /\ data_type (o_info n1) = "FLOAT"%string).
  { unfold open_new_file in E. destruct (check_overwrite F name) as [nm|]; [|discriminate E]. cbn in E. injection E as <- <-. split; reflexivity. }
  set (i := o_info n1) in *.
  assert (G : forall k idx F o n F' o' n', convert_loop m factor add_val k idx F o n = Ok (F', o', n') ->
    o_name o' = o_name o /\ o_info o' = o_info o /\ o_name n' = o_name n).
  { clear. induction k as [|k IH]; intros idx F o n F' o' n' H; [cbn in H; injection H as <- <- <-; auto|].
    cbn [convert_loop] in H. destruct (get_grid m F o idx 4) as [[g o1]|] eqn:G; [|discriminate H]. cbn [rbind fst snd] in H.
    destruct (add_grid m F n (GGrid (converted factor add_val g)) (-1)) as [[F1 n1]|] eqn:A; [|discriminate H]. cbn [rbind fst snd] in H.
    destruct (add_grid_keeps _ _ _ _ _ _ A) as [KN _]. specialize (IH _ _ _ _ _ _ _ H).
    assert (KO : o_name o1 = o_name o /\ o_info o1 = o_info o).
    { unfold get_grid in G. destruct (o_grid_size o); [|discriminate G]. destruct (o_mode o); [discriminate G| |];
        (destruct (idx * z <? 0)%Z; [discriminate G|]); 
        (match type of G with context [if ?b then _ else _] => destruct b end; [|discriminate G]);
        injection G as _ <-; split; reflexivity. }
    intuition congruence. }
  injection H as H. destruct (G _ _ _ _ _ _ _ _ H) as (G1 & G2 & G3). cbn [o_name o_info with_info] in *.
  rewrite G1, G2, G3. split; [reflexivity|exact N1].
Qed.
Print Assumptions C126_info_refuted.

(** A stack of 2-byte numbers cannot be converted: the last grid is too short for 4-byte numbers.  A stack of 4-byte
    integers is: their bytes are taken for floats *)
Definition short_stack : fs :=
  match open_new_file Little [] "h.rts" demo_i "int16" true None with
  | Some (Ok (F, o)) => match add_grids Little F o [GGrid ["AB"; "CD"]%string] with Ok (F', _) => F' | _ => [] end
  | _ => []
  end.
Definition long_stack : fs :=
  match open_new_file Little [] "h.rts" demo_i "int32" true None with
  | Some (Ok (F, o)) => match add_grids Little F o [gB] with Ok (F', _) => F' | _ => [] end
  | _ => []
  end.
Definition after (F : fs) (old name : string) : option (res (string * string)) :=
  match open_file Little F old false None with
  | Err e => Some (Err e)
  | Ok o => match convert_units Little F o name None None with
            | None => None
            | Some (Err e) => Some (Err e)
            | Some (Ok (F', _, new)) => Some (Ok (o_name new, match lookup F' (o_name new) with Some c => c | None => EmptyString end))
            end
  end.
Theorem C126_type_refuted : after short_stack "h.rts" "k.rts" = Some (Err ValueError) /\
  after long_stack "h.rts" "k.rts" = Some (Ok ("k.rts", "DCBADCBA")%string).
Proof. split; vm_compute; reflexivity. Qed.

(** the name of the file itself: the first free numbered one is used *)
Example C126_case : after demo_stack "h.rts" "h.rts" = Some (Ok ("h_1.rts", "AAAAAAAAAAAAAAAA")%string) /\
  read_info demo_stack "h.rts" <> Ok None /\ writable demo_i /\ fits demo_i 2 4 /\
  lookup demo_stack "h.rts" = Some (stack "LSB" [[cellA; cellA]; [cellA; cellA]]) /\
  float32 (Some (fun v => v)) /\ new_value (Some (fun _ => cellB)) None cellA = cellB.
Proof.
  split; [vm_compute; reflexivity|]. split; [vm_compute; discriminate|]. split; [exact demo_i_writable|].
  split; [unfold fits, valid_order; cbn; repeat (split; [lia|]); now left|].
  split; [vm_compute; reflexivity|]. split; [intros v V; exact V|reflexivity].
Qed.
