(** Lemmas about grid stacks. *)

From Coq Require Import String Ascii List ZArith NArith QArith Bool Lia.
From Verif Require Import Time_Model Time_Proofs Io_Model Io_Spec Io_Proofs Io_Props
  Rti_Model Rti_Spec Rti_Proofs Rti_Props Rts_Model Rts_Spec.
Import ListNotations.

(** ** Bytes *)

Lemma srev_acc_list s : forall acc,
  srev_acc s acc = string_of_list_ascii (rev (list_ascii_of_string s) ++ list_ascii_of_string acc).
Proof.
  induction s as [|a s IH]; intro acc; cbn [srev_acc list_ascii_of_string rev app].
  - now rewrite string_of_list_ascii_of_string.
  - rewrite IH, <- app_assoc. reflexivity.
Qed.
Lemma srev_list s : srev s = string_of_list_ascii (rev (list_ascii_of_string s)).
Proof. unfold srev. rewrite srev_acc_list. cbn. now rewrite app_nil_r. Qed.
Lemma srev_srev s : srev (srev s) = s.
Proof.
  rewrite !srev_list, list_ascii_of_string_of_list_ascii, rev_involutive.
  apply string_of_list_ascii_of_string.
Qed.
Lemma length_list_ascii s : List.length (list_ascii_of_string s) = String.length s.
Proof. induction s; cbn; congruence. Qed.
Lemma length_string_of l : String.length (string_of_list_ascii l) = List.length l.
Proof. induction l; cbn; congruence. Qed.
Lemma srev_length s : String.length (srev s) = String.length s.
Proof. now rewrite srev_list, length_string_of, rev_length, length_list_ascii. Qed.

Lemma disk_length bo v : String.length (disk bo v) = String.length v.
Proof. unfold disk. destruct (String.eqb bo "MSB"); [reflexivity|]. rewrite <- srev_list. apply srev_length. Qed.

(** What a machine writes for a number. *)
Definition out (m : machine) (bo : string) (v : cell) : string :=
  if swap_needed m bo then srev (native m v) else native m v.
Lemma out_disk m bo v : valid_order bo -> out m bo v = disk bo v.
Proof.
  intros [->| ->]; unfold out, disk; destruct m; cbn -[srev]; rewrite ?srev_srev, ?srev_list; reflexivity.
Qed.
Definition back (m : machine) (bo : string) (b : string) : cell :=
  number m (if swap_needed m bo then srev b else b).
Lemma back_disk m bo v : valid_order bo -> back m bo (disk bo v) = v.
Proof.
  intros [->| ->]; unfold back, disk; destruct m; cbn -[srev]; rewrite <- ?srev_list, ?srev_srev; reflexivity.
Qed.

(** ** Concatenation and slices *)

Lemma sconcat_app a b : sconcat (a ++ b) = (sconcat a ++ sconcat b)%string.
Proof. induction a; cbn; [reflexivity|]. now rewrite IHa, <- app_assoc_s. Qed.
Lemma stack_sconcat bo gs : stack bo gs = sconcat (map (disk bo) (concat gs)).
Proof. unfold stack. induction (concat gs); cbn; [reflexivity|]. now rewrite IHl. Qed.
Lemma stack_app bo a b : stack bo (a ++ b) = (stack bo a ++ stack bo b)%string.
Proof. now rewrite !stack_sconcat, concat_app, map_app, sconcat_app. Qed.
Lemma stack_cons bo g gs : stack bo (g :: gs) = (sconcat (map (disk bo) g) ++ stack bo gs)%string.
Proof. rewrite !stack_sconcat. cbn [concat]. now rewrite map_app, sconcat_app. Qed.

Lemma sconcat_length b l : Forall (fun v => String.length v = b) l ->
  String.length (sconcat l) = (List.length l * b)%nat.
Proof. induction 1; cbn; [reflexivity|]. rewrite length_app_s. lia. Qed.
Lemma disk_forall bo b l : Forall (fun v => String.length v = b) l ->
  Forall (fun v => String.length v = b) (map (disk bo) l).
Proof. intro H. apply Forall_map. eapply Forall_impl; [|exact H]. intros a Ha. now rewrite disk_length. Qed.
Lemma grid_bytes_length bo n b g : proper n b g -> String.length (sconcat (map (disk bo) g)) = (n * b)%nat.
Proof.
  intros [L F]. rewrite (sconcat_length b) by (now apply disk_forall). rewrite map_length. lia.
Qed.
Lemma stack_length bo n b gs : Forall (proper n b) gs ->
  String.length (stack bo gs) = (List.length gs * (n * b))%nat.
Proof.
  induction 1; [reflexivity|]. rewrite stack_cons, length_app_s, (grid_bytes_length bo n b) by assumption.
  cbn. lia.
Qed.

Lemma take_all n s : (String.length s <= n)%nat -> take n s = s.
Proof. revert n; induction s; intros [|n] H; cbn in *; try reflexivity; try lia. rewrite IHs by lia. reflexivity. Qed.
Lemma drop_all n s : (String.length s <= n)%nat -> drop n s = EmptyString.
Proof. revert n; induction s; intros [|n] H; cbn in *; try reflexivity; try lia. apply IHs; lia. Qed.

Lemma from_bytes_sconcat b l rest : (0 < b)%nat -> Forall (fun v => String.length v = b) l ->
  from_bytes (List.length l) b (sconcat l ++ rest) = l.
Proof.
  intro Hb. induction 1 as [|v l Hv _ IH]; [reflexivity|].
  cbn [List.length from_bytes sconcat]. rewrite app_assoc_s.
  replace (String.length (v ++ (sconcat l ++ rest))%string <? b)%nat with false
    by (symmetry; apply Nat.ltb_ge; rewrite length_app_s; lia).
  rewrite take_app, drop_app by exact Hv. now rewrite IH.
Qed.
Lemma from_bytes_short n b s : (0 < b)%nat -> (String.length s < n * b)%nat ->
  List.length (from_bytes n b s) <> n.
Proof.
  intro Hb. revert s. induction n as [|n IH]; intros s H; [cbn in H; lia|]; cbn [from_bytes Nat.mul] in *.
  destruct (Nat.ltb_spec (String.length s) b) as [Q|Q]; [intro E; discriminate E|]; cbn.
  intro E. injection E. apply IH.
  rewrite drop_length. lia.
Qed.

Lemma write_at_mid a old new c : String.length old = String.length new ->
  write_at (a ++ old ++ c) (String.length a) new = (a ++ new ++ c)%string.
Proof.
  intro L. unfold write_at. rewrite take_app by reflexivity.
  rewrite !length_app_s. replace (String.length a - (String.length a + (String.length old + String.length c)))%nat
    with 0%nat by lia. cbn [zero_bytes append].
  rewrite <- (app_assoc_s a old c), drop_app; [reflexivity|]. rewrite length_app_s. lia.
Qed.
Lemma write_at_end a new : write_at a (String.length a) new = (a ++ new)%string.
Proof.
  unfold write_at. rewrite take_all, drop_all by lia. rewrite Nat.sub_diag. cbn. now rewrite app_nil_s.
Qed.

(** ** Grids *)

Lemma Forall_firstn {A} (P : A -> Prop) k l : Forall P l -> Forall P (firstn k l).
Proof. intro H. rewrite <- (firstn_skipn k l) in H. now apply Forall_app in H. Qed.
Lemma Forall_skipn {A} (P : A -> Prop) k l : Forall P l -> Forall P (skipn k l).
Proof. intro H. rewrite <- (firstn_skipn k l) in H. now apply Forall_app in H. Qed.
Lemma skipn_S {A} k (l : list A) x r : skipn k l = x :: r -> skipn (S k) l = r.
Proof.
  revert l. induction k as [|k IH]; intros [|a l] H; cbn in *; try discriminate; [congruence|].
  now apply IH.
Qed.

Lemma map_repeat_eq {A B} (f : A -> B) x n : map f (repeat x n) = repeat (f x) n.
Proof. induction n; cbn; congruence. Qed.

(** Grids the writer accepts. *)
Definition accepted (swap : bool) (n b : nat) (g : grid) : Prop :=
  match g with
  | GGrid l => proper n b l
  | GScalar v => swap = false /\ String.length v = b
  | GArray0 _ => False
  end.

Lemma acceptable_accepted m bo n b g : acceptable m bo n b g -> accepted (swap_needed m bo) n b g.
Proof. destruct g; cbn; [|easy|easy]. intros [-> H]. split; [|exact H]. destruct m; reflexivity. Qed.
Lemma accepted_proper swap n b g : accepted swap n b g -> proper n b (contents n g).
Proof.
  destruct g; cbn; [|easy|easy]. intros [_ H]. split; [apply repeat_length|].
  apply Forall_forall. intros x X. apply repeat_spec in X. now subst.
Qed.

Lemma written_bytes m bo n b g :
  valid_order bo -> accepted (swap_needed m bo) n b g ->
  exists cs, match g with
             | GGrid l => Ok (map (native m) l)
             | GScalar v => if swap_needed m bo then Err ValueError else Ok (repeat (native m v) n)
             | GArray0 v => Err ValueError
             end = Ok cs /\
    sconcat (if swap_needed m bo then map srev cs else cs) = sconcat (map (disk bo) (contents n g)).
Proof.
  intros V A. destruct g as [v|v|l]; cbn in A.
  - destruct A as [S _]. rewrite S. eexists. split; [reflexivity|]. cbn [contents].
    f_equal. rewrite map_repeat_eq. f_equal. rewrite <- (out_disk m) by exact V. unfold out. now rewrite S.
  - destruct A.
  - eexists. split; [reflexivity|]. cbn [contents]. f_equal.
    rewrite (map_ext (disk bo) (out m bo)) by (intro; symmetry; now apply out_disk).
    unfold out. destruct (swap_needed m bo); [now rewrite map_map|reflexivity].
Qed.

(** The object is ready to write [n] numbers of [b] bytes per grid. *)
Record ready (m : machine) (o : rts) (bo : string) (n b : nat) (md : mode) : Prop := {
  rd_swap : o_swap o = swap_needed m bo;
  rd_n : Z.to_nat (o_nx o * o_ny o) = n;
  rd_dtype : exists d, o_dtype o = Some d;
  rd_mode : o_mode o = md }.

Definition moved (o : rts) (p : nat) : rts :=
  mkrts (o_info o) (o_swap o) (o_nx o) (o_ny o) (o_dtype o) (o_grid_size o) (o_name o)
    (o_mode o) p (S (o_index o)).

(** Replacing grid [k], or appending, given where the file position goes. *)
Lemma add_at m F o bo n b gs g idx k md :
  ready m o bo n b md -> md <> RB -> valid_order bo -> accepted (swap_needed m bo) n b g ->
  Forall (proper n b) gs -> lookup F (o_name o) = Some (stack bo gs) ->
  (k <= List.length gs)%nat ->
  (if (0 <=? idx)%Z
   then match o_grid_size o with
        | None => Err TypeError
        | Some s => if (idx * s <? 0)%Z then Err ValueError else Ok (Z.to_nat (idx * s))
        end
   else Ok (o_pos o)) = Ok (k * (n * b))%nat ->
  add_grid m F o g idx =
  Ok (put F (o_name o) (stack bo (replaced gs k (contents n g))), moved o (S k * (n * b))).
Proof.
  intros [R1 R2 [d R3] R4] NR V A P L K E. unfold add_grid. rewrite R3, E. cbn [rbind].
  rewrite R1, R2. destruct (written_bytes m bo n b g V A) as (cs & C1 & C2).
  rewrite C1. cbn [rbind]. rewrite R4, L, C2.
  assert (GL : String.length (sconcat (map (disk bo) (contents n g))) = (n * b)%nat).
  { apply grid_bytes_length. now apply accepted_proper in A. }
  assert (W : write_at (stack bo gs) (k * (n * b)) (sconcat (map (disk bo) (contents n g)))
              = stack bo (replaced gs k (contents n g))).
  { unfold replaced. rewrite <- (firstn_skipn k gs) at 1. rewrite !stack_app.
    assert (P1 : Forall (proper n b) (firstn k gs)) by (now apply Forall_firstn).
    assert (KL : (k * (n * b))%nat = String.length (stack bo (firstn k gs))).
    { rewrite (stack_length bo n b) by exact P1. rewrite firstn_length, Nat.min_l by lia. reflexivity. }
    rewrite KL. destruct (skipn k gs) as [|x r] eqn:SK.
    - replace (skipn (S k) gs) with (@nil (list cell)).
      + rewrite !stack_cons. unfold stack at 2 5. cbn [concat fold_right]. rewrite !app_nil_s. apply write_at_end.
      + symmetry. apply skipn_all2. apply (f_equal (@List.length _)) in SK. rewrite skipn_length in SK. cbn in SK. lia.
    - replace (skipn (S k) gs) with r.
      + rewrite !stack_cons. apply write_at_mid. rewrite GL. apply grid_bytes_length.
        apply (proj1 (Forall_forall _ _) P).
        rewrite <- (firstn_skipn k gs), SK. apply in_or_app. right. now left.
      + symmetry. eapply skipn_S. exact SK. }
  rewrite W, GL. unfold moved. replace (k * (n * b) + n * b)%nat with (S k * (n * b))%nat by lia.
  destruct md; [|easy|]; rewrite ?R4, ?R1, ?R3; reflexivity.
Qed.

Lemma replaced_end {A} (l : list A) x : replaced l (List.length l) x = l ++ [x].
Proof. unfold replaced. rewrite firstn_all, skipn_all2 by lia. reflexivity. Qed.
Lemma replaced_proper n b gs k g : Forall (proper n b) gs -> proper n b g -> Forall (proper n b) (replaced gs k g).
Proof.
  intros H G. unfold replaced. apply Forall_app. split; [now apply Forall_firstn|].
  apply Forall_cons; [exact G|now apply Forall_skipn].
Qed.

Lemma ready_moved m o bo n b md p : ready m o bo n b md -> ready m (moved o p) bo n b md.
Proof. intros [A B C D]. now split. Qed.

(** Appending to a new file. *)
Lemma append_all m bo n b gs : valid_order bo ->
  Forall (accepted (swap_needed m bo) n b) gs ->
  forall F o done, ready m o bo n b WB -> Forall (proper n b) done ->
  lookup F (o_name o) = Some (stack bo done) -> o_pos o = (List.length done * (n * b))%nat ->
  exists F' o', add_grids m F o gs = Ok (F', o') /\
    lookup F' (o_name o) = Some (stack bo (done ++ map (contents n) gs)) /\
    (forall f, f <> o_name o -> lookup F' f = lookup F f) /\ o_name o' = o_name o.
Proof.
  intros V A. induction A as [|g gs Ag _ IH]; intros F o done R P L E.
  - exists F, o. split; [reflexivity|]. cbn [map]. rewrite app_nil_r. auto.
  - cbn [add_grids].
    rewrite (add_at m F o bo n b done g (-1) (List.length done) WB R ltac:(discriminate) V Ag P L (le_n _))
      by (cbn [Z.leb Z.compare]; now rewrite E).
    cbn [rbind]. rewrite replaced_end.
    set (o1 := moved o (S (List.length done) * (n * b))).
    set (F1 := put F (o_name o) (stack bo (done ++ [contents n g]))).
    assert (P1 : Forall (proper n b) (done ++ [contents n g])).
    { apply Forall_app. split; [exact P|]. apply Forall_cons; [|apply Forall_nil].
      now apply accepted_proper in Ag. }
    destruct (IH F1 o1 (done ++ [contents n g])) as (F' & o' & Q1 & Q2 & Q3 & Q4).
    + now apply ready_moved.
    + exact P1.
    + unfold F1, o1, moved. cbn [o_name]. apply lookup_put_same.
    + rewrite app_length. cbn [List.length o1 moved o_pos]. f_equal. lia.
    + exists F', o'. split; [exact Q1|]. change (o_name o1) with (o_name o) in *.
      split; [|split; [|exact Q4]].
      * rewrite Q2. cbn [map]. now rewrite <- app_assoc.
      * intros f Hf. rewrite Q3 by exact Hf. unfold F1. apply lookup_put_other. congruence.
Qed.

(** ** Reading *)

Lemma drop_stack bo n b gs k : Forall (proper n b) gs -> (k <= List.length gs)%nat ->
  drop (k * (n * b)) (stack bo gs) = stack bo (skipn k gs).
Proof.
  intros P K. rewrite <- (firstn_skipn k gs) at 1. rewrite stack_app. apply drop_app.
  rewrite (stack_length bo n b) by (now apply Forall_firstn). rewrite firstn_length, Nat.min_l by lia. reflexivity.
Qed.
Lemma skipn_nth {A} (l : list A) k x : nth_error l k = Some x -> skipn k l = x :: skipn (S k) l.
Proof.
  revert l. induction k as [|k IH]; intros [|a l] H; cbn in *; try discriminate; [congruence|].
  rewrite (IH l H). reflexivity.
Qed.

Lemma items_at bo n b gs k g : (0 < b)%nat -> Forall (proper n b) gs -> nth_error gs k = Some g ->
  from_bytes n b (drop (k * (n * b)) (stack bo gs)) = map (disk bo) g.
Proof.
  intros B P N. assert (K : (k < List.length gs)%nat) by (apply nth_error_Some; congruence).
  rewrite drop_stack by (assumption || lia). rewrite (skipn_nth gs k g N), stack_cons.
  assert (G : proper n b g) by (apply nth_error_In in N; now apply (proj1 (Forall_forall _ _) P)).
  destruct G as [GL GF]. rewrite <- GL, <- (map_length (disk bo) g).
  apply from_bytes_sconcat; [exact B|now apply disk_forall].
Qed.

Lemma decode m bo g : valid_order bo ->
  map (number m) (if swap_needed m bo then map srev (map (disk bo) g) else map (disk bo) g) = g.
Proof.
  intro V. transitivity (map (fun v => back m bo (disk bo v)) g).
  - unfold back. destruct (swap_needed m bo); rewrite ?map_map; reflexivity.
  - rewrite <- (map_id g) at 2. apply map_ext. intro. now apply back_disk.
Qed.

Definition at_pos (o : rts) (p : nat) : rts :=
  mkrts (o_info o) (o_swap o) (o_nx o) (o_ny o) (o_dtype o) (o_grid_size o) (o_name o)
    (o_mode o) p (o_index o).

Record reader (m : machine) (o : rts) (bo : string) (n b : nat) : Prop := {
  rr_swap : o_swap o = swap_needed m bo;
  rr_n : Z.to_nat (o_nx o * o_ny o) = n;
  rr_size : o_grid_size o = Some (Z.of_nat (n * b));
  rr_mode : o_mode o <> WB }.

Lemma get_hit m F o bo n b gs k g : reader m o bo n b -> valid_order bo -> (0 < b)%nat ->
  Forall (proper n b) gs -> lookup F (o_name o) = Some (stack bo gs) -> nth_error gs k = Some g ->
  get_grid m F o (Z.of_nat k) b = Ok (g, at_pos o (S k * (n * b))).
Proof.
  intros [R1 R2 R3 R4] V B P L N. unfold get_grid. rewrite R3, R1, R2, L.
  assert (Z : (Z.of_nat k * Z.of_nat (n * b) <? 0)%Z = false) by (apply Z.ltb_ge; lia).
  rewrite Z. rewrite <- Nat2Z.inj_mul, Nat2Z.id.
  rewrite (items_at bo n b gs k g B P N).
  assert (G : proper n b g) by (apply nth_error_In in N; now apply (proj1 (Forall_forall _ _) P)).
  destruct G as [GL GF]. rewrite map_length, GL, Nat.eqb_refl, decode by exact V.
  unfold at_pos. replace (k * (n * b) + n * b)%nat with (S k * (n * b))%nat by lia.
  destruct (o_mode o); [easy| |]; now rewrite ?R1, ?R3.
Qed.

Lemma get_miss m F o bo n b gs k : reader m o bo n b -> (0 < b)%nat -> (0 < n)%nat ->
  Forall (proper n b) gs -> lookup F (o_name o) = Some (stack bo gs) ->
  (k < 0 \/ Z.of_nat (List.length gs) <= k)%Z ->
  get_grid m F o k b = Err ValueError.
Proof.
  intros [R1 R2 R3 R4] B N P L K. unfold get_grid. rewrite R3, R1, R2, L.
  destruct (Z.ltb_spec (k * Z.of_nat (n * b)) 0) as [H|H]; [destruct (o_mode o); easy|].
  assert (NB : (0 < n * b)%nat) by nia.
  assert (K' : (Z.of_nat (List.length gs) <= k)%Z) by nia.
  replace (Z.to_nat (k * Z.of_nat (n * b))) with (Z.to_nat k * (n * b))%nat
    by (rewrite Z2Nat.inj_mul, Nat2Z.id; lia).
  rewrite drop_all by (rewrite (stack_length bo n b) by exact P; apply Nat.mul_le_mono_r; lia).
  destruct n as [|n]; [lia|]. cbn [from_bytes String.length].
  replace (0 <? b)%nat with true by (symmetry; apply Nat.ltb_lt; lia).
  destruct (o_mode o); reflexivity.
Qed.

Lemma count_grids m F o bo n b gs : reader m o bo n b -> (0 < b)%nat -> (0 < n)%nat ->
  Forall (proper n b) gs -> lookup F (o_name o) = Some (stack bo gs) ->
  number_of_grids F o = Ok (Z.of_nat (List.length gs)).
Proof.
  intros [R1 R2 R3 R4] B N P L. unfold number_of_grids. rewrite R3, L, (stack_length bo n b) by exact P.
  assert (NB : (0 < n * b)%nat) by nia.
  destruct (Z.eqb_spec (Z.of_nat (n * b)) 0); [lia|]. f_equal.
  rewrite Nat2Z.inj_mul. apply Z.quot_mul. lia.
Qed.

(** Reading one after the other. *)
Lemma read_next_grid m bo n b g gs : valid_order bo -> (0 < b)%nat -> (0 < n)%nat ->
  Forall (proper n b) (g :: gs) ->
  read_grid m (swap_needed m bo) n b (stack bo (g :: gs)) = Ok (Some g, stack bo gs).
Proof.
  intros V B N P. assert (I := items_at bo n b (g :: gs) 0 g B P eq_refl).
  cbn [Nat.mul drop] in I. 
  assert (D : drop (n * b) (stack bo (g :: gs)) = stack bo gs).
  { assert (H := drop_stack bo n b (g :: gs) 1 P ltac:(cbn; lia)). rewrite Nat.mul_1_l in H. exact H. }
  inversion P as [|? ? [GL GF] PT]; subst.
  assert (E0 : drop 0 (stack bo (g :: gs)) = stack bo (g :: gs)) by (destruct (stack bo (g :: gs)); reflexivity).
  unfold read_grid. rewrite I, map_length, D, Nat.eqb_refl.
  assert (Dc := decode m bo g V). assert (Len := map_length (disk bo) g).
  destruct (map (disk bo) g) as [|c cs]; [cbn in Len; lia|]. now rewrite Dc.
Qed.
Lemma read_end m swap n b bo : (0 < b)%nat -> read_grid m swap n b (stack bo []) = Ok (None, stack bo []).
Proof.
  intro B. unfold read_grid, stack. cbn [concat fold_right].
  destruct n; cbn [from_bytes String.length]; [reflexivity|].
  replace (0 <? b)%nat with true by (symmetry; apply Nat.ltb_lt; lia). reflexivity.
Qed.

(** ** Opening *)

Lemma wrap32_small z : (0 <= z < 2147483648)%Z -> wrap32 z = z.
Proof. intro H. unfold wrap32. rewrite Z.mod_small by lia. lia. Qed.
