(** C125: converting a grid of flow codes, topoflow/utils/tf_utils.py. *)

From Coq Require Import String List ZArith Bool Arith Lia.
From Verif Require Import Time_Model Flowcode_Model.
Import ListNotations.
Local Open Scope Z_scope.

(** the new code: that of the last pair with the old one; zero for any other *)
Definition recode (ic oc : list Z) (c : Z) : Z :=
  match find (fun p => fst p =? c) (rev (List.combine ic oc)) with Some p => snd p | None => 0 end.
(** a code as a number of w bytes *)
Definition word (big : bool) (w : nat) (v : Z) : list Z :=
  let l := v :: repeat 0 (w - 1) in if big then rev l else l.
Definition codes_ok (ic oc : list Z) : Prop :=
  length ic = length oc /\ Forall (fun i => 0 <= i < 255) ic /\ Forall (fun o => 0 <= o < 256) oc.

Lemma entry_in i : 0 <= i < 255 -> entry i = Ok i.
Proof. intro H. unfold entry. change table_size with 255. destruct (Z.leb_spec 0 i), (Z.ltb_spec i 255); try lia. reflexivity. Qed.
Lemma fill_spec : forall ic oc t, codes_ok ic oc -> exists t', fill ic oc t = Ok t' /\
  forall j, t' j = match find (fun p => fst p =? j) (rev (List.combine ic oc)) with Some p => snd p | None => t j end.
Proof.
  induction ic as [|i ic IH]; intros [|o oc] t (L & I & O); try discriminate L.
  - exists t. split; reflexivity.
  - apply Forall_inv in I as I0. apply Forall_inv_tail in I. apply Forall_inv in O as O0. apply Forall_inv_tail in O.
    cbn [fill]. rewrite (entry_in i I0). cbn [rbind].
    destruct (IH oc (fun j => if j =? i then o mod 256 else t j)) as (t' & E & T); [repeat split; auto|].
    exists t'. split; [exact E|]. intro j. rewrite T. cbn [List.combine rev].
    assert (FA : forall (l : list (Z * Z)) x, find (fun p => fst p =? j) (l ++ [x]) =
      match find (fun p => fst p =? j) l with Some p => Some p | None => if fst x =? j then Some x else None end).
    { induction l as [|a l IHl]; intro x; cbn [app find]; [reflexivity|]. destruct (fst a =? j); [reflexivity|apply IHl]. }
    rewrite FA. destruct (find (fun p => fst p =? j) (rev (List.combine ic oc))); [reflexivity|]. cbn [fst snd].
    rewrite (Z.eqb_sym i j). destruct (j =? i); [exact (Z.mod_small o 256 O0)|reflexivity].
Qed.
Lemma low_zero w : low_bytes w 0 = repeat 0 w.
Proof. induction w as [|w IH]; [reflexivity|]. cbn [low_bytes repeat]. change (0 mod 256) with 0. change (0 / 256) with 0. rewrite IH. reflexivity. Qed.
Lemma bytes_word big w v : 0 <= v < 256 -> (1 <= w)%nat -> bytes big w v = word big w v.
Proof.
  intros V W. unfold bytes, word. destruct w as [|w]; [lia|]. cbn [low_bytes]. rewrite Z.mod_small, Z.div_small, low_zero by lia.
  replace (S w - 1)%nat with w by lia. reflexivity.
Qed.
Lemma unsigned_zero w : unsigned (repeat 0 w) = 0.
Proof. induction w as [|w IH]; [reflexivity|]. cbn [repeat unsigned]. rewrite IH. reflexivity. Qed.
Lemma word_length big w v : (1 <= w)%nat -> length (word big w v) = w.
Proof. intro W. unfold word. destruct big; rewrite ?rev_length; cbn [length]; rewrite repeat_length; lia. Qed.
Lemma number_word big w v : 0 <= v < 256 -> (1 <= w)%nat -> number big (word big w v) = v.
Proof.
  intros V W. unfold number. rewrite (word_length big w v W).
  assert (U : unsigned (if big then rev (word big w v) else word big w v) = v).
  { unfold word. destruct big; rewrite ?rev_involutive; cbn [unsigned]; rewrite unsigned_zero; lia. }
  rewrite U. destruct (Nat.ltb_spec 1 w) as [L|L]; [|reflexivity]. cbn [andb].
  assert (P : 2 ^ 15 <= 2 ^ (8 * Z.of_nat w - 1)) by (apply Z.pow_le_mono_r; lia). change (2 ^ 15) with 32768 in P.
  destruct (Z.leb_spec (2 ^ (8 * Z.of_nat w - 1)) v); [lia|reflexivity].
Qed.
Lemma fromfile_words big w : (1 <= w)%nat -> forall n items, Forall (fun c => 0 <= c < 256) items ->
  fromfile big w n (flat_map (word big w) items) = (firstn n items, flat_map (word big w) (skipn n items)).
Proof.
  intro W. induction n as [|n IH]; intros items F; [reflexivity|]. destruct items as [|c items].
  - cbn [flat_map fromfile length firstn skipn]. destruct (Nat.ltb_spec 0 w); [reflexivity|lia].
  - apply Forall_inv in F as F0. apply Forall_inv_tail in F. cbn [flat_map fromfile].
    destruct (Nat.ltb_spec (length (word big w c ++ flat_map (word big w) items)) w) as [B|_];
      [rewrite app_length, word_length in B by exact W; lia|].
    rewrite skipn_app, firstn_app, !word_length, Nat.sub_diag, firstn_O, skipn_O, app_nil_r by exact W.
    pose proof (word_length big w c W) as WL.
    rewrite (skipn_all2 (word big w c)), (firstn_all2 (word big w c)) by lia. cbn [app]. rewrite (IH items F), number_word by assumption.
    reflexivity.
Qed.
Lemma look_all_map t items : Forall (fun c => 0 <= c < 255) items -> look_all t items = Ok (map t items).
Proof.
  induction items as [|c items IH]; intro F; [reflexivity|]. apply Forall_inv in F as F0. apply Forall_inv_tail in F.
  cbn [look_all map]. unfold look. rewrite (entry_in c F0). cbn [rbind]. rewrite (IH F). reflexivity.
Qed.
Lemma weaken items : Forall (fun c => 0 <= c < 255) items -> Forall (fun c => 0 <= c < 256) items.
Proof. intro F. eapply Forall_impl; [|exact F]. cbn. intros; lia. Qed.
Lemma forall_firstn {A} (P : A -> Prop) n l : Forall P l -> Forall P (firstn n l) /\ Forall P (skipn n l).
Proof. intro F. rewrite <- (firstn_skipn n l) in F. apply Forall_app in F. exact F. Qed.
Lemma blocks_none big t w wo : (1 <= w)%nat -> forall k n out, (1 <= wo)%nat -> blocks big t wo k w n [] out = (out, None).
Proof.
  intro W. intros k n out WO. revert w n out W. induction k as [|k IH]; intros w n out W; [reflexivity|]. cbn [blocks].
  assert (E : fromfile big w n [] = ([], [])) by (destruct n; cbn [fromfile length]; [reflexivity|destruct (Nat.ltb_spec 0 w); [reflexivity|lia]]).
  rewrite E. cbn [look_all length flat_map]. rewrite app_nil_r. apply IH. exact WO.
Qed.
Lemma map_bytes big w (t : table) items : (1 <= w)%nat -> (forall j, 0 <= t j < 256) ->
  flat_map (bytes big w) (map t items) = flat_map (word big w) (map t items).
Proof. intros W T. induction items as [|c items IH]; [reflexivity|]. cbn [map flat_map]. rewrite IH, bytes_word by auto. reflexivity. Qed.
Lemma blocks_same big t w N : (1 <= w)%nat -> (1 <= N)%nat -> (forall j, 0 <= t j < 256) -> forall k items out,
  Forall (fun c => 0 <= c < 255) items -> (length items <= k * N)%nat ->
  blocks big t w k w N (flat_map (word big w) items) out = (out ++ flat_map (word big w) (map t items), None).
Proof.
  intros W HN T. induction k as [|k IH]; intros items out F L.
  - destruct items; [|cbn in L; lia]. cbn. rewrite app_nil_r. reflexivity.
  - cbn [blocks]. rewrite (fromfile_words big w W N items (weaken _ F)). destruct (forall_firstn _ N items F) as [F1 F2].
    rewrite (look_all_map t _ F1), map_length, firstn_length, map_bytes by assumption.
    destruct (Nat.le_gt_cases (length items) N) as [LE|GT].
    + rewrite skipn_all2, firstn_all2 by lia. cbn [flat_map]. apply blocks_none; exact W.
    + rewrite Nat.min_l by lia. rewrite (IH (skipn N items)); [|exact F2|rewrite skipn_length; lia].
      rewrite <- app_assoc, <- flat_map_app, <- map_app, firstn_skipn. reflexivity.
Qed.
Lemma blocks_one big t w wo N : (1 <= w)%nat -> (1 <= wo)%nat -> (forall j, 0 <= t j < 256) -> forall k items,
  Forall (fun c => 0 <= c < 255) items -> (length items <= N)%nat -> (length items <= k * N)%nat ->
  blocks big t wo k w N (flat_map (word big w) items) [] = (flat_map (word big wo) (map t items), None).
Proof.
  intros W WO T k items F L LK. destruct k as [|k].
  - destruct items; [reflexivity|cbn in LK; lia].
  - cbn [blocks]. rewrite (fromfile_words big w W N items (weaken _ F)), skipn_all2, firstn_all2 by lia.
    rewrite (look_all_map t _ F), map_bytes by assumption. cbn [flat_map app]. apply blocks_none; assumption.
Qed.
Lemma words_length big w items : (1 <= w)%nat -> length (flat_map (word big w) items) = (w * length items)%nat.
Proof. intro W. induction items as [|c items IH]; [cbn; lia|]. cbn [flat_map length]. rewrite app_length, word_length, IH by exact W. lia. Qed.
Lemma width_pos t : (1 <= width t)%nat.
Proof. unfold width. repeat match goal with |- context [if ?b then _ else _] => destruct b end; lia. Qed.

Lemma convert_spec big_endian byte_order itype otype items c1 c2 t :
  (let! _ := count_none c1 in let! _ := count_none c2 in fill (code_list c1 arc_codes) (code_list c2 rt_codes) (fun _ => 0)) = Ok t ->
  (forall j, 0 <= t j < 256) -> In byte_order ["MSB"; "LSB"]%string -> Forall (fun c => 0 <= c < 255) items ->
  width itype = width otype \/ (length items <= 1024)%nat ->
  let big := String.eqb byte_order "MSB" in
  convert_flow_grid big_endian false (flat_map (word big (width itype)) items) itype otype byte_order c1 c2 =
    (flat_map (word big (width otype)) (map t items),
     if (Z.of_nat (width itype * length items)) mod 1024 =? 0 then None else Some NameError).
Proof.
  intros E T B F W big. unfold convert_flow_grid. rewrite E.
  assert (BG : xorb (not_same_byte_order big_endian byte_order) big_endian = big).
  { unfold big. destruct B as [<-|[<-|[]]]; destruct big_endian; reflexivity. }
  rewrite BG, words_length by apply width_pos. change blocksize with 1024. unfold n_passes. change blocksize with 1024.
  set (fs := Z.of_nat (width itype * length items)). change (Z.to_nat 1024) with 1024%nat.
  assert (LK : (length items <= Z.to_nat ((fs + 1024 - 1) / 1024) * 1024)%nat).
  { pose proof (width_pos itype) as WP. assert (FS : Z.of_nat (length items) <= fs) by (unfold fs; nia).
    pose proof (Z.div_mod (fs + 1024 - 1) 1024 ltac:(lia)) as D. pose proof (Z.mod_pos_bound (fs + 1024 - 1) 1024 ltac:(lia)) as M.
    assert (0 <= (fs + 1024 - 1) / 1024) by (apply Z.div_pos; lia). lia. }
  destruct W as [W|W].
  - rewrite <- W. rewrite (blocks_same big t (width itype) 1024); [reflexivity|apply width_pos|lia|exact T|exact F|exact LK].
  - rewrite (blocks_one big t (width itype) (width otype) 1024); [reflexivity|apply width_pos|apply width_pos|exact T|exact F|exact W|exact LK].
Qed.
Lemma recode_range ic oc c : codes_ok ic oc -> 0 <= recode ic oc c < 256.
Proof.
  intros (_ & _ & O). unfold recode. destruct (find _ _) as [[a b]|] eqn:E; [|lia]. apply find_some in E as [E _].
  apply in_rev, in_combine_r in E. rewrite Forall_forall in O. apply (O b E).
Qed.

(** every code of the grid is replaced, in order, where the two types have the same number of bytes or the grid has at
    most 1024 cells; the call itself ends well only where the size of the file is a multiple of 1024 *)
Theorem C125_recode big_endian byte_order itype otype items ic oc :
  codes_ok ic oc -> ic <> [] -> In byte_order ["MSB"; "LSB"]%string -> Forall (fun c => 0 <= c < 255) items ->
  width itype = width otype \/ (length items <= 1024)%nat ->
  let big := String.eqb byte_order "MSB" in
  convert_flow_grid big_endian false (flat_map (word big (width itype)) items) itype otype byte_order (AsList ic) (AsList oc) =
    (flat_map (word big (width otype)) (map (recode ic oc) items),
     if (Z.of_nat (width itype * length items)) mod 1024 =? 0 then None else Some NameError).
Proof.
  intros C NE B F W big. destruct (fill_spec ic oc (fun _ => 0) C) as (t & E & T).
  assert (M : map (recode ic oc) items = map t items) by (apply map_ext; intro c; rewrite T; reflexivity). rewrite M.
  apply convert_spec; try assumption.
  - cbn [count_none rbind code_list]. destruct ic; [contradiction|]. destruct oc; [destruct C as (L & _); discriminate L|]. exact E.
  - intro j. rewrite T. apply (recode_range ic oc j C).
Qed.
Print Assumptions C125_recode.

(** the codes of ARC/INFO become those of RiverTools when none are given, anything else is zero *)
Definition arc_to_rt (c : Z) : Z :=
  match c with 128 => 1 | 1 => 2 | 2 => 4 | 4 => 8 | 8 => 16 | 16 => 32 | 32 => 64 | 64 => 128 | _ => 0 end.
Lemma arc_spec c : recode arc_codes rt_codes c = arc_to_rt c.
Proof.
  unfold recode, arc_codes, rt_codes. cbn [List.combine rev app find fst snd].
  repeat match goal with |- context [?k =? c] => destruct (Z.eqb_spec k c) as [<-|]; [reflexivity|] end.
  unfold arc_to_rt. repeat match goal with |- context [match ?p with _ => _ end] => is_var p; destruct p; try congruence end; reflexivity.
Qed.
Theorem C125_default big_endian byte_order itype otype items :
  In byte_order ["MSB"; "LSB"]%string -> Forall (fun c => 0 <= c < 255) items ->
  width itype = width otype \/ (length items <= 1024)%nat ->
  let big := String.eqb byte_order "MSB" in
  fst (convert_flow_grid big_endian false (flat_map (word big (width itype)) items) itype otype byte_order NoCodes NoCodes) =
    flat_map (word big (width otype)) (map arc_to_rt items).
Proof.
  intros B F W big. assert (C : codes_ok arc_codes rt_codes) by (split; [reflexivity|split; repeat constructor; lia]).
  destruct (fill_spec arc_codes rt_codes (fun _ => 0) C) as (t & E & T).
  assert (M : map arc_to_rt items = map t items) by (apply map_ext; intro c; rewrite T; symmetry; apply arc_spec). rewrite M.
  assert (R : forall j, 0 <= t j < 256) by (intro j; rewrite T; apply (recode_range arc_codes rt_codes j C)).
  pose proof (convert_spec big_endian byte_order itype otype items NoCodes NoCodes t E R B F W) as S. cbv zeta in S. fold big in S.
  rewrite S. reflexivity.
Qed.
Print Assumptions C125_default.

(** the same with the sizes of the three types spelled out *)
Definition sizes : list (string * nat) := [("BYTE", 1); ("INTEGER", 2); ("LONG", 4)]%string%nat.
Theorem C125_types big_endian byte_order itype iw otype ow items ic oc :
  In (itype, iw) sizes -> In (otype, ow) sizes ->
  codes_ok ic oc -> ic <> [] -> In byte_order ["MSB"; "LSB"]%string -> Forall (fun c => 0 <= c < 255) items ->
  itype = otype \/ (length items <= 1024)%nat ->
  let big := String.eqb byte_order "MSB" in
  convert_flow_grid big_endian false (flat_map (word big iw) items) itype otype byte_order (AsList ic) (AsList oc) =
    (flat_map (word big ow) (map (recode ic oc) items),
     if (Z.of_nat (iw * length items)) mod 1024 =? 0 then None else Some NameError).
Proof.
  intros I O C N B F W big.
  assert (S : forall t w, In (t, w) sizes -> width t = w).
  { intros t w [E|[E|[E|[]]]]; injection E as <- <-; reflexivity. }
  rewrite <- (S _ _ I), <- (S _ _ O). apply C125_recode; auto. destruct W as [->|W]; auto.
Qed.
Print Assumptions C125_types.
Example C125_types_case :
  convert_flow_grid false false [0;0;0;1; 0;0;0;64] "LONG" "LONG" "MSB" (AsList [1; 64]) (AsList [2; 128]) =
    ([0;0;0;2; 0;0;0;128], Some NameError).
Proof. vm_compute. reflexivity. Qed.

(** codes given as arrays, and the same name for both files: an error, and nothing is written *)
Theorem C125_array_refuted big_endian same file itype otype byte_order l c : (2 <= length l)%nat ->
  convert_flow_grid big_endian same file itype otype byte_order (AsArray l) c = ([], Some ValueError).
Proof. intro L. unfold convert_flow_grid. cbn [count_none]. destruct (Nat.leb_spec (length l) 1); [lia|reflexivity]. Qed.
Print Assumptions C125_array_refuted.
Theorem C125_same_name big_endian file itype otype byte_order ic oc :
  convert_flow_grid big_endian true file itype otype byte_order (AsList ic) (AsList oc) = ([], Some NameError).
Proof. reflexivity. Qed.

(** a grid of 40 by 50 bytes is written in full and then the call fails *)
Theorem C125_rest_refuted : exists items, length items = 2000%nat /\
  convert_flow_grid false false items "BYTE" "BYTE" "LSB" NoCodes NoCodes = (map arc_to_rt items, Some NameError).
Proof. exists (repeat 2 2000). split; [apply repeat_length|]. vm_compute. reflexivity. Qed.

(** bytes to integers: the second block of a larger grid is read as integers.  Of 2048 cells without a direction 1536
    are written, and 2048 cells that drain to the east are an error *)
Theorem C125_width_refuted :
  convert_flow_grid false false (repeat 0 2048) "BYTE" "INTEGER" "LSB" NoCodes NoCodes = (repeat 0 (2 * 1536), None) /\
  convert_flow_grid false false (repeat 1 2048) "BYTE" "INTEGER" "LSB" NoCodes NoCodes =
    (flat_map (word false 2) (repeat 2 1024), Some IndexError).
Proof. split; vm_compute; reflexivity. Qed.

(** the byte 255 is not mapped to zero as the notes say: it is past the end of the table; and -1 is taken for 254 *)
Lemma look_all_bad t l : In 255 l -> Forall (fun c => 0 <= c < 256) l -> look_all t l = Err IndexError.
Proof.
  induction l as [|c l IH]; intros I F; [destruct I|]. apply Forall_inv in F as F0. apply Forall_inv_tail in F. cbn [look_all]. unfold look.
  destruct (Z.eq_dec c 255) as [->|N]; [reflexivity|]. rewrite (entry_in c) by lia. cbn [rbind].
  rewrite IH; [reflexivity|destruct I; [congruence|assumption]|exact F].
Qed.
Theorem C125_255_refuted big_endian byte_order otype file : Forall (fun c => 0 <= c < 256) file -> In 255 (firstn 1024 file) ->
  convert_flow_grid big_endian false file "BYTE" otype byte_order NoCodes NoCodes = ([], Some IndexError).
Proof.
  intros F I. unfold convert_flow_grid. cbn [count_none rbind code_list].
  assert (C : codes_ok arc_codes rt_codes) by (split; [reflexivity|split; repeat constructor; lia]).
  destruct (fill_spec arc_codes rt_codes (fun _ => 0) C) as (t & E & T). rewrite E.
  set (big := xorb _ _). change (width "BYTE") with 1%nat. change (Z.to_nat blocksize) with 1024%nat.
  destruct file as [|b file]; [rewrite firstn_nil in I; destruct I|].
  assert (K : exists k, Z.to_nat (n_passes (Z.of_nat (length (b :: file)))) = S k).
  { unfold n_passes. change blocksize with 1024. cbn [length].
    assert (1 <= (Z.of_nat (S (length file)) + 1024 - 1) / 1024) by (apply Z.div_le_lower_bound; lia).
    exists (Z.to_nat ((Z.of_nat (S (length file)) + 1024 - 1) / 1024) - 1)%nat. lia. }
  destruct K as [k ->]. cbn [blocks].
  assert (FW : forall l, flat_map (word big 1) l = l).
  { induction l as [|x l IH]; [reflexivity|]. cbn [flat_map]. rewrite IH. unfold word. destruct big; reflexivity. }
  pose proof (fromfile_words big 1 ltac:(lia) 1024 (b :: file) F) as R. rewrite !FW in R. rewrite R.
  rewrite look_all_bad; [reflexivity|exact I|apply forall_firstn, F].
Qed.
Print Assumptions C125_255_refuted.
Theorem C125_negative_refuted :
  convert_flow_grid false false (repeat 255 1024) "INTEGER" "BYTE" "LSB" (AsList [254]) (AsList [9]) = (repeat 9 512, None).
Proof. vm_compute. reflexivity. Qed.

Example C125_case : codes_ok [1; 2; 3; 4; 6; 7; 8; 9] [16; 8; 4; 32; 2; 64; 128; 1] /\
  width "INTEGER" = width "INTEGER" /\
  convert_flow_grid true false (flat_map (word true 2) (concat (repeat [6; 2; 5; 9] 128))) "INTEGER" "INTEGER" "MSB"
    (AsList [1; 2; 3; 4; 6; 7; 8; 9]) (AsList [16; 8; 4; 32; 2; 64; 128; 1]) =
  (flat_map (word true 2) (concat (repeat [2; 8; 0; 1] 128)), None).
Proof. split; [split; [reflexivity|split; repeat constructor; lia]|]. split; [reflexivity|]. vm_compute. reflexivity. Qed.
