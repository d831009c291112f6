(** C124: the table of basins of the hydrologic landscape regions, topoflow/utils/ngen/hlr_utils.py. *)

From Coq Require Import String List ZArith QArith Qround Bool Arith Lia Lqa Sorting.Permutation.
From Verif Require Import Time_Model Hlr_Model.
Import ListNotations.
Local Open Scope Z_scope.

(** what the table is about: a basin with no code or of one cell is left out; one that is not in the DEM has no
    outlet; the others are kept where their outlet is sure *)
Definition no_code (f : feature) : bool := f_code f =? 0.
Definition single (old : bool) (f : feature) : bool := if old then f_area f =? 1000000 else f_count f =? 1.
Definition left_out (old : bool) (f : feature) : bool := no_code f || single old f.
Definition off_dem (old with_outlet : bool) (f : feature) : bool :=
  negb (left_out old f) && with_outlet && negb (f_inside f).
Definition judged (old with_outlet : bool) (f : feature) : bool :=
  negb (left_out old f) && negb (off_dem old with_outlet f).
Definition kept (old with_outlet : bool) (f : feature) : bool :=
  judged old with_outlet f && (0 <? f_code f) && (1 <? f_count f) &&
  (negb with_outlet || ((f_zmin f =? f_minele f) && f_one f)).
Definition number {A} (p : A -> bool) (l : list A) : nat := length (filter p l).

Lemma number_snoc {A} (p : A -> bool) l x : number p (l ++ [x]) = (if p x then S (number p l) else number p l).
Proof.
  unfold number. rewrite filter_app, app_length. cbn [filter]. destruct (p x); cbn [length]; lia.
Qed.
Lemma filter_snoc {A} (p : A -> bool) l x : filter p (l ++ [x]) = filter p l ++ (if p x then [x] else []).
Proof. rewrite filter_app. cbn [filter]. destruct (p x); reflexivity. Qed.

Ltac fin :=
  cbn; repeat match goal with |- _ /\ _ => split end; try (eexists; split; [reflexivity|]); intros;
  rewrite ?app_nil_r, ?andb_false_r; try reflexivity;
  repeat match goal with |- context [f_zmin ?f =? f_minele ?f] => destruct (f_zmin f =? f_minele f); cbn end;
  repeat match goal with |- context [f_one ?f] => destruct (f_one f); cbn end; reflexivity.
(** one feature *)
Lemma visit_fields old wo f s s' b : visit old wo f s = Ok (s', b) ->
  exists v, place 48000 (f_value f) = Ok v /\
  total s' = S (total s) /\
  unique s' = (if (val_histogram s v =? 0)%nat then S (unique s) else unique s) /\
  excluded s' = (if left_out old f then S (excluded s) else excluded s) /\
  saved s' = (if kept old wo f then S (saved s) else saved s) /\
  one_cell s' = (if single old f then S (one_cell s) else one_cell s) /\
  code_zero s' = (if no_code f then S (code_zero s) else code_zero s) /\
  zmin_match s' = (if wo && judged old wo f && (f_zmin f =? f_minele f) then S (zmin_match s) else zmin_match s) /\
  one_zmin s' = (if wo && judged old wo f && f_one f then S (one_zmin s) else one_zmin s) /\
  one_zmin_match s' = (if wo && judged old wo f && ((f_zmin f =? f_minele f) && f_one f)
                       then S (one_zmin_match s) else one_zmin_match s) /\
  not_in_dem s' = (if off_dem old wo f then S (not_in_dem s) else not_in_dem s) /\
  not_in_dem_vals s' = not_in_dem_vals s ++ (if off_dem old wo f then [f_value f] else []) /\
  (forall j, val_histogram s' j = if j =? v then S (val_histogram s j) else val_histogram s j) /\
  (forall j, hlr_zmin_match s' j = (wo && judged old wo f && (f_zmin f =? f_minele f) && (j =? v)) || hlr_zmin_match s j) /\
  (if kept old wo f then exists c, place 21 (f_code f) = Ok c /\
     forall j, hlr_histogram s' j = if j =? c then S (hlr_histogram s j) else hlr_histogram s j
   else forall j, hlr_histogram s' j = hlr_histogram s j) /\
  headers s' = (if (total s =? 0)%nat then S (headers s) else headers s) /\
  rows s' = rows s ++ (if kept old wo f then [f] else []) /\
  b = judged old wo f.
Proof.
  unfold visit, count. change max_val with 48000. destruct (place 48000 (f_value f)) as [v|] eqn:V; [|discriminate].
  cbn [rbind]. intro H. exists v. split; [reflexivity|].
  unfold kept, judged, off_dem, left_out, no_code, single.
  unfold exclude, is_one_cell, save_info, good_info, good_outlet in H.
  destruct (f_code f =? 0) eqn:C0; cbn [orb negb andb] in *; [injection H as <- <-; fin|].
  destruct (if old then f_area f =? 1000000 else f_count f =? 1) eqn:C1; cbn [orb negb andb] in *;
    [injection H as <- <-; fin|].
  destruct wo; cbn [andb negb orb] in *.
  - destruct (f_inside f); cbn [andb negb orb] in *; [|injection H as <- <-; fin].
    unfold outlet_counts in H. change max_val with 48000 in H. rewrite V in H. cbn [rbind] in H.
    destruct ((0 <? f_code f) && (1 <? f_count f) && ((f_zmin f =? f_minele f) && f_one f)) eqn:K;
      [|cbn [rbind] in H; injection H as <- <-; fin].
    unfold save in H. change n_codes with 21 in H. destruct (place 21 (f_code f)) as [c|] eqn:PC; [|discriminate].
    cbn [rbind] in H. injection H as <- <-. fin.
  - cbn [rbind] in H.
    destruct ((0 <? f_code f) && (1 <? f_count f)) eqn:K; cbn [rbind andb orb negb] in *; [|injection H as <- <-; fin].
    unfold save in H. change n_codes with 21 in H. destruct (place 21 (f_code f)) as [c|] eqn:PC; [|discriminate].
    cbn [rbind] in H. injection H as <- <-. fin.
Qed.

(** when the loop ends: at the end of the layer, or after a basin that was judged, once nb_max are counted *)
Definition ends (old wo : bool) (nb : nat) (l : list feature) (k : nat) : Prop :=
  (k <= length l)%nat /\
  (forall j f, (S j < k)%nat -> nth_error l j = Some f -> judged old wo f = true -> (S j < nb)%nat) /\
  ((k < length l)%nat -> exists j f, k = S j /\ nth_error l j = Some f /\ judged old wo f = true /\ (nb <= k)%nat).

Lemma loop_inv old wo nb (P : list feature -> state -> Prop) :
  (forall done f s s' b, P done s -> total s = length done -> visit old wo f s = Ok (s', b) -> P (done ++ [f]) s') ->
  forall l done s s', P done s -> total s = length done -> loop old wo nb l s = Ok s' ->
  exists k, total s' = (length done + k)%nat /\ P (done ++ firstn k l) s' /\
    (k <= length l)%nat /\
    (forall j f, (S j < k)%nat -> nth_error l j = Some f -> judged old wo f = true -> (length done + S j < nb)%nat) /\
    ((k < length l)%nat -> exists j f, k = S j /\ nth_error l j = Some f /\ judged old wo f = true /\ (nb <= length done + k)%nat).
Proof.
  intro STEP. induction l as [|f l IH]; intros done s s' HP HT H.
  - injection H as <-. exists 0%nat. cbn [firstn length]. rewrite app_nil_r. repeat split; try lia. exact HP.
  - cbn [loop] in H. destruct (visit old wo f s) as [[s1 b]|] eqn:V; [|discriminate]. cbn [rbind] in H.
    pose proof (STEP _ _ _ _ _ HP HT V) as P1. destruct (visit_fields _ _ _ _ _ _ V) as (v & _ & T & _ & _ & _ & _ & _ & _ & _ & _ & _ & _ & _ & _ & _ & _ & _ & ->).
    destruct (judged old wo f && (nb <=? total s1)%nat) eqn:E.
    + injection H as <-. apply andb_true_iff in E as [J E]. apply Nat.leb_le in E. exists 1%nat. cbn [firstn length].
      split; [lia|]. split; [exact P1|]. split; [lia|]. split; [intros; lia|]. intros _. exists 0%nat, f.
      repeat split; [exact J|lia].
    + destruct (IH (done ++ [f]) s1 s' P1) as (k & A & B & C & D & G); [rewrite app_length; cbn; lia|exact H|].
      rewrite app_length in *. cbn [length] in *. exists (S k). split; [lia|].
      split; [cbn [firstn]; rewrite <- app_assoc in B; exact B|]. split; [lia|]. split.
      * intros [|j] g HJ N JG; cbn [nth_error] in N.
        -- injection N as ->. rewrite JG in E. cbn [andb] in E. apply Nat.leb_gt in E. lia.
        -- specialize (D j g ltac:(lia) N JG). lia.
      * intro HK. destruct G as (j & g & -> & N & JG & L); [lia|]. exists (S j), g. repeat split; [exact N|exact JG|lia].
Qed.
Lemma create_inv old wo nb (P : list feature -> state -> Prop) l s :
  P [] state0 ->
  (forall done f s s' b, P done s -> total s = length done -> visit old wo f s = Ok (s', b) -> P (done ++ [f]) s') ->
  create_tsv old wo nb l = Ok s -> P (firstn (total s) l) s /\ ends old wo nb l (total s).
Proof.
  intros P0 STEP H. destruct (loop_inv old wo nb P STEP l [] state0 s P0 eq_refl H) as (k & T & A & B).
  cbn [length] in *. rewrite Nat.add_0_l in T. subst k. split; [exact A|]. destruct B as (B & C & D). repeat split; assumption.
Qed.

(** which features were looked at, and the lines that were written *)
Theorem C124_rows old wo nb l s : create_tsv old wo nb l = Ok s ->
  ends old wo nb l (total s) /\ rows s = filter (kept old wo) (firstn (total s) l) /\
  headers s = (match l with [] => 0 | _ => 1 end)%nat.
Proof.
  intro H.
  destruct (create_inv old wo nb (fun d s => rows s = filter (kept old wo) d /\ headers s = (match d with [] => 0 | _ => 1 end)%nat) l s) as [[A C] B];
    [split; reflexivity| |exact H|].
  - intros d f s1 s2 b [P1 P2] T V.
    destruct (visit_fields _ _ _ _ _ _ V) as (v & _ & _ & _ & _ & _ & _ & _ & _ & _ & _ & _ & _ & _ & _ & _ & HH & HR & _).
    rewrite filter_snoc, HR, P1. split; [reflexivity|]. rewrite HH, P2, T. destruct d; reflexivity.
  - split; [exact B|]. split; [exact A|]. rewrite C. destruct l as [|f l]; [destruct (total s); reflexivity|].
    destruct B as (_ & _ & B). destruct (total s) as [|k]; [|reflexivity].
    destruct B as (j & g & E & _); [cbn; lia|discriminate].
Qed.
Print Assumptions C124_rows.

(** the numbers that are printed at the end, each one counted from the features that were looked at *)
Theorem C124_counts old wo nb l s : create_tsv old wo nb l = Ok s -> let looked := firstn (total s) l in
  length looked = total s /\
  excluded s = number (left_out old) looked /\
  code_zero s = number no_code looked /\
  one_cell s = number (single old) looked /\
  saved s = number (kept old wo) looked /\ saved s = length (rows s) /\
  not_in_dem s = number (off_dem old wo) looked /\
  not_in_dem_vals s = map f_value (filter (off_dem old wo) looked) /\
  zmin_match s = number (fun f => wo && judged old wo f && (f_zmin f =? f_minele f)) looked /\
  one_zmin s = number (fun f => wo && judged old wo f && f_one f) looked /\
  one_zmin_match s = number (fun f => wo && judged old wo f && ((f_zmin f =? f_minele f) && f_one f)) looked.
Proof.
  intros H looked.
  assert (LEN : length looked = total s).
  { destruct (C124_rows _ _ _ _ _ H) as ((A & _) & _). unfold looked. rewrite firstn_length. lia. }
  split; [exact LEN|].
  destruct (create_inv old wo nb (fun d s => excluded s = number (left_out old) d /\ code_zero s = number no_code d /\
    one_cell s = number (single old) d /\ saved s = number (kept old wo) d /\ saved s = length (rows s) /\
    not_in_dem s = number (off_dem old wo) d /\ not_in_dem_vals s = map f_value (filter (off_dem old wo) d) /\
    zmin_match s = number (fun f => wo && judged old wo f && (f_zmin f =? f_minele f)) d /\
    one_zmin s = number (fun f => wo && judged old wo f && f_one f) d /\
    one_zmin_match s = number (fun f => wo && judged old wo f && ((f_zmin f =? f_minele f) && f_one f)) d) l s) as [A _];
    [repeat split| |exact H|exact A].
  intros d f s1 s2 b (P1 & P2 & P3 & P4 & P5 & P6 & P7 & P8 & P9 & P10) T V.
  destruct (visit_fields _ _ _ _ _ _ V) as (v & _ & _ & _ & E1 & E2 & E3 & E4 & E5 & E6 & E7 & E8 & E9 & _ & _ & _ & _ & E10 & _).
  rewrite !number_snoc, filter_snoc, map_app. rewrite <- P1, <- P2, <- P3, <- P4, <- P6, <- P7, <- P8, <- P9, <- P10.
  rewrite E1, E2, E3, E4, E5, E6, E7, E8, E9, E10. repeat (split; [reflexivity || idtac|]); try reflexivity.
  - rewrite app_length, <- P5. destruct (kept old wo f); cbn [length]; lia.
  - destruct (off_dem old wo f); reflexivity.
Qed.
Print Assumptions C124_counts.

(** every feature is in one of the three lots: left out, not in the DEM, judged; all that are saved were judged *)
Lemma lots old wo (d : list feature) :
  (number (left_out old) d + number (off_dem old wo) d + number (judged old wo) d = length d /\
   number (kept old wo) d <= number (judged old wo) d)%nat.
Proof.
  induction d as [|f d [IH1 IH2]] using rev_ind; [split; reflexivity|]. rewrite !number_snoc, app_length. cbn [length].
  assert (P : kept old wo f = true -> judged old wo f = true).
  { unfold kept. intro H. do 3 apply andb_true_iff in H as [H ?]. exact H. }
  assert (O : match left_out old f, off_dem old wo f, judged old wo f with
              | true, false, false | false, true, false | false, false, true => True | _, _, _ => False end).
  { unfold judged, off_dem. destruct (left_out old f), wo, (f_inside f); exact I. }
  destruct (left_out old f), (off_dem old wo f), (judged old wo f); try contradiction;
    destruct (kept old wo f); try discriminate (P eq_refl); lia.
Qed.
Theorem C124_total old wo nb l s : create_tsv old wo nb l = Ok s ->
  (total s = excluded s + not_in_dem s + number (judged old wo) (firstn (total s) l) /\
   excluded s <= code_zero s + one_cell s /\ saved s + excluded s + not_in_dem s <= total s)%nat.
Proof.
  intro H. destruct (C124_counts _ _ _ _ _ H) as (L & E1 & E2 & E3 & E4 & _ & E5 & _). cbv zeta in *.
  destruct (lots old wo (firstn (total s) l)) as [A B].
  assert (C : (number (left_out old) (firstn (total s) l) <= number no_code (firstn (total s) l) + number (single old) (firstn (total s) l))%nat).
  { generalize (firstn (total s) l). intro d. induction d as [|g d IH] using rev_ind; [reflexivity|]. rewrite !number_snoc.
    assert (O : left_out old g = no_code g || single old g) by reflexivity. rewrite O.
    destruct (no_code g), (single old g); cbn [orb]; lia. }
  lia.
Qed.
Print Assumptions C124_total.

(** VALUE is the number of a basin.  With the numbers there are, the count of unique basins is that of the different
    numbers, and the counts of the codes are those of the lines *)
Definition sound (f : feature) : Prop := 0 <= f_value f < 48000 /\ 0 <= f_code f <= 20.
Lemma place_in n i : 0 <= i < n -> place n i = Ok i.
Proof. intro H. unfold place. destruct (Z.leb_spec 0 i), (Z.ltb_spec i n); try lia. reflexivity. Qed.
Lemma nodup_snoc (l : list Z) x :
  length (nodup Z.eq_dec (l ++ [x])) = (if in_dec Z.eq_dec x l then length (nodup Z.eq_dec l) else S (length (nodup Z.eq_dec l))).
Proof.
  assert (P : Permutation (nodup Z.eq_dec (l ++ [x])) (nodup Z.eq_dec (x :: l))).
  { apply NoDup_Permutation; try apply NoDup_nodup. intro y. rewrite !nodup_In, in_app_iff. cbn [In]. tauto. }
  rewrite (Permutation_length P). cbn [nodup]. destruct (in_dec Z.eq_dec x l); reflexivity.
Qed.
Theorem C124_unique old wo nb l s : create_tsv old wo nb l = Ok s -> Forall sound l -> let looked := firstn (total s) l in
  unique s = length (nodup Z.eq_dec (map f_value looked)) /\
  (forall v, val_histogram s v = count_occ Z.eq_dec (map f_value looked) v) /\
  (forall c, hlr_histogram s c = number (fun f => f_code f =? c) (rows s)) /\
  (forall v, hlr_zmin_match s v = true <->
     exists f, In f looked /\ f_value f = v /\ wo = true /\ judged old wo f = true /\ f_zmin f = f_minele f).
Proof.
  intros H F looked.
  destruct (create_inv old wo nb (fun d s => Forall sound d ->
    unique s = length (nodup Z.eq_dec (map f_value d)) /\
    (forall v, val_histogram s v = count_occ Z.eq_dec (map f_value d) v) /\
    (forall c, hlr_histogram s c = number (fun f => f_code f =? c) (rows s)) /\
    (forall v, hlr_zmin_match s v = true <->
       exists f, In f d /\ f_value f = v /\ wo = true /\ judged old wo f = true /\ f_zmin f = f_minele f)) l s) as [A _];
    [| |exact H|].
  - intros _. repeat split; try discriminate. intros (f & [] & _).
  - intros d f s1 s2 b P T V FD. apply Forall_app in FD as [FD FF]. apply Forall_inv in FF as [SV SC].
    destruct (P FD) as (P1 & P2 & P3 & P4). clear P.
    destruct (visit_fields _ _ _ _ _ _ V) as (v & PV & _ & E1 & _ & _ & _ & _ & _ & _ & _ & _ & _ & E2 & E3 & E4 & _ & E5 & _).
    rewrite (place_in _ _ SV) in PV. injection PV as <-. rewrite map_app. cbn [map]. split; [|split; [|split]].
    + rewrite nodup_snoc, E1, P2, <- P1. destruct (in_dec Z.eq_dec (f_value f) (map f_value d)) as [I|I].
      * apply (count_occ_In Z.eq_dec) in I. destruct (Nat.eqb_spec (count_occ Z.eq_dec (map f_value d) (f_value f)) 0); [lia|reflexivity].
      * apply (count_occ_not_In Z.eq_dec) in I. rewrite I. reflexivity.
    + intro v. rewrite E2, count_occ_app, P2. cbn [count_occ]. destruct (Z.eqb_spec v (f_value f)), (Z.eq_dec (f_value f) v); try congruence; lia.
    + intro c. rewrite E5. destruct (kept old wo f) eqn:K.
      * destruct E4 as (c' & PC & E4). rewrite (place_in 21 (f_code f)) in PC by lia. injection PC as <-.
        rewrite number_snoc, E4, P3, (Z.eqb_sym (f_code f)). reflexivity.
      * rewrite E4, app_nil_r. apply P3.
    + intro v. rewrite E3, orb_true_iff, P4. split.
      * intros [X|(g & I & R)]; [|exists g; split; [apply in_or_app; left; exact I|exact R]].
        apply andb_true_iff in X as [X X4]. apply andb_true_iff in X as [X X3]. apply andb_true_iff in X as [X1 X2].
        apply Z.eqb_eq in X3, X4. exists f. split; [apply in_or_app; right; left; reflexivity|]. repeat split; congruence.
      * intros (g & I & <- & W & J & Z). apply in_app_or in I as [I|[<-|[]]].
        -- right. exists g. repeat split; assumption.
        -- left. rewrite W in *. rewrite J, Z, !Z.eqb_refl. reflexivity.
  - apply A. rewrite Forall_forall in F |- *. intros f I. apply F. rewrite <- (firstn_skipn (total s) l). apply in_or_app. left. exact I.
Qed.
Print Assumptions C124_unique.

(** the table is made for all such layers *)
Theorem C124_ok old wo nb l : Forall sound l -> exists s, create_tsv old wo nb l = Ok s.
Proof.
  unfold create_tsv. generalize state0. induction l as [|f l IH]; intros s F; [exists s; reflexivity|].
  apply Forall_inv in F as S0. apply Forall_inv_tail in F. destruct S0 as [SV SC]. cbn [loop].
  assert (V : exists r, visit old wo f s = Ok r).
  { unfold visit, count, outlet_counts, save. change max_val with 48000. change n_codes with 21.
    rewrite (place_in _ _ SV), (place_in 21 (f_code f)) by lia. cbn [rbind].
    destruct (exclude old f); [eexists; reflexivity|]. destruct wo; cbn [andb].
    - destruct (negb (f_inside f)); [eexists; reflexivity|]. cbn [rbind]. destruct (save_info true f); eexists; reflexivity.
    - cbn [rbind]. destruct (save_info false f); eexists; reflexivity. }
  destruct V as [[s1 b] V]. rewrite V. cbn [rbind]. destruct (b && (nb <=? total s1)%nat); [exists s1; reflexivity|apply IH, F].
Qed.
Print Assumptions C124_ok.

(** a number seen before is not skipped, although the report says so: its basin is written again.  nb_max is not a
    limit: features left out do not end the loop.  A code above 20 ends the work with an error *)
Definition basin (value count code zmin : Z) : feature :=
  {| f_value := value; f_count := count; f_minele := 12; f_code := code; f_area := 1000000 * count;
     f_inside := true; f_zmin := zmin; f_one := true |}.
Lemma of_ok {A} (p : state -> A) r s (v d : A) : r = Ok s -> match r with Ok x => p x | Err _ => d end = v -> p s = v.
Proof. intros -> H. exact H. Qed.
Theorem C124_repeated_refuted : exists l s f g, Forall sound l /\ create_tsv false true 50 l = Ok s /\
  rows s = [f; g] /\ f_value f = f_value g /\ unique s = 1%nat /\ saved s = 2%nat.
Proof.
  set (l := [basin 7 5 3 12; basin 7 9 4 12]). assert (F : Forall sound l) by (repeat constructor; cbn; lia).
  destruct (C124_ok false true 50 l F) as [s E]. exists l, s, (basin 7 5 3 12), (basin 7 9 4 12).
  split; [exact F|]. split; [exact E|]. split; [apply (of_ok rows _ _ _ [] E); vm_compute; reflexivity|]. split; [reflexivity|].
  split; [apply (of_ok unique _ _ _ 0%nat E); vm_compute; reflexivity|apply (of_ok saved _ _ _ 0%nat E); vm_compute; reflexivity].
Qed.
Theorem C124_limit_refuted : exists l s, Forall sound l /\ create_tsv false true 1 l = Ok s /\ total s = 3%nat /\ excluded s = 2%nat.
Proof.
  set (l := [basin 1 1 3 12; basin 2 5 0 12; basin 3 5 3 12; basin 4 5 3 12]).
  assert (F : Forall sound l) by (repeat constructor; cbn; lia).
  destruct (C124_ok false true 1 l F) as [s E]. exists l, s. split; [exact F|]. split; [exact E|].
  split; [apply (of_ok total _ _ _ 0%nat E); vm_compute; reflexivity|apply (of_ok excluded _ _ _ 0%nat E); vm_compute; reflexivity].
Qed.
Theorem C124_code_refuted old wo nb f l : 0 <= f_value f < 48000 -> 20 < f_code f -> kept old wo f = true ->
  create_tsv old wo nb (f :: l) = Err IndexError.
Proof.
  intros SV SC K. unfold create_tsv. cbn [loop]. unfold visit, count, outlet_counts, save. change max_val with 48000.
  change n_codes with 21. rewrite (place_in _ _ SV). cbn [rbind].
  assert (PC : place 21 (f_code f) = Err IndexError).
  { unfold place. destruct (Z.leb_spec 0 (f_code f)), (Z.ltb_spec (f_code f) 21), (Z.leb_spec (- (21)) (f_code f)), (Z.ltb_spec (f_code f) 0);
      try lia; reflexivity. }
  rewrite PC. unfold kept, judged, off_dem in K. change (exclude old f) with (left_out old f).
  destruct (left_out old f); [discriminate K|]. destruct wo.
  - destruct (f_inside f); [|discriminate K]. cbn [negb andb orb] in *. cbn [rbind].
    unfold save_info, good_info, good_outlet. rewrite K. reflexivity.
  - cbn [negb andb orb] in *. cbn [rbind]. unfold save_info, good_info. rewrite andb_true_r in K. rewrite K. reflexivity.
Qed.
Print Assumptions C124_code_refuted.
(** a negative value is no error: it is taken for the value 48000 higher, so that basins of both values count as one *)
Theorem C124_negative_refuted old wo nb f g : 0 <= f_value f < 48000 -> f_value g = f_value f - 48000 ->
  f_code f = 0 -> f_code g = 0 ->
  exists s, create_tsv old wo nb [f; g] = Ok s /\ total s = 2%nat /\ unique s = 1%nat.
Proof.
  intros SV SW CF CG. unfold create_tsv. cbn [loop]. unfold visit, count. change max_val with 48000.
  rewrite (place_in _ _ SV). cbn [rbind].
  assert (PC : place 48000 (f_value g) = Ok (f_value f)).
  { unfold place. destruct (Z.leb_spec 0 (f_value g)), (Z.ltb_spec (f_value g) 48000), (Z.leb_spec (- (48000)) (f_value g)), (Z.ltb_spec (f_value g) 0);
      try lia; cbn [andb]; f_equal; lia. }
  rewrite PC. unfold exclude. rewrite CF, CG. cbn [Z.eqb orb rbind andb].
  eexists. split; [reflexivity|]. split; [reflexivity|].
  cbn [unique leave_out val_histogram state0]. unfold bump. rewrite Z.eqb_refl. reflexivity.
Qed.
Print Assumptions C124_negative_refuted.
Example C124_negative_case : let f := basin 47999 5 0 12 in let g := basin (-1) 5 0 12 in
  0 <= f_value f < 48000 /\ f_value g = f_value f - 48000 /\ f_code f = 0 /\ f_code g = 0 /\ f_value f <> f_value g.
Proof. cbn. lia. Qed.

(** points and cells *)
Lemma Qfloor_iff (x : Q) (z : Z) : Qfloor x = z <-> (inject_Z z <= x < inject_Z (z + 1))%Q.
Proof.
  pose proof (Qfloor_le x) as A. pose proof (Qlt_floor x) as B. split; [intros <-; split; assumption|].
  intros [C D]. assert (Qfloor x < z + 1 /\ z < Qfloor x + 1); [|lia]. rewrite !Zlt_Qlt. split; eapply Qle_lt_trans; eassumption.
Qed.
Lemma div_mul (a d : Q) : (0 < d -> a / d * d == a)%Q.
Proof. intro H. field. lra. Qed.
Theorem C124_cell xmin ymax dx dy x y c r : (0 < dx -> 0 < dy ->
  get_cols_and_rows2 "floor" xmin ymax dx dy (x, y) = (c, r) <->
  (xmin + inject_Z c * dx <= x < xmin + inject_Z (c + 1) * dx /\
   ymax - inject_Z (r + 1) * dy < y <= ymax - inject_Z r * dy))%Q.
Proof.
  intros Dx Dy. change (get_cols_and_rows2 "floor" xmin ymax dx dy (x, y)) with (Qfloor ((x - xmin) / dx)%Q, Qfloor ((ymax - y) / dy)%Q).
  assert (E : (Qfloor ((x - xmin) / dx)%Q, Qfloor ((ymax - y) / dy)%Q) = (c, r) <->
    Qfloor ((x - xmin) / dx)%Q = c /\ Qfloor ((ymax - y) / dy)%Q = r).
  { split; [intro E; injection E; auto|intros [-> ->]; reflexivity]. }
  rewrite E, !Qfloor_iff. clear E. pose proof (div_mul (x - xmin) dx Dx) as A. pose proof (div_mul (ymax - y) dy Dy) as B.
  set (u := ((x - xmin) / dx)%Q) in *. set (v := ((ymax - y) / dy)%Q) in *.
  rewrite <- (Qmult_le_r _ _ dx Dx), <- (Qmult_lt_r u _ dx Dx), <- (Qmult_le_r _ v dy Dy), <- (Qmult_lt_r v _ dy Dy).
  split; intros [[? ?] [? ?]]; repeat split; lra.
Qed.
Print Assumptions C124_cell.

(** of the points given, exactly those on the grid are kept, with their longitudes and latitudes *)
Theorem C124_check xmin ymax dx dy ncols nrows (pts : list ((Q * Q) * (Q * Q))) : (0 < dx -> 0 < dy -> forall e,
  In e (check_lon_lats ncols nrows (map (fun p => (get_cols_and_rows2 "floor" xmin ymax dx dy (fst p), snd p)) pts)) <->
  exists x y ll, In ((x, y), ll) pts /\ e = (get_cols_and_rows2 "floor" xmin ymax dx dy (x, y), ll) /\
    xmin <= x < xmin + inject_Z ncols * dx /\ ymax - inject_Z nrows * dy < y <= ymax)%Q.
Proof.
  intros Dx Dy e. unfold check_lon_lats. rewrite filter_In, in_map_iff.
  assert (K : forall x y c r, get_cols_and_rows2 "floor" xmin ymax dx dy (x, y) = (c, r) ->
    (((0 <=? c) && (c <? ncols)) && ((0 <=? r) && (r <? nrows)) = true <->
     (xmin <= x < xmin + inject_Z ncols * dx /\ ymax - inject_Z nrows * dy < y <= ymax)%Q)).
  { intros x y c r E. apply C124_cell in E; [|exact Dx|exact Dy]. destruct E as [[E1 E2] [E3 E4]].
    rewrite !andb_true_iff, !Z.leb_le, !Z.ltb_lt.
    assert (M : forall a b d, (0 < d)%Q -> (a <= b <-> (inject_Z a * d <= inject_Z b * d)%Q)).
    { intros a b d D. rewrite Zle_Qle, Qmult_le_r; [reflexivity|exact D]. }
    assert (NL : forall a b, a < b <-> a + 1 <= b) by (intros; lia).
    rewrite !NL, (M 0 c dx Dx), (M (c + 1) ncols dx Dx), (M 0 r dy Dy), (M (r + 1) nrows dy Dy).
    change (inject_Z 0) with 0%Q. split.
    - intros [[? ?] [? ?]]. repeat split; lra.
    - intros [[A1 A2] [A3 A4]].
      assert (W1 : 0 < c + 1) by (rewrite Zlt_Qlt, <- (Qmult_lt_r _ _ dx Dx); change (inject_Z 0) with 0%Q; lra).
      assert (W2 : c < ncols) by (rewrite Zlt_Qlt, <- (Qmult_lt_r _ _ dx Dx); lra).
      assert (W3 : 0 < r + 1) by (rewrite Zlt_Qlt, <- (Qmult_lt_r _ _ dy Dy); change (inject_Z 0) with 0%Q; lra).
      assert (W4 : r < nrows) by (rewrite Zlt_Qlt, <- (Qmult_lt_r _ _ dy Dy); lra).
      rewrite <- (M (c + 1) ncols dx Dx), <- (M (r + 1) nrows dy Dy). change 0%Q with (inject_Z 0).
      rewrite <- (M 0 c dx Dx), <- (M 0 r dy Dy). lia. }
  split.
  - intros [([[x y] ll] & <- & I) G]. cbn [fst snd] in *.
    destruct (get_cols_and_rows2 "floor" xmin ymax dx dy (x, y)) as [c r] eqn:E. cbn [fst snd] in G.
    apply (K _ _ _ _ E) in G. exists x, y, ll. rewrite E. split; [exact I|]. split; [reflexivity|exact G].
  - intros (x & y & ll & I & -> & G). split; [exists ((x, y), ll); split; [reflexivity|exact I]|]. cbn [fst snd].
    destruct (get_cols_and_rows2 "floor" xmin ymax dx dy (x, y)) as [c r] eqn:E. cbn [fst snd]. apply (K _ _ _ _ E), G.
Qed.
Print Assumptions C124_check.

(** with 'trunc' a point up to one cell to the left of the grid is taken for one of the first column *)
Theorem C124_trunc_refuted xmin ymax dx dy y x : (0 < dx -> xmin - dx < x < xmin ->
  fst (get_cols_and_rows2 "trunc" xmin ymax dx dy (x, y)) = 0%Z /\
  fst (get_cols_and_rows2 "floor" xmin ymax dx dy (x, y)) = (-1)%Z)%Q.
Proof.
  intros Dx [A B]. pose proof (div_mul (x - xmin) dx Dx) as M.
  change (fst (get_cols_and_rows2 "trunc" xmin ymax dx dy (x, y))) with (trunc ((x - xmin) / dx)%Q).
  change (fst (get_cols_and_rows2 "floor" xmin ymax dx dy (x, y))) with (Qfloor ((x - xmin) / dx)%Q).
  set (u := ((x - xmin) / dx)%Q) in *.
  assert (U1 : (u < 0)%Q) by (rewrite <- (Qmult_lt_r _ _ dx Dx); lra).
  assert (U2 : (-1 # 1 < u)%Q) by (rewrite <- (Qmult_lt_r _ _ dx Dx); lra).
  split.
  - unfold trunc. destruct (Qle_bool 0 u) eqn:E; [apply Qle_bool_iff in E; lra|]. unfold Qceiling.
    assert (F : Qfloor (- u) = 0) by (apply Qfloor_iff; change (inject_Z 0) with 0%Q; change (inject_Z (0 + 1)) with 1%Q; split; lra).
    rewrite F. reflexivity.
  - apply Qfloor_iff. change (inject_Z (-1 + 1)) with 0%Q. change (inject_Z (-1)) with (-1 # 1)%Q. split; lra.
Qed.
Print Assumptions C124_trunc_refuted.

(** the other methods: 'ceil' takes the next line of the grid to the right and below, 'ceilfloor' and 'floorceil' one
    of each, and 'trunc' is 'floor' right of and below the corner *)
Lemma Qceiling_iff (x : Q) (z : Z) : Qceiling x = z <-> (inject_Z (z - 1) < x <= inject_Z z)%Q.
Proof.
  unfold Qceiling. assert (E : - Qfloor (- x) = z <-> Qfloor (- x) = - z) by lia. rewrite E, Qfloor_iff.
  replace (- z + 1) with (- (z - 1)) by lia. rewrite !inject_Z_opp. split; intros [? ?]; split; lra.
Qed.
Theorem C124_lines xmin ymax dx dy x y c r : (0 < dx -> 0 < dy ->
  let col_ceil := xmin + inject_Z (c - 1) * dx < x <= xmin + inject_Z c * dx in
  let col_floor := xmin + inject_Z c * dx <= x < xmin + inject_Z (c + 1) * dx in
  let row_ceil := ymax - inject_Z r * dy <= y < ymax - inject_Z (r - 1) * dy in
  let row_floor := ymax - inject_Z (r + 1) * dy < y <= ymax - inject_Z r * dy in
  (get_cols_and_rows2 "ceil" xmin ymax dx dy (x, y) = (c, r) <-> col_ceil /\ row_ceil) /\
  (get_cols_and_rows2 "ceilfloor" xmin ymax dx dy (x, y) = (c, r) <-> col_ceil /\ row_floor) /\
  (get_cols_and_rows2 "floorceil" xmin ymax dx dy (x, y) = (c, r) <-> col_floor /\ row_ceil) /\
  (xmin <= x -> y <= ymax ->
   get_cols_and_rows2 "trunc" xmin ymax dx dy (x, y) = get_cols_and_rows2 "floor" xmin ymax dx dy (x, y)))%Q.
Proof.
  intros Dx Dy. cbv zeta.
  change (get_cols_and_rows2 "ceil" xmin ymax dx dy (x, y)) with (Qceiling ((x - xmin) / dx)%Q, Qceiling ((ymax - y) / dy)%Q).
  change (get_cols_and_rows2 "ceilfloor" xmin ymax dx dy (x, y)) with (Qceiling ((x - xmin) / dx)%Q, Qfloor ((ymax - y) / dy)%Q).
  change (get_cols_and_rows2 "floorceil" xmin ymax dx dy (x, y)) with (Qfloor ((x - xmin) / dx)%Q, Qceiling ((ymax - y) / dy)%Q).
  change (get_cols_and_rows2 "trunc" xmin ymax dx dy (x, y)) with (trunc ((x - xmin) / dx)%Q, trunc ((ymax - y) / dy)%Q).
  change (get_cols_and_rows2 "floor" xmin ymax dx dy (x, y)) with (Qfloor ((x - xmin) / dx)%Q, Qfloor ((ymax - y) / dy)%Q).
  pose proof (div_mul (x - xmin) dx Dx) as A. pose proof (div_mul (ymax - y) dy Dy) as B.
  set (u := ((x - xmin) / dx)%Q) in *. set (v := ((ymax - y) / dy)%Q) in *.
  assert (E : forall a b a' b' : Z, (a, b) = (a', b') <-> a = a' /\ b = b').
  { intros. split; [intro E; injection E; auto|intros [-> ->]; reflexivity]. }
  rewrite !E, !Qceiling_iff, !Qfloor_iff.
  assert (M : forall w d t : Q, (0 < d -> w * d == t -> forall a, (a <= w <-> a * d <= t) /\ (w <= a <-> t <= a * d) /\
    (a < w <-> a * d < t) /\ (w < a <-> t < a * d))%Q).
  { intros w d t D W q. pose proof (Qmult_le_r q w d D). pose proof (Qmult_le_r w q d D).
    pose proof (Qmult_lt_r q w d D). pose proof (Qmult_lt_r w q d D). rewrite <- W. tauto. }
  destruct (M u dx _ Dx A (inject_Z c)) as (U1 & U2 & U3 & U4). destruct (M v dy _ Dy B (inject_Z r)) as (V1 & V2 & V3 & V4).
  destruct (M u dx _ Dx A (inject_Z (c - 1))) as (_ & _ & U5 & _). destruct (M u dx _ Dx A (inject_Z (c + 1))) as (_ & _ & _ & U6).
  destruct (M v dy _ Dy B (inject_Z (r - 1))) as (_ & _ & V5 & _). destruct (M v dy _ Dy B (inject_Z (r + 1))) as (_ & _ & _ & V6).
  rewrite U1, U2, U5, U6, V1, V2, V5, V6.
  split; [split; (intros [[? ?] [? ?]]; split; split; lra)|].
  split; [split; (intros [[? ?] [? ?]]; split; split; lra)|].
  split; [split; (intros [[? ?] [? ?]]; split; split; lra)|].
  intros X Y. assert (U : (0 <= u)%Q) by (apply (Qmult_le_r _ _ dx Dx); lra).
  assert (V : (0 <= v)%Q) by (apply (Qmult_le_r _ _ dy Dy); lra).
  apply Qle_bool_iff in U, V. unfold trunc. rewrite U, V. split; reflexivity.
Qed.
Print Assumptions C124_lines.

(** any name that is not one of the six means np.around: the nearest whole number of cells *)
Theorem C124_around m xmin ymax dx dy x y c r : (~ In m ["floor"; "ceil"; "trunc"; "ceilfloor"; "floorceil"]%string ->
  0 < dx -> 0 < dy -> get_cols_and_rows2 m xmin ymax dx dy (x, y) = (c, r) ->
  - (dx * (1 # 2)) <= x - (xmin + inject_Z c * dx) <= dx * (1 # 2) /\
  - (dy * (1 # 2)) <= ymax - inject_Z r * dy - y <= dy * (1 # 2))%Q.
Proof.
  intros N Dx Dy E.
  assert (H : forall q, (- (1 # 2) <= q - inject_Z (half_even q) <= 1 # 2)%Q).
  { intro q. unfold half_even. pose proof (Qfloor_le q) as A. pose proof (Qlt_floor q) as B. rewrite inject_Z_plus in B.
    change (inject_Z 1) with 1%Q in B. set (f := Qfloor q) in *. destruct (Qcompare (q - inject_Z f) (1 # 2)) eqn:C.
    - apply Qeq_alt in C. destruct (Z.even f); rewrite ?inject_Z_plus; change (inject_Z 1) with 1%Q; split; lra.
    - apply Qlt_alt in C. split; lra.
    - apply Qgt_alt in C. rewrite inject_Z_plus; change (inject_Z 1) with 1%Q; split; lra. }
  assert (R : rounding m = (half_even, half_even)).
  { unfold rounding. repeat match goal with |- context [String.eqb m ?t] => destruct (String.eqb_spec m t) as [->|] end;
      try reflexivity; exfalso; apply N; cbn; tauto. }
  unfold get_cols_and_rows2 in E. rewrite R in E. cbn [fst snd] in E. injection E as <- <-.
  pose proof (div_mul (x - xmin) dx Dx) as A. pose proof (div_mul (ymax - y) dy Dy) as B.
  destruct (H ((x - xmin) / dx)%Q) as [H1 H2]. destruct (H ((ymax - y) / dy)%Q) as [H3 H4].
  set (u := ((x - xmin) / dx)%Q) in *. set (v := ((ymax - y) / dy)%Q) in *.
  apply (Qmult_le_r _ _ dx Dx) in H1, H2. apply (Qmult_le_r _ _ dy Dy) in H3, H4. repeat split; lra.
Qed.
Print Assumptions C124_around.

(** the elevations: a file of 16-bit numbers, the high byte first *)
Definition int16 (z : Z) : Prop := -32768 <= z < 32768.
Definition msb (z : Z) : list Z := [(z mod 65536) / 256; z mod 256].
Lemma skipn_msb : forall zs k, skipn (2 * k) (flat_map msb zs) = flat_map msb (skipn k zs).
Proof.
  induction zs as [|z zs IH]; intro k; [cbn; rewrite !skipn_nil; reflexivity|].
  destruct k as [|k]; [reflexivity|]. replace (2 * S k)%nat with (S (S (2 * k))) by lia. cbn [flat_map msb app skipn]. apply IH.
Qed.
Lemma get_msb n2 ncols zs c r z : 0 <= r * ncols + c -> nth_error zs (Z.to_nat (r * ncols + c)) = Some z ->
  get_zval n2 ncols (flat_map msb zs) (c, r) = store16 n2 (z mod 65536).
Proof.
  intros P N. unfold get_zval. cbn [fst snd]. destruct (Z.ltb_spec (2 * (r * ncols + c)) 0) as [L|_]; [lia|].
  rewrite Z2Nat.inj_mul by lia. change (Z.to_nat 2) with 2%nat. rewrite skipn_msb.
  assert (S0 : exists t, skipn (Z.to_nat (r * ncols + c)) zs = z :: t).
  { revert N. generalize (Z.to_nat (r * ncols + c)). intro k. revert k. clear. induction zs as [|a zs IH]; intros [|k] N; cbn in N; try discriminate.
    - injection N as ->. exists zs. reflexivity.
    - apply IH, N. }
  destruct S0 as [t ->]. cbn [flat_map msb app firstn]. unfold big. cbn [fold_left].
  replace (256 * (256 * 0 + z mod 65536 / 256) + z mod 256) with (z mod 65536); [reflexivity|].
  pose proof (Z.div_mod (z mod 65536) 256 ltac:(lia)) as D.
  assert (M : (z mod 65536) mod 256 = z mod 256).
  { symmetry. apply (Znumtheory.Zmod_div_mod 256 65536 z); [lia|lia|exists 256; reflexivity]. }
  lia.
Qed.
Theorem C124_elevation ncols zs c r z : 0 <= r * ncols + c -> nth_error zs (Z.to_nat (r * ncols + c)) = Some z -> int16 z ->
  get_zval false ncols (flat_map msb zs) (c, r) = Ok z /\
  get_zval true ncols (flat_map msb zs) (c, r) = (if z <? 0 then Err OverflowError else Ok z).
Proof.
  intros P N I. unfold int16 in I. rewrite !(get_msb _ _ _ _ _ _ P N). unfold store16.
  destruct (Z.ltb_spec z 0) as [L|L].
  - assert (M : z mod 65536 = z + 65536) by (symmetry; apply Z.mod_unique with (-1); lia). rewrite M.
    destruct (Z.leb_spec (-32768) (z + 65536)); [|lia]. destruct (Z.ltb_spec (z + 65536) 32768); [lia|]. cbn [andb].
    split; [|reflexivity]. f_equal. replace (z + 65536 + 32768) with (z + 32768 + 1 * 65536) by lia.
    rewrite Z_mod_plus_full, Z.mod_small by lia. lia.
  - rewrite Z.mod_small by lia. destruct (Z.leb_spec (-32768) z); [|lia]. destruct (Z.ltb_spec z 32768); [|lia]. split; reflexivity.
Qed.
Print Assumptions C124_elevation.

(** all cells of a boundary, where each is in the file *)
Theorem C124_elevations ncols zs (cells : list (Z * Z)) : Forall int16 zs ->
  Forall (fun cr => 0 <= fst cr < ncols /\ 0 <= snd cr /\ snd cr * ncols + fst cr < Z.of_nat (length zs)) cells ->
  get_polygon_zvals false ncols (flat_map msb zs) cells =
    Ok (map (fun cr => nth (Z.to_nat (snd cr * ncols + fst cr)) zs 0) cells).
Proof.
  intros I F. induction cells as [|[c r] l IH]; [reflexivity|]. apply Forall_inv in F as G. apply Forall_inv_tail in F.
  cbn [fst snd] in G. destruct G as (G1 & G2 & G3). cbn [get_polygon_zvals map fst snd]. rewrite (IH F).
  assert (P : 0 <= r * ncols + c) by (assert (0 <= r * ncols) by (apply Z.mul_nonneg_nonneg; lia); lia).
  assert (N : nth_error zs (Z.to_nat (r * ncols + c)) = Some (nth (Z.to_nat (r * ncols + c)) zs 0)) by (apply nth_error_nth'; lia).
  rewrite Forall_forall in I. destruct (C124_elevation ncols zs c r _ P N) as [-> _]; [apply I, nth_In; lia|]. reflexivity.
Qed.
Print Assumptions C124_elevations.

(** a cell that is not on the grid is not noticed: past the right edge it is one of the next row, past the end of
    the file its elevation is zero, which is then the lowest one *)
Theorem C124_edge_refuted n2 ncols file r : get_zval n2 ncols file (ncols, r) = get_zval n2 ncols file (0, r + 1).
Proof. unfold get_zval. cbn [fst snd]. replace (r * ncols + ncols) with ((r + 1) * ncols + 0) by ring. reflexivity. Qed.
Theorem C124_end_refuted n2 ncols zs c r : Z.of_nat (length zs) <= r * ncols + c -> get_zval n2 ncols (flat_map msb zs) (c, r) = Ok 0.
Proof.
  intro L. unfold get_zval. cbn [fst snd]. destruct (Z.ltb_spec (2 * (r * ncols + c)) 0) as [B|_]; [lia|].
  rewrite Z2Nat.inj_mul by lia. change (Z.to_nat 2) with 2%nat. rewrite skipn_msb, skipn_all2 by lia. reflexivity.
Qed.
Print Assumptions C124_end_refuted.

Example C124_case : exists s,
  let l := [basin 7 5 3 12; basin 8 1 3 12; basin 9 5 0 12; basin 7 6 20 12; basin 10 5 3 14; basin 11 6 2 12] in
  Forall sound l /\ create_tsv false true 5 l = Ok s /\
  total s = 5%nat /\ excluded s = 2%nat /\ saved s = 2%nat /\ unique s = 4%nat /\ one_zmin s = 3%nat /\ zmin_match s = 2%nat /\
  map f_value (rows s) = [7; 7] /\ hlr_histogram s 20 = 1%nat /\
  get_polygon_zvals false 3 (flat_map msb [5; -9999; 300; 258; 0; 77]) [(1, 0); (0, 1); (2, 1)] = Ok [-9999; 258; 77] /\
  get_cols_and_rows2 "floor" (-4462500) 4384500 1000 1000 (-4461500, 4384500)%Q = (1, 0).
Proof.
  set (l := [basin 7 5 3 12; basin 8 1 3 12; basin 9 5 0 12; basin 7 6 20 12; basin 10 5 3 14; basin 11 6 2 12]).
  assert (F : Forall sound l) by (repeat constructor; cbn; lia).
  destruct (C124_ok false true 5 l F) as [s E]. exists s. cbv zeta. split; [exact F|]. split; [exact E|].
  split; [apply (of_ok total _ _ _ 0%nat E); vm_compute; reflexivity|]. split; [apply (of_ok excluded _ _ _ 0%nat E); vm_compute; reflexivity|].
  split; [apply (of_ok saved _ _ _ 0%nat E); vm_compute; reflexivity|]. split; [apply (of_ok unique _ _ _ 0%nat E); vm_compute; reflexivity|].
  split; [apply (of_ok one_zmin _ _ _ 0%nat E); vm_compute; reflexivity|]. split; [apply (of_ok zmin_match _ _ _ 0%nat E); vm_compute; reflexivity|].
  split; [apply (of_ok (fun x => map f_value (rows x)) _ _ _ [] E); vm_compute; reflexivity|].
  split; [apply (of_ok (fun x => hlr_histogram x 20) _ _ _ 0%nat E); vm_compute; reflexivity|]. split; vm_compute; reflexivity.
Qed.
