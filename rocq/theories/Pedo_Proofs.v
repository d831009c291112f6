From Coq Require Import Reals List Bool Lra Lia.
From Verif Require Import Prep_Model Tca_Props ChanR_Model Pedo_Model Pedo_Spec.
Import ListNotations.
Local Open Scope R_scope.

Lemma rlt_t x y : rlt x y = true <-> x < y.
Proof. unfold rlt. destruct (Rlt_dec x y); split; intro; (assumption || reflexivity || discriminate || contradiction). Qed.
Lemma rlt_f x y : rlt x y = false <-> y <= x.
Proof. unfold rlt. destruct (Rlt_dec x y); split; intro; (reflexivity || discriminate || lra). Qed.
Lemma rle_t x y : rle x y = true <-> x <= y.
Proof. unfold rle. destruct (Rle_dec x y); split; intro; (assumption || reflexivity || discriminate || contradiction). Qed.
Lemma rle_f x y : rle x y = false <-> y < x.
Proof. unfold rle. destruct (Rle_dec x y); split; intro; (reflexivity || discriminate || lra). Qed.
Lemma req_t x y : req x y = true <-> x = y.
Proof. unfold req. destruct (Req_EM_T x y); split; intro; (assumption || reflexivity || discriminate || contradiction). Qed.
Lemma req_f x y : req x y = false <-> x <> y.
Proof. unfold req. destruct (Req_EM_T x y); split; intro; (assumption || reflexivity || discriminate || contradiction). Qed.

(* case on a comparison in the goal *)
Ltac rcase :=
  match goal with
  | |- context [req ?x ?y] => let E := fresh "E" in destruct (req x y) eqn:E; [apply req_t in E|apply req_f in E]
  | |- context [rle ?x ?y] => let E := fresh "E" in destruct (rle x y) eqn:E; [apply rle_t in E|apply rle_f in E]
  | |- context [rlt ?x ?y] => let E := fresh "E" in destruct (rlt x y) eqn:E; [apply rlt_t in E|apply rlt_f in E]
  end; cbn [orb andb negb].

Lemma at_map {A B} (f : A -> B) l i v : at_ (map f l) i v <-> exists x, at_ l i x /\ v = f x.
Proof.
  unfold at_. rewrite nth_error_map. destruct (nth_error l i) as [x|]; cbn.
  - split. + intros E. injection E as <-. exists x. auto. + intros (y & E & ->). injection E as <-. reflexivity.
  - split; [discriminate|]. intros (y & E & _). discriminate.
Qed.
Lemma at_in {A} (l : list A) i v : at_ l i v -> In v l.
Proof. apply nth_error_In. Qed.
Lemma in_at {A} (l : list A) v : In v l -> exists i, at_ l i v.
Proof. apply In_nth_error. Qed.

(* ---------- reading ---------- *)
Lemma repair_some vmax l l' : repair vmax l = Some l' ->
  exists mid, l' = map (fun v => if req v 0 then (if rlt vmax 1 then mid else 1) else if rlt v 0 || rlt vmax v then mid else v) l
    /\ ((exists v, In v l /\ valid vmax v) -> 0 <= mid <= vmax)
    /\ ((exists v, In v l /\ valid vmax v /\ v <> 0) -> 0 < mid).
Proof.
  unfold repair. destruct (filter _ l) as [|x a] eqn:Ea; [discriminate|]. destruct (filter (fun v => rle v vmax) l) as [|y b] eqn:Eb; [discriminate|].
  intros E. injection E as <-. exists ((minl x a + maxl y b) / 2). rewrite map_map.
  destruct (minl_spec x a) as [M1 M2]. destruct (maxl_spec y b) as [M3 M4].
  rewrite <- Ea in M1, M2. rewrite <- Eb in M3, M4.
  apply filter_In in M2 as [M2 M2']. apply rle_t in M2'. apply filter_In in M4 as [M4 M4']. apply rle_t in M4'.
  split; [|split].
  - apply map_ext. intros v. destruct (req v 0); [|reflexivity]. rewrite (proj2 (rlt_f 1 0)) by lra. reflexivity.
  - intros (v & I & V1 & V2). assert (A1 := M1 v). assert (A3 := M3 v).
    assert (minl x a <= v) by (apply A1; apply filter_In; split; [assumption|apply rle_t; assumption]).
    assert (v <= maxl y b) by (apply A3; apply filter_In; split; [assumption|apply rle_t; assumption]). lra.
  - intros (v & I & (V1 & V2) & V3). assert (A3 := M3 v).
    assert (v <= maxl y b) by (apply A3; apply filter_In; split; [assumption|apply rle_t; assumption]). lra.
Qed.

Lemma zip4_at c s o d i x : at_ (zip4 c s o d) i x <->
  at_ c i (clay x) /\ at_ s i (silt x) /\ at_ o i (om x) /\ at_ d i (dens x).
Proof.
  revert s o d i. induction c as [|c0 c IH]; intros s o d i.
  { cbn. unfold at_. rewrite !nth_error_nil || idtac. destruct i; cbn; split; try discriminate; intros [E _]; discriminate. }
  destruct s as [|s0 s]; [unfold at_; destruct i; cbn; split; try discriminate; intros (_ & E & _); discriminate|].
  destruct o as [|o0 o]; [unfold at_; destruct i; cbn; split; try discriminate; intros (_ & _ & E & _); discriminate|].
  destruct d as [|d0 d]; [unfold at_; destruct i; cbn; split; try discriminate; intros (_ & _ & _ & E); discriminate|].
  destruct i as [|i].
  - unfold at_. cbn. split. + intros E. injection E as <-. cbn. auto.
    + intros (E1 & E2 & E3 & E4). destruct x as [x1 x2 x3 x4]. cbn in *. injection E1 as ->. injection E2 as ->. injection E3 as ->. injection E4 as ->. reflexivity.
  - apply (IH s o d i).
Qed.

Lemma zip4_length c s o d : length s = length c -> length o = length c -> length d = length c -> length (zip4 c s o d) = length c.
Proof.
  revert s o d. induction c as [|c0 c IH]; intros [|s0 s] [|o0 o] [|d0 d] H1 H2 H3; cbn in *; try discriminate; try reflexivity.
  f_equal. apply IH; congruence.
Qed.

Lemma repair_range vmax l l' : 1 <= vmax -> (exists v, In v l /\ valid vmax v /\ v <> 0) -> repair vmax l = Some l' ->
  forall v, In v l' -> 0 < v <= vmax.
Proof.
  intros V1 (w & W1 & W2 & W3) E v I. apply repair_some in E as (mid & -> & M1 & M2).
  assert (0 <= mid <= vmax) by (apply M1; eauto). assert (0 < mid) by (apply M2; eauto).
  apply in_map_iff in I as (u & <- & I). repeat rcase; try lra.
Qed.

Lemma repair_keeps vmax l l' i v : 1 <= vmax -> repair vmax l = Some l' -> at_ l i v -> valid vmax v ->
  at_ l' i (if req v 0 then 1 else v).
Proof.
  intros V1 E A [V2 V3]. apply repair_some in E as (mid & -> & _). apply at_map. exists v. split; [assumption|].
  rcase. - rewrite (proj2 (rlt_f vmax 1)) by lra. reflexivity.
  - rewrite (proj2 (rlt_f v 0)), (proj2 (rlt_f vmax v)) by lra. reflexivity.
Qed.
Lemma repair_length vmax l l' : repair vmax l = Some l' -> length l' = length l.
Proof. intros E. apply repair_some in E as (mid & -> & _). apply map_length. Qed.

Lemma repair_none vmax l : repair vmax l = None <-> (forall v, In v l -> v < 0) \/ (forall v, In v l -> vmax < v).
Proof.
  unfold repair. split.
  - destruct (filter (fun v => rle 0 v) l) as [|x a] eqn:Ea.
    + intros _. left. intros v I. destruct (Rlt_dec v 0); [assumption|]. exfalso.
      assert (J : In v (filter (fun v => rle 0 v) l)) by (apply filter_In; split; [assumption|apply rle_t; lra]). rewrite Ea in J. contradiction.
    + destruct (filter (fun v => rle v vmax) l) as [|y b] eqn:Eb; [|discriminate].
      intros _. right. intros v I. destruct (Rlt_dec vmax v); [assumption|]. exfalso.
      assert (J : In v (filter (fun v => rle v vmax) l)) by (apply filter_In; split; [assumption|apply rle_t; lra]). rewrite Eb in J. contradiction.
  - intros [A|A].
    + destruct (filter (fun v => rle 0 v) l) as [|x a] eqn:Ea; [reflexivity|].
      assert (J : In x (filter (fun v => rle 0 v) l)) by (rewrite Ea; left; reflexivity). apply filter_In in J as [J1 J2].
      apply rle_t in J2. specialize (A x J1). lra.
    + destruct (filter (fun v => rle v vmax) l) as [|x a] eqn:Ea; [destruct (filter (fun v => rle 0 v) l); reflexivity|].
      assert (J : In x (filter (fun v => rle v vmax) l)) by (rewrite Ea; left; reflexivity). apply filter_In in J as [J1 J2].
      apply rle_t in J2. specialize (A x J1). lra.
Qed.

(* ---------- forcing ---------- *)
Lemma theta_force_some l l' : theta_force true l = Some l' ->
  length l' = length l /\ (forall v, In v l' -> 0 <= v <= 1) /\
  (forall i v, at_ l i v -> 0 <= v <= 1 -> at_ l' i v).
Proof.
  unfold theta_force. destruct (existsb _ l) eqn:X; cbn [andb].
  2:{ intros E. injection E as <-. split; [reflexivity|]. split; [|auto].
      intros v I. destruct (Rlt_dec v 0) as [a|a]; [|destruct (Rlt_dec 1 v) as [b|b]; [|lra]]; exfalso;
      (assert (Y : existsb (fun v => rlt v 0 || rlt 1 v) l = true); [apply existsb_exists; exists v; split; [assumption|]|congruence]).
      - rewrite (proj2 (rlt_t v 0) a). reflexivity.
      - rewrite (proj2 (rlt_t 1 v) b). apply orb_true_r. }
  destruct (filter _ l) as [|x a] eqn:Ea; [discriminate|].
  destruct (filter (fun v => rlt v 1) _) as [|y b] eqn:Eb; [discriminate|].
  intros E. injection E as <-.
  destruct (minl_spec x a) as [_ M2]. rewrite <- Ea in M2. apply filter_In in M2 as [_ M2]. apply rlt_t in M2.
  destruct (maxl_spec y b) as [_ M4]. rewrite <- Eb in M4. apply filter_In in M4 as [M4 M4']. apply rlt_t in M4'.
  assert (P : forall v, In v (map (fun v => if rlt v 0 then minl x a else v) l) -> 0 <= v).
  { intros v I. apply in_map_iff in I as (u & <- & I). rcase; lra. }
  split; [rewrite !map_length; reflexivity|]. split.
  - intros v I. apply in_map_iff in I as (u & <- & I). apply P in I. apply P in M4. rcase; lra.
  - intros i v A [V1 V2]. apply at_map. exists v. split. + apply at_map. exists v. split; [assumption|]. rcase; lra. + rcase; lra.
Qed.
Lemma theta_force_total l : (exists v, In v l /\ 0 < v < 1) -> exists l', theta_force true l = Some l'.
Proof.
  intros (v & I & V1 & V2). unfold theta_force. destruct (existsb _ l); cbn [andb]; [|eauto].
  destruct (filter _ l) as [|x a] eqn:Ea.
  { assert (J : In v (filter (fun v => rlt 0 v) l)) by (apply filter_In; split; [assumption|apply rlt_t; assumption]). rewrite Ea in J. contradiction. }
  destruct (filter (fun v => rlt v 1) _) as [|y b] eqn:Eb; [|eauto].
  assert (J : In v (filter (fun v => rlt v 1) (map (fun v => if rlt v 0 then minl x a else v) l))).
  { apply filter_In. split; [|apply rlt_t; assumption]. apply in_map_iff. exists v. split; [|assumption]. rcase; [lra|reflexivity]. }
  rewrite Eb in J. contradiction.
Qed.

(* the guard "are there any bad values" makes no difference when repairing good values changes nothing *)
Lemma guard_map (p : R -> bool) (f : R -> R) l : (forall v, p v = false -> f v = v) ->
  (if existsb p l then map f l else l) = map f l.
Proof.
  intros F. destruct (existsb p l) eqn:X; [reflexivity|]. symmetry. rewrite <- (map_id l) at 2. apply map_ext_in. intros v I.
  apply F. destruct (p v) eqn:Y; [|reflexivity]. exfalso.
  assert (existsb p l = true) by (apply existsb_exists; eauto). congruence.
Qed.

Definition alpha_clip (v : R) : R := if rlt alpha_max v then alpha_max else if rlt v alpha_min then alpha_min else v.
Lemma alpha_raw_neg t x : alpha_raw t x < 0.
Proof. unfold alpha_raw. cbv zeta. match goal with |- _ * exp ?e < 0 => generalize (exp_pos e); generalize (exp e) end. intros; lra. Qed.
Lemma alpha_local g t : wosten_alpha g t true = Some (map (fun x => alpha_clip (alpha_raw t x) * 100) g).
Proof.
  unfold wosten_alpha.
  assert (K : map (fun v => if rlt alpha_max v then alpha_max else v) (map (fun v => if rlt v alpha_min then alpha_min else v) (map (alpha_raw t) g))
              = map (fun x => alpha_clip (alpha_raw t x)) g).
  { rewrite !map_map. apply map_ext. intros x. unfold alpha_clip. unfold alpha_max, alpha_min. repeat rcase; lra. }
  destruct (existsb _ _) eqn:X.
  - destruct (filter _ _) as [|y b] eqn:Eb.
    + exfalso. apply existsb_exists in X as (v & I & _). apply in_map_iff in I as (x & <- & I).
      assert (J : In (alpha_raw t x) (filter (fun v => negb (req v 0)) (map (alpha_raw t) g))).
      { apply filter_In. split; [apply in_map; assumption|]. rcase; [|reflexivity]. pose proof (alpha_raw_neg t x). lra. }
      rewrite Eb in J. contradiction.
    + rewrite K, map_map. reflexivity.
  - f_equal. rewrite map_map. apply map_ext_in. intros x I. f_equal. unfold alpha_clip.
    assert (N : rlt (alpha_raw t x) alpha_min || rlt alpha_max (alpha_raw t x) = false).
    { destruct (_ || _) eqn:Y; [|reflexivity]. exfalso.
      assert (existsb (fun v => rlt v alpha_min || rlt alpha_max v) (map (alpha_raw t) g) = true).
      { apply existsb_exists. exists (alpha_raw t x). split; [apply in_map; assumption|assumption]. } congruence. }
    apply orb_false_iff in N as [N1 N2]. rewrite N1, N2. reflexivity.
Qed.

Definition n_clip (v : R) : R := if rlt 3 v then 3 else v.
Lemma n_raw_gt t x : 1 < n_raw t x.
Proof. unfold n_raw. cbv zeta. match goal with |- 1 < exp ?e + 1 => generalize (exp_pos e) end. intros; lra. Qed.
Lemma n_local g t : wosten_n g t true = map (fun x => n_clip (n_raw t x)) g.
Proof.
  unfold wosten_n. rewrite andb_true_r. rewrite map_map.
  rewrite (guard_map (fun v => rle v 1 || rlt 3 v) (fun v => if rlt 3 (if rlt v 1 then 101/100 else v) then 3 else if rlt v 1 then 101/100 else v)).
  - rewrite map_map. apply map_ext. intros x. pose proof (n_raw_gt t x). unfold n_clip.
    rewrite (proj2 (rlt_f (n_raw t x) 1)) by lra. reflexivity.
  - intros v Y. apply orb_false_iff in Y as [Y1 Y2]. apply rle_f in Y1. rewrite (proj2 (rlt_f v 1)) by lra. rewrite Y2. reflexivity.
Qed.

Lemma L_raw_range x : -10 < L_raw x < 10.
Proof.
  unfold L_raw. cbv zeta. match goal with |- context [exp ?e] => generalize (exp_pos e); generalize (exp e) end. intros u U.
  assert (E : 10 * (u - 1) / (u + 1) = 10 - 20 / (u + 1)) by (field; lra). rewrite E.
  assert (0 < 20 / (u+1)) by (apply Rdiv_lt_0_compat; lra).
  assert (20 / (u+1) < 20). { apply Rmult_lt_reg_r with (u+1); [lra|]. unfold Rdiv. rewrite Rmult_assoc, Rinv_l by lra. lra. }
  lra.
Qed.
Lemma L_local g f : wosten_L g f = map L_raw g.
Proof.
  unfold wosten_L. destruct (existsb _ _) eqn:X; [|reflexivity]. exfalso. apply existsb_exists in X as (v & I & Y).
  apply in_map_iff in I as (x & <- & I). pose proof (L_raw_range x). apply orb_true_iff in Y as [Y|Y]; apply rlt_t in Y; lra.
Qed.

(* ---------- capillary length ---------- *)
Definition G_clip (v : xr) : xr :=
  if x_above v G_max then Fin G_max else if x_below v G_min then Fin G_min else v.
Lemma G_force_local l : G_force true l = map G_clip l.
Proof.
  unfold G_force. rewrite andb_true_r, map_map. destruct (existsb _ l) eqn:X.
  - apply map_ext. intros v. unfold G_clip. destruct v; cbn; unfold G_min, G_max; repeat (cbn [x_above x_below]; rcase); try reflexivity; try lra.
  - symmetry. rewrite <- (map_id l) at 2. apply map_ext_in. intros v I. unfold G_clip.
    assert (N : x_below v G_min || x_above v G_max = false).
    { destruct (_ || _) eqn:Y; [|reflexivity]. exfalso.
      assert (existsb (fun v => x_below v G_min || x_above v G_max) l = true) by (apply existsb_exists; eauto). congruence. }
    apply orb_false_iff in N as [N1 N2]. rewrite N1, N2. reflexivity.
Qed.
Lemma G_clip_range v : G_clip v = NaN \/ exists x, G_clip v = Fin x /\ 8/100 <= x <= 23/10.
Proof.
  unfold G_clip. destruct v as [x| | |]; cbn; unfold G_min, G_max.
  - right. repeat rcase; eexists; (split; [reflexivity|lra]).
  - right. eexists. split; [reflexivity|lra].
  - right. eexists. split; [reflexivity|lra].
  - left. reflexivity.
Qed.
Lemma zipw_at f a b i x y : at_ a i x -> at_ b i y -> at_ (zipw f a b) i (f x y).
Proof.
  revert b i. induction a as [|a0 a IH]; intros b i A B; [destruct i; discriminate A|].
  destruct b as [|b0 b]; [destruct i; discriminate B|]. destruct i as [|i].
  - unfold at_ in *. cbn in *. congruence.
  - apply IH; assumption.
Qed.
Lemma zipw_length f a b : length a = length b -> length (zipw f a b) = length a.
Proof. revert b. induction a as [|a0 a IH]; intros [|b0 b] E; cbn in *; try discriminate; try reflexivity. f_equal. apply IH. congruence. Qed.

Lemma G_at_three gam ia a b : 0 < - ia -> gam 0 = PInf -> gam (1/3) = Fin a -> 0 < a -> gam (5/3) = Fin b -> 0 < b ->
  G_vG gam 3 ia = PInf.
Proof.
  intros I G0 G1 A G2 B. unfold G_vG.
  replace (1 - 1/3) with (2/3) by field. rewrite (proj2 (req_f (2/3) 0)) by lra. rewrite (proj2 (req_f (2/3) 1)) by lra.
  replace (2 - 3 * (2/3)) with 0 by field. replace (1 - 2/3) with (1/3) by field.
  replace (2/3/2) with (1/3) by field. replace (1 + 2/3) with (5/3) by field. replace (5 * (2/3) / 2) with (5/3) by field.
  replace (3 * (2/3) / 2 - 1) with 0 by field. rewrite G0, G1, G2.
  assert (P : forall x, 0 < x -> sgn_inf x = PInf) by (intros x X; unfold sgn_inf; rewrite (proj2 (rlt_t 0 x) X); reflexivity).
  assert (Z1 : req 0 0 = true) by (apply req_t; reflexivity). assert (Z2 : req a 0 = false) by (apply req_f; lra). assert (Z3 : req b 0 = false) by (apply req_f; lra).
  unfold xdiv. rewrite Z1, Z2, Z3. replace (a/a) with 1 by (field; lra). replace (b/b) with 1 by (field; lra).
  cbn [xadd xmul]. rewrite !P; try lra. reflexivity.
Qed.
