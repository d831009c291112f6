(* C69, continued: resampling of the observed series, the search, and the files. *)
From Coq Require Import Reals Lra Lia List Bool Arith.
From Verif Require Import ChanR_Model ChanR_Proofs Calib_Model Calib_Spec Calib_Props.
Import ListNotations.
Local Open Scope R_scope.

(* ---------- resampling ---------- *)
Lemma nth_at l k d : (k < length l)%nat -> at_pos l k (nth k l d).
Proof. intros H. unfold at_pos. apply nth_error_nth'. exact H. Qed.
Lemma at_nth l k x d : at_pos l k x -> nth k l d = x.
Proof. intros H. apply nth_error_nth. exact H. Qed.
Lemma at_len l k x : at_pos l k x -> (k < length l)%nat.
Proof. intros H. apply nth_error_Some. unfold at_pos in H. congruence. Qed.
Lemma ss_spec l t : increasing l ->
  let k := searchsorted l t in (k <= length l)%nat /\
  (forall j x, at_pos l j x -> (j < k)%nat -> x < t) /\ (forall j x, at_pos l j x -> (k <= j)%nat -> t <= x).
Proof.
  induction l as [|y l IH]; intros I.
  - cbn. split; [lia|]. split; intros j x H; exfalso; destruct j; discriminate H.
  - cbn [searchsorted]. assert (I' : increasing l) by (intros i j a b H A B; exact (I (S i) (S j) a b ltac:(lia) A B)).
    destruct (IH I') as (A & B & C). destruct (Rle_dec t y) as [L|L].
    + split; [lia|]. split; [intros; lia|]. intros [|j] x H _; [injection H as <-; exact L|].
      pose proof (I 0%nat (S j) y x ltac:(lia) eq_refl H). lra.
    + cbn [length]. split; [lia|]. split.
      * intros [|j] x H Hj; [injection H as <-; lra|]. apply (B j x H). lia.
      * intros [|j] x H Hj; [lia|]. apply (C j x H). lia.
Qed.
(* the two observations used for a time, and the value: on the straight line through them *)
Theorem C69_resampled_value : forall times values t, increasing times -> (2 <= length times)%nat -> length values = length times ->
  exists k x0 x1 y0 y1, at_pos times k x0 /\ at_pos times (S k) x1 /\ at_pos values k y0 /\ at_pos values (S k) y1 /\
    x0 < x1 /\ on_line x0 y0 x1 y1 t (interp times values t) /\
    (x0 <= t <= x1 \/ (t < x0 /\ k = 0%nat) \/ (x1 < t /\ S (S k) = length times)).
Proof.
  intros times values t I L2 LV. destruct (ss_spec times t I) as (A & B & C). set (s := searchsorted times t) in *.
  set (hi := Nat.max 1 (Nat.min s (length times - 1))). assert (H1 : (1 <= hi < length times)%nat) by (unfold hi; lia).
  exists (hi - 1)%nat, (nth (hi - 1) times 0), (nth hi times 0), (nth (hi - 1) values 0), (nth hi values 0).
  replace (S (hi - 1)) with hi by lia.
  assert (P0 := nth_at times (hi - 1) 0 ltac:(lia)). assert (P1 := nth_at times hi 0 ltac:(lia)).
  assert (LT := I (hi - 1)%nat hi _ _ ltac:(lia) P0 P1).
  split; [exact P0|]. split; [exact P1|]. split; [apply nth_at; lia|]. split; [apply nth_at; lia|]. split; [exact LT|]. split.
  - unfold on_line, interp. fold s. fold hi. set (x0 := nth (hi - 1) times 0) in *. set (x1 := nth hi times 0) in *. field. lra.
  - destruct (le_lt_dec s 0) as [S0|S0].
    { assert (hi = 1%nat) by (unfold hi; lia). assert (T := C (hi - 1)%nat _ P0 ltac:(lia)).
      destruct (Req_dec t (nth (hi - 1) times 0)) as [E|N]; [left; lra|]. right. left. split; [lra|lia]. }
    destruct (le_lt_dec (length times) s) as [SL|SL].
    { right. right. assert (hi = length times - 1)%nat by (unfold hi; lia). split; [|lia]. apply (B hi _ P1). lia. }
    left. assert (hi = s) by (unfold hi; lia). split; [left; apply (B (hi - 1)%nat _ P0); lia|apply (C hi _ P1); lia].
Qed.
Print Assumptions C69_resampled_value.

(* at an observed time the observed value, between two observations a value between theirs *)
Theorem C69_resampled_at_observation : forall times values k t v, increasing times -> (2 <= length times)%nat ->
  length values = length times -> at_pos times k t -> at_pos values k v -> interp times values t = v.
Proof.
  intros times values k t v I L2 LV Ht Hv.
  destruct (C69_resampled_value times values t I L2 LV) as (j & x0 & x1 & y0 & y1 & A0 & A1 & B0 & B1 & LT & ON & CASE).
  assert (U : forall i x, at_pos times i x -> x = t -> i = k).
  { intros i x Hi E. destruct (Nat.lt_total i k) as [C|[C|C]]; [|exact C|].
    - pose proof (I i k x t C Hi Ht). lra.
    - pose proof (I k i t x C Ht Hi). lra. }
  unfold on_line in ON.
  assert (jk : k = j \/ k = S j).
  { assert (k < length times)%nat by (eapply at_len; exact Ht).
    destruct (le_lt_dec k j) as [K|K].
    - destruct (Nat.eq_dec k j) as [|N]; [left; assumption|]. exfalso.
      pose proof (I k j t x0 ltac:(lia) Ht A0). destruct CASE as [C|[[_ C]|[C _]]]; [lra|lia|lra].
    - destruct (Nat.eq_dec k (S j)) as [|N]; [right; assumption|]. exfalso.
      pose proof (I (S j) k x1 t ltac:(lia) A1 Ht). destruct CASE as [C|[[C _]|[_ C]]]; [lra|lra|lia]. }
  unfold at_pos in *. destruct jk as [-> | ->].
  - rewrite A0 in Ht. injection Ht as ->. rewrite B0 in Hv. injection Hv as ->.
    assert (E : (interp times values t - v) * (x1 - t) = 0) by (rewrite ON; ring).
    apply Rmult_integral in E as [E|E]; lra.
  - rewrite A1 in Ht. injection Ht as ->. rewrite B1 in Hv. injection Hv as ->.
    assert (E : (interp times values t - v) * (t - x0) = 0).
    { replace ((interp times values t - v) * (t - x0)) with ((interp times values t - y0) * (t - x0) - (v - y0) * (t - x0)) by ring. rewrite ON. ring. }
    apply Rmult_integral in E as [E|E]; lra.
Qed.
Print Assumptions C69_resampled_at_observation.
Theorem C69_resampled_between : forall times values t first last, increasing times -> (2 <= length times)%nat ->
  length values = length times -> at_pos times 0 first -> at_pos times (length times - 1) last -> first <= t <= last ->
  exists k y0 y1, at_pos values k y0 /\ at_pos values (S k) y1 /\ Rmin y0 y1 <= interp times values t <= Rmax y0 y1.
Proof.
  intros times values t f l I L2 LV Hf Hl Hr.
  destruct (C69_resampled_value times values t I L2 LV) as (j & x0 & x1 & y0 & y1 & A0 & A1 & B0 & B1 & LT & ON & CASE).
  exists j, y0, y1. split; [exact B0|]. split; [exact B1|].
  assert (IN : x0 <= t <= x1).
  { destruct CASE as [C|[[C E]|[C E]]]; [exact C| |].
    - subst j. unfold at_pos in *. rewrite Hf in A0. injection A0 as ->. lra.
    - replace (length times - 1)%nat with (S j) in Hl by lia. unfold at_pos in *. rewrite Hl in A1. injection A1 as ->. lra. }
  unfold on_line in ON. set (q := interp times values t) in *.
  set (s := (t - x0) / (x1 - x0)). assert (S1 : 0 <= s <= 1).
  { unfold s. split; [apply Rmult_le_pos; [lra|left; apply Rinv_0_lt_compat; lra]|].
    apply (Rmult_le_reg_r (x1 - x0)); [lra|]. unfold Rdiv. rewrite Rmult_assoc, Rinv_l by lra. lra. }
  assert (Q : q = y0 + s * (y1 - y0)).
  { assert (q - y0 = (y1 - y0) * (t - x0) / (x1 - x0)) by (rewrite <- ON; field; lra). unfold s. lra. }
  destruct (Rle_dec y0 y1) as [C|C].
  - rewrite Rmin_left, Rmax_right by lra. assert (0 <= s * (y1 - y0)) by (apply Rmult_le_pos; lra).
    assert (s * (y1 - y0) <= 1 * (y1 - y0)) by (apply Rmult_le_compat_r; lra). lra.
  - rewrite Rmin_right, Rmax_left by lra. assert (0 <= s * (y0 - y1)) by (apply Rmult_le_pos; lra).
    assert (s * (y0 - y1) <= 1 * (y0 - y1)) by (apply Rmult_le_compat_r; lra). lra.
Qed.
Print Assumptions C69_resampled_between.

Lemma map_at (f : R -> R) l k x : at_pos l k x -> at_pos (map f l) k (f x).
Proof. unfold at_pos. intros H. rewrite nth_error_map, H. reflexivity. Qed.
(* irregular observations, or observations rarer than the simulated values: the k-th observed value that is compared
   is the observation at the k-th simulated time *)
Theorem C69_same_times : forall oi sim_dt ot ov st k t, (oi = Irregular \/ exists o, oi = Every o /\ sim_dt < o) ->
  at_pos st k t -> at_pos (observed_series oi sim_dt ot ov st) k (interp ot ov t) /\
  length (observed_series oi sim_dt ot ov st) = length st.
Proof.
  intros oi sd ot ov st k t H Hk. unfold observed_series.
  replace (match oi with Irregular => true | Every o => if Rlt_dec sd o then true else false end) with true.
  - split; [apply map_at; exact Hk|apply map_length].
  - destruct H as [->|(o & -> & H)]; [reflexivity|]. destruct (Rlt_dec sd o); [reflexivity|contradiction].
Qed.
Print Assumptions C69_same_times.
(* observations more frequent than the simulated values are compared by position, not by time: a simulation that
   meets every observation exactly has a cost, and one that is wrong at all times but the first has none *)
Theorem C69_same_times_refuted :
  let ot := [0; 15; 30; 45; 60] in let ov := [0; 1; 2; 3; 4] in let st := [0; 60] in
  let o := observed_series (Every 15) 60 ot ov st in
  (forall k t x, at_pos st k t -> at_pos [0; 4] k x -> interp ot ov t = x) /\
  compute_cost o [0; 4] 1 = 3 /\ compute_cost o [0; 1] 1 = 0.
Proof.
  cbv zeta. split; [|].
  - assert (I : increasing [0; 15; 30; 45; 60]).
    { intros i j x y H Hi Hj. do 5 (destruct i as [|i]; [injection Hi as <-; do 5 (destruct j as [|j]; [lia||(injection Hj as <-; lra)|]); destruct j; discriminate Hj|]).
      destruct i; discriminate Hi. }
    intros [|[|k]] t x Ht Hx.
    + injection Ht as <-. injection Hx as <-. apply (C69_resampled_at_observation _ _ 0%nat); try reflexivity; [exact I|cbn; lia].
    + injection Ht as <-. injection Hx as <-. apply (C69_resampled_at_observation _ _ 4%nat); try reflexivity; [exact I|cbn; lia].
    + destruct k; discriminate Ht.
  - assert (O : observed_series (Every 15) 60 [0; 15; 30; 45; 60] [0; 1; 2; 3; 4] [0; 60] = [0; 1; 2; 3; 4]).
    { unfold observed_series. destruct (Rlt_dec 60 15); [lra|reflexivity]. }
    rewrite O. assert (P1 : powr 1 1 = 1) by (apply powr_1; lra). assert (P0 : powr 0 1 = 0) by apply powr_0.
    assert (P3 : powr 3 1 = 3) by (apply powr_1; lra).
    split; unfold compute_cost, Lp_norm; cbn [length Nat.eqb Nat.ltb Nat.leb firstn combine map fst snd rsum fold_right];
      replace (0 - 0) with 0 by ring; replace (1 / 1) with 1 by field; rewrite Rabs_R0, P0.
    + replace (1 - 4) with (-3) by ring. rewrite Rabs_left by lra. replace (- (-3)) with 3 by ring. rewrite P3, Rplus_0_l, Rplus_0_r. exact P3.
    + replace (1 - 1) with 0 by ring. rewrite Rabs_R0, P0, !Rplus_0_l. exact P0.
Qed.
Print Assumptions C69_same_times_refuted.
(* a simulation that lasts longer than the observations is compared with an extrapolation, here a negative discharge *)
Theorem C69_negative_discharge_refuted :
  let ot := [0; 60] in let ov := [4; 2] in
  at_pos (observed_series Irregular 1 ot ov [0; 60; 180]) 2 (-2).
Proof.
  cbv zeta. unfold observed_series, at_pos. cbn [map nth_error]. f_equal. unfold interp. cbn [searchsorted length].
  destruct (Rle_dec 180 0); [lra|]. destruct (Rle_dec 180 60); [lra|]. cbn [Nat.sub Nat.min Nat.max nth]. field.
Qed.
Print Assumptions C69_negative_discharge_refuted.

(* ---------- the values tried ---------- *)
Theorem C69_values_tried : forall vmin vmax n, (2 <= n)%nat -> vmin <> vmax ->
  let l := get_parameter_values vmin vmax n in
  length l = n /\ at_pos l 0 vmin /\ at_pos l (n - 1) vmax /\
  (forall k x y, at_pos l k x -> at_pos l (S k) y -> y - x = (vmax - vmin) / INR (n - 1)).
Proof.
  intros vmin vmax n Hn Hne l. unfold l, get_parameter_values.
  replace (n =? 1) with false by (symmetry; apply Nat.eqb_neq; lia). destruct (Req_EM_T vmin vmax); [contradiction|]. cbn [orb].
  assert (P : 0 < INR (n - 1)) by (apply lt_0_INR; lia).
  assert (N : forall k, (k < n)%nat -> nth_error (map (fun k => (vmax - vmin) * (INR k / INR (n - 1)) + vmin) (seq 0 n)) k =
                        Some ((vmax - vmin) * (INR k / INR (n - 1)) + vmin)).
  { intros k Hk. rewrite nth_error_map. rewrite (nth_error_nth' _ 0%nat) by (rewrite seq_length; exact Hk). rewrite seq_nth by exact Hk. reflexivity. }
  split; [rewrite map_length, seq_length; reflexivity|]. unfold at_pos. split; [|split].
  - rewrite N by lia. f_equal. cbn [INR]. field. lra.
  - rewrite N by lia. f_equal. field. lra.
  - intros k x y Hx Hy. assert (S k < n)%nat.
    { assert (nth_error (map (fun k => (vmax - vmin) * (INR k / INR (n - 1)) + vmin) (seq 0 n)) (S k) <> None) by congruence.
      apply nth_error_Some in H. rewrite map_length, seq_length in H. exact H. }
    rewrite N in Hx, Hy by lia. assert (x = (vmax - vmin) * (INR k / INR (n - 1)) + vmin) by congruence.
    assert (y = (vmax - vmin) * (INR (S k) / INR (n - 1)) + vmin) by congruence. subst x y. rewrite S_INR. field. lra.
Qed.
Print Assumptions C69_values_tried.
(* a single value asked for, or a range of one value: the lower end is tried *)
Theorem C69_single_value : forall vmin vmax n, n = 1%nat \/ vmin = vmax -> get_parameter_values vmin vmax n = [vmin].
Proof.
  intros vmin vmax n [-> | E]; unfold get_parameter_values; [reflexivity|].
  destruct (Req_EM_T vmin vmax); [|contradiction]. now rewrite orb_true_r.
Qed.
Print Assumptions C69_single_value.

(* ---------- the search ---------- *)
Section Search.
Context {F : Type}.
Variable gen : R -> F.
Variable run : F -> option (list R * list R).
Variable obs_int : interval.
Variable sim_dt : R.
Variables obs_times obs_values : list R.
Variable p : R.

(* the series every run is compared with: the observations resampled at the times of the first run *)
Definition reference (params : list R) : list R :=
  match params with
  | [] => obs_values
  | x :: _ => match run (gen x) with
              | Some (times, _) => observed_series obs_int sim_dt obs_times obs_values times
              | None => obs_values
              end
  end.
(* the cost of a parameter against a reference; only for parameters whose run succeeds *)
Definition cost_of (o : list R) (x : R) : option R :=
  match run (gen x) with Some (_, values) => Some (compute_cost o values p) | None => None end.

Definition inv (o : list R) (done : list R) (s : search) : Prop :=
  length (costs s) = length done /\ (done <> [] -> obs s = o) /\
  (forall k x, nth_error done k = Some x -> exists c, cost_of o x = Some c /\ nth_error (costs s) k = Some c) /\
  match best s with
  | None => min_cost s = 1000000 /\ forall k c, nth_error (costs s) k = Some c -> 1000000 <= c
  | Some i => nth_error (costs s) i = Some (min_cost s) /\ min_cost s < 1000000 /\
              (forall k c, nth_error (costs s) k = Some c -> min_cost s <= c) /\
              (forall k c, (k < i)%nat -> nth_error (costs s) k = Some c -> min_cost s < c)
  end.

Lemma nth_snoc {X : Type} (l : list X) x k y : nth_error (l ++ [x]) k = Some y ->
  nth_error l k = Some y \/ (k = length l /\ y = x).
Proof.
  intros H. destruct (Nat.lt_ge_cases k (length l)) as [L|L]; [left; rewrite nth_error_app1 in H by exact L; exact H|right].
  rewrite nth_error_app2 in H by exact L. destruct (k - length l)%nat as [|m] eqn:E; [|destruct m; discriminate H].
  injection H as <-. split; [lia|reflexivity].
Qed.
Lemma nth_old {X : Type} (l : list X) x k y : nth_error l k = Some y -> nth_error (l ++ [x]) k = Some y.
Proof. intros H. rewrite nth_error_app1; [exact H|]. apply nth_error_Some. congruence. Qed.
Lemma nth_new {X : Type} (l : list X) x : nth_error (l ++ [x]) (length l) = Some x.
Proof. rewrite nth_error_app2, Nat.sub_diag by lia. reflexivity. Qed.

Lemma try_param_inv o done f s x f' s' g :
  (done = [] -> forall t v, run (gen x) = Some (t, v) -> observed_series obs_int sim_dt obs_times obs_values t = o) ->
  inv o done s -> try_param gen run obs_int sim_dt obs_times obs_values p (f, s) x = (Some (f', s'), g) ->
  inv o (done ++ [x]) s' /\ bak f' = bak f /\ inp f' = gen x.
Proof.
  intros HO (L & OB & CO & BE) E. unfold try_param in E. cbn [inp bak] in E. destruct (run (gen x)) as [[t v]|] eqn:ER; [|discriminate E].
  injection E as <- <- _. split; [|split; reflexivity]. set (o' := if length (costs s) =? 0 then _ else _).
  assert (Eo : o' = o).
  { unfold o'. destruct done as [|d0 dr].
    - rewrite L. cbn [length Nat.eqb]. apply (HO eq_refl t v eq_refl).
    - rewrite L. cbn [length Nat.eqb]. apply OB. discriminate. }
  rewrite Eo. clear o' Eo. set (c := compute_cost o v p). unfold inv. cbn [costs obs best min_cost].
  split; [rewrite !app_length, L; reflexivity|]. split; [reflexivity|]. split.
  - intros k y Hy. destruct (nth_snoc _ _ _ _ Hy) as [H|[-> ->]].
    + destruct (CO k y H) as (c' & C1 & C2). exists c'. split; [exact C1|]. apply nth_old. exact C2.
    + exists c. split; [unfold cost_of; rewrite ER; reflexivity|]. rewrite <- L. apply nth_new.
  - destruct (Rlt_dec c (min_cost s)) as [B|B].
    + split; [apply nth_new|]. split.
      { destruct (best s); [destruct BE as (_ & M & _); lra|destruct BE as [M _]; lra]. }
      assert (Old : forall k c', nth_error (costs s) k = Some c' -> c < c').
      { intros k c' H. destruct (best s); [destruct BE as (_ & _ & M & _); specialize (M k c' H); lra|destruct BE as [M1 M2]; specialize (M2 k c' H); lra]. }
      split.
      * intros k c' H. destruct (nth_snoc _ _ _ _ H) as [H'|[_ ->]]; [left; eapply Old; exact H'|lra].
      * intros k c' Hk H. destruct (nth_snoc _ _ _ _ H) as [H'|[-> _]]; [eapply Old; exact H'|lia].
    + destruct (best s) as [i|].
      * destruct BE as (M0 & M1 & M2 & M3). split; [apply nth_old; exact M0|]. split; [exact M1|]. split.
        -- intros k c' H. destruct (nth_snoc _ _ _ _ H) as [H'|[_ ->]]; [eapply M2; exact H'|lra].
        -- intros k c' Hk H. destruct (nth_snoc _ _ _ _ H) as [H'|[-> _]]; [eapply M3; eassumption|].
           assert (i < length (costs s))%nat by (apply nth_error_Some; congruence). lia.
      * destruct BE as [M0 M1]. split; [exact M0|]. intros k c' H. destruct (nth_snoc _ _ _ _ H) as [H'|[_ ->]]; [eapply M1; exact H'|lra].
Qed.
Lemma try_all_inv : forall params o done f s f' s' g,
  (done = [] -> forall x l t v, params = x :: l -> run (gen x) = Some (t, v) -> observed_series obs_int sim_dt obs_times obs_values t = o) ->
  inv o done s -> try_all gen run obs_int sim_dt obs_times obs_values p (f, s) params = (Some (f', s'), g) ->
  inv o (done ++ params) s' /\ bak f' = bak f.
Proof.
  induction params as [|x l IH]; intros o done f s f' s' g HO I E; cbn [try_all] in E.
  - injection E as <- <- _. rewrite app_nil_r. auto.
  - destruct (try_param gen run obs_int sim_dt obs_times obs_values p (f, s) x) as [[[f1 s1]|] g1] eqn:E1; [|discriminate E].
    destruct (try_param_inv o done f s x f1 s1 g1 ltac:(intros D t v; apply (HO D x l t v eq_refl)) I E1) as (I1 & B1 & _).
    destruct (IH o (done ++ [x]) f1 s1 f' s' g ltac:(intros D; destruct done; discriminate D) I1 E) as [I2 B2].
    rewrite <- app_assoc in I2. split; [exact I2|congruence].
Qed.
Lemma try_all_fail : forall params f s g, try_all gen run obs_int sim_dt obs_times obs_values p (f, s) params = (None, g) ->
  bak g = bak f /\ exists x, In x params /\ inp g = gen x /\ run (gen x) = None.
Proof.
  induction params as [|x l IH]; intros f s g E; cbn [try_all] in E; [discriminate E|].
  unfold try_param in E. cbn [inp bak] in E. destruct (run (gen x)) as [[t v]|] eqn:ER.
  - destruct (IH _ _ _ E) as (B & y & Hy & P1 & P2). cbn [bak] in B. split; [exact B|]. exists y. split; [right; exact Hy|auto].
  - injection E as <-. cbn [inp bak]. split; [reflexivity|]. exists x. split; [left; reflexivity|auto].
Qed.

Let calib := calibrate gen run obs_int sim_dt obs_times obs_values p.
Lemma start_inv o : inv o [] {| costs := []; min_cost := 1000000; best := None; obs := obs_values |}.
Proof.
  unfold inv. cbn. split; [reflexivity|]. split; [congruence|]. split; [intros k x H; destruct k; discriminate H|].
  split; [reflexivity|]. intros k c H. destruct k; discriminate H.
Qed.
Lemma reference_ok params : ([] : list R) = [] -> forall x l t v, params = x :: l -> run (gen x) = Some (t, v) ->
  observed_series obs_int sim_dt obs_times obs_values t = reference params.
Proof. intros _ x l t v -> E. cbn. rewrite E. reflexivity. Qed.

(* The result is a parameter of least cost among all that were tried (the first of them), each of which was compared
   with the same reference; the reported costs are theirs, and the input file is what it was. *)
Theorem C69_best_parameter : forall vmin vmax n f f' b cs, calib true vmin vmax n f = Done f' b cs ->
  let params := get_parameter_values vmin vmax n in let o := reference params in
  inp f' = inp f /\
  exists i c, at_pos params i b /\ cost_of o b = Some c /\ c < 1000000 /\
    (forall k x, at_pos params k x -> exists c', cost_of o x = Some c' /\ at_pos cs k c' /\ c <= c' /\ ((k < i)%nat -> c < c')).
Proof.
  intros vmin vmax n f f' b cs E params o. unfold calib, calibrate in E. fold params in E.
  destruct (try_all gen run obs_int sim_dt obs_times obs_values p (backup f, _) params) as [[[f1 s1]|] g1] eqn:ET; [|discriminate E].
  destruct (try_all_inv params o [] _ _ _ _ _ (reference_ok params) (start_inv o) ET) as [(L & _ & CO & BE) B]. cbn [app] in *.
  cbn [backup bak] in B. destruct (best s1) as [i|]; [|discriminate E]. injection E as <- <- <-.
  split; [unfold restore; rewrite B; reflexivity|].
  destruct BE as (M0 & M1 & M2 & M3). assert (Hi : (i < length params)%nat) by (rewrite <- L; apply nth_error_Some; congruence).
  exists i, (min_cost s1). assert (P : at_pos params i (nth i params 0)) by (apply nth_at; exact Hi). split; [exact P|].
  destruct (CO i _ P) as (c & C1 & C2). rewrite M0 in C2. injection C2 as <-. split; [exact C1|]. split; [exact M1|].
  intros k x Hx. destruct (CO k x Hx) as (c' & C3 & C4). exists c'. split; [exact C3|]. split; [unfold at_pos, cost_array; apply nth_error_Some_app_l || rewrite nth_error_app1; [exact C4|apply nth_error_Some; congruence]|].
  split; [eapply M2; exact C4|]. intros Hk. eapply M3; eassumption.
Qed.

(* When no parameter costs less than 1e6 the call fails, after the input file has been put back. *)
Theorem C69_no_best_parameter : forall SILENT vmin vmax n f f', calib SILENT vmin vmax n f = UnboundBest f' ->
  let params := get_parameter_values vmin vmax n in
  inp f' = inp f /\ forall k x, at_pos params k x -> exists c, cost_of (reference params) x = Some c /\ 1000000 <= c.
Proof.
  intros SL vmin vmax n f f' E params. unfold calib, calibrate in E. fold params in E.
  destruct (try_all gen run obs_int sim_dt obs_times obs_values p (backup f, _) params) as [[[f1 s1]|] g1] eqn:ET; [|discriminate E].
  destruct (try_all_inv params _ [] _ _ _ _ _ (reference_ok params) (start_inv _) ET) as [(L & _ & CO & BE) B]. cbn [app] in *.
  cbn [backup bak] in B. destruct (best s1) as [i|]; [destruct SL; discriminate E|]. injection E as <-.
  split; [unfold restore; rewrite B; reflexivity|]. destruct BE as [_ M]. intros k x Hx. destruct (CO k x Hx) as (c & C1 & C2).
  exists c. split; [exact C1|]. eapply M. exact C2.
Qed.

(* When a run raises, the input file is left with the grid of that run; the original is in the backup file. *)
Theorem C69_failed_run : forall SILENT vmin vmax n f f', calib SILENT vmin vmax n f = RunError f' ->
  bak f' = Some (inp f) /\ exists x, In x (get_parameter_values vmin vmax n) /\ inp f' = gen x /\ run (gen x) = None.
Proof.
  intros SL vmin vmax n f f' E. unfold calib, calibrate in E.
  destruct (try_all gen run obs_int sim_dt obs_times obs_values p (backup f, _) (get_parameter_values vmin vmax n)) as [[[f1 s1]|] g1] eqn:ET;
    [destruct (best s1); [destruct SL|]; discriminate E|]. injection E as <-.
  exact (try_all_fail _ _ _ _ ET).
Qed.
(* with SILENT=False the call never returns normally *)
Theorem C69_not_silent_refuted : forall vmin vmax n f, (forall f' b c, calib false vmin vmax n f <> Done f' b c).
Proof.
  intros vmin vmax n f f' b c. unfold calib, calibrate.
  destruct (try_all gen run obs_int sim_dt obs_times obs_values p (backup f, _) (get_parameter_values vmin vmax n)) as [[[f1 s1]|] g1]; [|discriminate].
  destruct (best s1); discriminate.
Qed.
End Search.
Print Assumptions C69_best_parameter.
Print Assumptions C69_no_best_parameter.
Print Assumptions C69_failed_run.
Print Assumptions C69_not_silent_refuted.

(* A first calibration fails in a run, a second one succeeds: the original grid is lost for good (the backup of the
   second one is the grid of the failed run). *)
Theorem C69_original_lost_refuted : forall (F : Type) (gen : R -> F) (orig : F) (run : F -> option (list R * list R)) run2 oi dt ot ov p f1 f2 b cs,
  calibrate gen run oi dt ot ov p true 0 0 1 {| inp := orig; bak := None |} = RunError f1 ->
  calibrate gen run2 oi dt ot ov p true 1 1 1 f1 = Done f2 b cs ->
  inp f2 = gen 0 /\ bak f2 = Some (gen 0).
Proof.
  intros F gen orig run run2 oi dt ot ov p f1 f2 b cs E1 E2.
  assert (P : forall v, get_parameter_values v v 1 = [v]) by reflexivity.
  destruct (C69_failed_run _ _ _ _ _ _ _ _ _ _ _ _ _ E1) as (B & x & Hx & I1 & _). rewrite P in Hx. destruct Hx as [<-|[]].
  unfold calibrate in E2. rewrite P in E2. cbn [try_all] in E2. unfold try_param in E2. cbn [inp bak backup] in E2.
  destruct (run2 (gen 1)) as [[t v]|]; [|discriminate E2]. cbn [costs length Nat.eqb min_cost best] in E2.
  destruct (Rlt_dec _ _) in E2; [|discriminate E2]. injection E2 as <- _ _. unfold restore. cbn [bak inp]. rewrite I1. auto.
Qed.
Print Assumptions C69_original_lost_refuted.

(* one value in the range: the reported costs of the other n - 1 entries are 0, although nothing was run for them *)
Theorem C69_cost_array_refuted : forall (F : Type) (gen : R -> F) run oi dt ot ov p v n f f' b cs,
  calibrate gen run oi dt ot ov p true v v (S (S n)) f = Done f' b cs ->
  length (get_parameter_values v v (S (S n))) = 1%nat /\ length cs = S (S n) /\ at_pos cs 1 0.
Proof.
  intros F gen run oi dt ot ov p v n f f' b cs E.
  assert (P : get_parameter_values v v (S (S n)) = [v]).
  { unfold get_parameter_values. destruct (Req_EM_T v v); [|lra]. rewrite orb_true_r. reflexivity. }
  unfold calibrate in E. rewrite P in *. split; [reflexivity|].
  cbn [try_all] in E. unfold try_param in E. cbn [inp bak backup] in E. destruct (run (gen v)) as [[t w]|]; [|discriminate E].
  cbn [costs length Nat.eqb min_cost best] in E. destruct (Rlt_dec _ _) in E; [|discriminate E]. injection E as _ _ <-.
  unfold cost_array. cbn. split; [rewrite repeat_length; reflexivity|reflexivity].
Qed.
Print Assumptions C69_cost_array_refuted.

(* ---------- which file is read ---------- *)
Lemma in_eqb k l : existsb (Nat.eqb k) l = true <-> In k l.
Proof. rewrite existsb_exists. split; [intros (x & H & E); apply Nat.eqb_eq in E; subst; exact H|intros H; exists k; split; [exact H|apply Nat.eqb_refl]]. Qed.
Lemma first_free_seq : forall fuel m k l, (k <= m)%nat -> (m - k <= fuel)%nat -> (forall j, In j l <-> (j < m)%nat) -> first_free fuel l k = m.
Proof.
  induction fuel as [|f IH]; intros m k l H1 H2 H; cbn [first_free]; [lia|].
  destruct (existsb (Nat.eqb k) l) eqn:E.
  - apply in_eqb, H in E. apply IH; [lia|lia|exact H].
  - destruct (Nat.eq_dec k m) as [->|N]; [reflexivity|]. exfalso. assert (In k l) by (apply H; lia). apply in_eqb in H0. congruence.
Qed.
Lemma max_in v l : (forall x, In x (v :: l) -> (x <= fold_right Nat.max v l)%nat) /\ In (fold_right Nat.max v l) (v :: l).
Proof.
  induction l as [|y l [I1 I2]]; cbn [fold_right]; [split; [intros x [<-|[]]; lia|left; reflexivity]|]. split.
  - intros x [<-|[<-|H]]; [specialize (I1 v (or_introl eq_refl)); lia|lia|specialize (I1 x (or_intror H)); lia].
  - destruct (Nat.max_dec y (fold_right Nat.max v l)) as [-> | ->]; [right; left; reflexivity|destruct I2 as [E|E]; [left; exact E|right; right; exact E]].
Qed.
(* as long as no version was deleted, the file that is read is the one just written *)
Theorem C69_newest_file : forall versions m, NoDup versions -> (forall j, In j versions <-> (j < m)%nat) ->
  let k := write_output versions in k = m /\ update_sim_data_file (k :: versions) = Some k.
Proof.
  intros versions m ND H k. assert (LM : length versions = m).
  { assert (L1 : (length versions <= m)%nat).
    { rewrite <- (seq_length m 0). apply NoDup_incl_length; [exact ND|]. intros x Hx. apply in_seq. apply H in Hx. lia. }
    assert (L2 : (m <= length versions)%nat).
    { rewrite <- (seq_length m 0) at 1. apply NoDup_incl_length; [apply seq_NoDup|]. intros x Hx. apply in_seq in Hx. apply H. lia. }
    lia. }
  assert (K : k = m) by (unfold k, write_output; apply first_free_seq; [lia|lia|exact H]). split; [exact K|].
  unfold update_sim_data_file. f_equal. destruct (max_in k versions) as [M1 M2]. destruct M2 as [M2|M2]; [symmetry; exact M2|].
  apply H in M2. specialize (M1 k (or_introl eq_refl)). lia.
Qed.
Print Assumptions C69_newest_file.
(* after a deletion the run fills the gap and an older file is read *)
Theorem C69_newest_file_refuted :
  let versions := [0; 1; 3]%nat in write_output versions = 2%nat /\ update_sim_data_file (write_output versions :: versions) = Some 3%nat.
Proof. split; reflexivity. Qed.
Print Assumptions C69_newest_file_refuted.

(* Non-vacuity: two parameters, the second one meets the observation *)
Example C69_demo : exists f cs,
  calibrate (fun x : R => x) (fun x => Some ([0; 1], [x; x])) Irregular 1 [0; 1] [2; 2] 1 true 1 2 2 {| inp := 7; bak := None |} = Done f 2 cs.
Proof.
  destruct (calibrate (fun x : R => x) (fun x => Some ([0; 1], [x; x])) Irregular 1 [0; 1] [2; 2] 1 true 1 2 2 {| inp := 7; bak := None |}) as [f|f|f b c|f b c] eqn:E.
  - exfalso. destruct (C69_failed_run _ _ _ _ _ _ _ _ _ _ _ _ _ E) as (_ & x & _ & _ & X). discriminate X.
  - exfalso. destruct (C69_no_best_parameter _ _ _ _ _ _ _ _ _ _ _ _ _ E) as [_ H].
    destruct (C69_values_tried 1 2 2 ltac:(lia) ltac:(lra)) as (_ & _ & Hl & _). destruct (H _ _ Hl) as (c & C1 & C2).
    unfold cost_of in C1. injection C1 as <-. revert C2. unfold reference, get_parameter_values. destruct (Req_EM_T 1 2); [lra|].
    cbn [Nat.eqb orb seq map]. unfold observed_series. cbn [map].
    assert (I : increasing [0; 1]) by (intros [|[|i]] [|[|j]] x y Hij Hx Hy; try lia; try (injection Hx as <-; injection Hy as <-; lra); try (destruct j; discriminate Hy); try (destruct i; discriminate Hx)).
    rewrite (C69_resampled_at_observation [0; 1] [2; 2] 0 0 2 I), (C69_resampled_at_observation [0; 1] [2; 2] 1 1 2 I); try reflexivity; try (cbn; lia).
    intros C2. rewrite (proj2 (proj1 (proj2 (C69_cost_is_a_distance 1 [2; 2] [2; 2] [2; 2] ltac:(lra) eq_refl eq_refl))) eq_refl) in C2. lra.
  - exfalso. revert E. unfold calibrate. destruct (try_all _ _ _ _ _ _ _ _ _) as [[[f1 s1]|] g1]; [|discriminate]. destruct (best s1); discriminate.
  - exists f, c. f_equal.
    destruct (C69_best_parameter _ _ _ _ _ _ _ _ _ _ _ _ _ _ E) as (_ & i & c0 & Hi & C1 & _ & M).
    destruct (C69_values_tried 1 2 2 ltac:(lia) ltac:(lra)) as (HL & H0 & Hl & _).
    destruct (M _ _ Hl) as (c1 & C3 & _ & C5 & _).
    assert (Z : forall x, cost_of (fun x : R => x) (fun x => Some ([0; 1], [x; x])) 1 [2; 2] x = Some 0 -> x = 2).
    { intros x Hx. unfold cost_of in Hx. injection Hx as Hx.
      pose proof (proj1 (proj1 (proj2 (C69_cost_is_a_distance 1 [2; 2] [x; x] [x; x] ltac:(lra) eq_refl eq_refl))) Hx) as Q. injection Q as _ <-. reflexivity. }
    assert (RF : reference (fun x : R => x) (fun x => Some ([0; 1], [x; x])) Irregular 1 [0; 1] [2; 2] (get_parameter_values 1 2 2) = [2; 2]).
    { unfold reference, get_parameter_values. destruct (Req_EM_T 1 2); [lra|]. cbn [Nat.eqb orb seq map]. unfold observed_series. cbn [map].
      assert (I : increasing [0; 1]) by (intros [|[|i']] [|[|j]] x y Hij Hx Hy; try lia; try (injection Hx as <-; injection Hy as <-; lra); try (destruct j; discriminate Hy); try (destruct i'; discriminate Hx)).
      rewrite (C69_resampled_at_observation [0; 1] [2; 2] 0 0 2 I), (C69_resampled_at_observation [0; 1] [2; 2] 1 1 2 I); try reflexivity; cbn; lia. }
    rewrite RF in *. apply Z. unfold cost_of in *. injection C3 as <-. injection C1 as <-. f_equal.
    apply Rle_antisym; [|apply (C69_cost_is_a_distance 1 [2; 2] [b; b] [b; b] ltac:(lra) eq_refl eq_refl)].
    rewrite (proj2 (proj1 (proj2 (C69_cost_is_a_distance 1 [2; 2] [2; 2] [2; 2] ltac:(lra) eq_refl eq_refl))) eq_refl) in C5. exact C5.
Qed.
