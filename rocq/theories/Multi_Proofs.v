From Coq Require Import ZArith QArith Qround Lqa Lia List Bool String.
From Verif Require Import Base Emeli_Model Emeli_Spec Emeli_Proofs Interp_Model Multi_Model Multi_Spec.
From Verif Require Bmi_Model Bmi_Props.
Import ListNotations.
Local Open Scope Q_scope.

Section P.
Variable V : Type.
Variable line : V -> Q -> V -> Q -> Q -> V.
Variables (cs : list (mcomp V)).
Let mc i := get (mcomp0 V) cs i.

(* ---------------------------------------------------------------- positions *)

Lemma position_spec c p : position V cs c = Some p -> (p < List.length cs)%nat /\ n_comp (mc_names V (mc p)) = c.
Proof.
  unfold mc, get. revert p. induction cs as [|m l IH]; intros p; cbn; [discriminate|].
  destruct (String.eqb_spec c (n_comp (mc_names V m))) as [E|N].
  - intros H; inversion H; subst. split; [lia|reflexivity].
  - destruct (position V l c) as [k|]; [|discriminate]. intros H; inversion H; subst.
    destruct (IH k eq_refl) as [A B]. split; [lia|exact B].
Qed.

Lemma position_some m : In m cs -> exists p, position V cs (n_comp (mc_names V m)) = Some p.
Proof.
  induction cs as [|m' l IH]; cbn; [intros []|]. intros [->|H].
  - rewrite String.eqb_refl. eauto.
  - destruct (String.eqb (n_comp (mc_names V m)) (n_comp (mc_names V m'))); [eauto|].
    destruct (IH H) as [p ->]. eauto.
Qed.

Lemma mc_in p : (p < List.length cs)%nat -> In (mc p) cs.
Proof. intros H. apply nth_In. exact H. Qed.

Lemma names_in n : In n (names_of V cs) -> exists m, In m cs /\ mc_names V m = n.
Proof. unfold names_of. intros H. apply in_map_iff in H. destruct H as (m & A & B). eauto. Qed.

Hypothesis ND : distinct_names V cs.

Lemma same_name m m' : In m cs -> In m' cs -> n_comp (mc_names V m) = n_comp (mc_names V m') -> m = m'.
Proof.
  unfold distinct_names in ND. revert ND. induction cs as [|a l IH]; cbn; [intros _ []|].
  intros N [<-|H] [<-|H'] E; try reflexivity; apply NoDup_cons_iff in N; destruct N as [N1 N2].
  - exfalso. apply N1. rewrite E. apply in_map_iff. eauto.
  - exfalso. apply N1. rewrite <- E. apply in_map_iff. eauto.
  - apply IH; assumption.
Qed.

Lemma provider_pos_spec x p :
  provider_pos V cs x = Some p -> (p < List.length cs)%nat /\ In x (n_out (mc_names V (mc p))).
Proof.
  unfold provider_pos. destruct (find_providers_inv (names_of V cs) x) as [_ E]. rewrite E.
  destruct (String.eqb_spec x ""); [discriminate|].
  destruct (noters (out_pairs (names_of V cs)) x) as [|c l] eqn:N; [discriminate|].
  intros H. destruct (position_spec c p H) as [L Ec]. split; [exact L|].
  assert (I : In c (noters (out_pairs (names_of V cs)) x)) by (rewrite N; left; reflexivity).
  unfold out_pairs in I. apply noters_In in I. destruct I as (nm & Hn & En & Hx).
  apply names_in in Hn. destruct Hn as (m & Hm & <-).
  rewrite <- En in Ec. rewrite (same_name (mc p) m (mc_in p L) Hm Ec). exact Hx.
Qed.

Lemma provider_pos_some m x : In m cs -> In x (n_out (mc_names V m)) -> x <> ""%string ->
  exists p, provider_pos V cs x = Some p.
Proof.
  intros Hm Hx Nx. unfold provider_pos. destruct (find_providers_inv (names_of V cs) x) as [_ E]. rewrite E.
  destruct (String.eqb_spec x ""); [congruence|].
  assert (I : In (n_comp (mc_names V m)) (noters (out_pairs (names_of V cs)) x)).
  { unfold out_pairs. apply noters_In. exists (mc_names V m). split; [apply in_map; exact Hm|]. auto. }
  destruct (noters (out_pairs (names_of V cs)) x) as [|c l] eqn:N; [destruct I|].
  assert (I2 : In c (noters (out_pairs (names_of V cs)) x)) by (rewrite N; left; reflexivity).
  unfold out_pairs in I2. apply noters_In in I2. destruct I2 as (nm & Hn & <- & _).
  apply names_in in Hn. destruct Hn as (m2 & Hm2 & <-). exact (position_some m2 Hm2).
Qed.

(* ---------------------------------------------------------------- clocks *)

Lemma get_clock_comps i : (i < List.length cs)%nat -> get comp0 (clock_comps V cs) i = clock_comp V cs (mc i).
Proof.
  intros H. unfold get, clock_comps, mc, get.
  rewrite (nth_indep _ comp0 (clock_comp V cs (mcomp0 V))) by (rewrite map_length; exact H).
  apply map_nth.
Qed.

Lemma mvisit_clock T st i s' :
  (i < List.length cs)%nat -> mvisit V line cs T (Some st) i = Some s' ->
  m_time V s' = m_time V st /\ m_done V s' = m_done V st /\
  forall log, exists log', visit (clock_comps V cs) T (Some (m_clocks V st, log)) i = Some (m_clocks V s', log').
Proof.
  intros Hi. unfold mvisit, visit. rewrite (get_clock_comps i Hi). fold (mc i).
  cbn [c_units clock_comp c_status].
  destruct (Qltb (fw_secs (mc_units V (mc i)) (s_time (get cstate0 (m_clocks V st) i))) T).
  2:{ intros H; inversion H; subst. split; [reflexivity|]. split; [reflexivity|]. eauto. }
  destruct (get_required_vars V line cs (m_clocks V st) (m_data V st) i _ (m_vals V st)) as [w|]; [|discriminate].
  destruct (mc_status V (mc i)) eqn:Es.
  all: match goal with |- context [update2 ?c ?k] => destruct (update2 c k) as [k2|] eqn:U end; [|discriminate].
  all: intros H; inversion H; subst; cbn [m_time m_done m_clocks]; split; [reflexivity|]; split; [reflexivity|].
  all: intros log; eexists; reflexivity.
Qed.

Lemma mvisit_none T l : fold_left (mvisit V line cs T) l None = None.
Proof. induction l; cbn; auto. Qed.

Lemma mvisits_clock T l st s' :
  (forall i, In i l -> (i < List.length cs)%nat) ->
  fold_left (mvisit V line cs T) l (Some st) = Some s' ->
  m_time V s' = m_time V st /\ m_done V s' = m_done V st /\
  forall log, exists log', fold_left (visit (clock_comps V cs) T) l (Some (m_clocks V st, log)) = Some (m_clocks V s', log').
Proof.
  revert st. induction l as [|i l IH]; intros st Hl; cbn [fold_left].
  - intros H; inversion H; subst. eauto.
  - destruct (mvisit V line cs T (Some st) i) as [s1|] eqn:E; [|rewrite mvisit_none; discriminate].
    destruct (mvisit_clock T st i s1 (Hl i (or_introl eq_refl)) E) as (A & B & C). intros H.
    destruct (IH s1 (fun j J => Hl j (or_intror J)) H) as (A' & B' & C').
    split; [congruence|]. split; [congruence|]. intros log. destruct (C log) as [log1 ->]. apply C'.
Qed.

Lemma mupdate_pass fdt drv stop s s' :
  mupdate V line cs fdt drv stop s = Some s' ->
  m_time V s' = m_time V s + fdt /\
  m_done V s' = stop (s_count (get cstate0 (m_clocks V s') drv)) || m_done V s /\
  exists log, pass (clock_comps V cs) (m_time V s) (m_clocks V s) = Some (m_clocks V s', log).
Proof.
  unfold mupdate. destruct (fold_left _ _ _) as [s1|] eqn:E; [|discriminate].
  intros H; inversion H; subst. clear H. cbn [m_time m_done m_clocks].
  destruct (mvisits_clock (m_time V s) _ s s1 (fun i I => proj2 (proj1 (in_seq (List.length cs) 0 i) I)) E) as (A & B & C).
  split; [rewrite A; reflexivity|]. split; [rewrite B; reflexivity|].
  destruct (C []) as [log L]. exists log. unfold pass, clock_comps at 2. rewrite map_length. exact L.
Qed.

(* n updates are n passes of the framework loop of emeli.py whose driver never stops *)
Definition never (n : nat) : bool := false.

Lemma mupdates_loop n fdt drv stop s s' log :
  mupdates V line n cs fdt drv stop s = Some s' ->
  exists log', loop n (clock_comps V cs) fdt drv never
    {| f_time := m_time V s; f_comps := m_clocks V s; f_done := false; f_log := log |} =
    Some {| f_time := m_time V s'; f_comps := m_clocks V s'; f_done := false; f_log := log' |}.
Proof.
  revert s log. induction n as [|n IH]; intros s log; cbn [mupdates loop f_done].
  - intros H; inversion H; subst. eauto.
  - destruct (mupdate V line cs fdt drv stop s) as [s1|] eqn:E; [|discriminate]. intros H.
    destruct (mupdate_pass _ _ _ _ _ E) as (A & _ & lg & P). unfold loop_body. cbn [f_time f_comps f_done f_log].
    rewrite P. unfold never at 2. cbn [orb]. rewrite <- A. apply IH. exact H.
Qed.

Lemma mupdates_time n fdt drv stop s s' :
  mupdates V line n cs fdt drv stop s = Some s' -> m_time V s' == m_time V s + Qn n * fdt.
Proof.
  revert s. induction n as [|n IH]; intros s; cbn [mupdates].
  - intros H; inversion H; subst. rewrite Qn_0. ring.
  - destruct (mupdate V line cs fdt drv stop s) as [s1|] eqn:E; [|discriminate]. intros H.
    rewrite (IH s1 H). destruct (mupdate_pass _ _ _ _ _ E) as (A & _). rewrite A, Qn_S. ring.
Qed.

Lemma mupdates_snoc n fdt drv stop s :
  mupdates V line (S n) cs fdt drv stop s =
  match mupdates V line n cs fdt drv stop s with Some s1 => mupdate V line cs fdt drv stop s1 | None => None end.
Proof.
  revert s. induction n as [|n IH]; intros s.
  - cbn. destruct (mupdate V line cs fdt drv stop s); reflexivity.
  - cbn [mupdates]. destruct (mupdate V line cs fdt drv stop s) as [s1|]; [|reflexivity].
    specialize (IH s1). cbn [mupdates] in IH. exact IH.
Qed.

Lemma until_updates fdt drv stop later s :
  ~ fdt == 0 ->
  mupdate_until V line cs fdt drv stop later s =
  mupdates V line (S (Z.to_nat (Bmi_Model.int_of ((later - m_time V s) / fdt)))) cs fdt drv stop s.
Proof.
  intros N. unfold mupdate_until. destruct (Qeq_bool fdt 0) eqn:E; [apply Qeq_bool_iff in E; contradiction|].
  rewrite mupdates_snoc. reflexivity.
Qed.

Lemma until_bounds fdt t later :
  0 < fdt ->
  let n := S (Z.to_nat (Bmi_Model.int_of ((later - t) / fdt))) in
  (t <= later -> later < t + Qn n * fdt /\ t + Qn n * fdt <= later + fdt) /\
  (later < t -> n = 1%nat).
Proof.
  intros F. cbn zeta. split.
  - intros L. set (q := (later - t) / fdt).
    assert (Q0 : 0 <= q) by (apply Qle_shift_div_l; lra).
    assert (QE : q * fdt == later - t) by (unfold q; field; lra).
    rewrite (Bmi_Props.int_of_floor q Q0).
    assert (F0 : (0 <= Qfloor q)%Z) by (change 0%Z with (Qfloor 0); apply Qfloor_resp_le; exact Q0).
    rewrite Qn_S.
    assert (M : Qn (Z.to_nat (Qfloor q)) == inject_Z (Qfloor q)) by (unfold Qn; rewrite Z2Nat.id by exact F0; reflexivity).
    pose proof (Qfloor_le q) as F1. pose proof (Qlt_floor q) as F2. rewrite inject_Z_plus in F2.
    change (inject_Z 1) with 1 in F2.
    assert (G1 : inject_Z (Qfloor q) * fdt <= q * fdt) by (apply Qmult_le_compat_r; lra).
    assert (G2 : q * fdt < (inject_Z (Qfloor q) + 1) * fdt) by (apply Qmult_lt_r; lra).
    rewrite M. split; lra.
  - intros L.
    assert (N : (Bmi_Model.int_of ((later - t) / fdt) <= 0)%Z).
    { apply Bmi_Props.int_of_neg. apply Qlt_shift_div_r; lra. }
    replace (Z.to_nat (Bmi_Model.int_of ((later - t) / fdt))) with 0%nat by lia. reflexivity.
Qed.

(* initialize *)
Lemma mstart_none l : fold_left (mstart_comp V cs) l None = None.
Proof. induction l; cbn; auto. Qed.

Lemma mstarts n s s' :
  (n <= List.length cs)%nat ->
  fold_left (mstart_comp V cs) (seq 0 n) (Some s) = Some s' -> m_time V s = 0 -> m_done V s = false ->
  m_time V s' = 0 /\ m_done V s' = false /\
  exists ks, init_comps (firstn n (clock_comps V cs)) = Some ks /\ m_clocks V s' = m_clocks V s ++ ks.
Proof.
  revert s'. induction n as [|n IH]; intros s' Hn.
  - cbn. intros H T D; inversion H; subst. split; [exact T|]. split; [exact D|]. exists []. split; [reflexivity|].
    now rewrite app_nil_r.
  - rewrite seq_S, fold_left_app. cbn [fold_left Nat.add].
    destruct (fold_left (mstart_comp V cs) (seq 0 n) (Some s)) as [s1|] eqn:E; [|discriminate].
    intros H T D. destruct (IH s1 (Nat.le_trans _ _ _ (Nat.le_succ_diag_r n) Hn) eq_refl T D) as (A & B & ks & K & C).
    unfold mstart_comp in H. fold (mc n) in H.
    destruct (init_comp (clock_comp V cs (mc n))) as [k|] eqn:I; [|discriminate].
    inversion H; subst. clear H. cbn [m_time m_done m_clocks].
    split; [reflexivity|]. split; [reflexivity|].
    exists (ks ++ [k]). rewrite C, app_assoc. split; [|reflexivity].
    assert (F : firstn (S n) (clock_comps V cs) = firstn n (clock_comps V cs) ++ [clock_comp V cs (mc n)]).
    { rewrite <- (get_clock_comps n) by lia. unfold get.
      assert (L : (n < List.length (clock_comps V cs))%nat) by (unfold clock_comps; rewrite map_length; lia).
      clear - L. revert n L. induction (clock_comps V cs) as [|c l IH]; intros n L; cbn in L; [lia|].
      destruct n; [reflexivity|]. cbn [firstn nth app]. rewrite <- IH by lia. reflexivity. }
    rewrite F. clear - K I. revert ks K. induction (firstn n (clock_comps V cs)) as [|c l IH]; intros ks; cbn.
    + intros H; inversion H; subst. cbn. rewrite I. reflexivity.
    + destruct (init_comp c) as [c1|]; [|discriminate]. destruct (init_comps l) as [l1|]; [|discriminate].
      intros H; inversion H; subst. rewrite (IH l1 eq_refl). reflexivity.
Qed.

Lemma minitialize_start w d fdt s :
  minitialize V cs w d = Some (Ready V fdt s) ->
  start_run (clock_comps V cs) =
    Some (fdt, {| f_time := m_time V s; f_comps := m_clocks V s; f_done := false; f_log := [] |}) /\
  m_done V s = false /\ uniquely_provided (names_of V cs).
Proof.
  unfold minitialize. destruct (check_providers (names_of V cs)) eqn:C; [|discriminate].
  destruct (framework_dt (clock_comps V cs)) as [f|] eqn:F; [|discriminate].
  destruct (fold_left _ _ _) as [s1|] eqn:E; [|discriminate]. intros H; inversion H; subst. clear H.
  destruct (mstarts _ _ _ (le_n _) E eq_refl eq_refl) as (A & B & ks & K & L). cbn [m_clocks app] in L.
  rewrite firstn_all2 in K by (unfold clock_comps; rewrite map_length; lia).
  unfold start_run. rewrite F, K, A, L. split; [reflexivity|]. split; [exact B|]. apply check_iff. exact C.
Qed.

(* ---------------------------------------------------------------- set_value *)

Definition user (x : string) (j : nat) : Prop := (j < List.length cs)%nat /\ In x (n_in (mc_names V (mc j))).

Lemma set_value_spec x v s s' :
  mset_value V cs x v s = Some s' ->
  m_time V s' = m_time V s /\ m_clocks V s' = m_clocks V s /\ m_data V s' = m_data V s /\ m_done V s' = m_done V s /\
  forall j y, ~ (y = x /\ user x j) -> m_vals V s' j y = m_vals V s j y.
Proof.
  unfold mset_value. destruct (dict_get _ x) as [us|] eqn:E; [|discriminate].
  intros H; inversion H; subst. clear H. cbn. repeat (split; [reflexivity|]).
  assert (U : forall u, In u us -> exists m, In m cs /\ n_comp (mc_names V m) = u /\ In x (n_in (mc_names V m))).
  { intros u Hu. destruct (string_dec x "") as [->|Nx]; [rewrite user_lookup_empty in E; discriminate|].
    pose proof (user_lookup (names_of V cs) x Nx u) as K. rewrite E in K.
    destruct (proj1 K Hu) as (nm & Hn & En & Hx). apply names_in in Hn. destruct Hn as (m & Hm & <-). eauto. }
  intros j y N. clear E. generalize (m_vals V s) as w.
  induction us as [|u us IH]; intros w; cbn [fold_left]; [reflexivity|].
  rewrite IH by (intros u' Hu'; apply U; right; exact Hu').
  destruct (position V cs u) as [i|] eqn:P; [|reflexivity].
  unfold put_value. destruct (Nat.eqb_spec j i) as [->|]; [|reflexivity]. cbn [andb].
  destruct (String.eqb_spec y x) as [->|]; [|reflexivity].
  exfalso. apply N. split; [reflexivity|].
  destruct (position_spec u i P) as [L En]. split; [exact L|].
  destruct (U u (or_introl eq_refl)) as (m & Hm & Em & Hx).
  rewrite (same_name (mc i) m (mc_in i L) Hm (eq_trans En (eq_sym Em))). exact Hx.
Qed.

(* states that differ at most in inputs *)
Definition isin (j : nat) (y : string) : Prop := (j < List.length cs)%nat /\ In y (n_in (mc_names V (mc j))).
Definition same_but_inputs (a b : mstate V) : Prop :=
  m_time V a = m_time V b /\ m_clocks V a = m_clocks V b /\ m_done V a = m_done V b /\
  (forall y, m_data V a y = m_data V b y) /\
  (forall j y, ~ isin j y -> m_vals V a j y = m_vals V b j y).

Hypothesis SV : steps_by_value V cs.
Hypothesis IO : inputs_not_outputs V cs.

Lemma required_same clocks da db i t wa wb :
  (forall y, da y = db y) ->
  (forall j y, ~ isin j y -> wa j y = wb j y) ->
  (i < List.length cs)%nat ->
  match get_required_vars V line cs clocks da i t wa, get_required_vars V line cs clocks db i t wb with
  | Some ua, Some ub => (forall j y, ~ isin j y -> ua j y = ub j y) /\ forall y, ua i y = ub i y
  | None, None => True
  | _, _ => False
  end.
Proof.
  intros D W Hi. unfold get_required_vars. fold (mc i).
  assert (G : forall l, (forall y, In y l -> In y (n_in (mc_names V (mc i)))) ->
     forall (done : string -> Prop), (forall y, In y (n_in (mc_names V (mc i))) -> done y \/ In y l) ->
     forall ua ub, (forall j y, ~ isin j y -> ua j y = ub j y) -> (forall y, done y -> ua i y = ub i y) ->
     match fold_left (require_var V line cs clocks da i t) l (Some ua), fold_left (require_var V line cs clocks db i t) l (Some ub) with
     | Some ua', Some ub' => (forall j y, ~ isin j y -> ua' j y = ub' j y) /\ forall y, ua' i y = ub' i y
     | None, None => True
     | _, _ => False
     end).
  { assert (NN : forall dd l, fold_left (require_var V line cs clocks dd i t) l None = None)
      by (intros dd l; induction l; cbn; auto).
    induction l as [|x l IH]; intros Hl done Hd ua ub A B; cbn [fold_left].
    - split; [exact A|]. intros y. destruct (in_dec string_dec y (n_in (mc_names V (mc i)))) as [I|N].
      + destruct (Hd y I) as [K|[]]. apply B. exact K.
      + apply A. intros [_ K]. contradiction.
    - cbn [require_var]. destruct (provider_pos V cs x) as [p|] eqn:P; [|rewrite !NN; exact I].
      assert (Gv : given V line clocks ua da p x t = given V line clocks ub db p x t).
      { unfold given. destruct (provider_pos_spec x p P) as [Lp Ho]. rewrite <- !D.
        rewrite (A p x); [reflexivity|]. intros [_ K]. exact (IO _ _ (mc_in p Lp) K Ho). }
      apply IH with (done := fun y => done y \/ y = x).
      + intros y Hy. apply Hl. right. exact Hy.
      + intros y Hy. destruct (Hd y Hy) as [K|[->|K]]; auto.
      + intros j y N. unfold put_value. rewrite Gv. destruct ((j =? i)%nat && String.eqb y x); [reflexivity|apply A; exact N].
      + intros y [K| ->]; unfold put_value; rewrite Gv, Nat.eqb_refl; cbn [andb].
        * destruct (String.eqb y x); [reflexivity|apply B; exact K].
        * rewrite String.eqb_refl. reflexivity. }
  apply (G _ (fun y H => H) (fun _ => False)); auto.
Qed.

Lemma mvisit_same T a b i :
  (i < List.length cs)%nat -> same_but_inputs a b ->
  match mvisit V line cs T (Some a) i, mvisit V line cs T (Some b) i with
  | Some a', Some b' => same_but_inputs a' b'
  | None, None => True
  | _, _ => False
  end.
Proof.
  intros Hi (E1 & E2 & E3 & E4 & E5). unfold mvisit. fold (mc i). rewrite <- E2.
  set (t := fw_secs _ _). destruct (Qltb t T); [|repeat split; assumption].
  pose proof (required_same (m_clocks V a) (m_data V a) (m_data V b) i t (m_vals V a) (m_vals V b) E4 E5 Hi) as R.
  destruct (get_required_vars V line cs (m_clocks V a) (m_data V a) i t (m_vals V a)) as [ua|],
           (get_required_vars V line cs (m_clocks V a) (m_data V b) i t (m_vals V b)) as [ub|]; try contradiction; [|exact I].
  destruct R as [R1 R2].
  set (k1 := match mc_status V (mc i) with Enabled => _ | _ => _ end).
  destruct (update2 (clock_comp V cs (mc i)) k1) as [k2|]; [|exact I].
  assert (W : (forall j y, ~ isin j y ->
                match mc_status V (mc i) with Enabled => step_vals V (mc i) i ua | _ => ua end j y =
                match mc_status V (mc i) with Enabled => step_vals V (mc i) i ub | _ => ub end j y) /\
              forall y, match mc_status V (mc i) with Enabled => step_vals V (mc i) i ua | _ => ua end i y =
                        match mc_status V (mc i) with Enabled => step_vals V (mc i) i ub | _ => ub end i y).
  { unfold step_vals. destruct (mc_status V (mc i)); try (split; assumption).
    unfold put_all. rewrite Nat.eqb_refl. split.
    - intros j y N. destruct (Nat.eqb j i); [apply (SV _ (mc_in i Hi)); exact R2|apply R1; exact N].
    - intros y. apply (SV _ (mc_in i Hi)). exact R2. }
  destruct W as [W1 W2].
  set (wa := match mc_status V (mc i) with Enabled => step_vals V (mc i) i ua | _ => ua end) in *.
  set (wb := match mc_status V (mc i) with Enabled => step_vals V (mc i) i ub | _ => ub end) in *.
  repeat split; cbn; auto.
  intros y. destruct (s_init k1); [apply E4|]. unfold shift_data. rewrite W2, E4. reflexivity.
Qed.

Lemma mupdate_same fdt drv stop a b :
  same_but_inputs a b ->
  match mupdate V line cs fdt drv stop a, mupdate V line cs fdt drv stop b with
  | Some a', Some b' => same_but_inputs a' b'
  | None, None => True
  | _, _ => False
  end.
Proof.
  intros S. unfold mupdate. destruct S as (E1 & ES). rewrite <- E1. set (T := m_time V a) in *.
  assert (G : forall l, (forall i, In i l -> (i < List.length cs)%nat) -> forall a b, same_but_inputs a b ->
    match fold_left (mvisit V line cs T) l (Some a), fold_left (mvisit V line cs T) l (Some b) with
    | Some a', Some b' => same_but_inputs a' b'
    | None, None => True
    | _, _ => False
    end).
  { induction l as [|i l IH]; intros Hl x y Sxy; cbn [fold_left]; [exact Sxy|].
    pose proof (mvisit_same T x y i (Hl i (or_introl eq_refl)) Sxy) as K.
    destruct (mvisit V line cs T (Some x) i) as [x'|], (mvisit V line cs T (Some y) i) as [y'|]; try contradiction.
    - apply IH; [intros j J; apply Hl; right; exact J|exact K].
    - rewrite !mvisit_none. exact I. }
  specialize (G (seq 0 (List.length cs)) (fun i I => proj2 (proj1 (in_seq (List.length cs) 0 i) I)) a b (conj E1 ES)).
  destruct (fold_left (mvisit V line cs T) (seq 0 (List.length cs)) (Some a)) as [a'|],
           (fold_left (mvisit V line cs T) (seq 0 (List.length cs)) (Some b)) as [b'|]; try contradiction; [|exact I].
  destruct G as (F1 & F2 & F3 & F4 & F5). repeat split; cbn; auto; congruence.
Qed.

Lemma mupdates_same n fdt drv stop a b :
  same_but_inputs a b ->
  match mupdates V line n cs fdt drv stop a, mupdates V line n cs fdt drv stop b with
  | Some a', Some b' => same_but_inputs a' b'
  | None, None => True
  | _, _ => False
  end.
Proof.
  revert a b. induction n as [|n IH]; intros a b S; cbn [mupdates]; [exact S|].
  pose proof (mupdate_same fdt drv stop a b S) as K.
  destruct (mupdate V line cs fdt drv stop a), (mupdate V line cs fdt drv stop b); try contradiction; [|exact I].
  apply IH. exact K.
Qed.

Lemma until_same fdt drv stop later a b :
  same_but_inputs a b ->
  match mupdate_until V line cs fdt drv stop later a, mupdate_until V line cs fdt drv stop later b with
  | Some a', Some b' => same_but_inputs a' b'
  | None, None => True
  | _, _ => False
  end.
Proof.
  intros S. unfold mupdate_until. destruct (Qeq_bool fdt 0); [exact I|].
  rewrite <- (proj1 S). pose proof (mupdates_same (Z.to_nat (Bmi_Model.int_of ((later - m_time V a) / fdt))) fdt drv stop a b S) as K.
  destruct (mupdates V line _ cs fdt drv stop a), (mupdates V line _ cs fdt drv stop b); try contradiction; [|exact I].
  apply mupdate_same. exact K.
Qed.

Lemma set_same x v a b c :
  same_but_inputs a b -> mset_value V cs x v a = Some c -> same_but_inputs c b.
Proof.
  intros (E1 & E2 & E3 & E4 & E5) H. destruct (set_value_spec x v a c H) as (F1 & F2 & F3 & F4 & F5).
  split; [congruence|]. split; [congruence|]. split; [congruence|]. split; [intros y; rewrite F3; apply E4|].
  intros j y N. rewrite F5; [apply E5; exact N|]. intros [-> [L I]]. apply N. split; assumption.
Qed.

Lemma calls_same fdt drv stop l : forall a b a',
  same_but_inputs a b -> do_calls V line cs fdt drv stop l a = Some a' ->
  exists b', do_calls V line cs fdt drv stop (without_sets V l) b = Some b' /\ same_but_inputs a' b'.
Proof.
  induction l as [|c l IH]; intros a b a' S; cbn [do_calls without_sets filter].
  - intros H; inversion H; subst. eauto.
  - destruct (do_call V line cs fdt drv stop c a) as [a1|] eqn:E; [|discriminate]. intros H.
    destruct c; cbn [is_set negb do_call] in *; cbn [do_calls do_call].
    + pose proof (mupdate_same fdt drv stop a b S) as K. rewrite E in K.
      destruct (mupdate V line cs fdt drv stop b) as [b1|]; [|contradiction]. eapply IH; eassumption.
    + unfold mupdate_frac in *. pose proof (mupdate_same fdt drv stop a b S) as K. rewrite E in K.
      destruct (mupdate V line cs fdt drv stop b) as [b1|]; [|contradiction]. eapply IH; eassumption.
    + pose proof (until_same fdt drv stop later a b S) as K. rewrite E in K.
      destruct (mupdate_until V line cs fdt drv stop later b) as [b1|]; [|contradiction]. eapply IH; eassumption.
    + exact (IH a1 b a' (set_same x v a b a1 S E) H).
Qed.

End P.
