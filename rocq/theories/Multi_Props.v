(* C75: the NextGen wrapper (one BMI object for a whole configuration). *)
From Coq Require Import ZArith QArith Qround Lqa Lia List Bool String.
From Verif Require Import Base Emeli_Model Emeli_Spec Emeli_Proofs Emeli_Props Interp_Model Multi_Model Multi_Spec Multi_Proofs.
From Verif Require Bmi_Model.
Import ListNotations.
Local Open Scope Q_scope.

(* ------------------------------------------------------------------ the clock *)

(* update_until(later) ends strictly past [later]: by at most one step if [later] was not in the
   past, and by one step from where it was otherwise. *)
Theorem C75_until_time : forall V line cs fdt drv stop later s s',
  0 < fdt -> mupdate_until V line cs fdt drv stop later s = Some s' ->
  later < m_time V s' /\
  (m_time V s <= later -> m_time V s' <= later + fdt) /\
  (later < m_time V s -> m_time V s' == m_time V s + fdt).
Proof.
  intros V line cs fdt drv stop later s s' F H. rewrite until_updates in H by lra.
  pose proof (mupdates_time _ _ _ _ _ _ _ _ _ H) as T.
  destruct (until_bounds fdt (m_time V s) later F) as [A B]. cbn zeta in A, B.
  set (n := Datatypes.S _) in *. destruct (Qlt_le_dec later (m_time V s)) as [L|L].
  - rewrite (B L) in T. rewrite Qn_1 in T. split; [lra|]. split; [lra|]. intros _. lra.
  - destruct (A L) as [A1 A2]. split; [lra|]. split; [lra|]. lra.
Qed.
Print Assumptions C75_until_time.

(* ... so it never ends at the time asked for, even when that is a whole number of steps away. *)
Theorem C75_until_time_reached_refuted :
  ~ (exists V line cs fdt drv stop later s s', 0 < fdt /\
       mupdate_until V line cs fdt drv stop later s = Some s' /\ m_time V s' == later).
Proof.
  intros (V & line & cs & fdt & drv & stop & later & s & s' & F & H & E).
  destruct (C75_until_time _ _ _ _ _ _ _ _ _ F H) as (A & _). lra.
Qed.
Print Assumptions C75_until_time_reached_refuted.

Lemma loop_add a b cs fdt drv f g :
  f_done g = false ->
  loop a cs fdt drv never f = Some g -> loop (a + b) cs fdt drv never f = loop b cs fdt drv never g.
Proof.
  intros D. revert f. induction a as [|a IH]; intros f; cbn [loop Nat.add].
  - intros H; inversion H; subst. reflexivity.
  - destruct (f_done f) eqn:E; [intros H; inversion H; congruence|].
    destruct (loop_body cs fdt drv never f) as [f1|]; [|discriminate]. apply IH.
Qed.

Definition view {V} (s : mstate V) (log : list request) : fw :=
  {| f_time := m_time V s; f_comps := m_clocks V s; f_done := false; f_log := log |}.

Lemma call_clock V line cs fdt drv stop c s s' log :
  do_call V line cs fdt drv stop c s = Some s' ->
  exists k log', loop k (clock_comps V cs) fdt drv never (view s log) = Some (view s' log').
Proof.
  assert (U : forall n, mupdates V line n cs fdt drv stop s = Some s' ->
    exists k log', loop k (clock_comps V cs) fdt drv never (view s log) = Some (view s' log')).
  { intros n H. destruct (mupdates_loop V line cs n fdt drv stop s s' log H) as [log' K].
    exists n, log'. exact K. }
  destruct c; cbn [do_call].
  - intros H. apply (U 1%nat). cbn. rewrite H. reflexivity.
  - intros H. apply (U 1%nat). cbn. unfold mupdate_frac in H. rewrite H. reflexivity.
  - intros H. destruct (Qeq_dec fdt 0) as [Z|Z].
    + unfold mupdate_until in H. apply Qeq_bool_iff in Z. rewrite Z in H. discriminate.
    + rewrite until_updates in H by exact Z. exact (U _ H).
  - intros H. exists 0%nat, log. cbn. unfold mset_value in H.
    destruct (dict_get _ x); [|discriminate]. inversion H; subst. reflexivity.
Qed.

Lemma calls_clock V line cs fdt drv stop l : forall s s' log,
  do_calls V line cs fdt drv stop l s = Some s' ->
  exists k log', loop k (clock_comps V cs) fdt drv never (view s log) = Some (view s' log').
Proof.
  induction l as [|c l IH]; intros s s' log; cbn [do_calls].
  - intros H; inversion H; subst. exists 0%nat, log. reflexivity.
  - destruct (do_call V line cs fdt drv stop c s) as [s1|] eqn:E; [|discriminate]. intros H.
    destruct (call_clock _ _ _ _ _ _ _ _ _ log E) as (k1 & l1 & K1).
    destruct (IH s1 s' l1 H) as (k2 & l2 & K2).
    exists (k1 + k2)%nat, l2. rewrite (loop_add k1 k2 _ _ _ _ (view s1 l1) eq_refl K1). exact K2.
Qed.

(* After any calls of an outside program the clock has made a whole number k of steps, and every
   enabled component has made the updates a plain framework run of k steps would have made: its own
   clock is between T and T + its step, T being the time of the last step. *)
Theorem C75_components_keep_up : forall V line cs w d fdt drv stop s0 l s,
  positive_dts V cs ->
  minitialize V cs w d = Some (Ready V fdt s0) ->
  do_calls V line cs fdt drv stop l s0 = Some s ->
  exists k, m_time V s == Qn k * fdt /\
    ((1 <= k)%nat -> forall i, menabled V cs i ->
       let T := Qn (k - 1) * fdt in
       mclock_s V cs s i == Qn (s_count (get cstate0 (m_clocks V s) i)) * mstep_s V cs i /\
       T <= mclock_s V cs s i /\ mclock_s V cs s i <= T + mstep_s V cs i).
Proof.
  intros V line cs w d fdt drv stop s0 l s Hp Hi H.
  destruct (minitialize_start V cs w d fdt s0 Hi) as (St & _ & _).
  destruct (calls_clock V line cs fdt drv stop l s0 s [] H) as (k & log & K).
  assert (R : run_model k (clock_comps V cs) drv never = Some (view s log)).
  { unfold run_model. rewrite St. exact K. }
  assert (Hp' : positive_steps (clock_comps V cs)).
  { intros c Hc. unfold clock_comps in Hc. apply in_map_iff in Hc. destruct Hc as (m & <- & Hm). exact (Hp m Hm). }
  assert (Hd : framework_dt (clock_comps V cs) = Some fdt).
  { unfold start_run in St. destruct (framework_dt (clock_comps V cs)); [|discriminate].
    destruct (init_comps (clock_comps V cs)); [|discriminate]. inversion St. reflexivity. }
  exists k. destruct k as [|k].
  - split; [|lia]. cbn [loop] in K.
    assert (E1 : m_time V s = m_time V s0).
    { apply (f_equal (fun o => match o with Some f => f_time f | None => 0 end)) in K. cbn in K. congruence. }
    assert (E2 : m_time V s0 = 0).
    { unfold start_run in St. rewrite Hd in St. destruct (init_comps _); [|discriminate].
      apply (f_equal (fun o => match o with Some (_, f) => f_time f | None => 0 end)) in St. cbn in St. congruence. }
    rewrite E1, E2, Qn_0. ring.
  - destruct (C31_components_keep_up _ _ _ _ (Datatypes.S k) _ Hp' Hd ltac:(lia) R) as (j & _ & J & T & B).
    specialize (J eq_refl). subst j. split; [exact T|]. intros _ i [Li Ei]. cbn zeta.
    assert (En : enabled (clock_comps V cs) i).
    { split; [unfold clock_comps; rewrite map_length; exact Li|]. rewrite get_clock_comps by exact Li. exact Ei. }
    specialize (B i En). cbn zeta in B. destruct B as (B1 & B2 & B3 & _).
    unfold clock_s, step_s, updates in *. rewrite get_clock_comps in B1, B2, B3 by exact Li.
    unfold mclock_s, mstep_s. cbn in B1, B2, B3. split; [exact B1|]. split; [exact B2|exact B3].
Qed.
Print Assumptions C75_components_keep_up.

(* Three components: rainfall, a store that adds up rainfall, and a driver. *)
Definition rain : mcomp Q :=
  {| mc_names := {| n_comp := "met"; n_out := ["P"]; n_in := [] |}; mc_dt := 60; mc_units := OtherUnits;
     mc_status := Enabled; mc_step := fun a => a |}%string.
Definition store : mcomp Q :=
  {| mc_names := {| n_comp := "channels"; n_out := ["Q"]; n_in := ["P"] |}; mc_dt := 120; mc_units := OtherUnits;
     mc_status := Enabled; mc_step := fun a x => if String.eqb x "Q" then a "Q" + a "P" else a x |}%string.
Definition driver : mcomp Q :=
  {| mc_names := {| n_comp := "driver"; n_out := []; n_in := ["Q"] |}; mc_dt := 1; mc_units := Minutes;
     mc_status := Enabled; mc_step := fun a => a |}%string.
Definition demo : list (mcomp Q) := [rain; store; driver].
Definition straight (a ta b tb t : Q) : Q := if Qeq_bool ta tb then b else a + (b - a) * (t - ta) / (tb - ta).
Definition demo_vals : values Q := fun i x => if String.eqb x "P" then 3 else 0.
Definition demo_init : option (wrapper Q) := minitialize Q demo demo_vals (fun _ => (0, 0)).
Definition demo_run (l : list (call Q)) : option (mstate Q) :=
  match demo_init with
  | Some (Ready _ fdt s) => do_calls Q straight demo fdt 2 (fun _ => false) l s
  | _ => None
  end.
Definition peek (l : list (call Q)) (x : string) : option Q :=
  match demo_run l with Some s => mget_value Q demo x s | None => None end.

Definition the {A} (d : A) (o : option A) : A := match o with Some x => x | None => d end.
Definition is_some {A} (o : option A) : bool := match o with Some _ => true | None => false end.
Lemma the_some {A} (d : A) o : is_some o = true -> o = Some (the d o).
Proof. destruct o; [reflexivity|discriminate]. Qed.
Definition is_ready (o : option (wrapper Q)) : bool :=
  match o with Some (Ready _ fdt _) => match fdt with {| Qnum := 60; Qden := 1 |} => true | _ => false end | _ => false end.
Definition demo_state0 : mstate Q := {| m_time := 0; m_clocks := []; m_vals := demo_vals; m_data := fun _ => (0,0); m_done := false |}.
Definition demo_s0 : mstate Q := match demo_init with Some (Ready _ _ s) => s | _ => demo_state0 end.

Lemma demo_ready : minitialize Q demo demo_vals (fun _ => (0, 0)) = Some (Ready Q 60 demo_s0).
Proof.
  assert (R : is_ready demo_init = true) by (vm_compute; reflexivity).
  unfold demo_s0. fold demo_init. unfold is_ready in R. destruct demo_init as [[fdt s|]|]; try discriminate R.
  destruct fdt as [[|a|a] b]; try discriminate R.
  repeat (match type of R with context [match ?a with _ => _ end] => destruct a; try discriminate R end).
  reflexivity.
Qed.

Example C75_demo :
  positive_dts Q demo /\ distinct_names Q demo /\ inputs_not_outputs Q demo /\ steps_by_value Q demo /\
  minitialize Q demo demo_vals (fun _ => (0, 0)) = Some (Ready Q 60 demo_s0) /\
  (exists s, demo_run [Update_until Q 240; Set_value Q "P"%string 100; Update Q; Update_until Q 600] = Some s /\
             m_time Q s == 660) /\
  option_map Qred (peek [Update_until Q 600] "Q"%string) = Some 15.
Proof.
  split; [intros m [<-|[<-|[<-|[]]]]; reflexivity|].
  split; [unfold distinct_names; cbn; repeat constructor; cbn; intuition discriminate|].
  split; [intros m x [<-|[<-|[<-|[]]]]; cbn; intuition (subst; try discriminate)|].
  split.
  { intros m [<-|[<-|[<-|[]]]] a b E x; cbn; rewrite ?E; reflexivity. }
  split; [exact demo_ready|].
  split; [|vm_compute; reflexivity].
  eexists. split; [apply (the_some demo_state0); vm_compute; reflexivity|]. vm_compute. reflexivity.
Qed.

(* A component's own clock may lie before the time asked for, although the wrapper's is past it. *)
Theorem C75_components_reach_time_refuted :
  ~ (forall V line cs w d fdt drv stop s0 later s i,
       positive_dts V cs -> minitialize V cs w d = Some (Ready V fdt s0) ->
       mupdate_until V line cs fdt drv stop later s0 = Some s -> 0 <= later ->
       menabled V cs i -> later <= mclock_s V cs s i).
Proof.
  intros H.
  assert (U : exists s, mupdate_until Q straight demo 60 2 (fun _ => false) 150 demo_s0 = Some s /\
              ~ 150 <= mclock_s Q demo s 0).
  { eexists. split; [apply (the_some demo_state0); vm_compute; reflexivity|]. vm_compute. intros K; apply K; reflexivity. }
  destruct U as (s & R & N). apply N.
  apply (H Q straight demo demo_vals (fun _ => (0,0)) 60 2%nat (fun _ => false) demo_s0 150 s 0%nat).
  - exact (proj1 C75_demo).
  - exact demo_ready.
  - exact R.
  - vm_compute. discriminate.
  - split; [cbn; lia|reflexivity].
Qed.
Print Assumptions C75_components_reach_time_refuted.

(* With targets closer together than a step the clock runs away from them: each call makes at least
   one step. *)
Theorem C75_each_call_steps : forall V line cs fdt drv stop ts s s',
  0 < fdt -> do_calls V line cs fdt drv stop (map (Update_until V) ts) s = Some s' ->
  m_time V s + Qn (List.length ts) * fdt <= m_time V s'.
Proof.
  intros V line cs fdt drv stop ts. induction ts as [|t ts IH]; intros s s' F; cbn [map do_calls do_call List.length].
  - intros H; inversion H; subst. rewrite Qn_0. lra.
  - destruct (mupdate_until V line cs fdt drv stop t s) as [s1|] eqn:E; [|discriminate]. intros H.
    specialize (IH s1 s' F H). rewrite Qn_S.
    rewrite until_updates in E by lra. pose proof (mupdates_time _ _ _ _ _ _ _ _ _ E) as T.
    rewrite Qn_S in T. set (n := Z.to_nat _) in T. pose proof (Qn_nonneg n) as N.
    assert (0 <= Qn n * fdt) by (apply Qmult_le_0_compat; lra). lra.
Qed.
Print Assumptions C75_each_call_steps.

Theorem C75_near_target_refuted :
  ~ (forall V line cs w d fdt drv stop s0 ts later s,
       positive_dts V cs -> minitialize V cs w d = Some (Ready V fdt s0) ->
       (forall t, In t ts -> 0 <= t /\ t <= later) ->
       do_calls V line cs fdt drv stop (map (Update_until V) (ts ++ [later])) s0 = Some s ->
       m_time V s <= later + fdt).
Proof.
  intros H.
  assert (U : exists s, do_calls Q straight demo 60 2 (fun _ => false) (map (Update_until Q) ([10; 20; 30] ++ [40])) demo_s0 = Some s
              /\ ~ m_time Q s <= 40 + 60).
  { eexists. split; [apply (the_some demo_state0); vm_compute; reflexivity|]. vm_compute. intros K; apply K; reflexivity. }
  destruct U as (s & R & N). apply N.
  apply (H Q straight demo demo_vals (fun _ => (0,0)) 60 2%nat (fun _ => false) demo_s0 [10; 20; 30] 40 s).
  - exact (proj1 C75_demo).
  - exact demo_ready.
  - intros t [<-|[<-|[<-|[]]]]; split; vm_compute; discriminate.
  - exact R.
Qed.
Print Assumptions C75_near_target_refuted.

(* ------------------------------------------------------------------ set_value *)

(* Values set through the wrapper change nothing: the same calls without them lead to the same
   clocks and the same value of every variable, now and later. *)
Theorem C75_set_value_ignored : forall V line cs fdt drv stop l s a,
  distinct_names V cs -> inputs_not_outputs V cs -> steps_by_value V cs ->
  do_calls V line cs fdt drv stop l s = Some a ->
  exists b, do_calls V line cs fdt drv stop (without_sets V l) s = Some b /\
    m_time V a = m_time V b /\ m_clocks V a = m_clocks V b /\ m_done V a = m_done V b /\
    forall x, mget_value V cs x a = mget_value V cs x b.
Proof.
  intros V line cs fdt drv stop l s a ND IO SV H.
  assert (S0 : same_but_inputs V cs s s) by (repeat split; auto).
  destruct (calls_same V line cs ND SV IO fdt drv stop l s s a S0 H) as (b & Hb & E1 & E2 & E3 & _ & E5).
  exists b. split; [exact Hb|]. split; [exact E1|]. split; [exact E2|]. split; [exact E3|].
  intros x. unfold mget_value. destruct (provider_pos V cs x) as [p|] eqn:P; [|reflexivity].
  destruct (provider_pos_spec V cs ND x p P) as [L O]. rewrite E5; [reflexivity|].
  intros [_ K]. exact (IO _ _ (mc_in V cs p L) K O).
Qed.
Print Assumptions C75_set_value_ignored.

(* In particular rainfall set from outside reaches neither the next discharge nor get_value. *)
Theorem C75_set_value_used_refuted :
  ~ (forall V cs w d fdt s0 x v s,
       minitialize V cs w d = Some (Ready V fdt s0) ->
       mset_value V cs x v s0 = Some s -> mget_value V cs x s = Some v).
Proof.
  intros H.
  assert (U : exists s, mset_value Q demo "P"%string 100 demo_s0 = Some s /\ mget_value Q demo "P"%string s <> Some 100).
  { eexists. split; [apply (the_some demo_state0); vm_compute; reflexivity|]. vm_compute. intros K; discriminate K. }
  destruct U as (s & R & N). apply N.
  apply (H Q demo demo_vals (fun _ => (0,0)) 60 demo_s0 "P"%string 100 s).
  - exact demo_ready.
  - exact R.
Qed.
Print Assumptions C75_set_value_used_refuted.

Example C75_set_value_case :
  option_map Qred (peek [Set_value Q "P"%string 100; Update_until Q 600; Set_value Q "P"%string 100; Update_until Q 600] "Q"%string)
  = option_map Qred (peek [Update_until Q 600; Update_until Q 600] "Q"%string).
Proof. vm_compute. reflexivity. Qed.

(* ------------------------------------------------------------------ the values components work with *)

(* When an enabled component takes its turn, its update() works on: for each input, the value of the
   one component that provides it - the current value if that component has not updated yet,
   otherwise the line through the provider's two last values, taken at the user's own time; and for
   all other variables, what the component had.  Nothing else of any component changes. *)
Theorem C75_inputs_given : forall V line cs T s s' i,
  distinct_names V cs -> inputs_not_outputs V cs -> menabled V cs i ->
  mvisit V line cs T (Some s) i = Some s' ->
  let m := get (mcomp0 V) cs i in
  let t := mclock_s V cs s i in
  t < T ->
  exists a,
    (forall y, m_vals V s' i y = mc_step V m a y) /\
    (forall x, In x (n_in (mc_names V m)) ->
       exists p t', (p < List.length cs)%nat /\ In x (n_out (mc_names V (get (mcomp0 V) cs p))) /\ t' == t /\
         let c := get cstate0 (m_clocks V s) p in
         a x = if s_init c then m_vals V s p x
               else line (fst (m_data V s x)) (s_t1 c) (snd (m_data V s x)) (s_t2 c) t') /\
    (forall y, ~ In y (n_in (mc_names V m)) -> a y = m_vals V s i y) /\
    (forall j y, j <> i -> m_vals V s' j y = m_vals V s j y).
Proof.
  intros V line cs T s s' i ND IO [Hi En] H m t Ht. unfold mvisit in H. fold m in H, En.
  set (t' := fw_secs (mc_units V m) (s_time (get cstate0 (m_clocks V s) i))) in H.
  assert (Et : t' == t).
  { unfold t', t, mclock_s. fold m. unfold fw_secs, unit_seconds. destruct (mc_units V m); field. }
  assert (Lt : Qltb t' T = true) by (apply Qltb_lt; lra). rewrite Lt in H.
  destruct (get_required_vars V line cs (m_clocks V s) (m_data V s) i t' (m_vals V s)) as [w|] eqn:R; [|discriminate].
  rewrite En in H. destruct (update2 _ _) as [k2|]; [|discriminate].
  apply (f_equal (fun o => match o with Some q => m_vals V q | None => m_vals V s end)) in H. cbn [m_vals] in H.
  unfold step_vals in H. rewrite En in H. exists (w i).
  assert (K : (forall x, In x (n_in (mc_names V m)) -> exists p, provider_pos V cs x = Some p /\
                 w i x = given V line (m_clocks V s) (m_vals V s) (m_data V s) p x t') /\
              (forall y, ~ In y (n_in (mc_names V m)) -> w i y = m_vals V s i y) /\
              (forall j y, j <> i -> w j y = m_vals V s j y)).
  { unfold get_required_vars in R. fold m in R.
    assert (NN : forall l, fold_left (require_var V line cs (m_clocks V s) (m_data V s) i t') l None = None)
      by (intros l; induction l; cbn; auto).
    assert (Gen : forall l u (done : string -> Prop),
       (forall x, In x l -> In x (n_in (mc_names V m))) ->
       (forall x, In x (n_in (mc_names V m)) -> done x \/ In x l) ->
       (forall x, done x -> exists p, provider_pos V cs x = Some p /\
                 u i x = given V line (m_clocks V s) (m_vals V s) (m_data V s) p x t') ->
       (forall j y, (j <> i \/ ~ In y (n_in (mc_names V m))) -> u j y = m_vals V s j y) ->
       fold_left (require_var V line cs (m_clocks V s) (m_data V s) i t') l (Some u) = Some w ->
       (forall x, In x (n_in (mc_names V m)) -> exists p, provider_pos V cs x = Some p /\
                 w i x = given V line (m_clocks V s) (m_vals V s) (m_data V s) p x t') /\
       (forall j y, (j <> i \/ ~ In y (n_in (mc_names V m))) -> w j y = m_vals V s j y)).
    { induction l as [|x l IH]; intros u done Hl Hd HD HO F; cbn [fold_left] in F.
      - inversion F; subst u. split; [|exact HO]. intros x Hx. destruct (Hd x Hx) as [D|[]]. apply HD. exact D.
      - cbn [require_var] in F. destruct (provider_pos V cs x) as [p|] eqn:P; [|rewrite NN in F; discriminate].
        assert (Gv : given V line (m_clocks V s) u (m_data V s) p x t' =
                     given V line (m_clocks V s) (m_vals V s) (m_data V s) p x t').
        { unfold given. rewrite (HO p x); [reflexivity|]. destruct (provider_pos_spec V cs ND x p P) as [Lp Ho].
          destruct (Nat.eq_dec p i) as [-> |Np]; [|left; exact Np]. right. intros I. exact (IO m x (mc_in V cs i Hi) I Ho). }
        rewrite Gv in F.
        refine (IH _ (fun y => done y \/ y = x) _ _ _ _ F).
        + intros y Hy. apply Hl. right. exact Hy.
        + intros y Hy. destruct (Hd y Hy) as [D|[->|D]]; auto.
        + intros y Dy. unfold put_value. rewrite Nat.eqb_refl. cbn [andb].
          destruct (String.eqb_spec y x) as [-> |Ny]; [exists p; auto|]. destruct Dy as [D| ->]; [apply HD; exact D|congruence].
        + intros j y J. unfold put_value. destruct (Nat.eqb_spec j i) as [-> |Nj]; cbn [andb]; [|apply HO; left; exact Nj].
          destruct J as [J|J]; [congruence|]. destruct (String.eqb_spec y x) as [-> |Ny]; [|apply HO; right; exact J].
          exfalso. apply J. apply Hl. left. reflexivity. }
    destruct (Gen _ (m_vals V s) (fun _ => False) (fun x h => h) (fun x h => or_intror h)
                  ltac:(intros x []) ltac:(intros; reflexivity) R) as [A B].
    split; [exact A|]. split; [intros y N; apply B; right; exact N|intros j y N; apply B; left; exact N]. }
  destruct K as (K1 & K2 & K3). split; [|split; [|split]].
  - intros y. rewrite <- H. unfold put_all. rewrite Nat.eqb_refl. reflexivity.
  - intros x Hx. destruct (K1 x Hx) as (p & P & E). destruct (provider_pos_spec V cs ND x p P) as [Lp Ho].
    exists p, t'. split; [exact Lp|]. split; [exact Ho|]. split; [exact Et|]. exact E.
  - exact K2.
  - intros j y N. rewrite <- H. unfold put_all. destruct (Nat.eqb_spec j i); [contradiction|]. apply K3. exact N.
Qed.
Print Assumptions C75_inputs_given.

(* the second component of the demonstration takes its first turn *)
Example C75_inputs_given_case :
  menabled Q demo 1 /\ is_some (mvisit Q straight demo 180 (Some demo_s0) 1) = true /\
  mclock_s Q demo demo_s0 1 < 180.
Proof. split; [split; [cbn; auto|reflexivity]|]. split; vm_compute; reflexivity. Qed.

(* ------------------------------------------------------------------ initialize *)

(* A configuration in which some input has no provider, or two, is accepted without an error; the
   first update then raises. *)
Theorem C75_bad_configuration : forall V line cs w d drv stop,
  ~ uniquely_provided (names_of V cs) ->
  exists a, minitialize V cs w d = Some a /\ wupdate V line cs drv stop a = None.
Proof.
  intros V line cs w d drv stop H. exists (Unready V). split; [|reflexivity].
  unfold minitialize. destruct (check_providers (names_of V cs)) eqn:C; [|reflexivity].
  apply check_iff in C. contradiction.
Qed.
Print Assumptions C75_bad_configuration.

Example C75_bad_case : ~ uniquely_provided (names_of Q [store; driver]).
Proof. intros K. apply check_iff in K. vm_compute in K. discriminate K. Qed.

(* Names a program may set: those some component uses. *)
Definition settable {V} (cs : list (mcomp V)) (c : call V) : Prop :=
  match c with
  | Set_value _ x v => exists m, In m cs /\ In x (n_in (mc_names V m))
  | _ => True
  end.

Lemma visit_total V line cs T s i :
  (i < List.length cs)%nat ->
  (forall x, In x (n_in (mc_names V (get (mcomp0 V) cs i))) -> provider_pos V cs x <> None) ->
  mc_units V (get (mcomp0 V) cs i) <> Hours ->
  exists s', mvisit V line cs T (Some s) i = Some s'.
Proof.
  intros Hi Hx Hu. unfold mvisit. set (m := get (mcomp0 V) cs i) in *.
  destruct (Qltb _ T); [|eauto].
  assert (R : forall w, exists w', get_required_vars V line cs (m_clocks V s) (m_data V s) i
                (fw_secs (mc_units V m) (s_time (get cstate0 (m_clocks V s) i))) w = Some w').
  { unfold get_required_vars. fold m. revert Hx. generalize (n_in (mc_names V m)) as l.
    induction l as [|x l IH]; intros Hx w; cbn [fold_left]; [eauto|]. cbn [require_var].
    destruct (provider_pos V cs x) as [p|] eqn:P; [|exfalso; exact (Hx x (or_introl eq_refl) P)].
    apply IH. intros y Hy. apply Hx. right. exact Hy. }
  destruct (R (m_vals V s)) as [w' ->].
  assert (U : forall k, exists k2, update2 (clock_comp V cs m) k = Some k2).
  { intros k. unfold update2. destruct (s_init k); [eauto|]. unfold shift_window. cbn [c_units clock_comp].
    destruct (mc_units V m) eqn:E; cbn; eauto. congruence. }
  match goal with |- context [update2 ?c ?k] => destruct (U k) as [k2 ->] end. eauto.
Qed.

(* Otherwise, for components whose time units are not hours and whose lists of inputs hold no blank
   name, initialize() and every later sequence of calls run without an error. *)
Theorem C75_runs : forall V line cs w d,
  distinct_names V cs -> positive_dts V cs -> cs <> [] -> uniquely_provided (names_of V cs) ->
  (forall m, In m cs -> mc_units V m <> Hours /\ ~ In ""%string (n_in (mc_names V m))) ->
  exists fdt s, minitialize V cs w d = Some (Ready V fdt s) /\
    forall drv stop l, (forall c, In c l -> settable cs c) ->
      exists s', do_calls V line cs fdt drv stop l s = Some s'.
Proof.
  intros V line cs w d ND Hp Ne Un Hm.
  assert (C : check_providers (names_of V cs) = true) by (apply check_iff; exact Un).
  assert (St : forall l s, (forall i, In i l -> (i < List.length cs)%nat) ->
      exists s', fold_left (mstart_comp V cs) l (Some s) = Some s').
  { induction l as [|i l IH]; intros s Hl; cbn [fold_left]; [eauto|]. unfold mstart_comp at 2.
    set (m := get (mcomp0 V) cs i).
    assert (Hu : mc_units V m <> Hours) by (apply Hm; apply (mc_in V cs); apply Hl; left; reflexivity).
    assert (I : exists k, init_comp (clock_comp V cs m) = Some k).
    { unfold init_comp, shift_window. cbn [c_units clock_comp]. destruct (mc_units V m); cbn; eauto. congruence. }
    destruct I as [k ->]. apply IH. intros j J. apply Hl. right. exact J. }
  destruct (St (seq 0 (List.length cs)) {| m_time := 0; m_clocks := []; m_vals := w; m_data := d; m_done := false |})
    as [s Es]; [intros i I; exact (proj2 (proj1 (in_seq (List.length cs) 0 i) I))|].
  assert (Fd : exists fdt, framework_dt (clock_comps V cs) = Some fdt).
  { unfold framework_dt, clock_comps. destruct cs; [congruence|]. cbn. eauto. }
  destruct Fd as [fdt Fd]. exists fdt, s. unfold minitialize. rewrite C, Fd, Es. split; [reflexivity|].
  assert (F : 0 < fdt).
  { apply (fdt_pos (clock_comps V cs) fdt); [|exact Fd].
    intros c Hc. unfold clock_comps in Hc. apply in_map_iff in Hc. destruct Hc as (m & <- & I). exact (Hp m I). }
  intros drv stop.
  assert (Up : forall s, exists s', mupdate V line cs fdt drv stop s = Some s').
  { intros s1. unfold mupdate.
    assert (G : forall l s2, (forall i, In i l -> (i < List.length cs)%nat) ->
       exists s', fold_left (mvisit V line cs (m_time V s1)) l (Some s2) = Some s').
    { induction l as [|i l IH]; intros s2 Hl; cbn [fold_left]; [eauto|].
      pose proof (mc_in V cs i (Hl i (or_introl eq_refl))) as Im.
      destruct (visit_total V line cs (m_time V s1) s2 i) as [s3 E3].
      - apply Hl. left. reflexivity.
      - intros x Hx K. assert (Nx : x <> ""%string) by (intros ->; exact (proj2 (Hm _ Im) Hx)).
        pose proof (Un _ x (in_map (mc_names V) _ _ Im) Hx Nx) as O. unfold times_provided in O.
        assert (Ix : In x (flat_map n_out (names_of V cs))) by (apply (count_occ_In string_dec); lia).
        apply in_flat_map in Ix. destruct Ix as (nm & Hn & Ho). apply names_in in Hn. destruct Hn as (m & Hmm & <-).
        destruct (provider_pos_some V cs m x Hmm Ho Nx) as [p P]. congruence.
      - apply Hm. exact Im.
      - rewrite E3. apply IH. intros j J. apply Hl. right. exact J. }
    destruct (G (seq 0 (List.length cs)) s1) as [s' ->]; [|eauto].
    intros i I. exact (proj2 (proj1 (in_seq (List.length cs) 0 i) I)). }
  assert (Ups : forall n s, exists s', mupdates V line n cs fdt drv stop s = Some s').
  { induction n as [|n IH]; intros s1; cbn [mupdates]; [eauto|]. destruct (Up s1) as [s2 ->]. apply IH. }
  intros l. clear Es. revert s. induction l as [|c l IH]; intros s Hl; cbn [do_calls]; [eauto|].
  assert (D : exists s1, do_call V line cs fdt drv stop c s = Some s1).
  { destruct c; cbn [do_call].
    - apply Up.
    - apply Up.
    - rewrite until_updates by lra. apply Ups.
    - destruct (Hl _ (or_introl eq_refl)) as (m & Im & Ix). unfold mset_value.
      assert (Nx : x <> ""%string) by (intros ->; exact (proj2 (Hm _ Im) Ix)).
      pose proof (user_lookup (names_of V cs) x Nx (n_comp (mc_names V m))) as K.
      destruct (dict_get (snd (find_users (names_of V cs))) x); [eauto|].
      exfalso. apply (proj2 K). exists (mc_names V m). split; [apply in_map; exact Im|]. auto. }
  destruct D as [s1 ->]. apply IH. intros c' Hc. apply Hl. right. exact Hc.
Qed.
Print Assumptions C75_runs.

Example C75_runs_case :
  uniquely_provided (names_of Q demo) /\
  (forall m, In m demo -> mc_units Q m <> Hours /\ ~ In ""%string (n_in (mc_names Q m))) /\
  settable demo (Set_value Q "P"%string 100).
Proof.
  split; [apply check_iff; reflexivity|]. split.
  - intros m [<-|[<-|[<-|[]]]]; cbn; (split; [discriminate|intuition discriminate]).
  - exists store. cbn. auto.
Qed.

(* A blank input name passes the check but stops the run at the component's first turn. *)
Definition blank : mcomp Q :=
  {| mc_names := {| n_comp := "ice"; n_out := []; n_in := [""] |}; mc_dt := 60; mc_units := OtherUnits;
     mc_status := Enabled; mc_step := fun a => a |}%string.

Theorem C75_blank_input_refuted :
  ~ (forall V line cs w d, distinct_names V cs -> positive_dts V cs -> cs <> [] ->
       uniquely_provided (names_of V cs) -> (forall m, In m cs -> mc_units V m <> Hours) ->
       forall fdt s, minitialize V cs w d = Some (Ready V fdt s) ->
       forall drv stop, exists s', mupdate_until V line cs fdt drv stop 600 s = Some s').
Proof.
  intros H.
  assert (U : exists s, minitialize Q [rain; blank] demo_vals (fun _ => (0,0)) = Some (Ready Q 60 s) /\
              mupdate_until Q straight [rain; blank] 60 0 (fun _ => false) 600 s = None).
  { assert (R : match minitialize Q [rain; blank] demo_vals (fun _ => (0,0)) with
                | Some (Ready _ f s) => Qeq_bool f 60 && negb (is_some (mupdate_until Q straight [rain; blank] f 0 (fun _ => false) 600 s))
                                        && (Qnum f =? 60)%Z && (Qden f =? 1)%positive
                | _ => false end = true) by (vm_compute; reflexivity).
    destruct (minitialize Q [rain; blank] demo_vals (fun _ => (0,0))) as [[f s|]|]; try discriminate R.
    exists s. apply andb_prop in R. destruct R as [R R4]. apply andb_prop in R. destruct R as [R R3].
    apply andb_prop in R. destruct R as [_ R2]. apply Z.eqb_eq in R3. apply Pos.eqb_eq in R4.
    assert (f = 60) by (destruct f; cbn in R3, R4; subst; reflexivity). subst f.
    split; [reflexivity|]. destruct (mupdate_until _ _ _ _ _ _ _ _); [discriminate R2|reflexivity]. }
  destruct U as (s & I & N).
  destruct (H Q straight [rain; blank] demo_vals (fun _ => (0,0))) with (fdt := 60) (s := s) (drv := 0%nat) (stop := fun _ : nat => false)
    as [s' E].
  - unfold distinct_names; cbn; repeat constructor; cbn; intuition discriminate.
  - intros m [<-|[<-|[]]]; reflexivity.
  - discriminate.
  - apply check_iff. reflexivity.
  - intros m [<-|[<-|[]]]; discriminate.
  - exact I.
  - congruence.
Qed.
Print Assumptions C75_blank_input_refuted.

(* ------------------------------------------------------------------ values at cells *)

(* Whatever cells are asked for, every position of the result is the value at the outlet. *)
Theorem C75_at_indices : forall h o long l vs k dest n IDs,
  Bmi_Model.get_value_ptr o long = Some l -> load h l = {| a_0d := false; a_vals := vs |} ->
  (0 <= k < Z.of_nat (List.length vs))%Z ->
  (dest < List.length h)%nat -> load h dest = {| a_0d := false; a_vals := repeat 0 n |} ->
  exists h', mget_value_at_indices h o (Some k) long dest IDs = Some h' /\
    a_vals (load h' dest) = repeat (get 0 vs (Z.to_nat k)) n.
Proof.
  intros h o long l vs k dest n IDs P L K D Z. unfold mget_value_at_indices, Bmi_Model.get_value_at_indices.
  rewrite P, L. cbn [a_vals Bmi_Model.take]. unfold Bmi_Model.take1.
  replace ((- Z.of_nat (List.length vs) <=? k)%Z) with true by (symmetry; apply Z.leb_le; lia).
  replace ((k <? Z.of_nat (List.length vs))%Z) with true by (symmetry; apply Z.ltb_lt; lia).
  replace ((k <? 0)%Z) with false by (symmetry; apply Z.ltb_ge; lia). cbn [andb].
  unfold Bmi_Model.assign_all. rewrite Z. cbn [a_0d a_vals]. unfold spread. cbn [a_0d a_vals orb List.length Nat.eqb].
  eexists. split; [reflexivity|]. unfold load. rewrite get_set_same by exact D. cbn [a_vals].
  rewrite repeat_length. reflexivity.
Qed.
Print Assumptions C75_at_indices.

Theorem C75_at_indices_refuted :
  ~ (forall h o k long l vs dest i h',
       Bmi_Model.get_value_ptr o long = Some l -> load h l = {| a_0d := false; a_vals := vs |} ->
       (0 <= i < Z.of_nat (List.length vs))%Z -> load h dest = {| a_0d := false; a_vals := [0] |} ->
       mget_value_at_indices h o (Some k) long dest [i] = Some h' ->
       a_vals (load h' dest) = [get 0 vs (Z.to_nat i)]).
Proof.
  intros H.
  specialize (H [{| a_0d := false; a_vals := [7; 8; 9] |}; {| a_0d := false; a_vals := [0] |}]
                {| Bmi_Model.o_map := [("Q", "Q")]; Bmi_Model.o_attrs := [("Q", 0%nat)] |}%string
                2%Z "Q"%string 0%nat [7; 8; 9] 1%nat 0%Z).
  specialize (H _ eq_refl eq_refl ltac:(cbn; lia) eq_refl eq_refl). vm_compute in H. discriminate H.
Qed.
Print Assumptions C75_at_indices_refuted.
