(* Theorems C31, C32, C33 and the driver half of C36. *)
From Coq Require Import ZArith QArith Qminmax Qabs List Bool String Lia Lqa.
From Verif Require Import Base Emeli_Model Emeli_Spec Emeli_Proofs.
Import ListNotations.
Local Open Scope Q_scope.

(* ------------------------------------------------------------------ C33 *)

Theorem C33_check_sound_and_complete : forall cs,
  check_providers cs = true <-> uniquely_provided cs.
Proof. exact check_iff. Qed.

(* When the check passes and provider_list names every component, every named input of every
   component is connected, to the one component that offers it and to no other; and nothing else
   is ever connected. *)
Theorem C33_every_input_connected : forall cs pl,
  NoDup (map n_comp cs) -> (forall c, In c cs <-> In c pl) ->
  (uniquely_provided cs <-> exists conn, initialize_comp_set cs pl = Some conn) /\
  (forall conn, initialize_comp_set cs pl = Some conn ->
     (forall cu x, In cu cs -> In x (n_in cu) -> x <> ""%string ->
        exists cp, In cp cs /\ In x (n_out cp) /\
          forall p, In (p, n_comp cu, x) conn <-> p = n_comp cp) /\
     (forall p u x, In (p, u, x) conn ->
        exists cp cu, In cp cs /\ n_comp cp = p /\ In x (n_out cp) /\
                      In cu cs /\ n_comp cu = u /\ In x (n_in cu))).
Proof.
  intros cs pl ND Hpl. unfold initialize_comp_set. split.
  { rewrite <- check_iff. destruct (check_providers cs); split; try (intros H; discriminate H).
    - intros _. eexists. reflexivity.
    - reflexivity.
    - intros [c H]. discriminate H. }
  intros conn H. destruct (check_providers cs) eqn:CH; [|discriminate]. inversion H; subst. clear H.
  apply check_iff in CH. split.
  - intros cu x Hu Hx Nx. specialize (CH cu x Hu Hx Nx). unfold times_provided in CH.
    assert (I : In x (flat_map n_out cs)).
    { apply (count_occ_In string_dec). lia. }
    apply in_flat_map in I. destruct I as (cp & Hp & Ho). exists cp. split; [exact Hp|]. split; [exact Ho|].
    intros p. rewrite connections_iff. split.
    + intros (_ & (cq & Hq & E & Hoq) & _). apply Hpl in Hq. subst p.
      destruct (string_dec (n_comp cq) (n_comp cp)) as [E|N]; [exact E|].
      exfalso. assert (D : cq <> cp) by congruence.
      pose proof (count_two string_dec n_out cs cq cp x Hq Hp D Hoq Ho). lia.
    + intros ->. split; [exact Nx|]. split; [exists cp|exists cu]; auto. split; [apply Hpl; exact Hp|auto].
  - intros p u x I. apply connections_iff in I. destruct I as (_ & (cp & A & B & C) & (cu & D & E & F)).
    exists cp, cu. split; [apply Hpl; exact A|]. auto 10.
Qed.

(* Three components shaped like the real ones: meteorology, snow, channels. *)
Definition demo_names : list names :=
  [ {| n_comp := "meteorology"; n_out := ["P"; "T_air"]; n_in := ["h_snow"] |};
    {| n_comp := "snow"; n_out := ["h_snow"; "SM"]; n_in := ["P"; "T_air"; ""] |};
    {| n_comp := "channels"; n_out := ["Q"]; n_in := ["P"; "SM"] |} ]%string.

Definition two_providers : names := {| n_comp := "channels"; n_out := ["Q"; "P"]; n_in := ["P"; "SM"] |}%string.
Definition no_provider : names := {| n_comp := "channels"; n_out := ["Q"]; n_in := ["MR"] |}%string.

Example C33_demo :
  uniquely_provided demo_names /\
  ~ uniquely_provided (removelast demo_names ++ [two_providers]) /\
  ~ uniquely_provided (removelast demo_names ++ [no_provider]).
Proof.
  split; [apply check_iff; reflexivity|].
  split; intros K; apply check_iff in K; vm_compute in K; discriminate K.
Qed.

Print Assumptions C33_check_sound_and_complete.
Print Assumptions C33_every_input_connected.

(* ------------------------------------------------------------------ C31 *)

(* The framework step is the smallest enabled step, as long as that is at most 1000000 s. *)
Theorem C31_framework_step_is_smallest_step_partial : forall cs d,
  (exists c, In c cs /\ c_status c <> Disabled /\ step_s c <= 1000000) ->
  framework_dt cs = Some d -> is_min_step cs d.
Proof.
  intros cs d (c0 & H0 & N0 & L0) H. destruct (framework_dt_spec cs d H) as ((c & Hc & E) & M).
  assert (Mn : forall c', In c' cs -> c_status c' <> Disabled -> d <= step_s c').
  { intros c' Hc' N'. rewrite <- dt_entry_step by exact N'. apply M. exact Hc'. }
  split; [|exact Mn].
  destruct (c_status c) eqn:Es.
  - exists c. split; [exact Hc|]. split; [congruence|]. rewrite E. apply dt_entry_step. congruence.
  - exists c. split; [exact Hc|]. split; [congruence|]. rewrite E. apply dt_entry_step. congruence.
  - exists c0. split; [exact H0|]. split; [exact N0|].
    assert (D : dt_entry c = 1000000) by (unfold dt_entry; rewrite Es; reflexivity). rewrite D in E.
    pose proof (Mn c0 H0 N0). lra.
Qed.

(* Missing case: a disabled component counts as 1000000 s, so with steps of, say, 30 days the
   framework step is that number and not any component's step. *)
Theorem C31_framework_step_is_smallest_step_refuted :
  ~ (forall cs d, (exists c, In c cs /\ c_status c <> Disabled) ->
       framework_dt cs = Some d -> is_min_step cs d).
Proof.
  intros H.
  specialize (H [ {| c_dt := 30; c_units := Days; c_status := Enabled; c_needs := [] |};
                  {| c_dt := 1; c_units := OtherUnits; c_status := Disabled; c_needs := [] |} ] 1000000).
  destruct H as ((c & [<-|[<-|[]]] & N & E) & _).
  - eexists. split; [left; reflexivity|discriminate].
  - reflexivity.
  - vm_compute in E. discriminate E.
  - apply N. reflexivity.
Qed.

(* The clock of every enabled component after every number of loop iterations.  T is the time of
   the latest iteration.  The clock has reached T, and the component has made the smallest number
   of updates (at least the first one) that takes it there. *)
Theorem C31_components_keep_up : forall cs fdt drv stop k f,
  positive_steps cs -> framework_dt cs = Some fdt -> (1 <= k)%nat ->
  run_model k cs drv stop = Some f ->
  exists j, (1 <= j <= k)%nat /\ (f_done f = false -> j = k) /\
    f_time f == Qn j * fdt /\
    forall i, enabled cs i ->
      let T := Qn (j - 1) * fdt in
      let dt := step_s (get comp0 cs i) in
      clock_s cs f i == Qn (updates f i) * dt /\
      T <= clock_s cs f i /\ clock_s cs f i <= T + dt /\
      (1 <= updates f i)%nat /\
      (forall m, (1 <= m)%nat -> T <= Qn m * dt -> (updates f i <= m)%nat).
Proof.
  intros cs fdt drv stop k f Hp Hd Hk H. unfold run_model, start_run in H. rewrite Hd in H.
  destruct (init_comps cs) as [ss|] eqn:E; [|discriminate].
  destruct (start_inv cs fdt Hp Hd ss E) as [R0 _].
  destruct (loop_inv cs fdt drv stop Hp Hd k 0 _ f R0 H) as (m & M1 & (HT & [_ I] & _) & M3 & M4).
  specialize (M4 eq_refl Hk). exists m. split; [lia|]. split; [exact M3|]. split; [exact HT|].
  intros i Ei. cbv zeta. destruct (I i Ei) as [(C & _ & A & _) [B1 B2]].
  assert (TT : f_time f - fdt == Qn (m - 1) * fdt).
  { rewrite HT. destruct m as [|m]; [lia|]. cbn [Nat.add]. replace (S m - 1)%nat with m by lia. rewrite Qn_S. ring. }
  pose proof (fdt_pos cs fdt Hp Hd) as F0. pose proof (fdt_le cs fdt Hd i Ei) as F1.
  assert (T0 : 0 <= Qn (m - 1) * fdt) by (apply Qmult_le_0_compat; [apply Qn_nonneg|lra]).
  unfold clock_s, updates. split; [exact A|]. rewrite A. split; [lra|].
  set (q := s_count (get cstate0 (f_comps f) i)) in *. set (dt := step_s (get comp0 cs i)) in *.
  assert (Q1 : Qn q == Qn (q - 1) + 1).
  { destruct q as [|q]; [lia|]. replace (S q - 1)%nat with q by lia. apply Qn_S. }
  assert (UB : Qn (q - 1) * dt <= Qn (m - 1) * fdt).
  { destruct B2 as [B2|B2]; [rewrite B2; cbn [Nat.sub]; rewrite Qn_0; lra|lra]. }
  split; [rewrite Q1; lra|]. split; [exact C|]. intros p P1 P2.
  destruct B2 as [B2|B2]; [lia|].
  assert (K : Qn (q - 1) * dt < Qn p * dt) by lra.
  apply Qn_mult_lt in K; [lia|lra].
Qed.

(* In one loop iteration a component is updated at most once, exactly when the framework time has
   passed its clock. *)
Theorem C31_at_most_one_update_per_step : forall cs fdt drv stop k f f',
  positive_steps cs -> framework_dt cs = Some fdt ->
  run_model k cs drv stop = Some f -> f_done f = false ->
  run_model (S k) cs drv stop = Some f' ->
  f_time f' == f_time f + fdt /\
  forall i, enabled cs i ->
    (clock_s cs f i < f_time f -> updates f' i = S (updates f i)) /\
    (f_time f <= clock_s cs f i -> updates f' i = updates f i).
Proof.
  intros cs fdt drv stop k f f' Hp Hd H D H'. unfold run_model, start_run in H, H'. rewrite Hd in H, H'.
  destruct (init_comps cs) as [ss|] eqn:E; [|discriminate].
  destruct (start_inv cs fdt Hp Hd ss E) as [R0 _].
  destruct (loop_inv cs fdt drv stop Hp Hd k 0 _ f R0 H) as (m & _ & R & _).
  assert (B : loop_body cs fdt drv stop f = Some f').
  { clear R R0 E. revert H H'. generalize {| f_time := 0; f_comps := ss; f_done := false; f_log := [] |} as g.
    induction k as [|k IH]; intros g H H'.
    - cbn in H. inversion H; subst. cbn in H'. rewrite D in H'.
      destruct (loop_body cs fdt drv stop f); [exact H'|discriminate].
    - cbn [loop] in H. change (loop (S (S k)) cs fdt drv stop g) with
        (if f_done g then Some g else match loop_body cs fdt drv stop g with
           | Some h => loop (S k) cs fdt drv stop h | None => None end) in H'.
      destruct (f_done g) eqn:Dg; [inversion H; subst; congruence|].
      destruct (loop_body cs fdt drv stop g) as [h|]; [|discriminate].
      apply (IH h); assumption. }
  destruct (body_inv cs fdt drv stop Hp Hd _ f f' R B) as ((HT' & _) & _ & U).
  destruct R as (HT & [_ I] & _). split; [rewrite HT', HT, Qn_S; ring|].
  intros i Ei. destruct (I i Ei) as [(_ & _ & A & _) _]. destruct (U i Ei) as [U1 U2].
  unfold clock_s. unfold updates in *. split; intros K.
  - apply U1. rewrite <- A. exact K.
  - apply U2. rewrite <- A. lra.
Qed.

(* A run gets going exactly when there is a component and none of them counts time in hours:
   the interpolator's hours branch stops with a NameError. *)
Theorem C31_run_starts_unless_hours : forall cs drv stop k,
  (forall c, In c cs -> c_units c <> Hours) /\ cs <> [] <-> run_model k cs drv stop <> None.
Proof.
  intros cs drv stop k. split.
  - intros [H N]. unfold run_model, start_run.
    destruct (framework_dt cs) as [d|] eqn:Hd.
    2:{ unfold framework_dt in Hd. destruct cs; [congruence|discriminate]. }
    destruct (init_comps_total cs H) as [ss E]. rewrite E. intros K.
    assert (G : forall k f, List.length (f_comps f) = List.length cs -> loop k cs d drv stop f <> None).
    { clear K. induction k0 as [|k0 IH]; intros f L; cbn; [discriminate|].
      destruct (f_done f); [discriminate|]. unfold loop_body.
      destruct (pass_total cs (f_time f) (f_comps f) L H) as (ss1 & log & P). rewrite P.
      apply IH. cbn [f_comps]. apply (pass_spec cs _ _ L _ _ P). }
    revert K. apply G. cbn [f_comps]. apply (proj1 (init_comps_get cs cs ss E)).
  - intros H. unfold run_model, start_run in H. destruct cs as [|c0 cs0]; [exfalso; apply H; reflexivity|].
    split; [|discriminate]. set (cs := c0 :: cs0) in *. destruct (framework_dt cs); [|congruence].
    destruct (init_comps cs) as [ss|] eqn:E; [|congruence]. clear H.
    revert ss E. generalize cs as l. induction l as [|c l IH]; intros ss E x Hx; [destruct Hx|].
    cbn in E. destruct (init_comp c) as [s|] eqn:Es; [|discriminate].
    destruct (init_comps l) as [ss1|]; [|discriminate].
    destruct Hx as [<-|Hx]; [|eapply IH; eauto]. intros K. unfold init_comp in Es. rewrite K in Es. discriminate.
Qed.

(* A component whose status is spelled 'enabled' is initialised once and then never updated:
   keeping up needs the exact spelling 'Enabled'. *)
Theorem C31_keeping_up_needs_exact_status_refuted :
  ~ (forall cs fdt drv stop k f i,
       positive_steps cs -> framework_dt cs = Some fdt -> run_model k cs drv stop = Some f ->
       (i < List.length cs)%nat -> c_status (get comp0 cs i) <> Disabled ->
       f_time f - fdt <= clock_s cs f i).
Proof.
  intros H.
  pose (cs := [ {| c_dt := 60; c_units := OtherUnits; c_status := Enabled; c_needs := [] |};
                {| c_dt := 60; c_units := OtherUnits; c_status := EnabledOdd; c_needs := [0%nat] |} ]).
  assert (U : exists f, run_model 5 cs 0 (fun _ => false) = Some f /\ ~ f_time f - 60 <= clock_s cs f 1).
  { eexists. split; [vm_compute; reflexivity|]. vm_compute. intros K; apply K; reflexivity. }
  destruct U as (f & R & N). apply N.
  apply (H cs 60 0%nat (fun _ => false) 5%nat f 1%nat).
  - intros c [<-|[<-|[]]]; reflexivity.
  - reflexivity.
  - exact R.
  - cbn. lia.
  - discriminate.
Qed.

(* Channels 5 s, snow and met hourly steps given in seconds and minutes, one disabled component. *)
Definition demo_comps : list comp :=
  [ {| c_dt := 5; c_units := OtherUnits; c_status := Enabled; c_needs := [1; 2]%nat |};
    {| c_dt := 12; c_units := OtherUnits; c_status := Enabled; c_needs := [2]%nat |};
    {| c_dt := 1 # 2; c_units := Minutes; c_status := Enabled; c_needs := [1]%nat |};
    {| c_dt := 1; c_units := Days; c_status := Disabled; c_needs := [2]%nat |} ].

Example C31_demo :
  positive_steps demo_comps /\ framework_dt demo_comps = Some 5 /\
  exists f, run_model 9 demo_comps 0 (fun _ => false) = Some f /\
    map (updates f) [0; 1; 2; 3]%nat = [8; 4; 2; 0]%nat /\ f_time f == 45.
Proof.
  split; [intros c [<-|[<-|[<-|[<-|[]]]]]; reflexivity|]. split; [reflexivity|].
  eexists. split; [vm_compute; reflexivity|]. split; reflexivity.
Qed.

Print Assumptions C31_framework_step_is_smallest_step_partial.
Print Assumptions C31_framework_step_is_smallest_step_refuted.
Print Assumptions C31_components_keep_up.
Print Assumptions C31_at_most_one_update_per_step.
Print Assumptions C31_run_starts_unless_hours.
Print Assumptions C31_keeping_up_needs_exact_status_refuted.

(* ------------------------------------------------------------------ C32 *)

(* When every enabled step is a whole number of framework steps, every value is requested for a
   time inside the provider's current interval: nothing is ever extrapolated. *)
Theorem C32_requests_inside_window_partial : forall cs fdt drv stop k f,
  positive_steps cs -> framework_dt cs = Some fdt -> multiples cs fdt ->
  run_model k cs drv stop = Some f ->
  forall r, In r (f_log f) -> enabled cs (q_user r) -> enabled cs (q_prov r) ->
    q_direct r = false /\ q_t1 r <= q_time r /\ q_time r <= q_t2 r.
Proof.
  intros cs fdt drv stop k f Hp Hd M H. unfold run_model, start_run in H. rewrite Hd in H.
  destruct (init_comps cs) as [ss|] eqn:E; [|discriminate].
  destruct (start_inv cs fdt Hp Hd ss E) as [R0 _].
  destruct (loop_inv cs fdt drv stop Hp Hd k 0 _ f R0 H) as (m & M1 & (_ & _ & W & Wm) & _).
  intros r Hr Eu Ep. destruct (W r Hr Eu Ep) as (D & _). split; [exact D|]. apply Wm; auto.
Qed.

(* For arbitrary steps: a request is never off by as much as one framework step, never too late
   when the provider comes before the user in the provider list, and never too early otherwise. *)
Theorem C32_requests_near_window : forall cs fdt drv stop k f,
  positive_steps cs -> framework_dt cs = Some fdt ->
  run_model k cs drv stop = Some f ->
  forall r, In r (f_log f) -> enabled cs (q_user r) -> enabled cs (q_prov r) ->
    ((q_prov r < q_user r)%nat -> q_t1 r - fdt < q_time r /\ q_time r < q_t2 r) /\
    ((q_user r <= q_prov r)%nat -> q_t1 r <= q_time r /\ q_time r < q_t2 r + fdt).
Proof.
  intros cs fdt drv stop k f Hp Hd H. unfold run_model, start_run in H. rewrite Hd in H.
  destruct (init_comps cs) as [ss|] eqn:E; [|discriminate].
  destruct (start_inv cs fdt Hp Hd ss E) as [R0 _].
  destruct (loop_inv cs fdt drv stop Hp Hd k 0 _ f R0 H) as (m & M1 & (_ & _ & W & _) & _).
  intros r Hr Eu Ep. exact (proj2 (W r Hr Eu Ep)).
Qed.

(* The requested time is the user's own clock, before its update. *)
(* Both halves of the claim fail in general: steps 5 s (user) and 12 s (provider), provider after
   the user / before the user. *)
Theorem C32_never_after_window_refuted :
  ~ (forall cs fdt drv stop k f r,
       positive_steps cs -> framework_dt cs = Some fdt -> run_model k cs drv stop = Some f ->
       In r (f_log f) -> enabled cs (q_user r) -> enabled cs (q_prov r) -> q_time r <= q_t2 r).
Proof.
  intros H.
  pose (cs := [ {| c_dt := 7; c_units := OtherUnits; c_status := Enabled; c_needs := [1%nat] |};
                {| c_dt := 5; c_units := OtherUnits; c_status := Enabled; c_needs := [] |} ]).
  assert (U : exists f r, run_model 4 cs 0 (fun _ => false) = Some f /\ In r (f_log f) /\
              q_user r = 0%nat /\ q_prov r = 1%nat /\ ~ q_time r <= q_t2 r).
  { do 2 eexists. split; [vm_compute; reflexivity|]. cbn [f_log]. split; [right; left; reflexivity|].
    split; [reflexivity|]. split; [reflexivity|]. vm_compute. intros K; apply K; reflexivity. }
  destruct U as (f & r & R & I & Eu & Ep & N). apply N.
  apply (H cs 5 0%nat (fun _ => false) 4%nat f r); auto.
  - intros c [<-|[<-|[]]]; reflexivity.
  - rewrite Eu. split; [cbn; lia|reflexivity].
  - rewrite Ep. split; [cbn; lia|reflexivity].
Qed.

Theorem C32_never_before_window_refuted :
  ~ (forall cs fdt drv stop k f r,
       positive_steps cs -> framework_dt cs = Some fdt -> run_model k cs drv stop = Some f ->
       In r (f_log f) -> enabled cs (q_user r) -> enabled cs (q_prov r) -> q_t1 r <= q_time r).
Proof.
  intros H.
  pose (cs := [ {| c_dt := 12; c_units := OtherUnits; c_status := Enabled; c_needs := [] |};
                {| c_dt := 5; c_units := OtherUnits; c_status := Enabled; c_needs := [0%nat] |} ]).
  assert (U : exists f r, run_model 4 cs 0 (fun _ => false) = Some f /\ In r (f_log f) /\
              q_user r = 1%nat /\ q_prov r = 0%nat /\ ~ q_t1 r <= q_time r).
  { do 2 eexists. split; [vm_compute; reflexivity|]. cbn [f_log]. split; [right; left; reflexivity|].
    split; [reflexivity|]. split; [reflexivity|]. vm_compute. intros K; apply K; reflexivity. }
  destruct U as (f & r & R & I & Eu & Ep & N). apply N.
  apply (H cs 5 0%nat (fun _ => false) 4%nat f r); auto.
  - intros c [<-|[<-|[]]]; reflexivity.
  - rewrite Eu. split; [cbn; lia|reflexivity].
  - rewrite Ep. split; [cbn; lia|reflexivity].
Qed.

(* Hypotheses met: 5 s, 10 s and 30 s steps, and there are requests. *)
Definition demo_mult : list comp :=
  [ {| c_dt := 5; c_units := OtherUnits; c_status := Enabled; c_needs := [1; 2]%nat |};
    {| c_dt := 10; c_units := OtherUnits; c_status := Enabled; c_needs := [0; 2]%nat |};
    {| c_dt := 1 # 2; c_units := Minutes; c_status := Enabled; c_needs := [1]%nat |} ].

Example C32_demo :
  positive_steps demo_mult /\ framework_dt demo_mult = Some 5 /\ multiples demo_mult 5 /\
  exists f, run_model 9 demo_mult 0 (fun _ => false) = Some f /\ List.length (f_log f) = 21%nat.
Proof.
  split; [intros c [<-|[<-|[<-|[]]]]; reflexivity|]. split; [reflexivity|]. split.
  - intros i [Hi _]. cbn in Hi. destruct i as [|[|[|i]]]; [exists 1%nat|exists 2%nat|exists 6%nat|lia]; reflexivity.
  - eexists. split; [vm_compute; reflexivity|reflexivity].
Qed.

Print Assumptions C32_requests_inside_window_partial.
Print Assumptions C32_requests_near_window.
Print Assumptions C32_never_after_window_refuted.
Print Assumptions C32_never_before_window_refuted.

(* ------------------------------------------------------------------ C36, driver *)

Lemma driver_clock m dt qs qp n :
  d_index (driver_run m dt qs qp n) = n /\ d_time (driver_run m dt qs qp n) == Qn n * dt /\
  d_Qlast (driver_run m dt qs qp n) = qs n.
Proof.
  induction n as [|n (A & B & C)]; cbn; [split; [reflexivity|split; [rewrite Qn_0; ring|reflexivity]]|].
  split; [rewrite A; reflexivity|]. split; [rewrite B, Qn_S; ring|reflexivity].
Qed.

(* Until_n_steps: DONE after n updates exactly when n has reached the limit. *)
Theorem C36_done_at_step_limit : forall limit dt qs qp n, (1 <= n)%nat ->
  (driver_stop (Until_n_steps limit) dt qs qp n = true <-> (limit <= Z.of_nat n)%Z).
Proof.
  intros limit dt qs qp n Hn. destruct n as [|n]; [lia|]. unfold driver_stop. cbn [driver_run].
  unfold driver_update. cbv zeta. cbn [d_done rule_done steady].
  destruct (driver_clock (Until_n_steps limit) dt qs qp n) as (A & _). rewrite A, orb_false_r.
  apply Z.leb_le.
Qed.

(* Until_model_time: DONE after n updates exactly when n steps cover T_stop minutes. *)
Theorem C36_done_at_stop_time : forall tstop dt qs qp n, (1 <= n)%nat ->
  (driver_stop (Until_model_time tstop) dt qs qp n = true <-> tstop * 60 <= Qn n * dt).
Proof.
  intros tstop dt qs qp n Hn. destruct n as [|n]; [lia|]. unfold driver_stop. cbn [driver_run].
  unfold driver_update. cbv zeta. cbn [d_done rule_done steady].
  destruct (driver_clock (Until_model_time tstop) dt qs qp n) as (_ & B & _).
  rewrite orb_false_r, Qle_bool_iff, B, Qn_S.
  assert (E : (Qn n * dt + dt) / 60 * 60 == (Qn n + 1) * dt) by field.
  split; intros K; lra.
Qed.

Lemma nsame_flat m dt qs qp n w :
  (w <= d_nsame (driver_run m dt qs qp n))%nat <-> flat_record qs n w.
Proof.
  revert w. induction n as [|n IH]; intros w.
  - cbn. unfold flat_record. split; [intros H; split; [lia|intros i Hi; lia]|intros [H _]; lia].
  - cbn [driver_run]. unfold driver_update. cbv zeta. cbn [d_nsame].
    destruct (driver_clock m dt qs qp n) as (_ & _ & ->). unfold same_count.
    assert (Last : Qle_bool (Qabs (qs (S n) - qs n)) steady_tol = true <->
                   Qabs (qs (S n) - qs (S n - 1)%nat) <= 1 # 100000).
    { rewrite Qle_bool_iff. replace (S n - 1)%nat with n by lia. reflexivity. }
    destruct (Qle_bool (Qabs (qs (S n) - qs n)) steady_tol).
    + assert (L : Qabs (qs (S n) - qs (S n - 1)%nat) <= 1 # 100000) by (apply Last; reflexivity).
      destruct w as [|w]; [split; [intros _; split; [lia|intros i Hi; lia]|lia]|].
      rewrite <- Nat.succ_le_mono, IH. unfold flat_record. split; intros [A B]; split; try lia.
      * intros i Hi. destruct (Nat.eq_dec i (S n)) as [->|N]; [exact L|]. apply B. lia.
      * intros i Hi. apply B. lia.
    + destruct w as [|w]; [split; [intros _; split; [lia|intros i Hi; lia]|lia]|].
      split; [lia|]. intros [A B]. exfalso.
      assert (K : Qabs (qs (S n) - qs (S n - 1)%nat) <= 1 # 100000) by (apply B; lia).
      apply Last in K. discriminate.
Qed.

(* Q_peak_fraction: the run stops at the first update at which either discharge has just fallen to
   a positive value of at most the given fraction of the peak, or discharge exceeds 1e-5 and the
   last 500 changes were all within 1e-5. *)
Definition recession (frac : Q) (qs qp : nat -> Q) (n : nat) : Prop :=
  qs n < qs (n - 1)%nat /\ qs n <= qp n * frac /\ 0 < qs n.
Definition constant_flow (qs : nat -> Q) (n : nat) : Prop :=
  (1 # 100000) < qs n /\ flat_record qs n 500.

Theorem C36_stops_after_peak : forall frac dt qs qp n,
  first_stop (driver_stop (Q_peak_fraction frac) dt qs qp) n <->
  (1 <= n)%nat /\ (recession frac qs qp n \/ constant_flow qs n) /\
  forall m, (1 <= m < n)%nat -> ~ (recession frac qs qp m \/ constant_flow qs m).
Proof.
  intros frac dt qs qp.
  set (stop := driver_stop (Q_peak_fraction frac) dt qs qp).
  assert (Step : forall n, stop n = false ->
            (stop (S n) = true <-> recession frac qs qp (S n) \/ constant_flow qs (S n))).
  { intros n Hn. unfold stop, driver_stop in *. cbn [driver_run].
    assert (NS : d_nsame (driver_run (Q_peak_fraction frac) dt qs qp (S n)) =
                 same_count (qs (S n)) (qs n) (d_nsame (driver_run (Q_peak_fraction frac) dt qs qp n))).
    { cbn [driver_run]. unfold driver_update. cbv zeta. cbn [d_nsame].
      destruct (driver_clock (Q_peak_fraction frac) dt qs qp n) as (_ & _ & ->). reflexivity. }
    unfold driver_update. cbv zeta. cbn [d_done].
    destruct (driver_clock (Q_peak_fraction frac) dt qs qp n) as (_ & _ & C). rewrite C, Hn.
    cbn [rule_done steady]. rewrite orb_true_iff, <- NS. clear NS.
    assert (ST : Qltb nonzero_tol (qs (S n)) &&
                 (n_same_max <? d_nsame (driver_run (Q_peak_fraction frac) dt qs qp (S n)))%nat = true <->
                 constant_flow qs (S n)).
    { rewrite andb_true_iff, Qltb_lt, Nat.ltb_lt. unfold constant_flow.
      rewrite <- (nsame_flat (Q_peak_fraction frac) dt qs qp (S n) 500). reflexivity. }
    rewrite ST. unfold recession. replace (S n - 1)%nat with n by lia.
    destruct (Qltb (qs (S n)) (qs n)) eqn:L.
    - apply Qltb_lt in L. rewrite andb_true_iff, Qle_bool_iff, Qltb_lt. tauto.
    - apply Qltb_ge in L. split; [intros [K|K]; [discriminate|right; exact K]|].
      intros [(K & _)|K]; [lra|right; exact K]. }
  intros n. unfold first_stop. fold stop. split.
  - intros (N1 & S1 & F).
    assert (P : forall m, (m < n)%nat -> stop m = false).
    { intros m Hm. destruct m as [|m]; [reflexivity|]. apply F. lia. }
    destruct n as [|n]; [lia|]. split; [lia|]. split; [apply Step; [apply P; lia|exact S1]|].
    intros m Hm K. destruct m as [|m]; [lia|].
    assert (stop (S m) = true) by (apply Step; [apply P; lia|exact K]).
    rewrite (P (S m)) in H by lia. discriminate.
  - intros (N1 & C & F).
    assert (P : forall m, (m < n)%nat -> stop m = false).
    { induction m as [|m IH]; intros Hm; [reflexivity|].
      destruct (stop (S m)) eqn:E; [|reflexivity]. exfalso. apply (F (S m)); [lia|].
      apply Step; [apply IH; lia|exact E]. }
    destruct n as [|n]; [lia|]. split; [lia|]. split; [apply Step; [apply P; lia|exact C]|].
    intros m Hm. apply P. lia.
Qed.

(* Whenever the driver's rule is ever met, the whole coupled run ends, at the driver's first update
   that meets it; every iteration before that leaves the run going. *)
Theorem C36_run_ends_at_first_stop : forall cs fdt drv stop N,
  positive_steps cs -> framework_dt cs = Some fdt -> (forall c, In c cs -> c_units c <> Hours) ->
  enabled cs drv -> first_stop stop N ->
  (exists k f, run_model k cs drv stop = Some f /\ f_done f = true) /\
  (forall k f, run_model k cs drv stop = Some f -> f_done f = true -> updates f drv = N) /\
  (forall k f, run_model k cs drv stop = Some f -> (1 <= k)%nat -> f_done f = false -> (updates f drv < N)%nat).
Proof.
  intros cs fdt drv stop N Hp Hd Hh He HN. unfold run_model, start_run. rewrite Hd.
  destruct (init_comps_total cs Hh) as [ss E]. rewrite E.
  destruct (start_inv cs fdt Hp Hd ss E) as [R0 C0].
  set (f0 := {| f_time := 0; f_comps := ss; f_done := false; f_log := [] |}) in *.
  assert (B0 : before cs fdt drv N 0 f0).
  { split; [exact R0|]. split; [reflexivity|]. split; [|lia].
    unfold updates, f0. cbn [f_comps]. rewrite (C0 drv He). apply HN. }
  assert (Any : forall k f, loop k cs fdt drv stop f0 = Some f ->
            (f_done f = true /\ updates f drv = N) \/ before cs fdt drv N k f).
  { intros k f H. exact (loop_stop cs fdt drv stop Hp Hd He N k 0 f0 f HN B0 H). }
  split; [|split].
  - pose proof (fdt_pos cs fdt Hp Hd) as F0.
    destruct (Qarchimedean (Qn N * step_s (get comp0 cs drv) / fdt + 1)) as [p Hpn].
    set (k := S (Pos.to_nat p)).
    destruct (loop_total cs fdt drv stop Hp Hd Hh k 0 f0 R0) as [f Hf]. exists k, f. split; [exact Hf|].
    destruct (Any k f Hf) as [[D _]|B]; [exact D|]. exfalso.
    pose proof (before_bound cs fdt drv Hp Hd He N (Pos.to_nat p) f B) as K.
    assert (Q1 : Qn (Pos.to_nat p) == inject_Z (Zpos p)) by (unfold Qn; rewrite positive_nat_Z; reflexivity).
    rewrite Q1 in K. change (Zpos p # 1) with (inject_Z (Zpos p)) in Hpn.
    set (X := Qn N * step_s (get comp0 cs drv)) in *.
    assert (E2 : X / fdt * fdt == X) by (field; lra).
    assert (K2 : (X / fdt + 1) * fdt < inject_Z (Zpos p) * fdt) by (apply Qmult_lt_r; assumption).
    lra.
  - intros k f H D. destruct (Any k f H) as [[_ U]|(_ & D' & _)]; [exact U|congruence].
  - intros k f H K D. destruct (Any k f H) as [[D' _]|(_ & _ & _ & U)]; [congruence|]. apply U. exact K.
Qed.

(* The two fixed rules are always met, so such runs always end, after exactly the stated number of
   driver updates. *)
Theorem C36_fixed_length_runs_end : forall cs fdt drv qs qp limit tstop,
  positive_steps cs -> framework_dt cs = Some fdt -> (forall c, In c cs -> c_units c <> Hours) ->
  enabled cs drv ->
  let dt := c_dt (get comp0 cs drv) in
  (exists k f, run_model k cs drv (driver_stop (Until_n_steps limit) dt qs qp) = Some f /\
     f_done f = true /\ Z.of_nat (updates f drv) = Z.max 1 limit) /\
  (exists k f, run_model k cs drv (driver_stop (Until_model_time tstop) dt qs qp) = Some f /\
     f_done f = true /\ (1 <= updates f drv)%nat /\ tstop * 60 <= Qn (updates f drv) * dt /\
     (updates f drv = 1%nat \/ Qn (updates f drv - 1) * dt < tstop * 60)).
Proof.
  intros cs fdt drv qs qp limit tstop Hp Hd Hh He dt.
  assert (Dt : 0 < dt) by (apply Hp; apply nth_In; apply He).
  split.
  - assert (F : first_stop (driver_stop (Until_n_steps limit) dt qs qp) (Z.to_nat (Z.max 1 limit))).
    { split; [lia|]. split; [apply C36_done_at_step_limit; lia|]. intros m Hm.
      destruct (driver_stop (Until_n_steps limit) dt qs qp m) eqn:E; [|reflexivity].
      apply C36_done_at_step_limit in E; lia. }
    destruct (C36_run_ends_at_first_stop cs fdt drv _ _ Hp Hd Hh He F) as ((k & f & R & D) & U & _).
    exists k, f. split; [exact R|]. split; [exact D|]. rewrite (U k f R D). lia.
  - set (stop := driver_stop (Until_model_time tstop) dt qs qp).
    assert (Ex : exists n, (1 <= n)%nat /\ stop n = true).
    { destruct (Qarchimedean (tstop * 60 / dt)) as [p P]. exists (Pos.to_nat p). split; [lia|].
      apply C36_done_at_stop_time; [lia|].
      assert (Q1 : Qn (Pos.to_nat p) == inject_Z (Zpos p)) by (unfold Qn; rewrite positive_nat_Z; reflexivity).
      rewrite Q1. change (Zpos p # 1) with (inject_Z (Zpos p)) in P.
      assert (E2 : tstop * 60 / dt * dt == tstop * 60) by (field; lra).
      assert (K2 : tstop * 60 / dt * dt < inject_Z (Zpos p) * dt) by (apply Qmult_lt_r; assumption).
      lra. }
    assert (F : exists N, first_stop stop N).
    { destruct Ex as (n & N1 & Sn). revert N1 Sn. induction n as [n IH] using lt_wf_ind. intros N1 Sn.
      assert (Dec : (exists m, (1 <= m < n)%nat /\ stop m = true) \/ (forall m, (1 <= m < n)%nat -> stop m = false)).
      { clear. induction n as [|n IHn]; [right; intros m Hm; lia|].
        destruct IHn as [(m & Hm & E)|H]; [left; exists m; split; [lia|exact E]|].
        destruct n as [|n]; [right; intros m Hm; lia|].
        destruct (stop (S n)) eqn:E; [left; exists (S n); split; [lia|exact E]|right].
        intros m Hm. destruct (Nat.eq_dec m (S n)) as [->|K]; [exact E|apply H; lia]. }
      destruct Dec as [(m & Hm & E)|H]; [apply (IH m); [lia|lia|exact E]|]. exists n. split; [exact N1|]. split; [exact Sn|exact H]. }
    destruct F as [N F].
    destruct (C36_run_ends_at_first_stop cs fdt drv _ _ Hp Hd Hh He F) as ((k & f & R & D) & U & _).
    exists k, f. split; [exact R|]. split; [exact D|]. rewrite (U k f R D).
    destruct F as (N1 & SN & FN). split; [exact N1|]. split; [apply C36_done_at_stop_time in SN; assumption|].
    destruct (Nat.eq_dec N 1) as [E|E]; [left; exact E|right].
    apply Qnot_le_lt. intros K. assert (K2 : stop (N - 1)%nat = true) by (apply C36_done_at_stop_time; [lia|exact K]).
    rewrite FN in K2 by lia. discriminate.
Qed.

(* With Q_peak_fraction a run need not end: if there is never any discharge no iteration sets DONE. *)
Theorem C36_every_run_ends_refuted :
  ~ (forall cs fdt drv m qs qp,
       positive_steps cs -> framework_dt cs = Some fdt -> (forall c, In c cs -> c_units c <> Hours) ->
       enabled cs drv ->
       exists k f, run_model k cs drv (driver_stop m (c_dt (get comp0 cs drv)) qs qp) = Some f /\ f_done f = true).
Proof.
  intros H.
  assert (P : positive_steps demo_comps) by (intros c [<-|[<-|[<-|[<-|[]]]]]; reflexivity).
  assert (Hh : forall c, In c demo_comps -> c_units c <> Hours) by (intros c [<-|[<-|[<-|[<-|[]]]]]; discriminate).
  destruct (H demo_comps 5 0%nat (Q_peak_fraction (1 # 20)) (fun _ => 0) (fun _ => 0)) as (k & f & R & D);
    [exact P|reflexivity|exact Hh|split; [cbn; lia|reflexivity]|].
  set (stop := driver_stop (Q_peak_fraction (1 # 20)) (c_dt (get comp0 demo_comps 0)) (fun _ => 0) (fun _ => 0)) in *.
  assert (Never : forall n, stop n = false).
  { intros n. unfold stop, driver_stop. induction n as [|n IH]; [reflexivity|].
    cbn [driver_run]. unfold driver_update. cbv zeta. cbn [d_done rule_done].
    destruct (driver_clock (Q_peak_fraction (1 # 20)) (c_dt (get comp0 demo_comps 0)) (fun _ => 0) (fun _ => 0) n) as (_ & _ & ->).
    rewrite IH. reflexivity. }
  assert (G : forall k cs fdt drv f f', f_done f = false -> loop k cs fdt drv stop f = Some f' -> f_done f' = false).
  { clear - Never. induction k as [|k IH]; intros cs fdt drv f f' D H; cbn in H; [inversion H; subst; exact D|].
    rewrite D in H. destruct (loop_body cs fdt drv stop f) as [f1|] eqn:B; [|discriminate].
    apply (IH cs fdt drv f1 f'); [|exact H]. unfold loop_body in B.
    destruct (pass cs (f_time f) (f_comps f)) as [[ss log]|]; [|discriminate]. inversion B; subst. cbn [f_done].
    rewrite Never, D. reflexivity. }
  unfold run_model in R. destruct (start_run demo_comps) as [[fdt f0]|] eqn:S; [|discriminate].
  assert (D0 : f_done f0 = false).
  { unfold start_run in S. destruct (framework_dt demo_comps), (init_comps demo_comps); inversion S; reflexivity. }
  rewrite (G k _ _ _ f0 f D0 R) in D. discriminate.
Qed.

(* A storm that peaks and recedes stops at the first update below 5% of the peak (here update 4). *)
Example C36_demo :
  let qs := fun n => get 0 [0; 2; 10; 1; 2 # 5; 0] n in
  first_stop (driver_stop (Q_peak_fraction (1 # 20)) 60 qs (fun _ => 10)) 4 /\
  exists f, run_model 20 demo_comps 0 (driver_stop (Q_peak_fraction (1 # 20)) 5 qs (fun _ => 10)) = Some f /\
            f_done f = true /\ updates f 0 = 4%nat.
Proof.
  cbv zeta. split.
  - split; [lia|]. split; [vm_compute; reflexivity|]. intros m Hm.
    destruct m as [|[|[|[|m]]]]; try lia; vm_compute; reflexivity.
  - eexists. split; [vm_compute; reflexivity|]. split; reflexivity.
Qed.

Print Assumptions C36_done_at_step_limit.
Print Assumptions C36_done_at_stop_time.
Print Assumptions C36_stops_after_peak.
Print Assumptions C36_run_ends_at_first_stop.
Print Assumptions C36_fixed_length_runs_end.
Print Assumptions C36_every_run_ends_refuted.
