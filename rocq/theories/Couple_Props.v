(* C64: what the driver's mass balance report says. *)
From Coq Require Import ZArith QArith Qminmax List Bool Lia Lqa.
From Verif Require Import Base Field D8_Spec Snow_Model Snow_Spec Snow_Proofs Evap_Model Couple_Model Couple_Spec.
From Verif Require Chan_Model Chan_Spec Chan_Proofs Chan_Props D8_Model.
Import ListNotations.
Local Open Scope Q_scope.

Section P.
Variable G : D8_Model.geom.
Hypothesis HG : geom_ok G.
Notation n := (D8_Model.ncells G).
Variables (O : D8_Model.opts) (d8 : list Z) (da : field) (dt : Q) (ds width : nat -> Q) (bank : list Q).
Variables (FLOOD : bool) (att : option Q) (Trs : field) (sm : method) (em : et_method).
Hypothesis Hc : forall i, (i < n)%nat -> closed_side G O i -> get 0%Z d8 i = 0%Z.
Hypothesis Hcodes : code_grid G d8.
Hypothesis Hdt : 0 < dt.
Notation pid := (D8_Model.update_parent_ID_grid G O d8).
Notation step := (sys_step G d8 pid da dt ds width bank FLOOD att Trs sm em).
Notation run := (sys_run G d8 pid da dt ds width bank FLOOD att Trs sm em).
Notation vol_of := (vol_of n da dt).
Notation created := (created G d8 pid da dt ds width bank FLOOD att Trs sm em).
Notation charged := (charged G d8 pid da dt ds width bank FLOOD att Trs sm em).

Lemma scalar_da_ok : is_scalar da = true -> forall i, (i < n)%nat -> fat da i == fat da 0.
Proof. destruct da; [reflexivity|discriminate]. Qed.

Lemma runoff_sum m s : qsum n (fun i => fat (fst (runoff G da dt m s)) i * fat da i) * dt ==
  vol_of (P_rain m) + vol_of (SM (y_snow s)) + vol_of (y_GW s)
  - qsum n (fun i => taken da dt (Chan_Model.vol (y_chan s)) (ET (y_evap s)) i * fat da i * dt) - vol_of (y_IN s).
Proof.
  unfold Couple_Spec.vol_of.
  rewrite <- !qsum_plus, <- !qsum_minus, Qmult_comm, <- qsum_scale. apply qsum_ext. intros i Hi.
  unfold runoff, Chan_Model.update_R. cbn [fst]. rewrite !fat_lift2 by exact Hi. cbn [fat]. unfold taken.
  destruct (ET (y_evap s)) as [q|l]; cbn [fat]; [ring|]. rewrite get_tab by exact Hi.
  destruct (Qltb (get 0 (Chan_Model.vol (y_chan s)) i) (get 0 l i * fat da i * dt)); ring.
Qed.

(* what each step keeps: *)
Definition water (s : sys) : Q :=
  Chan_Spec.stock (y_chan s) - vol_PR (y_met s) - (vol_SM (y_snow s) - vol_of (SM (y_snow s)))
  - (y_vol_GW s - vol_of (y_GW s)) + (y_vol_IN s - vol_of (y_IN s)).
Record inv (s : sys) : Prop := {
  i_chan : Chan_Spec.ok G d8 FLOOD (y_chan s);
  i_met : vol_PR (y_met s) + vol_PS (y_met s) == vol_P (y_met s);
  i_swe : forall i, (i < n)%nat -> 0 <= fat (h_swe (y_snow s)) i }.
Lemma step_keeps s x s' : inv s -> sound G x -> step s x = Some s' ->
  inv s' /\
  water s' == water s
    + qsum n (Chan_Spec.step_overdraft G d8 (fat da) dt width FLOOD att (y_chan s) (chan_in G da dt (y_met s') s x))
    - qsum n (fun i => taken da dt (Chan_Model.vol (y_chan s)) (ET (y_evap s)) i * fat da i * dt) /\
  Chan_Model.vol_R (y_chan s') == Chan_Model.vol_R (y_chan s) + vol_PR (y_met s') - vol_PR (y_met s)
    + vol_of (SM (y_snow s)) + vol_of (y_GW s) - vol_of (y_IN s)
    - qsum n (fun i => taken da dt (Chan_Model.vol (y_chan s)) (ET (y_evap s)) i * fat da i * dt) /\
  vol_SM (y_snow s') == vol_SM (y_snow s) + vol_of (SM (y_snow s')) /\
  y_vol_GW s' == y_vol_GW s + vol_of (y_GW s') /\ y_vol_IN s' == y_vol_IN s + vol_of (y_IN s') /\
  total_volume n da (h_swe (y_snow s')) + vol_SM (y_snow s') - vol_PS (y_met s') ==
  total_volume n da (h_swe (y_snow s)) + vol_SM (y_snow s) - vol_PS (y_met s).
Proof.
  intros [Ic Im Is] (Su & Sp) H. unfold sys_step in H. cbv zeta in H. bindinv H.
  injection H as <-. rename a into m, a0 into w.
  destruct (met_step n da dt Trs (y_met s) (x_met x) m E) as (M1 & M2 & M3 & M4 & _).
  pose proof (met_step_balance n da dt Trs (y_met s) (x_met x) m E) as MB.
  destruct (snow_step n da dt sm (y_snow s) _ w E0) as [_ W].
  assert (Sw : forall i, (i < n)%nat -> 0 <= fat (h_swe w) i /\
       fat (h_swe w) i + fat (SM w) i * dt == fat (h_swe (y_snow s)) i + fat (P_snow m) i * dt).
  { intros i Hi. assert (0 <= fat (P_snow m) i).
    { specialize (Sp i Hi). destruct (M1 i Hi) as [(_ & _ & Q)|(_ & _ & Q)]; rewrite Q; lra. }
    destruct (snow_step_bounds n da dt Hdt sm (y_snow s) _ w i E0 Hi (Is i Hi) H) as (_ & _ & A & B).
    cbn [sP] in B. split; assumption. }
  destruct (Chan_Proofs.update_balance G HG d8 O Hc dt (fat da) ds width bank FLOOD (is_scalar da) att Hcodes scalar_da_ok
              (y_chan s) (chan_in G da dt m s x) Ic Su) as [Ok B].
  pose proof (runoff_sum m s) as R. cbn [y_met y_chan y_snow y_GW y_IN y_vol_GW y_vol_IN y_evap].
  assert (VR : Chan_Model.vol_R (Chan_Model.update G d8 pid (fat da) ds width bank dt FLOOD (is_scalar da) att (y_chan s) (chan_in G da dt m s x))
          == Chan_Model.vol_R (y_chan s) + qsum n (fun i => fat (fst (runoff G da dt m s)) i * fat da i) * dt).
  { unfold Chan_Model.update. destruct (Chan_Model.update_flow_volume _ _ _ _ _ _ _ _ _ _) as [v st].
    cbn [Chan_Model.vol_R chan_in Chan_Model.iR].
    rewrite (Chan_Proofs.R_integral G dt (fat da) (is_scalar da) scalar_da_ok). ring. }
  assert (VM : vol_PR m == vol_PR (y_met s) + vol_of (P_rain m)) by (unfold Couple_Spec.vol_of; lra).
  assert (VS : vol_SM w == vol_SM (y_snow s) + vol_of (SM w)) by exact W.
  assert (VI : volume n da dt (x_IN x) == vol_of (x_IN x)) by apply volume_eq.
  assert (VG : volume n da dt (x_GW x) == vol_of (x_GW x)) by apply volume_eq.
  split; [|split; [|split; [|split; [|split; [|split]]]]].
  - split; cbn [y_chan y_met y_snow]; [exact Ok|lra|intros i Hi; apply Sw; exact Hi].
  - unfold water. cbn [y_met y_chan y_snow y_GW y_IN y_vol_GW y_vol_IN]. lra.
  - lra.
  - exact VS.
  - rewrite VG. reflexivity.
  - rewrite VI. reflexivity.
  - rewrite !total_volume_eq.
    assert (X : qsum n (fun i => fat (h_swe w) i * fat da i) + vol_of (SM w) ==
                qsum n (fun i => fat (h_swe (y_snow s)) i * fat da i) + vol_of (P_snow m)).
    { unfold Couple_Spec.vol_of. rewrite <- !qsum_plus. apply qsum_ext. intros i Hi. destruct (Sw i Hi) as [_ Q].
      transitivity (fat da i * (fat (h_swe w) i + fat (SM w) i * dt)); [ring|]. rewrite Q. ring. }
    unfold Couple_Spec.vol_of in *. lra.
Qed.
Lemma run_keeps xs : forall s s', inv s -> Forall (sound G) xs -> run s xs = Some s' ->
  inv s' /\ water s' == water s + created s xs - charged s xs /\ 0 <= created s xs /\
  Chan_Model.vol_R (y_chan s') - vol_PR (y_met s') - (vol_SM (y_snow s') - vol_of (SM (y_snow s')))
    - (y_vol_GW s' - vol_of (y_GW s')) + (y_vol_IN s' - vol_of (y_IN s')) ==
  Chan_Model.vol_R (y_chan s) - vol_PR (y_met s) - (vol_SM (y_snow s) - vol_of (SM (y_snow s)))
    - (y_vol_GW s - vol_of (y_GW s)) + (y_vol_IN s - vol_of (y_IN s)) - charged s xs /\
  total_volume n da (h_swe (y_snow s')) + vol_SM (y_snow s') - vol_PS (y_met s') ==
  total_volume n da (h_swe (y_snow s)) + vol_SM (y_snow s) - vol_PS (y_met s).
Proof.
  induction xs as [|x xs IH]; intros s s' I F H.
  - cbn in H. injection H as <-. cbn. split; [exact I|]. repeat split; try lra.
  - cbn [sys_run] in H. destruct (step s x) as [s1|] eqn:E; [|discriminate]. cbn [bind] in H.
    inversion F as [|? ? Sx Sxs]; subst.
    destruct (step_keeps s x s1 I Sx E) as (I1 & W1 & R1 & S1 & G1 & N1 & V1).
    destruct (IH s1 s' I1 Sxs H) as (I2 & W2 & C2 & R2 & V2).
    cbn [Couple_Spec.created Couple_Spec.charged]. rewrite E.
    assert (P : 0 <= qsum n (Chan_Spec.step_overdraft G d8 (fat da) dt width FLOOD att (y_chan s) (chan_in G da dt (y_met s1) s x)))
      by (apply qsum_nonneg; intros i _; apply Chan_Proofs.overdraft_nonneg).
    split; [exact I2|]. split; [lra|]. split; [lra|]. split; [lra|lra].
Qed.
Lemma fresh_inv s : fresh G d8 da dt FLOOD s -> inv s.
Proof.
  intros [(P & PR & PS) C _ _ W _ _ _]. split; [exact C|lra|exact W].
Qed.
End P.

Section Theorems.
Variables (G : D8_Model.geom) (O : D8_Model.opts) (d8 : list Z) (da : field) (dt : Q) (ds width : nat -> Q) (bank : list Q).
Variables (FLOOD : bool) (att : option Q) (Trs : field) (sm : method) (em : et_method).
Notation n := (D8_Model.ncells G).
Notation pid := (D8_Model.update_parent_ID_grid G O d8).
Notation run := (sys_run G d8 pid da dt ds width bank FLOOD att Trs sm em).
Notation vol_of := (vol_of n da dt).
Notation created := (created G d8 pid da dt ds width bank FLOOD att Trs sm em).
Notation charged := (charged G d8 pid da dt ds width bank FLOOD att Trs sm em).

(* The mass balance error that the driver reports after any run, term by term:
   + infiltrated water that the reported soil storage does not show
   - groundwater that has seeped out (the groundwater store is not part of the report)
   + what snow, groundwater and infiltration did in the last step, which the channels have not yet seen
   + water on its way to the channels (flood attenuation)
   - evaporation that was reported but not taken from the channels
   - water created where the channels were emptied below zero
   - channel water counted twice. *)
Theorem C64_reported_error xs s0 s soil0 soil : geom_ok G ->
  (forall i, (i < n)%nat -> closed_side G O i -> get 0%Z d8 i = 0%Z) -> code_grid G d8 -> 0 < dt ->
  fresh G d8 da dt FLOOD s0 -> Forall (sound G) xs -> run s0 xs = Some s ->
  reported_error G da s0 s soil0 soil ==
    (y_vol_IN s - (soil - soil0)) - y_vol_GW s
    + (vol_of (SM (y_snow s)) + vol_of (y_GW s) - vol_of (y_IN s))
    + (total (Chan_Model.vol_stored (y_chan s)) - total (Chan_Model.vol_stored (y_chan s0)))
    - (vol_ET (y_evap s) - charged s0 xs) - created s0 xs - doubled s
  /\ 0 <= created s0 xs.
Proof.
  intros HG Hc Hcd Hdt F S R. pose proof (fresh_inv G d8 da dt FLOOD s0 F) as I.
  destruct (run_keeps G HG O d8 da dt ds width bank FLOOD att Trs sm em Hc Hcd Hdt xs s0 s I S R) as (I' & W & C & _ & V).
  destruct F as [(P & PR & PS) _ (R0 & E0 & Ch & Fl) (SM0 & SMr) _ Ev (GW0 & GWr) (IN0 & INr)].
  split; [|exact C]. destruct I' as [_ M _].
  unfold reported_error, stored_final, stored_start, doubled. rewrite Ch.
  unfold water, Chan_Spec.stock in W. lra.
Qed.

(* In particular: no infiltration, no groundwater, no evaporation, no snow at the end: what is reported is the
   water created by clipping, as a loss, and nothing if nothing was clipped. *)
Theorem C64_surface_water_only xs s0 s : geom_ok G ->
  (forall i, (i < n)%nat -> closed_side G O i -> get 0%Z d8 i = 0%Z) -> code_grid G d8 -> 0 < dt ->
  fresh G d8 da dt FLOOD s0 -> Forall (sound G) xs -> run s0 xs = Some s ->
  y_vol_IN s == 0 -> y_vol_GW s == 0 -> vol_of (y_IN s) == 0 -> vol_of (y_GW s) == 0 -> vol_of (SM (y_snow s)) == 0 ->
  FLOOD = false -> att = None -> ET (y_evap s0) = Scalar 0 -> (forall x, In x xs -> x_evap x = None) ->
  reported_error G da s0 s 0 0 == - created s0 xs /\ 0 <= created s0 xs.
Proof.
  intros HG Hc Hcd Hdt F S R IN GW INr GWr SMr HF HA HE HX.
  destruct (C64_reported_error xs s0 s 0 0 HG Hc Hcd Hdt F S R) as [E C]. split; [|exact C].
  assert (K : forall xs s0 s, (forall x, In x xs -> x_evap x = None) -> ET (y_evap s0) = Scalar 0 ->
     Chan_Model.vol_chan (y_chan s0) = Chan_Model.vol (y_chan s0) -> run s0 xs = Some s ->
     vol_ET (y_evap s) = vol_ET (y_evap s0) /\ charged s0 xs == 0 /\
     Chan_Model.vol_stored (y_chan s) = Chan_Model.vol_stored (y_chan s0) /\
     Chan_Model.vol_flood (y_chan s) = Chan_Model.vol_flood (y_chan s0) /\
     Chan_Model.vol_chan (y_chan s) = Chan_Model.vol (y_chan s)).
  { clear - HF HA. induction xs as [|x xs IH]; intros s0 s HX HE Ch R.
    - cbn in R. injection R as <-. repeat split; try reflexivity; exact Ch.
    - cbn [sys_run] in R. destruct (sys_step G d8 pid da dt ds width bank FLOOD att Trs sm em s0 x) as [s1|] eqn:E; [|discriminate].
      cbn [bind] in R. cbn [Couple_Spec.charged]. rewrite E.
      assert (Z : qsum n (fun i => taken da dt (Chan_Model.vol (y_chan s0)) (ET (y_evap s0)) i * fat da i * dt) == 0).
      { apply qsum_zero. intros i Hi. rewrite HE. cbn [taken]. ring. }
      unfold sys_step in E. cbv zeta in E. rewrite (HX x (or_introl eq_refl)) in E. bindinv E. injection E as <-.

      match type of R with sys_run _ _ _ _ _ _ _ _ _ _ _ _ _ ?s1 _ = _ =>
        destruct (IH s1 s (fun y Hy => HX y (or_intror Hy))) as (A & B & D & L & M); [| |exact R|] end.
      + cbn [y_evap ET]. rewrite HE. reflexivity.
      + cbn [y_chan]. unfold Chan_Model.update. destruct (Chan_Model.update_flow_volume _ _ _ _ _ _ _ _ _ _).
        cbn [Chan_Model.vol_chan Chan_Model.vol]. rewrite HF. reflexivity.
      + cbn [y_evap y_chan vol_ET] in *. rewrite A, D, L, M. rewrite B, Z.
        unfold Chan_Model.update. rewrite HF, HA. unfold Chan_Model.update_flow_volume.
        cbn [Chan_Model.vol_stored Chan_Model.vol_flood]. repeat split; try reflexivity; ring. }
  destruct F as [_ _ (R0 & E0 & Ch & Fl) _ _ Ev _ _].
  destruct (K xs s0 s HX HE Ch R) as (A & B & D & L & M).
  rewrite E. unfold doubled. rewrite M, L, D, A, B. lra.
Qed.

(* The reported runoff volume against the flux volumes it is said to be made of (report line "vol_R"). *)
Theorem C64_reported_runoff xs s0 s : geom_ok G ->
  (forall i, (i < n)%nat -> closed_side G O i -> get 0%Z d8 i = 0%Z) -> code_grid G d8 -> 0 < dt ->
  fresh G d8 da dt FLOOD s0 -> Forall (sound G) xs -> run s0 xs = Some s ->
  Chan_Model.vol_R (y_chan s) == reported_gain s - reported_loss s
    - (vol_of (SM (y_snow s)) + vol_of (y_GW s) - vol_of (y_IN s)) + (vol_ET (y_evap s) - charged s0 xs).
Proof.
  intros HG Hc Hcd Hdt F S R. pose proof (fresh_inv G d8 da dt FLOOD s0 F) as I.
  destruct (run_keeps G HG O d8 da dt ds width bank FLOOD att Trs sm em Hc Hcd Hdt xs s0 s I S R) as (_ & _ & _ & V & _).
  destruct F as [(P & PR & PS) _ (R0 & E0 & Ch & Fl) (SM0 & SMr) _ Ev (GW0 & GWr) (IN0 & INr)].
  unfold reported_gain, reported_loss. lra.
Qed.
End Theorems.

(* Without floodplains nothing is counted twice, and without attenuation nothing is on its way. *)
Theorem C64_terms_absent : forall G d8 pid da dt ds width bank FLOOD att Trs sm em xs s0 s,
  sys_run G d8 pid da dt ds width bank FLOOD att Trs sm em s0 xs = Some s ->
  (FLOOD = false -> fresh G d8 da dt FLOOD s0 -> doubled s == 0) /\
  (att = None -> Chan_Model.vol_stored (y_chan s) = Chan_Model.vol_stored (y_chan s0)).
Proof.
  intros G d8 pid da dt ds width bank FLOOD att Trs sm em xs s0 s R.
  assert (K : (FLOOD = false -> Chan_Model.vol_chan (y_chan s0) = Chan_Model.vol (y_chan s0) ->
               Chan_Model.vol_chan (y_chan s) = Chan_Model.vol (y_chan s) /\
               Chan_Model.vol_flood (y_chan s) = Chan_Model.vol_flood (y_chan s0)) /\
              (att = None -> Chan_Model.vol_stored (y_chan s) = Chan_Model.vol_stored (y_chan s0))).
  { revert s0 R. induction xs as [|x xs IH]; intros s0 R.
    - cbn in R. injection R as <-. repeat split; auto.
    - cbn [sys_run] in R. destruct (sys_step _ _ _ _ _ _ _ _ _ _ _ _ _ s0 x) as [s1|] eqn:E; [|discriminate]. cbn [bind] in R.
      destruct (IH s1 R) as [A B].
      assert (C : y_chan s1 = Chan_Model.update G d8 pid (fat da) ds width bank dt FLOOD (is_scalar da) att (y_chan s0)
                                (chan_in G da dt (y_met s1) s0 x)).
      { unfold sys_step in E. cbv zeta in E. bindinv E. injection E as <-. reflexivity. }
      unfold Chan_Model.update in C. split.
      + intros HF Ch. subst FLOOD. destruct (Chan_Model.update_flow_volume _ _ _ _ _ _ _ _ _ _) as [v st].
        destruct (A eq_refl) as [A1 A2]; [rewrite C; reflexivity|]. split; [exact A1|]. rewrite A2, C. reflexivity.
      + intros HA. rewrite (B HA), C, HA. reflexivity. }
  destruct K as [K1 K2]. split; [|exact K2]. intros HF [_ _ (_ & _ & Ch & Fl) _ _ _ _ _].
  destruct (K1 HF Ch) as [A B]. unfold doubled. rewrite A, B, Fl. ring.
Qed.

(* A run on the 3 x 3 grid of Chan_Props. *)
Definition z9 : field := Grid (repeat 0 9).
Definition start (et : field) (swe : Q) : sys :=
  mkSys (mkMet z9 z9 0 0 0 0)
        (Chan_Model.mkSt (repeat 1 9) (repeat 0 9) (repeat 1 9) (repeat 0 9) (repeat 0 9) [0; 0; 0; 0; 1#2; 0; 0; 0; 0] (repeat 1 9) 0 0)
        (mkSnow z9 (Grid (repeat swe 9)) z9 z9 0) (mkEvap et et 0) (Scalar 0) (Scalar 0) 0 0.
Definition day (P T : Q) (ev : option evap_in) : sysin :=
  mkSysIn (mkMetIn (Scalar P) (Grid (repeat T 9)) false) (repeat 0 9) (repeat 1 9) [0; 0; 0; 0; 1#4; 0; 0; 0; 0]
          (Scalar 0) (Scalar 1) ev (Scalar 0) (Scalar 0).
Definition sun : evap_in :=
  mkEvapIn (Scalar 10) (Scalar 10) (Scalar 10) (Scalar 1) (Scalar 1) (Scalar 1) (Scalar 0) (Scalar 0)
           (Scalar 10000000000) (Scalar 0).
Definition demo (FLOOD : bool) (att : option Q) : sys -> list sysin -> option sys :=
  sys_run Chan_Props.G3 Chan_Props.d3 (D8_Model.update_parent_ID_grid Chan_Props.G3 Chan_Props.O3 Chan_Props.d3)
    (Scalar 1) 1 (fun _ => 1) (fun _ => 1) (repeat 1 9) FLOOD att (Scalar 0) (DegreeDay (Scalar 86400000) (Scalar 0)) EnergyBal.
Lemma demo_ok FLOOD swe et : 0 <= swe -> 
  geom_ok Chan_Props.G3 /\
  (forall i, (i < 9)%nat -> closed_side Chan_Props.G3 Chan_Props.O3 i -> get 0%Z Chan_Props.d3 i = 0%Z) /\
  code_grid Chan_Props.G3 Chan_Props.d3 /\ fresh Chan_Props.G3 Chan_Props.d3 (Scalar 1) 1 FLOOD (start et swe).
Proof.
  intros Hs. destruct Chan_Props.C11_demo_hypotheses as (A & B & C & D & _). split; [exact A|]. split; [exact B|]. split; [exact C|].
  split.
  - repeat split; reflexivity.
  - destruct D as [D1 D2 D3 D4]. split; [reflexivity|reflexivity|exact D3|]. intros _ i Hi.
    apply (D4 eq_refl i Hi).
  - repeat split; reflexivity.
  - repeat split; vm_compute; reflexivity.
  - intros i Hi. cbn [start y_snow h_swe fat]. change (D8_Model.ncells Chan_Props.G3) with 9%nat in Hi.
    do 9 (destruct i as [|i]; [exact Hs|]). lia.
  - reflexivity.
  - repeat split; vm_compute; reflexivity.
  - repeat split; vm_compute; reflexivity.
Qed.
Lemma day_ok P T ev : 0 <= P -> sound Chan_Props.G3 (day P T ev).
Proof. intros H. split; [reflexivity|]. intros i _. exact H. Qed.

(* Non-vacuity of C64_reported_error and C64_surface_water_only: a rainy step and a dry one. *)
Example C64_demo : exists s, demo false None (start (Scalar 0) 0) [day 2 1 None; day 0 1 None] = Some s /\
  reported_error Chan_Props.G3 (Scalar 1) (start (Scalar 0) 0) s 0 0 == 0 /\
  Chan_Model.vol_edge (y_chan s) == 99#4 /\ total (Chan_Model.vol (y_chan s)) == 9 # 4.
Proof. eexists. split; [vm_compute; reflexivity|]. repeat split; vm_compute; reflexivity. Qed.
(* Snow that melts in the last step is reported lost: it has left the snowpack and the channels have not seen it. *)
Theorem C64_snow_melt_refuted :
  ~ (forall G O d8 da dt ds width bank FLOOD att Trs sm em xs s0 s, geom_ok G ->
       (forall i, (i < D8_Model.ncells G)%nat -> closed_side G O i -> get 0%Z d8 i = 0%Z) -> code_grid G d8 -> 0 < dt ->
       fresh G d8 da dt FLOOD s0 -> Forall (sound G) xs ->
       sys_run G d8 (D8_Model.update_parent_ID_grid G O d8) da dt ds width bank FLOOD att Trs sm em s0 xs = Some s ->
       created G d8 (D8_Model.update_parent_ID_grid G O d8) da dt ds width bank FLOOD att Trs sm em s0 xs == 0 ->
       (forall x, In x xs -> x_IN x = Scalar 0 /\ x_GW x = Scalar 0) ->
       (forall x, In x xs -> x_evap x = None) -> ET (y_evap s0) = Scalar 0 ->
       FLOOD = false ->
       att = None ->
       reported_error G da s0 s 0 0 == 0).
Proof.
  intros H. destruct (demo_ok false 3 (Scalar 0)) as (A & B & C & D); [discriminate|].
  destruct (demo false None (start (Scalar 0) 3) [day 0 1 None]) as [s|] eqn:E; [|vm_compute in E; discriminate E].
  assert (K : reported_error Chan_Props.G3 (Scalar 1) (start (Scalar 0) 3) s 0 0 == 0).
  { eapply (H Chan_Props.G3 Chan_Props.O3 Chan_Props.d3 (Scalar 1) 1 (fun _ => 1) (fun _ => 1) (repeat 1 9) false None (Scalar 0)
           (DegreeDay (Scalar 86400000) (Scalar 0)) EnergyBal [day 0 1 None] (start (Scalar 0) 3) s A B C eq_refl D).
    - repeat constructor; try reflexivity; intros i _; discriminate.
    - exact E.
    - vm_compute. reflexivity.
    - intros x Hx. repeat (destruct Hx as [<-|Hx]; [split; reflexivity|]). contradiction.
    - intros x Hx. repeat (destruct Hx as [<-|Hx]; [reflexivity|]). contradiction.
    - reflexivity.
    - reflexivity.
    - reflexivity.
  }
  vm_compute in E. injection E as <-. vm_compute in K. discriminate K.
Qed.

(* Evaporation is reported at its potential rate, also from cells that have no water to give. *)
Theorem C64_evaporation_refuted :
  ~ (forall G O d8 da dt ds width bank FLOOD att Trs sm em xs s0 s, geom_ok G ->
       (forall i, (i < D8_Model.ncells G)%nat -> closed_side G O i -> get 0%Z d8 i = 0%Z) -> code_grid G d8 -> 0 < dt ->
       fresh G d8 da dt FLOOD s0 -> Forall (sound G) xs ->
       sys_run G d8 (D8_Model.update_parent_ID_grid G O d8) da dt ds width bank FLOOD att Trs sm em s0 xs = Some s ->
       created G d8 (D8_Model.update_parent_ID_grid G O d8) da dt ds width bank FLOOD att Trs sm em s0 xs == 0 ->
       (forall x, In x xs -> x_IN x = Scalar 0 /\ x_GW x = Scalar 0) ->
       (forall i, fat (h_swe (y_snow s0)) i == 0) -> (forall x i, In x xs -> (i < D8_Model.ncells G)%nat -> fat Trs i < fat (mT (x_met x)) i) ->
       FLOOD = false ->
       att = None ->
       reported_error G da s0 s 0 0 == 0).
Proof.
  intros H. destruct (demo_ok false 0 z9) as (A & B & C & D); [discriminate|].
  destruct (demo false None (start z9 0) [day 0 1 (Some sun); day 0 1 (Some sun)]) as [s|] eqn:E; [|vm_compute in E; discriminate E].
  assert (K : reported_error Chan_Props.G3 (Scalar 1) (start z9 0) s 0 0 == 0).
  { eapply (H Chan_Props.G3 Chan_Props.O3 Chan_Props.d3 (Scalar 1) 1 (fun _ => 1) (fun _ => 1) (repeat 1 9) false None (Scalar 0)
           (DegreeDay (Scalar 86400000) (Scalar 0)) EnergyBal [day 0 1 (Some sun); day 0 1 (Some sun)] (start z9 0) s A B C eq_refl D).
    - repeat constructor; try reflexivity; intros i _; discriminate.
    - exact E.
    - vm_compute. reflexivity.
    - intros x Hx. repeat (destruct Hx as [<-|Hx]; [split; reflexivity|]). contradiction.
    - intros i. do 9 (destruct i as [|i]; [reflexivity|]). destruct i; reflexivity.
    - intros x i Hx Hi. change (D8_Model.ncells Chan_Props.G3) with 9%nat in Hi.
      repeat (destruct Hx as [<-|Hx]; [do 9 (destruct i as [|i]; [reflexivity|]); lia|]). contradiction.
    - reflexivity.
    - reflexivity.
  }
  vm_compute in E. injection E as <-. vm_compute in K. discriminate K.
Qed.

(* With floodplains the water that left through the edges is still counted in the channels. *)
Theorem C64_floodplains_refuted :
  ~ (forall G O d8 da dt ds width bank FLOOD att Trs sm em xs s0 s, geom_ok G ->
       (forall i, (i < D8_Model.ncells G)%nat -> closed_side G O i -> get 0%Z d8 i = 0%Z) -> code_grid G d8 -> 0 < dt ->
       fresh G d8 da dt FLOOD s0 -> Forall (sound G) xs ->
       sys_run G d8 (D8_Model.update_parent_ID_grid G O d8) da dt ds width bank FLOOD att Trs sm em s0 xs = Some s ->
       created G d8 (D8_Model.update_parent_ID_grid G O d8) da dt ds width bank FLOOD att Trs sm em s0 xs == 0 ->
       (forall x, In x xs -> x_IN x = Scalar 0 /\ x_GW x = Scalar 0) ->
       (forall x, In x xs -> x_evap x = None) -> ET (y_evap s0) = Scalar 0 ->
       (forall i, fat (h_swe (y_snow s0)) i == 0) -> (forall x i, In x xs -> (i < D8_Model.ncells G)%nat -> fat Trs i < fat (mT (x_met x)) i) ->
       att = None ->
       reported_error G da s0 s 0 0 == 0).
Proof.
  intros H. destruct (demo_ok true 0 (Scalar 0)) as (A & B & C & D); [discriminate|].
  destruct (demo true None (start (Scalar 0) 0) [day 2 1 None]) as [s|] eqn:E; [|vm_compute in E; discriminate E].
  assert (K : reported_error Chan_Props.G3 (Scalar 1) (start (Scalar 0) 0) s 0 0 == 0).
  { eapply (H Chan_Props.G3 Chan_Props.O3 Chan_Props.d3 (Scalar 1) 1 (fun _ => 1) (fun _ => 1) (repeat 1 9) true None (Scalar 0)
           (DegreeDay (Scalar 86400000) (Scalar 0)) EnergyBal [day 2 1 None] (start (Scalar 0) 0) s A B C eq_refl D).
    - repeat constructor; try reflexivity; intros i _; discriminate.
    - exact E.
    - vm_compute. reflexivity.
    - intros x Hx. repeat (destruct Hx as [<-|Hx]; [split; reflexivity|]). contradiction.
    - intros x Hx. repeat (destruct Hx as [<-|Hx]; [reflexivity|]). contradiction.
    - reflexivity.
    - intros i. do 9 (destruct i as [|i]; [reflexivity|]). destruct i; reflexivity.
    - intros x i Hx Hi. change (D8_Model.ncells Chan_Props.G3) with 9%nat in Hi.
      repeat (destruct Hx as [<-|Hx]; [do 9 (destruct i as [|i]; [reflexivity|]); lia|]). contradiction.
    - reflexivity.
  }
  vm_compute in E. injection E as <-. vm_compute in K. discriminate K.
Qed.

(* With attenuation the water held back is not in the report. *)
Theorem C64_attenuation_refuted :
  ~ (forall G O d8 da dt ds width bank FLOOD att Trs sm em xs s0 s, geom_ok G ->
       (forall i, (i < D8_Model.ncells G)%nat -> closed_side G O i -> get 0%Z d8 i = 0%Z) -> code_grid G d8 -> 0 < dt ->
       fresh G d8 da dt FLOOD s0 -> Forall (sound G) xs ->
       sys_run G d8 (D8_Model.update_parent_ID_grid G O d8) da dt ds width bank FLOOD att Trs sm em s0 xs = Some s ->
       created G d8 (D8_Model.update_parent_ID_grid G O d8) da dt ds width bank FLOOD att Trs sm em s0 xs == 0 ->
       (forall x, In x xs -> x_IN x = Scalar 0 /\ x_GW x = Scalar 0) ->
       (forall x, In x xs -> x_evap x = None) -> ET (y_evap s0) = Scalar 0 ->
       (forall i, fat (h_swe (y_snow s0)) i == 0) -> (forall x i, In x xs -> (i < D8_Model.ncells G)%nat -> fat Trs i < fat (mT (x_met x)) i) ->
       FLOOD = false ->
       reported_error G da s0 s 0 0 == 0).
Proof.
  intros H. destruct (demo_ok false 0 (Scalar 0)) as (A & B & C & D); [discriminate|].
  destruct (demo false (Some 1) (start (Scalar 0) 0) [day 2 1 None]) as [s|] eqn:E; [|vm_compute in E; discriminate E].
  assert (K : reported_error Chan_Props.G3 (Scalar 1) (start (Scalar 0) 0) s 0 0 == 0).
  { eapply (H Chan_Props.G3 Chan_Props.O3 Chan_Props.d3 (Scalar 1) 1 (fun _ => 1) (fun _ => 1) (repeat 1 9) false (Some 1) (Scalar 0)
           (DegreeDay (Scalar 86400000) (Scalar 0)) EnergyBal [day 2 1 None] (start (Scalar 0) 0) s A B C eq_refl D).
    - repeat constructor; try reflexivity; intros i _; discriminate.
    - exact E.
    - vm_compute. reflexivity.
    - intros x Hx. repeat (destruct Hx as [<-|Hx]; [split; reflexivity|]). contradiction.
    - intros x Hx. repeat (destruct Hx as [<-|Hx]; [reflexivity|]). contradiction.
    - reflexivity.
    - intros i. do 9 (destruct i as [|i]; [reflexivity|]). destruct i; reflexivity.
    - intros x i Hx Hi. change (D8_Model.ncells Chan_Props.G3) with 9%nat in Hi.
      repeat (destruct Hx as [<-|Hx]; [do 9 (destruct i as [|i]; [reflexivity|]); lia|]). contradiction.
    - reflexivity.
  }
  vm_compute in E. injection E as <-. vm_compute in K. discriminate K.
Qed.

Print Assumptions C64_reported_error.
Print Assumptions C64_surface_water_only.
Print Assumptions C64_reported_runoff.
Print Assumptions C64_terms_absent.
Print Assumptions C64_snow_melt_refuted.
Print Assumptions C64_evaporation_refuted.
Print Assumptions C64_floodplains_refuted.
Print Assumptions C64_attenuation_refuted.
