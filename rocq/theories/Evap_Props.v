(* Evaporation: properties C28 and C52. *)
From Coq Require Import ZArith QArith Qminmax List Bool Lia Lqa.
From Verif Require Import Base Field Snow_Model Snow_Spec Snow_Proofs Evap_Model Evap_Spec Evap_Proofs.
Import ListNotations.
Local Open Scope Q_scope.

(* C28.  After every update, at any point of any history that starts with initialize, every cell's rate is >= 0, and
   the reported total evaporated volume is not less than before that update. *)
Theorem C28_evaporation_never_negative n da dt m es x l :
  shaped n da -> (forall i, (i < n)%nat -> 0 <= fat da i) -> 0 <= dt ->
  evap_trace n da dt m (evap_init n) (es ++ [Update x]) = Some l ->
  exists l0 s, l = l0 ++ [s] /\
    (forall i, (i < n)%nat -> 0 <= fat (ET s) i) /\
    vol_ET (final (evap_init n) l0) <= vol_ET s.
Proof.
  intros Hd Hp Ht H. destruct (trace_app _ _ _ _ _ _ _ _ H) as (l1 & l2 & A & B & ->).
  cbn [evap_trace evap_event] in B. bindinv B. injection B as <-. exists l1, a.
  split; [reflexivity|]. split.
  - intros i Hi. eapply update_ET_nonneg; eassumption.
  - rewrite (update_volume _ _ _ _ _ _ _ Hd E).
    assert (0 <= qsum n (fun i => fat (ET a) i * fat da i * dt)); [|lra].
    apply qsum_nonneg. intros i Hi. pose proof (update_ET_nonneg _ _ _ _ _ _ _ _ E Hi). pose proof (Hp i Hi).
    apply Qmult_le_0_compat; [apply Qmult_le_0_compat|]; assumption.
Qed.
Print Assumptions C28_evaporation_never_negative.

(* The reported volume is the sum, over all updates and cells, of rate x area x time step. *)
Theorem C28_volume_is_the_integral n da dt m es l :
  shaped n da -> evap_trace n da dt m (evap_init n) es = Some l ->
  vol_ET (final (evap_init n) l) == evaporated n da dt es l.
Proof. intros Hd H. rewrite (trace_volume _ _ _ _ _ _ _ Hd H). cbn [vol_ET evap_init]. ring. Qed.
Print Assumptions C28_volume_is_the_integral.

(* Whatever other components write into the shared ET array between updates, the reported volume is the same. *)
Theorem C28_volume_unaffected_by_other_components n da dt m es l1 l2 :
  evap_trace n da dt m (evap_init n) es = Some l1 ->
  evap_trace n da dt m (evap_init n) (filter is_update es) = Some l2 ->
  vol_ET (final (evap_init n) l1) = vol_ET (final (evap_init n) l2).
Proof. intros H1 H2. eapply overwrite_indep; try eassumption; try apply init_gridy. reflexivity. Qed.
Print Assumptions C28_volume_unaffected_by_other_components.

(* No mix of 0D and grid inputs raises an error. *)
Theorem C28_no_shape_error n da dt m es : exists l, evap_trace n da dt m (evap_init n) es = Some l /\ length l = length es.
Proof.
  destruct (trace_ok n da dt m es (evap_init n) (init_gridy n)) as [l H]. exists l. split; [exact H|].
  eapply trace_length; exact H.
Qed.
Print Assumptions C28_no_shape_error.

Definition dx (t1 t2 : Q) : evap_in :=
  mkEvapIn (Grid [t1; t2]) (Grid [4; -4]) (Scalar 2) (Scalar (45#100)) (Scalar (1#2)) (Scalar (95#100))
           (Grid [200; 10]) (Grid [-50; -60]) (Grid [180; -20]) (Scalar 30).
Example C28_demo : exists l, evap_trace 2 (Scalar 900) 3600 PriestleyTaylor (evap_init 2)
    [Update (dx 10 10); Overwrite (Grid [0; 0]); Update (dx 20 (-5))] = Some l /\
    0 < vol_ET (final (evap_init 2) l) /\ 0 < fat (ET (final (evap_init 2) l)) 0 /\
    fat (ET (final (evap_init 2) l)) 1 == 0.
Proof. eexists. split; [vm_compute; reflexivity|]. split; [vm_compute; reflexivity|]. split; vm_compute; reflexivity. Qed.

(* C52.  Evaporation uses only available energy.  Energy balance method, with Q_sum as the met component computes it:
   the latent heat used is the positive part of net radiation + sensible heat + conduction, whatever the latent heat
   flux Qe in Q_sum is. *)
Theorem C52_energy_balance_uses_available_energy n da dt s s' x qh i :
  Q_sum x = met_Q_sum n (Qn_SW x) (Qn_LW x) qh (Qe x) ->
  evap_update n da dt EnergyBal s x = Some s' -> (i < n)%nat ->
  fat (ET s') i * latent == Qmax (net_energy x i + fat qh i) 0.
Proof.
  intros HQ H Hi. rewrite (update_energy _ _ _ _ _ _ _ _ H Hi), HQ. unfold met_Q_sum. cbn [fat].
  rewrite get_tab by exact Hi. unfold net_energy. apply Q.max_compat; [ring|reflexivity].
Qed.
Print Assumptions C52_energy_balance_uses_available_energy.

(* Priestley-Taylor: no evaporation without a positive net energy, and never more than alpha*(0.406+0.011*T_air) times
   it.  Partial: for air temperatures of at least -0.406/0.011 = -36.9 deg C. *)
Theorem C52_priestley_taylor_uses_available_energy_partial n da dt s s' x i :
  evap_update n da dt PriestleyTaylor s x = Some s' -> (i < n)%nat ->
  0 <= fat (alpha x) i -> - (406#11) <= fat (T_air x) i ->
  (net_energy x i <= 0 -> fat (ET s') i == 0) /\
  fat (ET s') i * latent ==
    fat (alpha x) i * ((406#1000) + (11#1000) * fat (T_air x) i) * Qmax (net_energy x i) 0.
Proof.
  intros H Hi Ha HT. pose proof (update_energy _ _ _ _ _ _ _ _ H Hi) as E. cbv beta iota in E.
  set (f := fat (alpha x) i * ((406#1000) + (11#1000) * fat (T_air x) i)) in *.
  assert (Hf : 0 <= f).
  { unfold f. apply Qmult_le_0_compat; [exact Ha|]. lra. }
  assert (K : Qmax (f * net_energy x i) 0 == f * Qmax (net_energy x i) 0).
  { destruct (Qlt_le_dec (net_energy x i) 0) as [L|L].
    - rewrite (Q.max_r (net_energy x i) 0) by lra. rewrite Q.max_r; [ring|nra].
    - rewrite (Q.max_l (net_energy x i) 0) by lra. rewrite Q.max_l; [reflexivity|nra]. }
  rewrite K in E. split; [|exact E].
  intros L. rewrite (Q.max_r (net_energy x i) 0) in E by exact L. unfold latent in E. lra.
Qed.
Print Assumptions C52_priestley_taylor_uses_available_energy_partial.

(* In colder air the component evaporates water where the net energy is negative. *)
Theorem C52_priestley_taylor_cold_air_refuted :
  ~ (forall n da dt s s' x i, evap_update n da dt PriestleyTaylor s x = Some s' -> (i < n)%nat ->
       0 <= fat (alpha x) i -> net_energy x i <= 0 -> fat (ET s') i == 0).
Proof.
  intros H.
  pose (x := mkEvapIn (Scalar (-40)) (Scalar (-40)) (Scalar (-20)) (Scalar 1) (Scalar 1) (Scalar 1) (Scalar 0) (Scalar (-50))
                      (Scalar 0) (Scalar 0)).
  assert (U : exists s', evap_update 1 (Scalar 1) 1 PriestleyTaylor (evap_init 1) x = Some s' /\ ~ fat (ET s') 0 == 0)
    by (eexists; split; [vm_compute; reflexivity|vm_compute; discriminate]).
  destruct U as (s' & U & N). apply N. apply (H _ _ _ _ _ _ _ U); [lia|vm_compute; discriminate..].
Qed.
Print Assumptions C52_priestley_taylor_cold_air_refuted.

Example C52_demo : exists s', evap_update 2 (Scalar 900) 3600 PriestleyTaylor (evap_init 2) (dx 10 10) = Some s' /\
  0 < net_energy (dx 10 10) 0 /\ net_energy (dx 10 10) 1 <= 0 /\ - (406#11) <= fat (T_air (dx 10 10)) 0 /\
  0 < fat (ET s') 0 /\ fat (ET s') 1 == 0.
Proof.
  eexists. split; [vm_compute; reflexivity|]. split; [vm_compute; reflexivity|]. split; [vm_compute; discriminate|].
  split; [vm_compute; discriminate|]. split; vm_compute; reflexivity.
Qed.
