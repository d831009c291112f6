From Coq Require Import ZArith QArith Qminmax List Bool Lia Lqa.
From Verif Require Import Base Field Snow_Model Snow_Spec Snow_Proofs Evap_Model Evap_Spec.
Import ListNotations.
Local Open Scope Q_scope.

Section P.
Variable n : nat.
Variable da : field.
Variable dt : Q.
Variable m : et_method.

Lemma fat_ET s x qc et i : update_ET_rate n m s x qc = Some et -> (i < n)%nat ->
  fat et i = Qmax (fat (Qet n m x qc) i / 2500000000) 0.
Proof. unfold update_ET_rate. intros H Hi. rewrite (fat_store _ _ _ _ _ H Hi), !fat_lift1 by exact Hi. reflexivity. Qed.
Lemma fat_Qc s x qc i : update_Qc n s x = Some qc -> (i < n)%nat -> fat qc i = conduction x i.
Proof. unfold update_Qc. intros H Hi. rewrite (fat_store _ _ _ _ _ H Hi), !fat_lift2 by exact Hi. reflexivity. Qed.
Lemma fat_Qet_pt x qc i : (i < n)%nat -> fat (Qet n PriestleyTaylor x qc) i =
  fat (alpha x) i * ((406#1000) + (11#1000) * fat (T_air x) i) * (fat (Qn_SW x) i + fat (Qn_LW x) i + fat qc i).
Proof. intros Hi. unfold Qet. rewrite !fat_lift2, fat_lift1 by exact Hi. reflexivity. Qed.
Lemma fat_Qet_eb x qc i : (i < n)%nat -> fat (Qet n EnergyBal x qc) i = fat (Q_sum x) i - fat (Qe x) i + fat qc i.
Proof. intros Hi. unfold Qet. rewrite !fat_lift2 by exact Hi. reflexivity. Qed.

Lemma update_inv s x s' : evap_update n da dt m s x = Some s' ->
  (forall i, (i < n)%nat -> fat (Qc s') i = conduction x i) /\
  (forall i, (i < n)%nat -> fat (ET s') i = Qmax (fat (Qet n m x (Qc s')) i / 2500000000) 0) /\
  shaped n (ET s') /\
  vol_ET s' = vol_ET s + volume n da dt (ET s').
Proof.
  unfold evap_update. intros H. bindinv H. bindinv H. injection H as <-. cbn [Qc ET vol_ET].
  split; [|split; [|split]].
  - intros i Hi. eapply fat_Qc; eassumption.
  - intros i Hi. eapply fat_ET; eassumption.
  - unfold update_ET_rate in *. eapply shaped_store; eassumption.
  - reflexivity.
Qed.
Lemma update_ET_nonneg s x s' i : evap_update n da dt m s x = Some s' -> (i < n)%nat -> 0 <= fat (ET s') i.
Proof. intros H Hi. destruct (update_inv _ _ _ H) as (_ & E & _). rewrite (E i Hi). apply Q.le_max_r. Qed.

Lemma div_latent q : Qmax (q / 2500000000) 0 * latent == Qmax q 0.
Proof.
  unfold latent. destruct (Qlt_le_dec q 0) as [H|H].
  - rewrite (Q.max_r q 0) by lra. rewrite Q.max_r; [lra|].
    unfold Qdiv. assert (0 < / 2500000000) by reflexivity. nra.
  - rewrite (Q.max_l q 0) by lra. rewrite Q.max_l; [field|].
    unfold Qdiv. assert (0 < / 2500000000) by reflexivity. nra.
Qed.
Lemma update_energy s x s' i : evap_update n da dt m s x = Some s' -> (i < n)%nat ->
  fat (ET s') i * latent ==
  Qmax (match m with
        | PriestleyTaylor => fat (alpha x) i * ((406#1000) + (11#1000) * fat (T_air x) i) * net_energy x i
        | EnergyBal => fat (Q_sum x) i - fat (Qe x) i + conduction x i end) 0.
Proof.
  intros H Hi. destruct (update_inv _ _ _ H) as (C & E & _). rewrite (E i Hi), div_latent.
  destruct m; [rewrite fat_Qet_pt by exact Hi|rewrite fat_Qet_eb by exact Hi]; rewrite (C i Hi); reflexivity.
Qed.
Lemma update_volume s x s' : shaped n da -> evap_update n da dt m s x = Some s' ->
  vol_ET s' == vol_ET s + qsum n (fun i => fat (ET s') i * fat da i * dt).
Proof.
  intros Hd H. destruct (update_inv _ _ _ H) as (_ & _ & Sh & ->). apply Qplus_comp; [reflexivity|].
  unfold volume. apply domain_sum_ext; [apply shaped_lift2|]. intros i Hi. rewrite fat_lift2 by exact Hi. reflexivity.
Qed.

Lemma trace_app s es1 es2 l : evap_trace n da dt m s (es1 ++ es2) = Some l ->
  exists l1 l2, evap_trace n da dt m s es1 = Some l1 /\ evap_trace n da dt m (final s l1) es2 = Some l2 /\ l = l1 ++ l2.
Proof.
  revert s l. induction es1 as [|e t IH]; intros s l H; cbn [app evap_trace] in H.
  - exists [], l. cbn. auto.
  - bindinv H. injection H as <-. edestruct IH as (l1 & l2 & A & B & C); [eassumption|].
    exists (a :: l1), l2. cbn [evap_trace]. rewrite E. cbn [bind]. rewrite A. cbn [bind].
    split; [reflexivity|]. rewrite final_cons. split; [exact B|]. rewrite C. reflexivity.
Qed.
Lemma trace_length s es l : evap_trace n da dt m s es = Some l -> length l = length es.
Proof.
  revert s l. induction es as [|e t IH]; intros s l H; cbn in H; [injection H as <-; reflexivity|].
  bindinv H. injection H as <-. cbn. erewrite IH by eassumption. reflexivity.
Qed.
Lemma trace_volume s es l : shaped n da -> evap_trace n da dt m s es = Some l ->
  vol_ET (final s l) == vol_ET s + evaporated n da dt es l.
Proof.
  intros Hd. revert s l. induction es as [|e t IH]; intros s l H; cbn [evap_trace] in H.
  - injection H as <-. unfold evaporated, final. change (vol_ET s == vol_ET s + 0). ring.
  - bindinv H. injection H as <-. rewrite final_cons. rewrite (IH _ _ E0).
    unfold evaporated. cbn [combine]. rewrite qsuml_cons. cbn [fst snd]. fold (evaporated n da dt t a0).
    destruct e as [y|v]; cbn [evap_event] in E.
    + rewrite (update_volume _ _ _ Hd E). ring.
    + bindinv E. injection E as <-. cbn [vol_ET]. ring.
Qed.

(* shapes: starting from grids nothing raises *)
Definition gridy (s : evap) : Prop := is_scalar (ET s) = false /\ is_scalar (Qc s) = false.
Lemma event_ok s e : gridy s -> exists s', evap_event n da dt m s e = Some s' /\ gridy s'.
Proof.
  intros [A B]. destruct s as [et qc vol]. cbn [ET Qc] in A, B.
  destruct et as [|et]; [discriminate|]. destruct qc as [|qc]; [discriminate|].
  destruct e as [x|v].
  - cbn [evap_event]. unfold evap_update, update_Qc, update_ET_rate. cbn [Qc ET store bind].
    eexists. split; [reflexivity|]. split; reflexivity.
  - cbn [evap_event ET Qc store bind]. eexists. split; [reflexivity|]. split; reflexivity.
Qed.
Lemma trace_ok es : forall s, gridy s -> exists l, evap_trace n da dt m s es = Some l.
Proof.
  induction es as [|e t IH]; intros s G; cbn [evap_trace]; [eauto|].
  destruct (event_ok s e G) as (s' & -> & G'). cbn [bind]. destruct (IH s' G') as [l ->]. cbn. eauto.
Qed.
Lemma init_gridy : gridy (evap_init n).
Proof. split; reflexivity. Qed.

(* other components' writes to ET have no effect on the account *)
Lemma update_indep s1 s2 x : gridy s1 -> gridy s2 -> vol_ET s1 = vol_ET s2 ->
  evap_update n da dt m s1 x = evap_update n da dt m s2 x.
Proof.
  destruct s1 as [e1 q1 v1], s2 as [e2 q2 v2]. intros [A B] [C D] E. cbn [ET Qc vol_ET] in *.
  destruct e1, q1, e2, q2; try discriminate. unfold evap_update, update_Qc, update_ET_rate.
  cbn [Qc ET store bind vol_ET]. rewrite E. reflexivity.
Qed.
Lemma overwrite_indep es : forall s1 s2 l1 l2, gridy s1 -> gridy s2 -> vol_ET s1 = vol_ET s2 ->
  evap_trace n da dt m s1 es = Some l1 -> evap_trace n da dt m s2 (filter is_update es) = Some l2 ->
  vol_ET (final s1 l1) = vol_ET (final s2 l2).
Proof.
  induction es as [|e t IH]; intros s1 s2 l1 l2 G1 G2 E H1 H2; cbn [evap_trace filter] in *.
  - injection H1 as <-. injection H2 as <-. exact E.
  - destruct (event_ok s1 e G1) as (s1' & Ev & G1'). rewrite Ev in H1. cbn [bind] in H1. bindinv H1. injection H1 as <-.
    rewrite final_cons. destruct e as [x0|v]; cbn [is_update evap_trace] in H2.
    + cbn [evap_event] in Ev, H2. rewrite (update_indep s1 s2 x0 G1 G2 E) in Ev. rewrite Ev in H2. cbn [bind] in H2.
      bindinv H2. injection H2 as <-. rewrite final_cons. eapply IH; try eassumption. reflexivity.
    + cbn [evap_event] in Ev. bindinv Ev. injection Ev as <-. eapply IH; try eassumption.
Qed.
End P.
