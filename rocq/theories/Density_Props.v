(** C98.  The snow component starts with the cold content of its snowpack, and the
    snow depth follows the water equivalent and the density of the snow. *)

From Coq Require Import ZArith QArith Qminmax List Bool Lia Lqa.
From Verif Require Import Base Field Time_Model Density_Model.
Import ListNotations.
Local Open Scope Q_scope.

(** ** Specification *)

(** The density in force after what was read so far. *)
Fixpoint current (rho0 : field) (xs : list (option field * field)) : field :=
  match xs with
  | [] => rho0
  | (Some v, _) :: r => current v r
  | (None, _) :: r => current rho0 r
  end.
Definition is_grid (f : field) : Prop := is_scalar f = false.
Definition all_numbers (xs : list (option field * field)) : Prop :=
  forall o s, In (o, s) xs -> match o with None => True | Some v => is_scalar v = true end.

(** ** Proofs *)

Lemma steps_app n up t w s xs ys : steps n up t w s (xs ++ ys) = rbind (steps n up t w s xs) (fun s' => steps n up t w s' ys).
Proof.
  revert s. induction xs as [|x xs IH]; intros s; [reflexivity|]. cbn [app steps].
  destruct (step n up t w s x) as [s'|e]; cbn [rbind]; [apply IH|reflexivity].
Qed.

Lemma current_app r xs ys : current r (xs ++ ys) = current (current r xs) ys.
Proof. revert r. induction xs as [|[[v|] w] xs IH]; intros r; cbn; auto. Qed.

Lemma store_grid n x v : is_grid x -> store n x v = Some (Grid (tab n (fat v))).
Proof. destruct x; [discriminate|reflexivity]. Qed.

Section S.
Variable n : nat.
Variable w : field.   (* density of water *)

(** static densities *)
Lemma static_step t s x : (t = TScalar \/ t = TGrid) -> is_grid (depth s) -> fst x = None ->
  step n (update_density_ratio n) t w s x =
  Ok (mkst (rho s) (ratio s) (Grid (tab n (fat (lift2 n Qmult (snd x) (ratio s)))))).
Proof.
  intros T D X. destruct x as [o h]. cbn in X. subst o. unfold step. cbn [fst snd update_var rbind].
  replace (update_density_ratio n t w (rho s) (ratio s)) with (Ok (ratio s)) by (destruct T as [->| ->]; reflexivity).
  cbn [rbind]. unfold update_depth. rewrite store_grid by exact D. reflexivity.
Qed.

Lemma static_steps t xs : (t = TScalar \/ t = TGrid) -> forall s, is_grid (depth s) -> (forall x, In x xs -> fst x = None) ->
  exists s', steps n (update_density_ratio n) t w s xs = Ok s' /\ rho s' = rho s /\ ratio s' = ratio s /\ is_grid (depth s').
Proof.
  intros T. induction xs as [|x xs IH]; intros s D X; [exists s; cbn; auto|].
  cbn [steps]. rewrite static_step by (auto; apply X; left; reflexivity). cbn [rbind].
  destruct (IH (mkst (rho s) (ratio s) (Grid (tab n (fat (lift2 n Qmult (snd x) (ratio s))))))) as (s' & A & B & C & E).
  - reflexivity.
  - intros y Hy. apply X. right. exact Hy.
  - exists s'. auto.
Qed.

(** densities that are grids *)
Definition follows (s : state) (r : field) : Prop :=
  is_grid (rho s) /\ is_grid (ratio s) /\ is_grid (depth s) /\
  (forall i, (i < n)%nat -> fat (rho s) i = fat r i) /\
  (forall i, (i < n)%nat -> fat (ratio s) i == fat w i / fat r i).

Lemma seq_step s r x : follows s r ->
  exists s', step n (update_density_ratio n) TSequence w s x = Ok s' /\ follows s' (current r [x]) /\
    forall i, (i < n)%nat -> fat (depth s') i == fat (snd x) i * (fat w i / fat (current r [x]) i).
Proof.
  intros (R & Q1 & D & E1 & E2). destruct x as [o h]. unfold step. cbn [fst snd].
  assert (K : exists r', update_var n (rho s) o = Ok r' /\ is_grid r' /\
              forall i, (i < n)%nat -> fat r' i = fat (current r [(o, h)]) i).
  { destruct o as [v|]; cbn [update_var current].
    - rewrite store_grid by exact R. eexists. split; [reflexivity|]. split; [reflexivity|].
      intros i Hi. cbn [fat]. rewrite get_tab by exact Hi. reflexivity.
    - exists (rho s). auto. }
  destruct K as (r' & -> & G & E). cbn [rbind]. unfold update_density_ratio.
  destruct (ratio s) as [q|l] eqn:EQ; [discriminate|].
  rewrite (store_grid n (Grid l)) by reflexivity. cbn [rbind]. unfold update_depth.
  rewrite store_grid by exact D. cbn [rbind].
  eexists. split; [reflexivity|].
  assert (P : forall i, (i < n)%nat -> fat (Grid (tab n (fat (density_ratio n w r')))) i = fat w i / fat (current r [(o, h)]) i).
  { intros i Hi. cbn [fat]. rewrite get_tab by exact Hi. unfold density_ratio. rewrite fat_lift2 by exact Hi.
    rewrite E by exact Hi. reflexivity. }
  split.
  - unfold follows. cbn [rho ratio depth]. repeat split; auto. intros i Hi. rewrite (P i Hi). reflexivity.
  - intros i Hi. cbn [depth]. change (fat (Grid (tab n (fat (lift2 n Qmult h (Grid (tab n (fat (density_ratio n w r')))))))) i)
      with (get 0 (tab n (fat (lift2 n Qmult h (Grid (tab n (fat (density_ratio n w r'))))))) i).
    rewrite get_tab by exact Hi. rewrite fat_lift2 by exact Hi. rewrite (P i Hi). reflexivity.
Qed.

Lemma seq_steps xs : forall s r, follows s r ->
  exists s', steps n (update_density_ratio n) TSequence w s xs = Ok s' /\ follows s' (current r xs).
Proof.
  induction xs as [|x xs IH]; intros s r F; [exists s; auto|].
  destruct (seq_step s r x F) as (s1 & A & B & _). cbn [steps]. rewrite A. cbn [rbind].
  destruct (IH s1 _ B) as (s2 & C & E). exists s2. split; [exact C|].
  change (x :: xs) with ([x] ++ xs). rewrite current_app. exact E.
Qed.

(** densities that are numbers *)
Lemma ser_steps xs : forall s q, is_scalar (rho s) = true -> ratio s = Scalar q -> is_grid (depth s) -> all_numbers xs ->
  exists s', steps n (update_density_ratio n) TSeries w s xs = Ok s' /\ is_scalar (rho s') = true /\ ratio s' = Scalar q /\ is_grid (depth s').
Proof.
  induction xs as [|[o h] xs IH]; intros s q R E D X; [exists s; auto|]. cbn [steps]. unfold step. cbn [fst snd].
  assert (K : exists r', update_var n (rho s) o = Ok r' /\ is_scalar r' = true).
  { destruct o as [v|]; cbn [update_var]; [|eauto].
    pose proof (X (Some v) h (or_introl eq_refl)) as V. cbn in V.
    destruct (rho s); [|discriminate]. destruct v; [|discriminate]. cbn. eauto. }
  destruct K as (r' & -> & G). cbn [rbind]. unfold update_density_ratio. rewrite E. cbn [rbind].
  unfold update_depth. rewrite store_grid by exact D. cbn [rbind].
  apply IH; try reflexivity; [exact G|]. intros o' s' Hi. apply (X o' s'). right. exact Hi.
Qed.

Lemma last_depth up t s x s' : step n up t w s x = Ok s' -> forall i, (i < n)%nat ->
  fat (depth s') i == fat (snd x) i * fat (ratio s') i.
Proof.
  unfold step. destruct (update_var n (rho s) (fst x)); cbn [rbind]; [|discriminate].
  destruct (up t w a (ratio s)) as [q|]; cbn [rbind]; [|discriminate]. unfold update_depth.
  destruct (store n (depth s) _) as [d|] eqn:E; cbn [rbind]; [|discriminate]. intros H. injection H as <-. cbn [depth ratio].
  intros i Hi. rewrite (fat_store _ _ _ _ _ E Hi). rewrite fat_lift2 by exact Hi. reflexivity.
Qed.
End S.

(** ** Start *)

(** When one of the density, the initial depth, the melting temperature and the
    surface temperature is a grid, the snow component starts with the cold content of
    the snowpack, never negative. *)
Theorem C98_start : forall n rho Cp h0 T0 Ts,
  (is_grid rho \/ is_grid h0 \/ is_grid T0 \/ is_grid Ts) ->
  exists e, cold_content n rho Cp h0 T0 Ts = Ok e /\
    forall i, (i < n)%nat -> 0 <= fat e i /\
      (fat Ts i <= fat T0 i -> 0 <= fat rho i -> 0 <= fat Cp i -> 0 <= fat h0 i ->
       fat e i == fat rho i * fat Cp i * fat h0 i * (fat T0 i - fat Ts i)) /\
      (fat T0 i <= fat Ts i -> 0 <= fat rho i -> 0 <= fat Cp i -> 0 <= fat h0 i -> fat e i == 0).
Proof.
  intros n rho Cp h0 T0 Ts G. unfold cold_content.
  set (p := lift2 n Qmult (lift2 n Qmult (lift2 n Qmult rho Cp) h0) (lift2 n Qminus T0 Ts)).
  assert (S : is_scalar p = false).
  { unfold p. rewrite !is_scalar_lift2. unfold is_grid in G.
    destruct (is_scalar rho), (is_scalar Cp), (is_scalar h0), (is_scalar T0), (is_scalar Ts); try reflexivity.
    destruct G as [G|[G|[G|G]]]; discriminate. }
  assert (V : forall i, (i < n)%nat -> fat p i = fat rho i * fat Cp i * fat h0 i * (fat T0 i - fat Ts i)).
  { intros i Hi. unfold p. rewrite !fat_lift2 by exact Hi. reflexivity. }
  destruct p as [q|l]; [discriminate|]. eexists. split; [reflexivity|]. intros i Hi.
  rewrite fat_lift1 by exact Hi. rewrite (V i Hi). split; [apply Q.le_max_r|]. split.
  - intros A B C D. apply Q.max_l. 
    assert (0 <= fat rho i * fat Cp i * fat h0 i) by (apply Qmult_le_0_compat; [apply Qmult_le_0_compat|]; assumption).
    apply Qmult_le_0_compat; [assumption|lra].
  - intros A B C D. apply Q.max_r.
    assert (0 <= fat rho i * fat Cp i * fat h0 i) by (apply Qmult_le_0_compat; [apply Qmult_le_0_compat|]; assumption).
    nra.
Qed.
Print Assumptions C98_start.

(** When all of them are numbers for the whole domain, as in the simplest
    configuration, the snow component cannot start. *)
Theorem C98_start_numbers_refuted : forall n rho Cp h0 T0 Ts,
  cold_content n (Scalar rho) (Scalar Cp) (Scalar h0) (Scalar T0) (Scalar Ts) = Err TypeError.
Proof. reflexivity. Qed.
Print Assumptions C98_start_numbers_refuted.

(** The glacier component starts in every case. *)
Theorem C98_glacier_start : forall n rho Cp h0 T0 Ts,
  exists e, glacier_cold_content n rho Cp h0 T0 Ts = Ok e /\
    forall i, (i < n)%nat -> 0 <= fat e i /\
      (fat Ts i <= fat T0 i -> 0 <= fat rho i -> 0 <= fat Cp i -> 0 <= fat h0 i ->
       fat e i == fat rho i * fat Cp i * fat h0 i * (fat T0 i - fat Ts i)).
Proof.
  intros n rho Cp h0 T0 Ts. unfold glacier_cold_content.
  destruct (C98_start n rho Cp h0 T0 (Grid (tab n (fat Ts)))) as (e & A & B).
  { right; right; right. reflexivity. }
  exists e. split; [exact A|]. intros i Hi. destruct (B i Hi) as (P & F & _). split; [exact P|].
  cbn [fat] in F. rewrite get_tab in F by exact Hi. exact F.
Qed.
Print Assumptions C98_glacier_start.

(** ** The snow depth *)

(** A density that does not change: after every update the depth is the water
    equivalent times the ratio of the densities, in both components. *)
Theorem C98_static : forall n w rho0 h0 t xs swe, (t = TScalar \/ t = TGrid) ->
  (forall x, In x xs -> fst x = None) ->
  exists s, snow_steps n t w (start n true w rho0 h0) (xs ++ [(None, swe)]) = Ok s /\
    forall i, (i < n)%nat -> fat (depth s) i == fat swe i * (fat w i / fat rho0 i).
Proof.
  intros n w rho0 h0 t xs swe T X. unfold snow_steps. rewrite steps_app.
  destruct (static_steps n w t xs T (start n true w rho0 h0) eq_refl X) as (s & -> & R & Q1 & D). cbn [rbind steps].
  rewrite static_step by auto. cbn [rbind]. eexists. split; [reflexivity|]. intros i Hi. cbn [depth fat snd].
  rewrite get_tab by exact Hi. rewrite fat_lift2 by exact Hi. rewrite Q1. cbn [ratio start]. unfold density_ratio.
  rewrite fat_lift2 by exact Hi. reflexivity.
Qed.
Print Assumptions C98_static.

Theorem C98_static_glacier : forall n w rho0 h0 t xs, (t = TScalar \/ t = TGrid) ->
  glacier_steps n t w (start n true w rho0 h0) xs = snow_steps n t w (start n true w rho0 h0) xs.
Proof.
  intros n w rho0 h0 t xs T. unfold glacier_steps, snow_steps. generalize (start n true w rho0 h0).
  induction xs as [|x xs IH]; intros s; [reflexivity|]. cbn [steps].
  replace (step n glacier_update_density_ratio t w s x) with (step n (update_density_ratio n) t w s x).
  - destruct (step n (update_density_ratio n) t w s x); cbn [rbind]; auto.
  - unfold step. destruct T as [->| ->]; reflexivity.
Qed.
Print Assumptions C98_static_glacier.

(** A density read as a sequence of grids: after every update, also after the file
    has ended, the depth is the water equivalent times the ratio of the densities in
    force. *)
Theorem C98_sequence : forall n w rho0 h0 xs o swe, is_grid rho0 ->
  exists s, snow_steps n TSequence w (start n true w rho0 h0) (xs ++ [(o, swe)]) = Ok s /\
    forall i, (i < n)%nat -> fat (depth s) i == fat swe i * (fat w i / fat (current rho0 (xs ++ [(o, swe)])) i).
Proof.
  intros n w rho0 h0 xs o swe G. unfold snow_steps. rewrite steps_app.
  destruct (seq_steps n w xs (start n true w rho0 h0) rho0) as (s & -> & F).
  { unfold follows, start. cbn [rho ratio depth]. repeat split; auto.
    - unfold is_grid, density_ratio. rewrite is_scalar_lift2, G. apply andb_false_r.
    - intros i Hi. unfold density_ratio. rewrite fat_lift2 by exact Hi. reflexivity. }
  cbn [rbind steps]. destruct (seq_step n w s _ (o, swe) F) as (s' & -> & _ & E). cbn [rbind].
  exists s'. split; [reflexivity|]. intros i Hi. rewrite current_app. exact (E i Hi).
Qed.
Print Assumptions C98_sequence.

(** A density read as a time series of numbers: the ratio of the first densities is
    used for the whole run, whatever is read later. *)
Theorem C98_series_refuted : forall n w rho0 h0 xs o swe, all_numbers (xs ++ [(o, swe)]) ->
  exists s, snow_steps n TSeries (Scalar w) (start n true (Scalar w) (Scalar rho0) h0) (xs ++ [(o, swe)]) = Ok s /\
    forall i, (i < n)%nat -> fat (depth s) i == fat swe i * (w / rho0).
Proof.
  intros n w rho0 h0 xs o swe X. unfold snow_steps.
  destruct (ser_steps n (Scalar w) xs (start n true (Scalar w) (Scalar rho0) h0) (w / rho0)) as (s & A & R & Q1 & D); try reflexivity.
  { intros o' s' Hi. apply (X o' s'). apply in_or_app. left. exact Hi. }
  destruct (ser_steps n (Scalar w) [(o, swe)] s (w / rho0) R Q1 D) as (s' & A' & R' & Q' & D').
  { intros o' h Hi. apply (X o' h). apply in_or_app. right. exact Hi. }
  exists s'. rewrite steps_app, A. cbn [rbind]. split; [exact A'|]. intros i Hi.
  cbn [steps] in A'. destruct (step n (update_density_ratio n) TSeries (Scalar w) s (o, swe)) as [s1|] eqn:E; [|discriminate].
  cbn [rbind] in A'. injection A' as ->. rewrite (last_depth _ _ _ _ _ _ _ E i Hi). rewrite Q'. reflexivity.
Qed.
Print Assumptions C98_series_refuted.

(** So the depth is wrong wherever there is snow, as soon as the density in force is
    not the first one. *)
Theorem C98_series_wrong_refuted : forall n w rho0 h0 xs rho1 swe, all_numbers (xs ++ [(Some (Scalar rho1), swe)]) ->
  0 < w -> 0 < rho0 -> 0 < rho1 -> ~ rho1 == rho0 ->
  exists s, snow_steps n TSeries (Scalar w) (start n true (Scalar w) (Scalar rho0) h0) (xs ++ [(Some (Scalar rho1), swe)]) = Ok s /\
    forall i, (i < n)%nat -> 0 < fat swe i -> ~ fat (depth s) i == fat swe i * (w / rho1).
Proof.
  intros n w rho0 h0 xs rho1 swe X W P0 P1 N.
  destruct (C98_series_refuted n w rho0 h0 xs _ swe X) as (s & A & E). exists s. split; [exact A|].
  intros i Hi S C. rewrite (E i Hi) in C. apply N.
  assert (H : w / rho0 == w / rho1).
  { apply (Qmult_inj_l _ _ (fat swe i)); [lra|exact C]. }
  assert (H2 : w * rho1 == w * rho0).
  { setoid_replace (w * rho1) with ((w / rho0) * (rho0 * rho1)) by (field; lra). rewrite H. field. lra. }
  apply (Qmult_inj_l _ _ w); [lra|exact H2].
Qed.
Print Assumptions C98_series_wrong_refuted.

(** In the glacier component a snow density read from a time series or a sequence of
    grids ends the run at the first update. *)
Theorem C98_glacier_varying_refuted : forall n w rho0 h0 t x xs s, (t = TSeries \/ t = TSequence) ->
  (t = TSeries -> all_numbers [x]) -> s = start n true w rho0 h0 -> (t = TSequence -> is_grid rho0) ->
  glacier_steps n t w s (x :: xs) = Err AttributeError.
Proof.
  intros n w rho0 h0 t [o swe] xs s T X -> G. unfold glacier_steps. cbn [steps]. unfold step. cbn [fst snd rho start].
  assert (K : exists r, update_var n rho0 o = Ok r).
  { destruct o as [v|]; cbn [update_var]; [|eauto]. destruct T as [T|T].
    - pose proof (X T (Some v) swe (or_introl eq_refl)) as V. cbn in V. destruct v; [|discriminate].
      destruct rho0; cbn; eauto.
    - rewrite store_grid by exact (G T). eauto. }
  destruct K as (r & ->). cbn [rbind]. destruct T as [->| ->]; reflexivity.
Qed.
Print Assumptions C98_glacier_varying_refuted.

(** ** A case *)

Definition w0 := Scalar 1000.
Example C98_case :
  cold_content 2 (Scalar 300) (Scalar 2090) (Scalar (1#2)) (Scalar 0) (Grid [-10#1; 5]) =
    Ok (Grid [Qmax (300 * 2090 * (1#2) * (0 - (-10#1))) 0; Qmax (300 * 2090 * (1#2) * (0 - 5)) 0])
  /\ cold_content 2 (Scalar 300) (Scalar 2090) (Scalar (1#2)) (Scalar 0) (Scalar (-10#1)) = Err TypeError
  /\ (exists s, snow_steps 2 TSeries w0 (start 2 true w0 (Scalar 200) (Scalar 1)) [(Some (Scalar 250), Scalar 1); (Some (Scalar 500), Grid [1; 2])] = Ok s
       /\ map Qred (match depth s with Grid l => l | _ => [] end) = [5; 10])
  /\ (exists s, snow_steps 2 TSequence w0 (start 2 true w0 (Grid [200; 200]) (Scalar 1)) [(Some (Grid [250; 400]), Scalar 1); (Some (Grid [500; 250]), Grid [1; 2])] = Ok s
       /\ map Qred (match depth s with Grid l => l | _ => [] end) = [2; 8]).
Proof.
  split; [reflexivity|]. split; [reflexivity|]. split; eexists; split; vm_compute; reflexivity.
Qed.
