From Coq Require Import ZArith QArith Qminmax List Bool Lia Lqa.
From Verif Require Import Base Field Snow_Model Snow_Spec.
Import ListNotations.
Local Open Scope Q_scope.

Ltac bindinv H :=
  repeat match type of H with
         | bind ?o _ = Some _ => let a := fresh "a" in let E := fresh "E" in
             destruct o as [a|] eqn:E; cbn [bind] in H; [|discriminate H]
         end.
(* decide statements about Qmax and Qmin by cases *)
Lemma Qmax_or a b : (b <= a /\ Qmax a b == a) \/ (a <= b /\ Qmax a b == b).
Proof. destruct (Q.max_spec a b) as [[H E]|[H E]]; [right|left]; split; try exact E; lra. Qed.
Lemma Qmin_or a b : (a <= b /\ Qmin a b == a) \/ (b <= a /\ Qmin a b == b).
Proof. destruct (Q.min_spec a b) as [[H E]|[H E]]; [left|right]; split; try exact E; lra. Qed.
Ltac qcase := repeat match goal with
  | |- context [Qmax ?a ?b] => generalize (Qmax_or a b); generalize (Qmax a b); intros ? ?
  | |- context [Qmin ?a ?b] => generalize (Qmin_or a b); generalize (Qmin a b); intros ? ?
  | H : context [Qmax ?a ?b] |- _ => revert H; generalize (Qmax_or a b); generalize (Qmax a b); intros ? ? H
  | H : context [Qmin ?a ?b] |- _ => revert H; generalize (Qmin_or a b); generalize (Qmin a b); intros ? ? H
  end; repeat match goal with H : _ \/ _ |- _ => destruct H as [[? ?]|[? ?]] end.

Lemma Qdiv_mul x y : ~ y == 0 -> x / y * y == x.
Proof. intros. field. assumption. Qed.

Section Grid.
Variables (n : nat) (da : field) (dt : Q).
Hypothesis Hdt : 0 < dt.

Lemma volume_eq f : volume n da dt f == qsum n (fun i => fat f i * fat da i * dt).
Proof.
  unfold volume. apply domain_sum_ext; [apply shaped_lift2|]. intros i Hi. rewrite fat_lift2 by exact Hi. reflexivity.
Qed.
Lemma total_volume_eq f : total_volume n da f == qsum n (fun i => fat f i * fat da i).
Proof.
  unfold total_volume. apply domain_sum_ext; [apply shaped_lift2|]. intros i Hi. rewrite fat_lift2 by exact Hi. reflexivity.
Qed.

(* ---------------------------------------------------------------- met *)
Variable Trs : field.

Lemma assign_P_fat x b v y : assign_P n x b v = Some y -> forall i, (i < n)%nat -> fat y i = fat v i.
Proof.
  unfold assign_P. destruct (is_scalar x && b); [intros H i Hi; exact (fat_store n x v y i H Hi)|].
  destruct (is_scalar x); [discriminate|]. intros H i Hi. exact (fat_store n x v y i H Hi).
Qed.
Lemma assign_P_shape x b v y : assign_P n x b v = Some y -> is_scalar y = is_scalar x.
Proof.
  unfold assign_P. destruct (is_scalar x && b); [intros H; exact (proj2 (shaped_store n x v y H))|].
  destruct (is_scalar x) eqn:E; [discriminate|]. intros H. rewrite <- E. exact (proj2 (shaped_store n x v y H)).
Qed.

Lemma rain_snow_at P T i : (i < n)%nat ->
  (fat T i <= fat Trs i /\ fat (rain_of n Trs P T) i == 0 /\ fat (snow_of n Trs P T) i == fat P i) \/
  (fat Trs i < fat T i /\ fat (rain_of n Trs P T) i == fat P i /\ fat (snow_of n Trs P T) i == 0).
Proof.
  intros Hi. unfold rain_of, snow_of. rewrite !fat_lift2 by exact Hi. unfold Qltb.
  destruct (Qle_bool (fat T i) (fat Trs i)) eqn:E; cbn [negb].
  - left. apply Qle_bool_iff in E. split; [exact E|]. split; ring.
  - right. apply Qleb_gt in E. split; [exact E|]. split; ring.
Qed.

Lemma met_step s x s' : met_update n da dt Trs s x = Some s' ->
  (forall i, (i < n)%nat ->
     (fat (mT x) i <= fat Trs i /\ fat (P_rain s') i == 0 /\ fat (P_snow s') i == fat (mP x) i) \/
     (fat Trs i < fat (mT x) i /\ fat (P_rain s') i == fat (mP x) i /\ fat (P_snow s') i == 0)) /\
  vol_P s' - vol_P s == qsum n (fun i => fat (mP x) i * fat da i * dt) /\
  vol_PR s' - vol_PR s == qsum n (fun i => fat (P_rain s') i * fat da i * dt) /\
  vol_PS s' - vol_PS s == qsum n (fun i => fat (P_snow s') i * fat da i * dt) /\
  P_max s' == Qmax (P_max s) (max_of (mP x)).
Proof.
  unfold met_update. intros H. bindinv H. inversion H; subst; clear H. cbn [P_rain P_snow vol_P vol_PR vol_PS P_max].
  repeat split; try (rewrite volume_eq; ring).
  intros i Hi. rewrite (assign_P_fat _ _ _ _ E i Hi), (assign_P_fat _ _ _ _ E0 i Hi). apply rain_snow_at. exact Hi.
Qed.

Lemma met_step_balance s x s' : met_update n da dt Trs s x = Some s' ->
  vol_PR s' + vol_PS s' - vol_P s' == vol_PR s + vol_PS s - vol_P s.
Proof.
  intros H. destruct (met_step s x s' H) as (H1 & H2 & H3 & H4 & _).
  assert (E : qsum n (fun i => fat (mP x) i * fat da i * dt) ==
              qsum n (fun i => fat (P_rain s') i * fat da i * dt) + qsum n (fun i => fat (P_snow s') i * fat da i * dt)).
  { rewrite <- qsum_plus. apply qsum_ext. intros i Hi.
    destruct (H1 i Hi) as [(_ & E1 & E2)|(_ & E1 & E2)]; rewrite E1, E2; ring. }
  lra.
Qed.

Lemma met_no_error s x :
  (is_scalar (P_rain s) = true -> is_scalar (mP x) && is_scalar (mT x) && is_scalar Trs && T_type_scalar x = true) ->
  (is_scalar (P_snow s) = true -> is_scalar (mP x) && is_scalar (mT x) && is_scalar Trs && T_type_scalar x = true) ->
  exists s', met_update n da dt Trs s x = Some s' /\ is_scalar (P_rain s') = is_scalar (P_rain s) /\
             is_scalar (P_snow s') = is_scalar (P_snow s).
Proof.
  intros H1 H2. unfold met_update.
  assert (forall y v, (is_scalar y = true -> is_scalar (mP x) && is_scalar (mT x) && is_scalar Trs && T_type_scalar x = true) ->
          is_scalar v = is_scalar (mP x) && (is_scalar (mT x) && is_scalar Trs) ->
          exists z, assign_P n y (T_type_scalar x) v = Some z) as A.
  { intros y v Hy Hv. unfold assign_P. destruct (is_scalar y) eqn:E; cbn [andb].
    - specialize (Hy eq_refl). rewrite !andb_true_iff in Hy. destruct Hy as (((Ha & Hb) & Hc) & Hd). rewrite Hd.
      apply store_ok. intros _. rewrite Hv, Ha, Hb, Hc. reflexivity.
    - apply store_ok. rewrite E. discriminate. }
  destruct (A (P_rain s) (rain_of n Trs (mP x) (mT x)) H1) as (r & Er); [unfold rain_of; rewrite !is_scalar_lift2; reflexivity|].
  destruct (A (P_snow s) (snow_of n Trs (mP x) (mT x)) H2) as (w & Ew); [unfold snow_of; rewrite !is_scalar_lift2; reflexivity|].
  rewrite Er, Ew. cbn [bind]. eexists. split; [reflexivity|]. cbn.
  split; eapply assign_P_shape; eassumption.
Qed.

Lemma met_trace_balance xs : forall s l, met_trace n da dt Trs s xs = Some l ->
  vol_PR (final s l) + vol_PS (final s l) - vol_P (final s l) == vol_PR s + vol_PS s - vol_P s /\
  vol_P (final s l) - vol_P s == qsuml (fun x => qsum n (fun i => fat (mP x) i * fat da i * dt)) xs /\
  length l = length xs.
Proof.
  induction xs as [|x xs IH]; intros s l H; cbn [met_trace] in H.
  - inversion H; subst. rewrite qsuml_nil. unfold final. cbn. split; [reflexivity|]. split; [ring|reflexivity].
  - bindinv H. inversion H; subst; clear H. destruct (IH _ _ E0) as (I1 & I2 & I3).
    pose proof (met_step_balance _ _ _ E) as B. destruct (met_step _ _ _ E) as (_ & B2 & _).
    assert (Ef : final s (a :: a0) = final a a0).
    { unfold final. destruct a0 as [|b a0]; [reflexivity|]. cbn [last]. clear. revert b. induction a0; intros; [reflexivity|apply IHa0]. }
    rewrite Ef, qsuml_cons. split; [lra|]. split; [lra|]. cbn. congruence.
Qed.

Lemma final_cons {A} (s a : A) l : final s (a :: l) = final a l.
Proof.
  unfold final. destruct l as [|b l]; [reflexivity|]. cbn [last]. revert b. induction l; intros; [reflexivity|apply IHl].
Qed.

Lemma fold_Qmax l : forall a, a <= fold_left Qmax l a /\ (forall x, In x l -> x <= fold_left Qmax l a) /\
  exists x, In x (a :: l) /\ fold_left Qmax l a == x.
Proof.
  induction l as [|b l IH]; intros a; cbn [fold_left].
  - split; [lra|]. split; [intros x []|]. exists a. split; [left; reflexivity|reflexivity].
  - destruct (IH (Qmax a b)) as (H1 & H2 & x & H3 & H4). pose proof (Q.le_max_l a b). pose proof (Q.le_max_r a b).
    split; [lra|]. split.
    + intros y [<-|Hy]; [lra|auto].
    + destruct H3 as [<-|H3]; [|exists x; split; [right; right; exact H3|exact H4]].
      destruct (Q.max_spec a b) as [[_ E]|[_ E]].
      * exists b. split; [right; left; reflexivity|]. rewrite H4. exact E.
      * exists a. split; [left; reflexivity|]. rewrite H4. exact E.
Qed.
Lemma max_of_spec f : (0 < n)%nat -> shaped n f ->
  (forall i, (i < n)%nat -> fat f i <= max_of f) /\ exists i, (i < n)%nat /\ max_of f == fat f i.
Proof.
  intros Hn Hs. destruct f as [q|l]; cbn [max_of fat shaped] in *.
  - split; [intros; lra|]. exists 0%nat. split; [exact Hn|reflexivity].
  - destruct l as [|a l]; [cbn in Hs; lia|]. destruct (fold_Qmax l a) as (H1 & H2 & x & H3 & H4). split.
    + intros i Hi. assert (Hin : In (get 0 (a :: l) i) (a :: l)) by (apply nth_In; cbn in *; lia).
      destruct Hin as [<-|Hin]; [exact H1|apply H2; exact Hin].
    + destruct (In_nth (a :: l) x 0 H3) as (i & Hi & E). exists i. split; [cbn in *; lia|]. unfold get. rewrite E. exact H4.
Qed.

Lemma met_trace_max xs : (0 < n)%nat -> forall s l, met_trace n da dt Trs s xs = Some l ->
  Forall (fun x => shaped n (mP x)) xs ->
  P_max s <= P_max (final s l) /\
  (forall x i, In x xs -> (i < n)%nat -> fat (mP x) i <= P_max (final s l)) /\
  (P_max (final s l) == P_max s \/ exists x i, In x xs /\ (i < n)%nat /\ P_max (final s l) == fat (mP x) i).
Proof.
  intros Hn. induction xs as [|x xs IH]; intros s l H Hs; cbn [met_trace] in H.
  - inversion H; subst. unfold final; cbn. split; [lra|]. split; [intros ? ? []|left; reflexivity].
  - bindinv H. inversion H; subst; clear H. inversion Hs as [|? ? Hx Hxs]; subst.
    destruct (IH _ _ E0 Hxs) as (I1 & I2 & I3). destruct (met_step _ _ _ E) as (_ & _ & _ & _ & B).
    destruct (max_of_spec (mP x) Hn Hx) as (M1 & i0 & Hi0 & M2).
    rewrite final_cons. pose proof (Q.le_max_l (P_max s) (max_of (mP x))). pose proof (Q.le_max_r (P_max s) (max_of (mP x))).
    split; [lra|]. split.
    + intros y i [<-|Hy] Hi; [|apply I2; assumption]. specialize (M1 i Hi). lra.
    + destruct I3 as [I3|(y & i & Hy & Hi & I3)]; [|right; exists y, i; split; [right; exact Hy|split; assumption]].
      destruct (Q.max_spec (P_max s) (max_of (mP x))) as [[_ Em]|[_ Em]].
      * right. exists x, i0. split; [left; reflexivity|]. split; [exact Hi0|]. lra.
      * left. lra.
Qed.

Lemma met_trace_nth xs : forall s l, met_trace n da dt Trs s xs = Some l ->
  forall k x s', nth_error xs k = Some x -> nth_error l k = Some s' ->
  forall i, (i < n)%nat ->
     (fat (mT x) i <= fat Trs i /\ fat (P_rain s') i == 0 /\ fat (P_snow s') i == fat (mP x) i) \/
     (fat Trs i < fat (mT x) i /\ fat (P_rain s') i == fat (mP x) i /\ fat (P_snow s') i == 0).
Proof.
  induction xs as [|x xs IH]; intros s l H k y s' Hk Hl i Hi; cbn [met_trace] in H.
  - destruct k; discriminate.
  - bindinv H. inversion H; subst; clear H. destruct k as [|k]; cbn [nth_error] in *.
    + inversion Hk; inversion Hl; subst. exact (proj1 (met_step _ _ _ E) i Hi).
    + exact (IH _ _ E0 k y s' Hk Hl i Hi).
Qed.

(* ---------------------------------------------------------------- snow *)

(* one update, at one cell *)
Record snow_cell_step (m : method) (s : snow) (x : snow_in) (s' : snow) (i : nat) : Prop := {
  ss_sm : fat (SM s') i == Qmax (Qmin (fat (raw_melt n dt m s x) i) (fat (h_swe s) i / dt)) 0;
  ss_swe : fat (h_swe s') i == Qmax (fat (h_swe s) i + fat (sP x) i * dt - fat (SM s') i * dt) 0;
  ss_snow : fat (h_snow s') i == fat (h_swe s') i * fat (ratio x) i;
  ss_ecc : match m with DegreeDay _ _ => fat (Ecc s') i == fat (Ecc s) i
           | EnergyBalance => fat (Ecc s') i == Qmax (fat (Ecc s) i - fat (Q_sum x) i * dt) 0 end
}.

Lemma snow_step m s x s' : snow_update n da dt m s x = Some s' ->
  (forall i, (i < n)%nat -> snow_cell_step m s x s' i) /\
  vol_SM s' == vol_SM s + qsum n (fun i => fat (SM s') i * fat da i * dt).
Proof.
  unfold snow_update, update_meltrate, enforce_max_meltrate, update_swe, update_depth. intros H. bindinv H.
  inversion H; subst; clear H. cbn [SM h_swe h_snow Ecc vol_SM]. split; [|rewrite volume_eq; reflexivity].
  bindinv E0. bindinv E2. intros i Hi. split; cbn [SM h_swe h_snow Ecc].
  - rewrite (fat_store _ _ _ _ _ E0 Hi), fat_lift1 by exact Hi. rewrite (fat_store _ _ _ _ _ E4 Hi), fat_lift2 by exact Hi.
    rewrite (fat_store _ _ _ _ _ E Hi). reflexivity.
  - rewrite (fat_store _ _ _ _ _ E2 Hi), fat_lift1 by exact Hi. rewrite (fat_store _ _ _ _ _ E6 Hi), fat_lift2 by exact Hi.
    rewrite (fat_store _ _ _ _ _ E5 Hi), fat_lift2 by exact Hi. reflexivity.
  - rewrite (fat_store _ _ _ _ _ E3 Hi), fat_lift2 by exact Hi. reflexivity.
  - destruct m; cbn [update_cold_content] in E1.
    + inversion E1; subst. reflexivity.
    + rewrite (fat_store _ _ _ _ _ E1 Hi), fat_lift2 by exact Hi. reflexivity.
Qed.

Lemma snow_step_bounds m s x s' i : snow_update n da dt m s x = Some s' -> (i < n)%nat ->
  0 <= fat (h_swe s) i -> 0 <= fat (sP x) i ->
  0 <= fat (SM s') i /\ fat (SM s') i * dt <= fat (h_swe s) i /\ 0 <= fat (h_swe s') i /\
  fat (h_swe s') i + fat (SM s') i * dt == fat (h_swe s) i + fat (sP x) i * dt.
Proof.
  intros H Hi Hh HP. destruct (proj1 (snow_step m s x s' H) i Hi) as [E1 E2 _ _].
  assert (D : 0 <= fat (h_swe s) i / dt) by (apply Qle_shift_div_l; lra).
  assert (B : 0 <= fat (SM s') i /\ fat (SM s') i <= fat (h_swe s) i / dt) by (rewrite E1; qcase; split; lra).
  destruct B as [B1 B2].
  assert (B3 : fat (SM s') i * dt <= fat (h_swe s) i).
  { rewrite <- (Qdiv_mul (fat (h_swe s) i) dt) by lra. apply Qmult_le_compat_r; [exact B2|lra]. }
  assert (B4 : 0 <= fat (sP x) i * dt) by (apply Qmult_le_0_compat; lra).
  split; [exact B1|]. split; [exact B3|]. rewrite E2. rewrite Q.max_l by lra. split; [lra|ring].
Qed.

Lemma snow_trace_balance m i (Hi : (i < n)%nat) xs : forall s l, snow_trace n da dt m s xs = Some l ->
  0 <= fat (h_swe s) i -> Forall (fun x => 0 <= fat (sP x) i) xs ->
  0 <= fat (h_swe (final s l)) i /\
  fat (h_swe (final s l)) i + depth_at dt i (map SM l) == fat (h_swe s) i + depth_at dt i (map sP xs) /\
  Forall (fun s' => 0 <= fat (SM s') i /\ 0 <= fat (h_swe s') i) l.
Proof.
  induction xs as [|x xs IH]; intros s l H Hh HP; cbn [snow_trace] in H.
  - inversion H; subst. unfold final, depth_at; cbn [last map]. rewrite !qsuml_nil. split; [exact Hh|]. split; [ring|constructor].
  - bindinv H. inversion H; subst; clear H. inversion HP as [|? ? H1 H2]; subst.
    destruct (snow_step_bounds m s x a i E Hi Hh H1) as (B1 & B2 & B3 & B4).
    destruct (IH _ _ E0 B3 H2) as (I1 & I2 & I3). rewrite final_cons. split; [exact I1|]. split.
    + unfold depth_at in *. cbn [map]. rewrite !qsuml_cons. lra.
    + constructor; [split; assumption|exact I3].
Qed.

Lemma snow_trace_volume m xs : forall s l, snow_trace n da dt m s xs = Some l ->
  (forall i, (i < n)%nat -> 0 <= fat (h_swe s) i /\ Forall (fun x => 0 <= fat (sP x) i) xs) ->
  total_volume n da (h_swe (final s l)) + vol_SM (final s l) ==
  total_volume n da (h_swe s) + vol_SM s + qsuml (fun x => volume n da dt (sP x)) xs.
Proof.
  induction xs as [|x xs IH]; intros s l H HP; cbn [snow_trace] in H.
  - inversion H; subst. rewrite qsuml_nil. unfold final; cbn. ring.
  - bindinv H. inversion H; subst; clear H. rewrite final_cons, qsuml_cons.
    assert (St : forall i, (i < n)%nat -> 0 <= fat (h_swe a) i /\
       fat (h_swe a) i + fat (SM a) i * dt == fat (h_swe s) i + fat (sP x) i * dt).
    { intros i Hi. destruct (HP i Hi) as [Hh HF]. inversion HF; subst.
      destruct (snow_step_bounds m s x a i E Hi Hh) as (_ & _ & B3 & B4); [assumption|]. split; assumption. }
    rewrite (IH _ _ E0).
    2:{ intros i Hi. split; [apply St; exact Hi|]. destruct (HP i Hi) as [_ HF]. inversion HF; assumption. }
    destruct (snow_step m s x a E) as [_ V]. rewrite V, !total_volume_eq, volume_eq.
    assert (X : qsum n (fun i => fat (h_swe a) i * fat da i) + qsum n (fun i => fat (SM a) i * fat da i * dt) ==
                qsum n (fun i => fat (h_swe s) i * fat da i) + qsum n (fun i => fat (sP x) i * fat da i * dt)).
    { rewrite <- !qsum_plus. apply qsum_ext. intros i Hi. destruct (St i Hi) as [_ Q].
      transitivity (fat da i * (fat (h_swe a) i + fat (SM a) i * dt)); [ring|]. rewrite Q. ring. }
    lra.
Qed.

Lemma snow_no_error m s x : snow_shapes m s x -> exists s', snow_update n da dt m s x = Some s' /\
  is_scalar (SM s') = is_scalar (SM s) /\ is_scalar (h_swe s') = is_scalar (h_swe s) /\
  is_scalar (h_snow s') = is_scalar (h_snow s) /\ is_scalar (Ecc s') = is_scalar (Ecc s).
Proof.
  intros (H1 & H2 & H3 & H4). unfold snow_update, update_meltrate, enforce_max_meltrate, update_swe, update_depth.
  destruct (store_ok n (SM s) (raw_melt n dt m s x)) as (a & Ea).
  { intros E. destruct (H1 E) as [_ Hm]. destruct m; cbn [raw_melt]; rewrite !is_scalar_lift2.
    - destruct Hm as (-> & -> & ->). reflexivity.
    - destruct Hm as (-> & ->). reflexivity. }
  rewrite Ea. cbn [bind]. destruct (shaped_store _ _ _ _ Ea) as [_ Sa].
  destruct (store_ok n a (lift2 n (fun m0 h => Qmin m0 (h / dt)) a (h_swe s))) as (b & Eb).
  { intros E. rewrite is_scalar_lift2, E. cbn [andb]. apply H1. congruence. }
  rewrite Eb. cbn [bind]. destruct (shaped_store _ _ _ _ Eb) as [_ Sb].
  destruct (store_ok n b (lift1 n (fun m0 => Qmax m0 0) b)) as (c & Ec); [intros E; rewrite is_scalar_lift1; exact E|].
  rewrite Ec. cbn [bind]. destruct (shaped_store _ _ _ _ Ec) as [_ Sc].
  assert (X : exists e, update_cold_content n dt m s x = Some e /\ is_scalar e = is_scalar (Ecc s)).
  { destruct m; cbn [update_cold_content]; [eexists; split; reflexivity|].
    destruct (store_ok n (Ecc s) (lift2 n (fun q e => Qmax (e - q * dt) 0) (Q_sum x) (Ecc s))) as (e & Ee).
    - intros E. rewrite is_scalar_lift2, E, (H4 E). reflexivity.
    - exists e. split; [exact Ee|]. exact (proj2 (shaped_store _ _ _ _ Ee)). }
  destruct X as (e & Ee & Se). rewrite Ee. cbn [bind].
  destruct (store_ok n (h_swe s) (lift2 n (fun h p => h + p * dt) (h_swe s) (sP x))) as (f & Ef).
  { intros E. rewrite is_scalar_lift2, E. cbn [andb]. apply H2. exact E. }
  rewrite Ef. cbn [bind]. destruct (shaped_store _ _ _ _ Ef) as [_ Sf].
  destruct (store_ok n f (lift2 n (fun h m0 => h - m0 * dt) f c)) as (g & Eg).
  { intros E. rewrite is_scalar_lift2, E, Sc, Sb, Sa. cbn [andb]. apply H2. congruence. }
  rewrite Eg. cbn [bind]. destruct (shaped_store _ _ _ _ Eg) as [_ Sg].
  destruct (store_ok n g (lift1 n (fun h => Qmax h 0) g)) as (h & Eh); [intros E; rewrite is_scalar_lift1; exact E|].
  rewrite Eh. cbn [bind]. destruct (shaped_store _ _ _ _ Eh) as [_ Sh].
  destruct (store_ok n (h_snow s) (lift2 n Qmult h (ratio x))) as (k & Ek).
  { intros E. destruct (H3 E) as [A B]. rewrite is_scalar_lift2, Sh, Sg, Sf, A, B. reflexivity. }
  rewrite Ek. cbn [bind]. destruct (shaped_store _ _ _ _ Ek) as [_ Sk].
  eexists. split; [reflexivity|]. cbn. repeat split; congruence.
Qed.

(* energy *)
Definition L : Q := 334000000.
Lemma energy_step s x s' i : snow_update n da dt EnergyBalance s x = Some s' -> (i < n)%nat ->
  0 <= fat (h_swe s) i ->
  exists lost, 0 <= lost /\
    fat (Q_sum x) i * dt == (fat (Ecc s) i - fat (Ecc s') i) + L * (fat (SM s') i * dt) + lost /\
    (~ lost == 0 -> fat (SM s') i * dt == fat (h_swe s) i) /\
    0 <= fat (Ecc s') i /\ (0 < fat (Ecc s') i -> fat (SM s') i == 0).
Proof.
  intros H Hi Hh. destruct (proj1 (snow_step _ s x s' H) i Hi) as [E1 _ _ E4].
  assert (Er : fat (raw_melt n dt EnergyBalance s x) i = Qmax (fat (Q_sum x) i * dt - fat (Ecc s) i) 0 / dt / 334000000).
  { cbn [raw_melt]. rewrite fat_lift2 by exact Hi. reflexivity. }
  rewrite Er in E1. set (E := fat (Q_sum x) i * dt) in *. set (e := fat (Ecc s) i) in *. set (h := fat (h_swe s) i) in *.
  set (R := Qmax (E - e) 0) in *.
  assert (R0 : 0 <= R) by apply Q.le_max_r.
  assert (Er2 : R / dt / 334000000 * (334000000 * dt) == R) by (field; lra).
  assert (M0 : 0 <= R / dt / 334000000). { apply Qle_shift_div_l; [lra|]. apply Qle_trans with 0; [lra|]. apply Qle_shift_div_l; lra. }
  assert (D0 : 0 <= h / dt) by (apply Qle_shift_div_l; lra).
  assert (D1 : h / dt * dt == h) by (field; lra).
  set (sm := fat (SM s') i) in *. set (e' := fat (Ecc s') i) in *.
  assert (Bal : E - e == R - e') by (unfold R; rewrite E4; qcase; lra).
  exists (R - L * (sm * dt)). unfold L.
  assert (S1 : sm <= R / dt / 334000000 /\ (sm == R / dt / 334000000 \/ sm == h / dt)).
  { rewrite E1. qcase; split; try lra; (left; lra) || (right; lra). }
  destruct S1 as [S1 S2].
  assert (P1 : sm * (334000000 * dt) <= R).
  { rewrite <- Er2. apply Qmult_le_compat_r; [exact S1|]. apply Qmult_le_0_compat; lra. }
  split; [lra|]. split; [lra|]. split; [|split].
  - intros Hl. destruct S2 as [S2|S2]; [|rewrite S2; exact D1]. exfalso. apply Hl. rewrite S2. rewrite <- Er2 at 1. ring.
  - rewrite E4. apply Q.le_max_r.
  - intros Hp. assert (R == 0). { unfold R. rewrite E4 in Hp. qcase; lra. }
    assert (R / dt / 334000000 == 0) by (rewrite H0; field; lra). rewrite E1. qcase; lra.
Qed.

Lemma energy_trace i (Hi : (i < n)%nat) xs : forall s l, snow_trace n da dt EnergyBalance s xs = Some l ->
  0 <= fat (h_swe s) i -> Forall (fun x => 0 <= fat (sP x) i) xs ->
  L * depth_at dt i (map SM l) + fat (Ecc s) i <= fat (Ecc (final s l)) i + depth_at dt i (map Q_sum xs).
Proof.
  induction xs as [|x xs IH]; intros s l H Hh HP; cbn [snow_trace] in H.
  - inversion H; subst. unfold final, depth_at; cbn [last map]. rewrite !qsuml_nil. lra.
  - bindinv H. inversion H; subst; clear H. inversion HP as [|? ? H1 H2]; subst.
    destruct (snow_step_bounds _ s x a i E Hi Hh H1) as (B1 & B2 & B3 & B4).
    specialize (IH _ _ E0 B3 H2). rewrite final_cons.
    destruct (energy_step s x a i E Hi Hh) as (lost & L1 & L2 & _).
    unfold depth_at in *. cbn [map]. rewrite !qsuml_cons. lra.
Qed.

(* degree-day *)
Lemma degree_day c0 T0 s x s' i : snow_update n da dt (DegreeDay c0 T0) s x = Some s' -> (i < n)%nat ->
  fat (SM s') i == Qmax (Qmin (fat c0 i / 86400000 * (fat (sT x) i - fat T0 i)) (fat (h_swe s) i / dt)) 0.
Proof.
  intros H Hi. destruct (proj1 (snow_step _ s x s' H) i Hi) as [E1 _ _ _].
  cbn [raw_melt] in E1. rewrite !fat_lift2 in E1 by exact Hi. exact E1.
Qed.
End Grid.
