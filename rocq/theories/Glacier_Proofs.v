From Coq Require Import ZArith QArith Qminmax List Bool Lia Lqa.
From Verif Require Import Base Field Snow_Model Snow_Spec Snow_Proofs.
Import ListNotations.
Local Open Scope Q_scope.

Section Grid.
Variables (n : nat) (da : field) (dt : Q).
Hypothesis Hdt : 0 < dt.
Variable p : gparams.

Lemma qeqb x y : Qeq_bool x y = true -> x == y.
Proof. apply Qeq_bool_iff. Qed.

Lemma limited a h : 0 <= h -> let m := Qmax (Qmin a (h / dt)) 0 in
  0 <= m /\ m * dt <= h /\ (a <= 0 -> m == 0) /\ (h == 0 -> m == 0) /\ (0 <= a -> m * dt == h \/ m == a).
Proof.
  intros Hh m. assert (D : 0 <= h / dt) by (apply Qle_shift_div_l; lra).
  assert (D1 : h / dt * dt == h) by (field; lra).
  assert (B : 0 <= m /\ m <= h / dt /\ (a <= 0 -> m == 0) /\ (0 <= a -> m == h / dt \/ m == a)).
  { unfold m. qcase; (split; [lra|]; split; [lra|]; split; intros; try lra; try (left; lra); right; lra). }
  destruct B as (B1 & B2 & B3 & B4). split; [exact B1|]. split; [|split; [exact B3|split]].
  - rewrite <- D1. apply Qmult_le_compat_r; [exact B2|lra].
  - intros E. assert (h / dt == 0) by (rewrite E; field; lra). lra.
  - intros Ha. destruct (B4 Ha) as [E|E]; [left|right]; rewrite E; [exact D1|reflexivity].
Qed.

Lemma glacier_cell_spec c x : 0 <= gswe c -> 0 <= giwe c -> 0 <= gP x ->
  let c' := glacier_cell dt p c x in
  (0 <= gSM c' /\ gSM c' * dt <= gswe c /\ 0 <= gswe c' /\ gswe c' + gSM c' * dt == gswe c + gP x * dt) /\
  (0 <= gIM c' /\ gIM c' * dt <= giwe c /\ 0 <= giwe c' /\ giwe c' + gIM c' * dt == giwe c) /\
  (~ gIM c' == 0 -> gswe c == 0 /\ gswe c' == 0 /\ gSM c' == 0) /\
  gM_total c' == gSM c' + gIM c' /\
  (0 <= gEccs c -> 0 <= gEccs c') /\ 0 <= gEcci c' /\ (gswe c' == 0 -> gEccs c' == 0) /\ (ghice c == 0 -> gEcci c' == 0) /\
  ghsnow c' == gswe c' * ws p /\ ghice c' == giwe c' * wi p.
Proof.
  intros Hs Hi HP c'. unfold c', glacier_cell. cbn [gSM gIM gM_total gswe giwe ghsnow ghice gEccs gEcci].
  set (E := gQ x * dt). set (SM0 := Qmax (E - gEccs c) 0 / dt / Lrho p).
  destruct (limited SM0 (gswe c) Hs) as (S1 & S2 & _ & S4 & _). set (sm := Qmax (Qmin SM0 (gswe c / dt)) 0) in *.
  assert (P0 : 0 <= gP x * dt) by (apply Qmult_le_0_compat; lra).
  set (swe := Qmax (gswe c + gP x * dt - sm * dt) 0).
  assert (Sw : swe == gswe c + gP x * dt - sm * dt) by (unfold swe; apply Q.max_l; lra).
  assert (Sw0 : 0 <= swe) by apply Q.le_max_r.
  set (im0 := Qmax (Qmax (E - gEcci c) 0 / dt / Lrho p) 0).
  set (im1 := if Qeq_bool swe 0 && Qeq_bool (gswe c) 0 then im0 else 0).
  destruct (limited im1 (giwe c) Hi) as (I1 & I2 & I3 & _ & _). set (im := Qmax (Qmin im1 (giwe c / dt)) 0) in *.
  split; [|split; [|split; [|split; [|split; [|split; [|split; [|split; [|split]]]]]]]].
  - split; [exact S1|]. split; [exact S2|]. split; [exact Sw0|]. rewrite Sw. ring.
  - split; [exact I1|]. split; [exact I2|]. split; [apply Q.le_max_r|]. rewrite Q.max_l by lra. ring.
  - intros Hn. destruct (Qeq_bool swe 0) eqn:E1; [destruct (Qeq_bool (gswe c) 0) eqn:E2|].
    + apply qeqb in E1. apply qeqb in E2. split; [exact E2|]. split; [exact E1|]. apply S4. exact E2.
    + exfalso. apply Hn. apply I3. unfold im1. cbn [andb]. lra.
    + exfalso. apply Hn. apply I3. unfold im1. cbn [andb]. lra.
  - ring.
  - intros He. destruct (Qeq_bool (swe * ws p) 0); [lra|]. destruct (Qle_bool (gP x) 0) eqn:E1; [apply Q.le_max_r|].
    destruct (Qltb 0 (gP x)); [apply Q.le_max_r|exact He].
  - destruct (Qeq_bool (ghice c) 0); [lra|apply Q.le_max_r].
  - intros Hz. assert (Z : Qeq_bool (swe * ws p) 0 = true) by (apply Qeq_bool_iff; rewrite Hz; ring). rewrite Z. reflexivity.
  - intros Hz. apply Qeq_bool_iff in Hz. rewrite Hz. reflexivity.
  - reflexivity.
  - reflexivity.
Qed.

Lemma glacier_cells s x i : (i < n)%nat ->
  get gc0 (cells (glacier_update n da dt p s x)) i = glacier_cell dt p (get gc0 (cells s) i) (get gi0 x i).
Proof. intros Hi. unfold glacier_update. cbn [cells]. rewrite get_tab by exact Hi. reflexivity. Qed.
Lemma glacier_vol s x :
  gvol_SM (glacier_update n da dt p s x) ==
    gvol_SM s + qsum n (fun i => gSM (get gc0 (cells (glacier_update n da dt p s x)) i) * fat da i * dt) /\
  gvol_IM (glacier_update n da dt p s x) ==
    gvol_IM s + qsum n (fun i => gIM (get gc0 (cells (glacier_update n da dt p s x)) i) * fat da i * dt).
Proof.
  unfold glacier_update. cbn [cells gvol_SM gvol_IM]. rewrite !volume_eq.
  assert (A : forall (f : gcell -> Q) l i, f gc0 = 0 -> fat (Grid (map f l)) i = f (get gc0 l i)).
  { intros f l i E. cbn [fat]. unfold get. rewrite <- E. apply map_nth. }
  split; (apply Qplus_comp; [reflexivity|]; apply qsum_ext; intros i Hi; rewrite A by reflexivity; reflexivity).
Qed.

Notation gok := (gok n). Notation snowfall_ok := (snowfall_ok n). Notation gtot := (gtot n da).

Lemma glacier_step s x : gok s -> snowfall_ok x ->
  let s' := glacier_update n da dt p s x in
  gok s' /\
  gtot gswe s' + gvol_SM s' == gtot gswe s + gvol_SM s + qsum n (fun i => gP (get gi0 x i) * fat da i * dt) /\
  gtot giwe s' + gvol_IM s' == gtot giwe s + gvol_IM s.
Proof.
  intros Hs Hx s'. unfold s'. destruct (glacier_vol s x) as [V1 V2].
  assert (C : forall i, (i < n)%nat -> _) by
   (intros i Hi; pose proof (glacier_cell_spec (get gc0 (cells s) i) (get gi0 x i) (proj1 (Hs i Hi)) (proj2 (Hs i Hi)) (Hx i Hi)) as H;
    cbv zeta in H; rewrite <- (glacier_cells s x i Hi) in H; exact H).
  split; [|split].
  - intros i Hi. destruct (C i Hi) as ((_ & _ & A & _) & (_ & _ & B & _) & _). split; assumption.
  - rewrite V1. unfold gtot.
    rewrite (Qplus_comm (gvol_SM s)), Qplus_assoc, <- qsum_plus.
    rewrite (qsum_ext n _ (fun i => gswe (get gc0 (cells s) i) * fat da i + gP (get gi0 x i) * fat da i * dt)).
    + rewrite qsum_plus. ring.
    + intros i Hi. destruct (C i Hi) as ((_ & _ & _ & A) & _).
      transitivity (fat da i * (gswe (get gc0 (cells (glacier_update n da dt p s x)) i) +
                                gSM (get gc0 (cells (glacier_update n da dt p s x)) i) * dt)); [ring|]. rewrite A. ring.
  - rewrite V2. unfold gtot.
    rewrite (Qplus_comm (gvol_IM s)), Qplus_assoc, <- qsum_plus.
    rewrite (qsum_ext n _ (fun i => giwe (get gc0 (cells s) i) * fat da i)); [reflexivity|].
    intros i Hi. destruct (C i Hi) as (_ & (_ & _ & _ & A) & _).
      transitivity (fat da i * (giwe (get gc0 (cells (glacier_update n da dt p s x)) i) +
                                gIM (get gc0 (cells (glacier_update n da dt p s x)) i) * dt)); [ring|]. rewrite A. ring.
Qed.

Lemma glacier_run xs : forall s, gok s -> Forall snowfall_ok xs ->
  let f := final s (glacier_trace n da dt p s xs) in
  gok f /\
  gtot gswe f + gvol_SM f == gtot gswe s + gvol_SM s + qsuml (fun x => qsum n (fun i => gP (get gi0 x i) * fat da i * dt)) xs /\
  gtot giwe f + gvol_IM f == gtot giwe s + gvol_IM s.
Proof.
  induction xs as [|x xs IH]; intros s Hs HF; cbn [glacier_trace].
  - unfold final; cbn [last]. rewrite qsuml_nil. split; [exact Hs|]. split; ring.
  - inversion HF as [|? ? H1 H2]; subst. destruct (glacier_step s x Hs H1) as (A & B & C).
    cbv zeta in *. rewrite final_cons. destruct (IH _ A H2) as (I1 & I2 & I3). rewrite qsuml_cons.
    split; [exact I1|]. split; lra.
Qed.
End Grid.
