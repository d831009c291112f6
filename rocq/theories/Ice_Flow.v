(* Lemmas about the fluxes of the glacier component. *)
From Coq Require Import Reals Arith Bool List Lra Lia.
From Verif Require Import Wave_Spec Wave_Proofs Ice_Model Ice_Spec Ice_Proofs.
Local Open Scope R_scope.

Lemma tiny_pos : 0 < tiny. Proof. unfold tiny. lra. Qed.
Lemma glensA_pos : 0 < glensA. Proof. unfold glensA. lra. Qed.

(* the speed is a nonnegative multiple of the direction *)
Definition speed (F S : bool) (tau h : R) : R :=
  (if F then Rabs (4/10 * glensA * tau * tau * tau * h) else 0) +
  (if S then UsChar * exp (1 - (if Rlt_dec (Rabs tau) tiny then taubChar else taubChar / tau)) else 0).
Lemma speed_nonneg F S tau h : 0 <= speed F S tau h.
Proof.
  unfold speed, UsChar. set (e := exp _). assert (0 < e) by apply exp_pos. pose proof (Rabs_pos (4/10 * glensA * tau * tau * tau * h)).
  destruct F, S; lra.
Qed.
Lemma speed_x H Z dx dy F S r c : UxX dx dy H Z F S r c = speed F S (taubX dx dy H Z r c) (HX H r c) * xcmpnt dx dy H Z r c.
Proof. unfold UxX, speed, deform, slide. destruct F, S; try destruct (Rlt_dec _ tiny); ring. Qed.
Lemma speed_y H Z dx dy F S r c : UyY dx dy H Z F S r c = speed F S (taubY dx dy H Z r c) (HY H r c) * ycmpnt dx dy H Z r c.
Proof. unfold UyY, speed, deform, slide. destruct F, S; try destruct (Rlt_dec _ tiny); ring. Qed.

(* q * slope <= 0 and q = 0 on level ground, for a face of either kind *)
Definition face_flux (F S blocked : bool) (h tau cmp : R) : R := (if blocked then 0 else speed F S tau h * cmp) * h.
Lemma downhill F S b h tau tx cmp s : (tau = 0 \/ 0 < h) -> 0 <= tau -> tx = - rhoI * g * h * s ->
  cmp = (if Rlt_dec (Rabs tau) tiny then 0 else tx / tau) ->
  face_flux F S b h tau cmp * s <= 0 /\ (s = 0 -> face_flux F S b h tau cmp = 0) /\ (h = 0 -> face_flux F S b h tau cmp = 0).
Proof.
  intros Hh Ht Etx Ecmp. pose proof (speed_nonneg F S tau h) as Hsp. unfold face_flux. destruct b; [repeat split; intros; lra|].
  set (v := speed F S tau h) in *. clearbody v. subst cmp. destruct (Rlt_dec (Rabs tau) tiny) as [L|L].
  - rewrite Rmult_0_r. repeat split; intros; lra.
  - destruct Hh as [E0 | Hh]. { exfalso. apply L. subst tau. rewrite Rabs_R0. apply tiny_pos. }
    assert (Htau : 0 < tau). { destruct (Req_dec tau 0) as [E|E]; [|lra]. exfalso. apply L. subst tau. rewrite Rabs_R0. apply tiny_pos. }
    subst tx. split; [|split].
    + replace (v * (- rhoI * g * h * s / tau) * h * s) with (- ((v * (rhoI * g)) * (h * h) * (s * s) * / tau)) by (unfold Rdiv; ring).
      assert (0 <= v * (rhoI * g)) by (apply Rmult_le_pos; [lra|]; unfold rhoI, g; lra).
      assert (0 <= h * h) by (apply Rle_0_sqr). assert (0 <= s * s) by apply Rle_0_sqr.
      assert (0 < / tau) by now apply Rinv_0_lt_compat.
      assert (0 <= v * (rhoI * g) * (h * h) * (s * s) * / tau) by (apply Rmult_le_pos; [apply Rmult_le_pos; [apply Rmult_le_pos|]|]; lra). lra.
    + intros ->. unfold Rdiv. ring.
    + intros ->. ring.
Qed.

Section Flow.
Variables H Z : grid.
Variables dx dy : R.
Lemma taubX_cases r c : (taubX dx dy H Z r c = 0 \/ 0 < HX H r c) /\ 0 <= taubX dx dy H Z r c.
Proof. unfold taubX. destruct (Rlt_dec 0 (HX H r c)); split; auto; try lra. apply sqrt_pos. Qed.
Lemma taubY_cases r c : (taubY dx dy H Z r c = 0 \/ 0 < HY H r c) /\ 0 <= taubY dx dy H Z r c.
Proof. unfold taubY. destruct (Rlt_dec 0 (HY H r c)); split; auto; try lra. apply sqrt_pos. Qed.

Definition blockx r c : bool := if Rlt_dec (Rabs (DCLASSx dx H Z r c + 1)) tiny then true else false.
Definition blocky r c : bool := if Rlt_dec (Rabs (DCLASSy dy H Z r c + 1)) tiny then true else false.
Lemma qx0_face F S r c : qx0 dx dy H Z F S r c = face_flux F S (blockx r c) (HX H r c) (taubX dx dy H Z r c) (xcmpnt dx dy H Z r c).
Proof. unfold qx0, face_flux, blockx. rewrite speed_x. destruct (Rlt_dec (Rabs (DCLASSx dx H Z r c + 1)) tiny); reflexivity. Qed.
Lemma qy0_face F S r c : qy0 dx dy H Z F S r c = face_flux F S (blocky r c) (HY H r c) (taubY dx dy H Z r c) (ycmpnt dx dy H Z r c).
Proof. unfold qy0, face_flux, blocky. rewrite speed_y. destruct (Rlt_dec (Rabs (DCLASSy dy H Z r c + 1)) tiny); reflexivity. Qed.

Lemma qx0_downhill F S r c : let q := qx0 dx dy H Z F S r c in
  q * dZidx dx Z r c <= 0 /\ (dZidx dx Z r c = 0 -> q = 0) /\ (HX H r c = 0 -> q = 0).
Proof.
  cbn zeta. rewrite qx0_face. destruct (taubX_cases r c) as [A B]. apply downhill with (tx := taubxX dx H Z r c); auto.
Qed.
Lemma qy0_downhill F S r c : let q := qy0 dx dy H Z F S r c in
  q * dZidy dy Z r c <= 0 /\ (dZidy dy Z r c = 0 -> q = 0) /\ (HY H r c = 0 -> q = 0).
Proof.
  cbn zeta. rewrite qy0_face. destruct (taubY_cases r c) as [A B]. apply downhill with (tx := taubyY dy H Z r c); auto.
Qed.

Lemma qxX_downhill nx B F S r c : let q := qxX nx dx dy H Z B F S r c in
  q * dZidx dx Z r c <= 0 /\ (dZidx dx Z r c = 0 -> q = 0) /\ (HX H r c = 0 -> q = 0).
Proof. cbn zeta. unfold qxX. destruct (_ || _); [repeat split; intros; lra | apply qx0_downhill]. Qed.
Lemma qyY_downhill ny B F S r c : let q := qyY ny dx dy H Z B F S r c in
  q * dZidy dy Z r c <= 0 /\ (dZidy dy Z r c = 0 -> q = 0) /\ (HY H r c = 0 -> q = 0).
Proof. cbn zeta. unfold qyY. destruct (_ || _); [repeat split; intros; lra | apply qy0_downhill]. Qed.
End Flow.

(* ---------- the halo ---------- *)
Lemma side_keep b here i1 i2 zb s r c : here r c = false -> fst (side b here i1 i2 zb s) r c = fst s r c.
Proof. intros E. destruct s as [h z]. destruct b; cbn [side fst]; unfold set_where; rewrite ?E; reflexivity. Qed.
Lemma side_free here i1 i2 zb s r c : here r c = true -> fst (side IceFree here i1 i2 zb s) r c = 0.
Proof. intros E. destruct s as [h z]. cbn [side fst]. unfold set_where. rewrite E. reflexivity. Qed.
Lemma side_zero b here i1 i2 zb s r c : b = ZeroFlux \/ b = ConstFlux -> fst (side b here i1 i2 zb s) r c = fst s r c.
Proof. intros [-> | ->]; destruct s; reflexivity. Qed.

Section Halo.
Variables ny nx : nat.
Variable B : bounds.
Variables H Zb Zi : grid.
Notation Hx := (fst (set_bc ny nx B H Zb Zi)).
Notation Zx := (snd (set_bc ny nx B H Zb Zi)).

Lemma Zx_eq r c : Zx r c = add_halo ny nx Zb r c + Hx r c.
Proof. reflexivity. Qed.

Lemma inner_in m k : (1 <= k <= m)%nat -> inner m k = (k - 1)%nat.
Proof. intros. unfold inner. lia. Qed.
Lemma inner_low m : (1 <= m)%nat -> inner m 0 = 0%nat.
Proof. intros. unfold inner. lia. Qed.
Lemma inner_high m : inner m (m + 1) = (m - 1)%nat.
Proof. unfold inner. lia. Qed.

Lemma Hx_in r c : (1 <= r <= ny)%nat -> (1 <= c <= nx)%nat -> Hx r c = H (r - 1)%nat (c - 1)%nat.
Proof.
  intros Hr Hc. unfold set_bc. cbn [fst].
  rewrite !side_keep; [|apply Nat.eqb_neq; lia..]. cbn [fst]. unfold add_halo. rewrite !inner_in by lia. reflexivity.
Qed.
Lemma Hx_west r : (1 <= r <= ny)%nat -> (1 <= nx)%nat ->
  (West B = IceFree -> Hx r 0%nat = 0) /\ (West B = ZeroFlux \/ West B = ConstFlux -> Hx r 0%nat = H (r - 1)%nat 0%nat).
Proof.
  intros Hr Hc. unfold set_bc. cbn [fst].
  rewrite (side_keep (North B)) by (apply Nat.eqb_neq; lia). rewrite (side_keep (South B)) by (apply Nat.eqb_neq; lia).
  rewrite (side_keep (East B)) by (apply Nat.eqb_neq; lia). split.
  - intros ->. now rewrite side_free.
  - intros E. rewrite side_zero by assumption. cbn [fst]. unfold add_halo. rewrite inner_in, inner_low by lia. reflexivity.
Qed.
Lemma Hx_east r : (1 <= r <= ny)%nat -> (1 <= nx)%nat ->
  (East B = IceFree -> Hx r (nx + 1)%nat = 0) /\
  (East B = ZeroFlux \/ East B = ConstFlux -> Hx r (nx + 1)%nat = H (r - 1)%nat (nx - 1)%nat).
Proof.
  intros Hr Hc. unfold set_bc. cbn [fst].
  rewrite (side_keep (North B)) by (apply Nat.eqb_neq; lia). rewrite (side_keep (South B)) by (apply Nat.eqb_neq; lia). split.
  - intros ->. rewrite side_free; [reflexivity | apply Nat.eqb_refl].
  - intros E. rewrite side_zero by assumption. rewrite side_keep by (apply Nat.eqb_neq; lia).
    cbn [fst]. unfold add_halo. rewrite inner_in, inner_high by lia. reflexivity.
Qed.
Lemma Hx_south c : (1 <= c <= nx)%nat -> (1 <= ny)%nat ->
  (South B = IceFree -> Hx 0%nat c = 0) /\ (South B = ZeroFlux \/ South B = ConstFlux -> Hx 0%nat c = H 0%nat (c - 1)%nat).
Proof.
  intros Hr Hc. unfold set_bc. cbn [fst]. rewrite (side_keep (North B)) by (apply Nat.eqb_neq; lia). split.
  - intros ->. now rewrite side_free.
  - intros E. rewrite side_zero by assumption. rewrite (side_keep (East B)) by (apply Nat.eqb_neq; lia).
    rewrite (side_keep (West B)) by (apply Nat.eqb_neq; lia). cbn [fst]. unfold add_halo. rewrite inner_low, inner_in by lia. reflexivity.
Qed.
Lemma Hx_north c : (1 <= c <= nx)%nat -> (1 <= ny)%nat ->
  (North B = IceFree -> Hx (ny + 1)%nat c = 0) /\
  (North B = ZeroFlux \/ North B = ConstFlux -> Hx (ny + 1)%nat c = H (ny - 1)%nat (c - 1)%nat).
Proof.
  intros Hr Hc. unfold set_bc. cbn [fst]. split.
  - intros ->. rewrite side_free; [reflexivity | apply Nat.eqb_refl].
  - intros E. rewrite side_zero by assumption. rewrite (side_keep (South B)) by (apply Nat.eqb_neq; lia).
    rewrite (side_keep (East B)) by (apply Nat.eqb_neq; lia).
    rewrite (side_keep (West B)) by (apply Nat.eqb_neq; lia). cbn [fst]. unfold add_halo. rewrite inner_high, inner_in by lia. reflexivity.
Qed.
End Halo.

Lemma fluxes_eq ny nx dx dy B F S H Zb :
  fluxes ny nx dx dy B F S H Zb =
  (let s := set_bc ny nx B H Zb (fun r c => Zb r c + Rmax (H r c) 0) in
   (qxX nx dx dy (fst s) (snd s) B F S, qyY ny dx dy (fst s) (snd s) B F S)).
Proof. unfold fluxes. destruct (set_bc _ _ _ _ _ _). reflexivity. Qed.
