(* The fluxes of the mirrored, of the transposed and of the raised landscape. *)
From Coq Require Import Reals Arith Bool List Lra Lia.
From Verif Require Import Wave_Spec Wave_Proofs Ice_Model Ice_Spec Ice_Proofs Ice_Flow.
Local Open Scope R_scope.

Notation free := default_bounds.
Notation surf H Zb := (fun r c => Zb r c + Rmax (H r c) 0).

(* the halo of ice-free boundaries in closed form *)
Lemma Hx_free ny nx H Zb Zi r c :
  fst (set_bc ny nx free H Zb Zi) r c =
  if Nat.eqb r 0 || Nat.eqb r (ny + 1) || Nat.eqb c 0 || Nat.eqb c (nx + 1) then 0 else add_halo ny nx H r c.
Proof.
  unfold set_bc, default_bounds. cbn [West East South North side fst snd]. unfold set_where.
  destruct (Nat.eqb r 0), (Nat.eqb r (ny + 1)), (Nat.eqb c 0), (Nat.eqb c (nx + 1)); reflexivity.
Qed.
Lemma qxX_free nx dx dy H Z F S r c : qxX nx dx dy H Z free F S r c = qx0 dx dy H Z F S r c.
Proof. reflexivity. Qed.
Lemma qyY_free ny dx dy H Z F S r c : qyY ny dx dy H Z free F S r c = qy0 dx dy H Z F S r c.
Proof. reflexivity. Qed.

Lemma sign_opp x : sign (- x) = - sign x.
Proof. unfold sign. destruct (Rlt_dec (- x) 0), (Rlt_dec 0 (- x)), (Rlt_dec x 0), (Rlt_dec 0 x); lra. Qed.

(* ---------- mirror ---------- *)
Section Mirror.
Variables ny nx : nat.
Variables dx dy : R.
(* [H' Z'] is the mirror image of [H Z], both with halo *)
Variables H Z H' Z' : grid.
Hypothesis EH : forall r c, (r <= ny + 1)%nat -> (c <= nx + 1)%nat -> H' r c = H r (nx + 1 - c)%nat.
Hypothesis EZ : forall r c, (r <= ny + 1)%nat -> (c <= nx + 1)%nat -> Z' r c = Z r (nx + 1 - c)%nat.

Lemma m_dZidx r c : (r <= ny + 1)%nat -> (c <= nx)%nat -> dZidx dx Z' r c = - dZidx dx Z r (nx - c)%nat.
Proof.
  intros Hr Hc. unfold dZidx. rewrite !EZ by lia. replace (nx + 1 - (c + 1))%nat with (nx - c)%nat by lia.
  replace (nx + 1 - c)%nat with (nx - c + 1)%nat by lia. unfold Rdiv. ring.
Qed.
Lemma m_dZidy r c : (r <= ny)%nat -> (c <= nx + 1)%nat -> dZidy dy Z' r c = dZidy dy Z r (nx + 1 - c)%nat.
Proof. intros Hr Hc. unfold dZidy. rewrite !EZ by lia. reflexivity. Qed.
Lemma m_HX r c : (r <= ny + 1)%nat -> (c <= nx)%nat -> HX H' r c = HX H r (nx - c)%nat.
Proof.
  intros Hr Hc. unfold HX. rewrite !EH by lia. replace (nx + 1 - (c + 1))%nat with (nx - c)%nat by lia.
  replace (nx + 1 - c)%nat with (nx - c + 1)%nat by lia. unfold Rdiv. ring.
Qed.
Lemma m_HY r c : (r <= ny)%nat -> (c <= nx + 1)%nat -> HY H' r c = HY H r (nx + 1 - c)%nat.
Proof. intros Hr Hc. unfold HY. rewrite !EH by lia. reflexivity. Qed.
Lemma m_taubxX r c : (r <= ny + 1)%nat -> (c <= nx)%nat -> taubxX dx H' Z' r c = - taubxX dx H Z r (nx - c)%nat.
Proof. intros. unfold taubxX. rewrite m_HX, m_dZidx by lia. ring. Qed.
Lemma m_taubyY r c : (r <= ny)%nat -> (c <= nx + 1)%nat -> taubyY dy H' Z' r c = taubyY dy H Z r (nx + 1 - c)%nat.
Proof. intros. unfold taubyY. rewrite m_HY, m_dZidy by lia. ring. Qed.
Lemma m_taubyX r c : (1 <= r <= ny)%nat -> (c <= nx)%nat -> taubyX dy H' Z' r c = taubyX dy H Z r (nx - c)%nat.
Proof.
  intros. unfold taubyX. rewrite !m_taubyY by lia. replace (nx + 1 - (c + 1))%nat with (nx - c)%nat by lia.
  replace (nx + 1 - c)%nat with (nx - c + 1)%nat by lia. unfold Rdiv. ring.
Qed.
Lemma m_taubxY r c : (r <= ny)%nat -> (1 <= c <= nx)%nat -> taubxY dx H' Z' r c = - taubxY dx H Z r (nx + 1 - c)%nat.
Proof.
  intros. unfold taubxY. rewrite !m_taubxX by lia. replace (nx - (c - 1))%nat with (nx + 1 - c)%nat by lia.
  replace (nx + 1 - c - 1)%nat with (nx - c)%nat by lia. unfold Rdiv. ring.
Qed.
Lemma m_taubX r c : (1 <= r <= ny)%nat -> (c <= nx)%nat -> taubX dx dy H' Z' r c = taubX dx dy H Z r (nx - c)%nat.
Proof. intros. unfold taubX. rewrite m_HX, m_taubxX, m_taubyX by lia. destruct (Rlt_dec _ _); [f_equal; ring | reflexivity]. Qed.
Lemma m_taubY r c : (r <= ny)%nat -> (1 <= c <= nx)%nat -> taubY dx dy H' Z' r c = taubY dx dy H Z r (nx + 1 - c)%nat.
Proof. intros. unfold taubY. rewrite m_HY, m_taubxY, m_taubyY by lia. destruct (Rlt_dec _ _); [f_equal; ring | reflexivity]. Qed.
Lemma m_xcmpnt r c : (1 <= r <= ny)%nat -> (c <= nx)%nat -> xcmpnt dx dy H' Z' r c = - xcmpnt dx dy H Z r (nx - c)%nat.
Proof. intros. unfold xcmpnt. rewrite m_taubX, m_taubxX by lia. destruct (Rlt_dec _ _); [lra | unfold Rdiv; ring]. Qed.
Lemma m_ycmpnt r c : (r <= ny)%nat -> (1 <= c <= nx)%nat -> ycmpnt dx dy H' Z' r c = ycmpnt dx dy H Z r (nx + 1 - c)%nat.
Proof. intros. unfold ycmpnt. rewrite m_taubY, m_taubyY by lia. reflexivity. Qed.
Lemma m_CLASS r c : (r <= ny + 1)%nat -> (c <= nx + 1)%nat -> CLASS H' r c = CLASS H r (nx + 1 - c)%nat.
Proof. intros. unfold CLASS. rewrite EH by lia. reflexivity. Qed.
Lemma m_qx0 F S r c : (1 <= r <= ny)%nat -> (c <= nx)%nat -> qx0 dx dy H' Z' F S r c = - qx0 dx dy H Z F S r (nx - c)%nat.
Proof.
  intros. rewrite !qx0_face. unfold face_flux, blockx.
  assert (ED : DCLASSx dx H' Z' r c = DCLASSx dx H Z r (nx - c)%nat).
  { unfold DCLASSx. rewrite !m_CLASS, m_dZidx, sign_opp by lia. replace (nx + 1 - (c + 1))%nat with (nx - c)%nat by lia.
    replace (nx + 1 - c)%nat with (nx - c + 1)%nat by lia. ring. }
  rewrite ED, m_HX, m_taubX, m_xcmpnt by lia. destruct (Rlt_dec _ tiny); ring.
Qed.
Lemma m_qy0 F S r c : (r <= ny)%nat -> (1 <= c <= nx)%nat -> qy0 dx dy H' Z' F S r c = qy0 dx dy H Z F S r (nx + 1 - c)%nat.
Proof.
  intros. rewrite !qy0_face. unfold face_flux, blocky.
  assert (ED : DCLASSy dy H' Z' r c = DCLASSy dy H Z r (nx + 1 - c)%nat).
  { unfold DCLASSy. rewrite !m_CLASS, m_dZidy by lia. reflexivity. }
  rewrite ED, m_HY, m_taubY, m_ycmpnt by lia. reflexivity.
Qed.
End Mirror.

Lemma add_halo_mirror ny nx x r c : (1 <= nx)%nat -> (c <= nx + 1)%nat ->
  add_halo ny nx (mirror nx x) r c = add_halo ny nx x r (nx + 1 - c)%nat.
Proof. intros Hn Hc. unfold add_halo, mirror. f_equal. unfold inner. lia. Qed.
Lemma Hx_mirror ny nx H Zb Zi Zb' Zi' r c : (1 <= nx)%nat -> (c <= nx + 1)%nat ->
  fst (set_bc ny nx free (mirror nx H) Zb' Zi') r c = fst (set_bc ny nx free H Zb Zi) r (nx + 1 - c)%nat.
Proof.
  intros Hn Hc. rewrite !Hx_free. rewrite add_halo_mirror by assumption.
  replace (Nat.eqb (nx + 1 - c) 0) with (Nat.eqb c (nx + 1)).
  2:{ destruct (Nat.eqb_spec c (nx + 1)), (Nat.eqb_spec (nx + 1 - c) 0); lia || reflexivity. }
  replace (Nat.eqb (nx + 1 - c) (nx + 1)) with (Nat.eqb c 0).
  2:{ destruct (Nat.eqb_spec c 0), (Nat.eqb_spec (nx + 1 - c) (nx + 1)); lia || reflexivity. }
  destruct (Nat.eqb r 0), (Nat.eqb r (ny + 1)), (Nat.eqb c 0), (Nat.eqb c (nx + 1)); reflexivity.
Qed.

Lemma flux_mirror ny nx dx dy F S H Zb : (1 <= nx)%nat ->
  (forall r c, (1 <= r <= ny)%nat -> (c <= nx)%nat ->
     fst (fluxes ny nx dx dy free F S (mirror nx H) (mirror nx Zb)) r c = - fst (fluxes ny nx dx dy free F S H Zb) r (nx - c)%nat) /\
  (forall r c, (r <= ny)%nat -> (1 <= c <= nx)%nat ->
     snd (fluxes ny nx dx dy free F S (mirror nx H) (mirror nx Zb)) r c = snd (fluxes ny nx dx dy free F S H Zb) r (nx + 1 - c)%nat).
Proof.
  intros Hn. rewrite !fluxes_eq. cbn zeta. cbn [fst snd].
  assert (EH : forall r c, (r <= ny + 1)%nat -> (c <= nx + 1)%nat ->
    fst (set_bc ny nx free (mirror nx H) (mirror nx Zb) (surf (mirror nx H) (mirror nx Zb))) r c =
    fst (set_bc ny nx free H Zb (surf H Zb)) r (nx + 1 - c)%nat) by (intros; apply Hx_mirror; assumption).
  assert (EZ : forall r c, (r <= ny + 1)%nat -> (c <= nx + 1)%nat ->
    snd (set_bc ny nx free (mirror nx H) (mirror nx Zb) (surf (mirror nx H) (mirror nx Zb))) r c =
    snd (set_bc ny nx free H Zb (surf H Zb)) r (nx + 1 - c)%nat).
  { intros. rewrite !Zx_eq, EH by assumption. rewrite add_halo_mirror by assumption. reflexivity. }
  split; intros r c Hr Hc.
  - rewrite !qxX_free. eapply m_qx0; eassumption.
  - rewrite !qyY_free. eapply m_qy0; eassumption.
Qed.

(* ---------- transposition ---------- *)
Section Transpose.
Variable d : R.
Variables H Z H' Z' : grid.
Hypothesis EH : forall r c, H' r c = H c r.
Hypothesis EZ : forall r c, Z' r c = Z c r.
Lemma t_taubxX r c : taubxX d H' Z' r c = taubyY d H Z c r.
Proof. unfold taubxX, taubyY, HX, HY, dZidx, dZidy. rewrite !EH, !EZ. reflexivity. Qed.
Lemma t_taubyY r c : taubyY d H' Z' r c = taubxX d H Z c r.
Proof. unfold taubxX, taubyY, HX, HY, dZidx, dZidy. rewrite !EH, !EZ. reflexivity. Qed.
Lemma t_taubxY r c : taubxY d H' Z' r c = taubyX d H Z c r.
Proof. unfold taubxY, taubyX. rewrite !t_taubxX. unfold Rdiv. ring. Qed.
Lemma t_taubyX r c : taubyX d H' Z' r c = taubxY d H Z c r.
Proof. unfold taubxY, taubyX. rewrite !t_taubyY. unfold Rdiv. ring. Qed.
Lemma t_HX r c : HX H' r c = HY H c r. Proof. unfold HX, HY. now rewrite !EH. Qed.
Lemma t_HY r c : HY H' r c = HX H c r. Proof. unfold HX, HY. now rewrite !EH. Qed.
Lemma t_taubX r c : taubX d d H' Z' r c = taubY d d H Z c r.
Proof. unfold taubX, taubY. rewrite t_HX, t_taubxX, t_taubyX. destruct (Rlt_dec _ _); [f_equal; ring | reflexivity]. Qed.
Lemma t_taubY r c : taubY d d H' Z' r c = taubX d d H Z c r.
Proof. unfold taubX, taubY. rewrite t_HY, t_taubxY, t_taubyY. destruct (Rlt_dec _ _); [f_equal; ring | reflexivity]. Qed.
Lemma t_qx0 F S r c : qx0 d d H' Z' F S r c = qy0 d d H Z F S c r.
Proof.
  rewrite qx0_face, qy0_face. unfold face_flux, blockx, blocky, DCLASSx, DCLASSy, dZidx, dZidy, CLASS, xcmpnt, ycmpnt.
  rewrite !EH, !EZ, t_HX, t_taubX, t_taubxX. reflexivity.
Qed.
Lemma t_qy0 F S r c : qy0 d d H' Z' F S r c = qx0 d d H Z F S c r.
Proof.
  rewrite qx0_face, qy0_face. unfold face_flux, blockx, blocky, DCLASSx, DCLASSy, dZidx, dZidy, CLASS, xcmpnt, ycmpnt.
  rewrite !EH, !EZ, t_HY, t_taubY, t_taubyY. reflexivity.
Qed.
End Transpose.

Lemma flux_transpose ny nx d F S H Zb r c :
  fst (fluxes nx ny d d free F S (transpose H) (transpose Zb)) r c = snd (fluxes ny nx d d free F S H Zb) c r /\
  snd (fluxes nx ny d d free F S (transpose H) (transpose Zb)) r c = fst (fluxes ny nx d d free F S H Zb) c r.
Proof.
  rewrite !fluxes_eq. cbn zeta. cbn [fst snd].
  assert (EH : forall r c, fst (set_bc nx ny free (transpose H) (transpose Zb) (surf (transpose H) (transpose Zb))) r c =
                           fst (set_bc ny nx free H Zb (surf H Zb)) c r).
  { intros. rewrite !Hx_free. unfold add_halo, transpose.
    destruct (Nat.eqb r0 0), (Nat.eqb c0 (ny + 1)), (Nat.eqb c0 0), (Nat.eqb r0 (nx + 1)); reflexivity. }
  assert (EZ : forall r c, snd (set_bc nx ny free (transpose H) (transpose Zb) (surf (transpose H) (transpose Zb))) r c =
                           snd (set_bc ny nx free H Zb (surf H Zb)) c r).
  { intros. rewrite !Zx_eq, EH. reflexivity. }
  rewrite !qxX_free, !qyY_free. split; [apply t_qx0 | apply t_qy0]; assumption.
Qed.

(* ---------- the same differences of the surface give the same fluxes ---------- *)
Lemma flux_raise ny nx dx dy F S H Zb k r c :
  fst (fluxes ny nx dx dy free F S H (fun r c => Zb r c + k)) r c = fst (fluxes ny nx dx dy free F S H Zb) r c /\
  snd (fluxes ny nx dx dy free F S H (fun r c => Zb r c + k)) r c = snd (fluxes ny nx dx dy free F S H Zb) r c.
Proof.
  rewrite !fluxes_eq. cbn zeta. cbn [fst snd]. rewrite !qxX_free, !qyY_free.
  set (h := fst (set_bc ny nx free H Zb (surf H Zb))).
  set (h' := fst (set_bc ny nx free H (fun r c => Zb r c + k) (surf H (fun r c => Zb r c + k)))).
  set (z := snd (set_bc ny nx free H Zb (surf H Zb))).
  set (z' := snd (set_bc ny nx free H (fun r c => Zb r c + k) (surf H (fun r c => Zb r c + k)))).
  assert (Eh : forall r c, h' r c = h r c) by (intros; unfold h, h'; now rewrite !Hx_free).
  assert (Ez : forall r c, z' r c = z r c + k).
  { intros. unfold z, z'. rewrite !Zx_eq. fold h h'. rewrite Eh. unfold add_halo. ring. }
  clearbody h h' z z'.
  assert (A1 : forall r c, dZidx dx z' r c = dZidx dx z r c) by (intros; unfold dZidx; rewrite !Ez; unfold Rdiv; ring).
  assert (A2 : forall r c, dZidy dy z' r c = dZidy dy z r c) by (intros; unfold dZidy; rewrite !Ez; unfold Rdiv; ring).
  assert (A3 : forall r c, HX h' r c = HX h r c) by (intros; unfold HX; now rewrite !Eh).
  assert (A4 : forall r c, HY h' r c = HY h r c) by (intros; unfold HY; now rewrite !Eh).
  assert (A5 : forall r c, taubxX dx h' z' r c = taubxX dx h z r c) by (intros; unfold taubxX; now rewrite A1, A3).
  assert (A6 : forall r c, taubyY dy h' z' r c = taubyY dy h z r c) by (intros; unfold taubyY; now rewrite A2, A4).
  assert (A7 : forall r c, taubX dx dy h' z' r c = taubX dx dy h z r c) by (intros; unfold taubX, taubyX; now rewrite A3, A5, !A6).
  assert (A8 : forall r c, taubY dx dy h' z' r c = taubY dx dy h z r c) by (intros; unfold taubY, taubxY; now rewrite A4, A6, !A5).
  split.
  - rewrite !qx0_face. unfold face_flux, blockx, DCLASSx, CLASS, xcmpnt. rewrite !Eh, A1, A3, A5, A7. reflexivity.
  - rewrite !qy0_face. unfold face_flux, blocky, DCLASSy, CLASS, ycmpnt. rewrite !Eh, A2, A4, A6, A8. reflexivity.
Qed.
