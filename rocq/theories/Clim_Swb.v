(* C78, first part: seasonal water balance classes. *)
From Coq Require Import QArith Lqa List Bool Arith Lia.
From Verif Require Import Base Clim_Model.
Import ListNotations.
Local Open Scope Q_scope.

(* ---------- specification: the boxes of the classes ---------- *)
Definition within (lo x hi : Q) : Prop := lo < x /\ x <= hi.
(* expanded classes with B3 *)
Definition box_of (c : cls) (d_p f_s phi : Q) : Prop :=
  match c with
  | A1 => within (-(1)) d_p (-(1 # 10)) /\ within 0 f_s (45 # 100) /\ within 0 phi (75 # 100)
  | A2 => within (-(1)) d_p (-(1 # 10)) /\ within 0 f_s (45 # 100) /\ within (75 # 100) phi (175 # 100)
  | A3 => within (-(1)) d_p (-(1 # 10)) /\ within 0 f_s (45 # 100) /\ within (175 # 100) phi (58 # 10)
  | B1 => within (-(1)) d_p 1 /\ within (45 # 100) f_s 1 /\ within 0 phi (75 # 100)
  | B2 => within (-(1)) d_p 1 /\ within (45 # 100) f_s 1 /\ within (75 # 100) phi (175 # 100)
  | B3 => within (-(1)) d_p 1 /\ within (45 # 100) f_s 1 /\ within (175 # 100) phi (58 # 10)
  | C1 => within (-(1 # 10)) d_p 1 /\ (0 <= f_s /\ f_s <= 45 # 100) /\ within (9 # 10) phi (15 # 10)
  | C2 => within (-(1 # 10)) d_p 1 /\ (0 <= f_s /\ f_s <= 45 # 100) /\ within (15 # 10) phi (58 # 10)
  | D1 => within (-(4 # 10)) d_p 1 /\ f_s == 0 /\ within 0 phi (9 # 10)
  | D2 => within (-(1 # 10)) d_p 1 /\ within 0 f_s (2 # 10) /\ within 0 phi (9 # 10)
  | D3 => within (-(1 # 10)) d_p 1 /\ within (2 # 10) f_s (45 # 100) /\ within 0 phi (9 # 10)
  end.

(* ---------- lemmas: the place of a number among the bounds ---------- *)
Definition DP : list Q := [-(1); -(4 # 10); -(1 # 10); 0; 3 # 10; 4 # 10; 1].
Definition FS : list Q := [0; 2 # 10; 25 # 100; 45 # 100; 1].
Definition PH : list Q := [0; 4 # 10; 5 # 10; 75 # 100; 9 # 10; 15 # 10; 175 # 100; 5; 53 # 10; 58 # 10].
Fixpoint idx (bs : list Q) (x : Q) : nat := match bs with [] => 0%nat | b :: r => if Qltb b x then S (idx r x) else 0%nat end.
Fixpoint ascending (bs : list Q) : bool := match bs with [] => true | b :: r => match r with [] => true | c :: _ => Qltb b c end && ascending r end.
Lemma idx_le bs x : (idx bs x <= length bs)%nat.
Proof. induction bs as [|b r IH]; cbn; [apply Nat.le_refl|]. destruct (Qltb b x); [apply le_n_S, IH | apply Nat.le_0_l]. Qed.
Lemma asc_head b r : ascending (b :: r) = true -> forall i, (i < length r)%nat -> b < nth i r 0.
Proof.
  revert b. induction r as [|c r IH]; intros b A i I; [inversion I|].
  cbn in A. apply andb_true_iff in A. destruct A as [A A']. apply Qltb_lt in A.
  destruct i as [|i]; [exact A|]. cbn in I. apply Nat.succ_lt_mono in I. apply (Qlt_trans _ _ _ A). apply (IH c A' i I).
Qed.
Lemma idx_spec bs x : ascending bs = true -> forall i, (i < length bs)%nat -> Qltb (nth i bs 0) x = (i <? idx bs x)%nat.
Proof.
  induction bs as [|b r IH]; intros A i I; [inversion I|].
  assert (A' : ascending r = true) by (cbn in A; apply andb_true_iff in A; apply A).
  destruct i as [|i]; cbn [nth idx].
  - destruct (Qltb b x); reflexivity.
  - cbn in I. apply Nat.succ_lt_mono in I. destruct (Qltb b x) eqn:E.
    + rewrite (IH A' i I). reflexivity.
    + apply Qltb_ge in E. cbn. apply Qltb_ge. pose proof (asc_head b r A i I). lra.
Qed.
Definition nb (i k j : nat) : bool := (i <? k)%nat && (k <=? j)%nat.
Lemma Qle_ltb x y : Qle_bool x y = negb (Qltb y x).
Proof. unfold Qltb. rewrite negb_involutive. reflexivity. Qed.
Lemma ltb_leb i k : negb (i <? k)%nat = (k <=? i)%nat.
Proof. rewrite Nat.ltb_antisym. apply negb_involutive. Qed.
Lemma btw_idx bs x : ascending bs = true -> forall i j, (i < length bs)%nat -> (j < length bs)%nat ->
  btw (nth i bs 0) x (nth j bs 0) = nb i (idx bs x) j.
Proof. intros A i j I J. unfold btw, nb. rewrite Qle_ltb, !idx_spec, ltb_leb by assumption. reflexivity. Qed.
Lemma within_btw lo x hi : within lo x hi <-> btw lo x hi = true.
Proof. unfold within, btw. rewrite andb_true_iff, Qltb_lt, Qle_bool_iff. reflexivity. Qed.
Ltac lt := cbn; repeat apply le_n_S; apply Nat.le_0_l.
Lemma bD x i j : (i < 7)%nat -> (j < 7)%nat -> btw (nth i DP 0) x (nth j DP 0) = nb i (idx DP x) j.
Proof. intros. apply (btw_idx DP); [reflexivity | assumption | assumption]. Qed.
Lemma bF x i j : (i < 5)%nat -> (j < 5)%nat -> btw (nth i FS 0) x (nth j FS 0) = nb i (idx FS x) j.
Proof. intros. apply (btw_idx FS); [reflexivity | assumption | assumption]. Qed.
Lemma bP x i j : (i < 10)%nat -> (j < 10)%nat -> btw (nth i PH 0) x (nth j PH 0) = nb i (idx PH x) j.
Proof. intros. apply (btw_idx PH); [reflexivity | assumption | assumption]. Qed.
Lemma le_F x j : (j < 5)%nat -> Qle_bool x (nth j FS 0) = (idx FS x <=? j)%nat.
Proof. intro J. rewrite Qle_ltb, (idx_spec FS), ltb_leb by (reflexivity || exact J). reflexivity. Qed.
(* f_s == 0 *)
Lemma zero_F x : Qeq_bool x 0 = ((idx FS x =? 0)%nat && Qle_bool 0 x).
Proof.
  pose proof (le_F x 0 ltac:(lt)) as L. cbn [nth FS] in L.
  assert (Z : (idx FS x =? 0)%nat = (idx FS x <=? 0)%nat) by (destruct (idx FS x); reflexivity). rewrite Z, <- L.
  destruct (Qeq_bool x 0) eqn:E.
  - apply Qeq_bool_iff in E. symmetry. apply andb_true_iff. rewrite !Qle_bool_iff. lra.
  - apply Qeq_bool_neq in E. symmetry. apply not_true_iff_false. rewrite andb_true_iff, !Qle_bool_iff. lra.
Qed.

(* ---------- the same function of the places ---------- *)
Section Places.
Variables o b : bool.
Variables kd kf kp : nat.
Variable nn : bool.   (* 0 <= f_s *)
Definition gA (c : option cls) : option cls :=
  if nb 0 kd (if o then 1 else 2) then
    if nb 0 kp 3 then if nb 0 kf 3 then Some A1 else c
    else if nb 3 kp 6 then if nb 0 kf 3 then Some A2 else c
    else if nb 6 kp (if o then 7 else 9) then if nb 0 kf (if o || b then 3 else 4) then Some A3 else c
    else c
  else c.
Definition gB (c : option cls) : option cls :=
  if nb 0 kd 6 then
    if nb 3 kf 4 then
      if nb 0 kp 3 then Some B1
      else if nb 3 kp 6 then Some B2
      else if nb 6 kp (if o then 8 else 9) then if b then Some B3 else c
      else c
    else c
  else c.
Definition gC (c : option cls) : option cls :=
  if nb (if o then 3 else 2) kd 6 then
    if nn && (kf <=? (if o then 2 else 3))%nat then
      if nb 4 kp 5 then Some C1
      else if nb 5 kp (if o then 8 else 9) then Some C2
      else c
    else c
  else c.
Definition gD (c : option cls) : option cls :=
  if (kf =? 0)%nat && nn then
    if nb 1 kd (if o then 4 else 6) then if nb (if o then 2 else 0) kp 4 then Some D1 else c else c
  else if nb 0 kf 1 then
    if nb 2 kd (if o then 4 else 6) then if nb (if o then 2 else 0) kp 4 then Some D2 else c else c
  else if nb 1 kf 3 then
    if nb 2 kd (if o then 5 else 6) then if nb (if o then 1 else 0) kp 4 then Some D3 else c else c
  else c.
Definition gG : option cls := gD (gC (gB (gA None))).
End Places.
Section Bridge.
Variables d_p f_s phi : Q.
Notation kd := (idx DP d_p). Notation kf := (idx FS f_s). Notation kp := (idx PH phi).
Lemma match_A_g o b c : match_A o b d_p f_s phi c = gA o b kd kf kp c.
Proof.
  unfold match_A, gA.
  assert (E1 : btw (-(1)) d_p (A_dp_max o) = nb 0 kd (if o then 1 else 2)) by (destruct o; [exact (bD d_p 0 1 ltac:(lt) ltac:(lt)) | exact (bD d_p 0 2 ltac:(lt) ltac:(lt))]).
  assert (E2 : btw 0 phi (75 # 100) = nb 0 kp 3) by exact (bP phi 0 3 ltac:(lt) ltac:(lt)).
  assert (E3 : btw 0 f_s (45 # 100) = nb 0 kf 3) by exact (bF f_s 0 3 ltac:(lt) ltac:(lt)).
  assert (E4 : btw (75 # 100) phi (175 # 100) = nb 3 kp 6) by exact (bP phi 3 6 ltac:(lt) ltac:(lt)).
  assert (E5 : btw (175 # 100) phi (A3_phi_max o) = nb 6 kp (if o then 7 else 9)) by (destruct o; [exact (bP phi 6 7 ltac:(lt) ltac:(lt)) | exact (bP phi 6 9 ltac:(lt) ltac:(lt))]).
  assert (E6 : btw 0 f_s (A3_fs_max o b) = nb 0 kf (if o || b then 3 else 4)) by (destruct o, b; [exact E3 | exact E3 | exact E3 | exact (bF f_s 0 4 ltac:(lt) ltac:(lt))]).
  rewrite E1, E2, E3, E4, E5, E6. reflexivity.
Qed.
Lemma match_B_g o b c : match_B o b d_p f_s phi c = gB o b kd kf kp c.
Proof.
  unfold match_B, gB.
  assert (E1 : btw (-(1)) d_p 1 = nb 0 kd 6) by exact (bD d_p 0 6 ltac:(lt) ltac:(lt)).
  assert (E2 : btw 0 phi (75 # 100) = nb 0 kp 3) by exact (bP phi 0 3 ltac:(lt) ltac:(lt)).
  assert (E3 : btw (45 # 100) f_s 1 = nb 3 kf 4) by exact (bF f_s 3 4 ltac:(lt) ltac:(lt)).
  assert (E4 : btw (75 # 100) phi (175 # 100) = nb 3 kp 6) by exact (bP phi 3 6 ltac:(lt) ltac:(lt)).
  assert (E5 : btw (175 # 100) phi (B3_phi_max o) = nb 6 kp (if o then 8 else 9)) by (destruct o; [exact (bP phi 6 8 ltac:(lt) ltac:(lt)) | exact (bP phi 6 9 ltac:(lt) ltac:(lt))]).
  rewrite E1, E2, E3, E4, E5. reflexivity.
Qed.
Lemma match_C_g o c : match_C o d_p f_s phi c = gC o kd kf kp (Qle_bool 0 f_s) c.
Proof.
  unfold match_C, gC.
  assert (E1 : btw (C_dp_min o) d_p 1 = nb (if o then 3 else 2) kd 6) by (destruct o; [exact (bD d_p 3 6 ltac:(lt) ltac:(lt)) | exact (bD d_p 2 6 ltac:(lt) ltac:(lt))]).
  assert (E2 : Qle_bool f_s (C_fs_max o) = (kf <=? (if o then 2 else 3))%nat) by (destruct o; [exact (le_F f_s 2 ltac:(lt)) | exact (le_F f_s 3 ltac:(lt))]).
  assert (E4 : btw (9 # 10) phi (15 # 10) = nb 4 kp 5) by exact (bP phi 4 5 ltac:(lt) ltac:(lt)).
  assert (E5 : btw (15 # 10) phi (C2_phi_max o) = nb 5 kp (if o then 8 else 9)) by (destruct o; [exact (bP phi 5 8 ltac:(lt) ltac:(lt)) | exact (bP phi 5 9 ltac:(lt) ltac:(lt))]).
  rewrite E1, E2, E4, E5. reflexivity.
Qed.
Lemma match_D_g o c : match_D o d_p f_s phi c = gD o kd kf kp (Qle_bool 0 f_s) c.
Proof.
  unfold match_D, gD. rewrite zero_F.
  assert (E1 : btw (-(4 # 10)) d_p (D1_dp_max o) = nb 1 kd (if o then 4 else 6)) by (destruct o; [exact (bD d_p 1 4 ltac:(lt) ltac:(lt)) | exact (bD d_p 1 6 ltac:(lt) ltac:(lt))]).
  assert (E2 : btw (D2_dp_min o) d_p (D2_dp_max o) = nb 2 kd (if o then 4 else 6)) by (destruct o; [exact (bD d_p 2 4 ltac:(lt) ltac:(lt)) | exact (bD d_p 2 6 ltac:(lt) ltac:(lt))]).
  assert (E3 : btw (D3_dp_min o) d_p (D3_dp_max o) = nb 2 kd (if o then 5 else 6)) by (destruct o; [exact (bD d_p 2 5 ltac:(lt) ltac:(lt)) | exact (bD d_p 2 6 ltac:(lt) ltac:(lt))]).
  assert (F1 : btw (D1_phi_min o) phi (9 # 10) = nb (if o then 2 else 0) kp 4) by (destruct o; [exact (bP phi 2 4 ltac:(lt) ltac:(lt)) | exact (bP phi 0 4 ltac:(lt) ltac:(lt))]).
  assert (F2 : btw (D2_phi_min o) phi (9 # 10) = nb (if o then 2 else 0) kp 4) by (destruct o; [exact (bP phi 2 4 ltac:(lt) ltac:(lt)) | exact (bP phi 0 4 ltac:(lt) ltac:(lt))]).
  assert (F3 : btw (D3_phi_min o) phi (9 # 10) = nb (if o then 1 else 0) kp 4) by (destruct o; [exact (bP phi 1 4 ltac:(lt) ltac:(lt)) | exact (bP phi 0 4 ltac:(lt) ltac:(lt))]).
  assert (G1 : btw 0 f_s (2 # 10) = nb 0 kf 1) by exact (bF f_s 0 1 ltac:(lt) ltac:(lt)).
  assert (G2 : btw (2 # 10) f_s (45 # 100) = nb 1 kf 3) by exact (bF f_s 1 3 ltac:(lt) ltac:(lt)).
  rewrite E1, E2, E3, F1, F2, F3, G1, G2. reflexivity.
Qed.
Lemma swb_g o b : get_swb_class o b d_p f_s phi = gG o b kd kf kp (Qle_bool 0 f_s).
Proof. unfold get_swb_class, gG. rewrite match_D_g, match_C_g, match_B_g, match_A_g. reflexivity. Qed.
(* f_s below 0 is at place 0 *)
Lemma place_neg : Qle_bool 0 f_s = false -> kf = 0%nat.
Proof.
  intro H. assert (L : f_s < 0) by (destruct (Qlt_le_dec f_s 0) as [L|L]; [exact L | apply Qle_bool_iff in L; congruence]).
  assert (E : Qle_bool f_s (nth 0 FS 0) = true) by (apply Qle_bool_iff; cbn; lra). rewrite (le_F f_s 0 ltac:(lt)) in E.
  apply Nat.leb_le in E. inversion E. reflexivity.
Qed.
(* a check of all places proves it for all numbers *)
Definition all_places (P : nat -> nat -> nat -> bool -> bool) : bool :=
  forallb (fun kd => forallb (fun kf => forallb (fun kp => P kd kf kp true && ((negb (kf =? 0)%nat) || P kd kf kp false)) (seq 0 11)) (seq 0 6)) (seq 0 8).
Lemma all_places_spec P : all_places P = true -> P kd kf kp (Qle_bool 0 f_s) = true.
Proof.
  intro H. unfold all_places in H. rewrite forallb_forall in H.
  assert (Hd : In kd (seq 0 8)) by (apply in_seq; split; [apply Nat.le_0_l | apply le_n_S, (idx_le DP)]).
  assert (Hf : In kf (seq 0 6)) by (apply in_seq; split; [apply Nat.le_0_l | apply le_n_S, (idx_le FS)]).
  assert (Hp : In kp (seq 0 11)) by (apply in_seq; split; [apply Nat.le_0_l | apply le_n_S, (idx_le PH)]).
  specialize (H kd Hd). rewrite forallb_forall in H. specialize (H kf Hf). rewrite forallb_forall in H. specialize (H kp Hp).
  apply andb_true_iff in H. destruct H as [H H']. destruct (Qle_bool 0 f_s) eqn:N; [exact H|].
  rewrite (place_neg N) in H' at 1. exact H'.
Qed.
End Bridge.
Definition cls_eqb (a b : cls) : bool := match a, b with
  | A1, A1 | A2, A2 | A3, A3 | B1, B1 | B2, B2 | B3, B3 | C1, C1 | C2, C2 | D1, D1 | D2, D2 | D3, D3 => true | _, _ => false end.
Lemma cls_eqb_iff a b : cls_eqb a b = true <-> a = b.
Proof. split; [destruct a, b; cbn; congruence | intros <-; destruct a; reflexivity]. Qed.
Definition is (r : option cls) (c : cls) : bool := match r with Some x => cls_eqb x c | None => false end.
Lemma is_iff r c : is r c = true <-> r = Some c.
Proof. destruct r; cbn; [rewrite cls_eqb_iff; split; congruence | split; discriminate]. Qed.
Definition none (r : option cls) : bool := match r with Some x => false | None => true end.
Lemma none_iff r : none r = true <-> r = None.
Proof. destruct r; cbn; split; congruence. Qed.
(* the boxes, by places *)
Definition boxn (c : cls) (kd kf kp : nat) (nn : bool) : bool :=
  match c with
  | A1 => nb 0 kd 2 && nb 0 kf 3 && nb 0 kp 3
  | A2 => nb 0 kd 2 && nb 0 kf 3 && nb 3 kp 6
  | A3 => nb 0 kd 2 && nb 0 kf 3 && nb 6 kp 9
  | B1 => nb 0 kd 6 && nb 3 kf 4 && nb 0 kp 3
  | B2 => nb 0 kd 6 && nb 3 kf 4 && nb 3 kp 6
  | B3 => nb 0 kd 6 && nb 3 kf 4 && nb 6 kp 9
  | C1 => nb 2 kd 6 && (nn && (kf <=? 3)%nat) && nb 4 kp 5
  | C2 => nb 2 kd 6 && (nn && (kf <=? 3)%nat) && nb 5 kp 9
  | D1 => nb 1 kd 6 && ((kf =? 0)%nat && nn) && nb 0 kp 4
  | D2 => nb 2 kd 6 && nb 0 kf 1 && nb 0 kp 4
  | D3 => nb 2 kd 6 && nb 1 kf 3 && nb 0 kp 4
  end.
Lemma box_n c d_p f_s phi : box_of c d_p f_s phi <-> boxn c (idx DP d_p) (idx FS f_s) (idx PH phi) (Qle_bool 0 f_s) = true.
Proof.
  assert (C : 0 <= f_s /\ f_s <= 45 # 100 <-> Qle_bool 0 f_s && (idx FS f_s <=? 3)%nat = true).
  { rewrite <- (le_F f_s 3 ltac:(lt)), andb_true_iff, !Qle_bool_iff. reflexivity. }
  assert (D : f_s == 0 <-> (idx FS f_s =? 0)%nat && Qle_bool 0 f_s = true) by (rewrite <- zero_F, Qeq_bool_iff; reflexivity).
  destruct c; unfold box_of, boxn; rewrite ?C, ?D, !within_btw, !andb_true_iff, <- ?and_assoc.
  - rewrite <- (bD d_p 0 2 ltac:(lt) ltac:(lt)), <- (bF f_s 0 3 ltac:(lt) ltac:(lt)), <- (bP phi 0 3 ltac:(lt) ltac:(lt)). reflexivity.
  - rewrite <- (bD d_p 0 2 ltac:(lt) ltac:(lt)), <- (bF f_s 0 3 ltac:(lt) ltac:(lt)), <- (bP phi 3 6 ltac:(lt) ltac:(lt)). reflexivity.
  - rewrite <- (bD d_p 0 2 ltac:(lt) ltac:(lt)), <- (bF f_s 0 3 ltac:(lt) ltac:(lt)), <- (bP phi 6 9 ltac:(lt) ltac:(lt)). reflexivity.
  - rewrite <- (bD d_p 0 6 ltac:(lt) ltac:(lt)), <- (bF f_s 3 4 ltac:(lt) ltac:(lt)), <- (bP phi 0 3 ltac:(lt) ltac:(lt)). reflexivity.
  - rewrite <- (bD d_p 0 6 ltac:(lt) ltac:(lt)), <- (bF f_s 3 4 ltac:(lt) ltac:(lt)), <- (bP phi 3 6 ltac:(lt) ltac:(lt)). reflexivity.
  - rewrite <- (bD d_p 0 6 ltac:(lt) ltac:(lt)), <- (bF f_s 3 4 ltac:(lt) ltac:(lt)), <- (bP phi 6 9 ltac:(lt) ltac:(lt)). reflexivity.
  - rewrite <- (bD d_p 2 6 ltac:(lt) ltac:(lt)), <- (bP phi 4 5 ltac:(lt) ltac:(lt)). reflexivity.
  - rewrite <- (bD d_p 2 6 ltac:(lt) ltac:(lt)), <- (bP phi 5 9 ltac:(lt) ltac:(lt)). reflexivity.
  - rewrite <- (bD d_p 1 6 ltac:(lt) ltac:(lt)), <- (bP phi 0 4 ltac:(lt) ltac:(lt)). reflexivity.
  - rewrite <- (bD d_p 2 6 ltac:(lt) ltac:(lt)), <- (bF f_s 0 1 ltac:(lt) ltac:(lt)), <- (bP phi 0 4 ltac:(lt) ltac:(lt)). reflexivity.
  - rewrite <- (bD d_p 2 6 ltac:(lt) ltac:(lt)), <- (bF f_s 1 3 ltac:(lt) ltac:(lt)), <- (bP phi 0 4 ltac:(lt) ltac:(lt)). reflexivity.
Qed.

Lemma ltD x i : (i < 7)%nat -> (nth i DP 0 < x <-> (i <? idx DP x)%nat = true).
Proof. intro I. rewrite <- (idx_spec DP x eq_refl i I). symmetry. apply Qltb_lt. Qed.
Lemma leD x i : (i < 7)%nat -> (x <= nth i DP 0 <-> (idx DP x <=? i)%nat = true).
Proof. intro I. rewrite <- ltb_leb, negb_true_iff, <- (idx_spec DP x eq_refl i I). symmetry. apply Qltb_ge. Qed.
Lemma ltF x i : (i < 5)%nat -> (nth i FS 0 < x <-> (i <? idx FS x)%nat = true).
Proof. intro I. rewrite <- (idx_spec FS x eq_refl i I). symmetry. apply Qltb_lt. Qed.
Lemma ltP x i : (i < 10)%nat -> (nth i PH 0 < x <-> (i <? idx PH x)%nat = true).
Proof. intro I. rewrite <- (idx_spec PH x eq_refl i I). symmetry. apply Qltb_lt. Qed.
Lemma leP x i : (i < 10)%nat -> (x <= nth i PH 0 <-> (idx PH x <=? i)%nat = true).
Proof. intro I. rewrite <- ltb_leb, negb_true_iff, <- (idx_spec PH x eq_refl i I). symmetry. apply Qltb_ge. Qed.
Lemma wD x i j : (i < 7)%nat -> (j < 7)%nat -> within (nth i DP 0) x (nth j DP 0) <-> nb i (idx DP x) j = true.
Proof. intros I J. rewrite within_btw, bD by assumption. reflexivity. Qed.
Lemma wF x i j : (i < 5)%nat -> (j < 5)%nat -> within (nth i FS 0) x (nth j FS 0) <-> nb i (idx FS x) j = true.
Proof. intros I J. rewrite within_btw, bF by assumption. reflexivity. Qed.
Lemma wP x i j : (i < 10)%nat -> (j < 10)%nat -> within (nth i PH 0) x (nth j PH 0) <-> nb i (idx PH x) j = true.
Proof. intros I J. rewrite within_btw, bP by assumption. reflexivity. Qed.
(* ---------- theorems ---------- *)
(* C78 with the default options each class is exactly its box *)
Theorem C78_swb_boxes d_p f_s phi c : get_swb_class false true d_p f_s phi = Some c <-> box_of c d_p f_s phi.
Proof.
  rewrite swb_g, box_n, <- is_iff.
  pose proof (all_places_spec d_p f_s phi (fun kd kf kp nn => eqb (is (gG false true kd kf kp nn) c) (boxn c kd kf kp nn))
    ltac:(destruct c; vm_compute; reflexivity)) as H.
  cbv beta in H. apply eqb_prop in H. rewrite H. reflexivity.
Qed.
Print Assumptions C78_swb_boxes.
(* C78 no two boxes overlap *)
Theorem C78_swb_no_overlap d_p f_s phi c c' : box_of c d_p f_s phi -> box_of c' d_p f_s phi -> c = c'.
Proof. intros H H'. apply C78_swb_boxes in H, H'. congruence. Qed.
Print Assumptions C78_swb_no_overlap.
(* C78 basins with some snow (and delta_p > -1, 0 < phi <= 5.8) have a class *)
Theorem C78_swb_span d_p f_s phi : within (-(1)) d_p 1 -> within 0 f_s 1 -> within 0 phi (58 # 10) ->
  exists c, get_swb_class false true d_p f_s phi = Some c.
Proof.
  intros A B C. apply (wD d_p 0 6 ltac:(lt) ltac:(lt)) in A. apply (wF f_s 0 4 ltac:(lt) ltac:(lt)) in B. apply (wP phi 0 9 ltac:(lt) ltac:(lt)) in C.
  pose proof (all_places_spec d_p f_s phi (fun kd kf kp nn => implb (nb 0 kd 6 && nb 0 kf 4 && nb 0 kp 9) (negb (none (gG false true kd kf kp nn)))) eq_refl) as H.
  cbv beta in H. rewrite A, B, C in H. cbn [andb implb] in H. rewrite <- swb_g in H.
  destruct (get_swb_class false true d_p f_s phi) as [c|]; [exists c; reflexivity | discriminate].
Qed.
Print Assumptions C78_swb_span.
(* C78 REFUTED "the classes span the full space": a basin without snow has no class when its precipitation is out of
   phase (delta_p <= -0.4), nor when delta_p <= -0.1 and the aridity exceeds 0.9 -- and these are the only ones *)
Theorem C78_swb_span_refuted d_p phi : within (-(1)) d_p 1 -> within 0 phi (58 # 10) ->
  (get_swb_class false true d_p 0 phi = None <-> d_p <= -(4 # 10) \/ (d_p <= -(1 # 10) /\ (9 # 10) < phi)).
Proof.
  intros A C. apply (wD d_p 0 6 ltac:(lt) ltac:(lt)) in A. apply (wP phi 0 9 ltac:(lt) ltac:(lt)) in C.
  pose proof (leD d_p 1 ltac:(lt)) as L1. pose proof (leD d_p 2 ltac:(lt)) as L2. pose proof (ltP phi 4 ltac:(lt)) as L3.
  cbn [nth DP PH] in L1, L2, L3. rewrite L1, L2, L3, <- andb_true_iff, <- orb_true_iff, swb_g, <- none_iff.
  pose proof (all_places_spec d_p 0 phi (fun kd kf kp nn => implb ((kf =? 0)%nat && nn && nb 0 kd 6 && nb 0 kp 9)
    (eqb (none (gG false true kd kf kp nn)) ((kd <=? 1)%nat || (kd <=? 2)%nat && (4 <? kp)%nat))) eq_refl) as H.
  cbv beta in H. rewrite A, C in H. change (idx FS 0 =? 0)%nat with true in H. change (Qle_bool 0 0) with true in H. cbn [andb implb] in H.
  apply eqb_prop in H. change (Qle_bool 0 0) with true. rewrite H. reflexivity.
Qed.
Print Assumptions C78_swb_span_refuted.
(* C78 REFUTED likewise at the ends of the documented ranges: delta_p = -1, phi = 0 and every phi above 5.8 *)
Theorem C78_swb_ends_refuted d_p f_s phi : 0 <= f_s -> f_s <= 1 ->
  d_p == -(1) \/ phi == 0 \/ (58 # 10) < phi -> get_swb_class false true d_p f_s phi = None.
Proof.
  intros _ _ D. rewrite swb_g, <- none_iff.
  assert (E : ((idx DP d_p <=? 0)%nat || ((idx PH phi <=? 0)%nat || (9 <? idx PH phi)%nat)) = true).
  { rewrite !orb_true_iff. rewrite <- (leD d_p 0 ltac:(lt)), <- (leP phi 0 ltac:(lt)), <- (ltP phi 9 ltac:(lt)). cbn [nth DP PH].
    destruct D as [D|[D|D]]; [left; lra | right; left; lra | right; right; exact D]. }
  pose proof (all_places_spec d_p f_s phi (fun kd kf kp nn => implb ((kd <=? 0)%nat || ((kp <=? 0)%nat || (9 <? kp)%nat)) (none (gG false true kd kf kp nn))) eq_refl) as H.
  cbv beta in H. rewrite E in H. exact H.
Qed.
Print Assumptions C78_swb_ends_refuted.
(* C78 without B3 the uncovered basins with snow are those above B2 with precipitation in phase; the others keep their
   class, except that the former B3 with precipitation out of phase becomes A3 *)
Theorem C78_swb_no_b3 d_p f_s phi : within (-(1)) d_p 1 -> within 0 f_s 1 -> within 0 phi (58 # 10) ->
  (get_swb_class false false d_p f_s phi = None <-> (45 # 100) < f_s /\ (175 # 100) < phi /\ -(1 # 10) < d_p) /\
  (forall c, get_swb_class false false d_p f_s phi = Some c ->
     get_swb_class false true d_p f_s phi = Some c \/ c = A3 /\ get_swb_class false true d_p f_s phi = Some B3).
Proof.
  intros A B C. apply (wD d_p 0 6 ltac:(lt) ltac:(lt)) in A. apply (wF f_s 0 4 ltac:(lt) ltac:(lt)) in B. apply (wP phi 0 9 ltac:(lt) ltac:(lt)) in C.
  pose proof (ltD d_p 2 ltac:(lt)) as L1. pose proof (ltF f_s 3 ltac:(lt)) as L2. pose proof (ltP phi 6 ltac:(lt)) as L3.
  cbn [nth DP FS PH] in L1, L2, L3. split.
  - rewrite L1, L2, L3, <- !andb_true_iff, swb_g, <- none_iff.
    pose proof (all_places_spec d_p f_s phi (fun kd kf kp nn => implb (nb 0 kd 6 && nb 0 kf 4 && nb 0 kp 9)
      (eqb (none (gG false false kd kf kp nn)) ((3 <? kf)%nat && ((6 <? kp)%nat && (2 <? kd)%nat)))) eq_refl) as H.
    cbv beta in H. rewrite A, B, C in H. cbn [andb implb] in H. apply eqb_prop in H. rewrite H. reflexivity.
  - intro c. rewrite !swb_g, <- !is_iff.
    pose proof (all_places_spec d_p f_s phi (fun kd kf kp nn => implb (is (gG false false kd kf kp nn) c)
      (is (gG false true kd kf kp nn) c || cls_eqb c A3 && is (gG false true kd kf kp nn) B3)) ltac:(destruct c; vm_compute; reflexivity)) as H.
    cbv beta in H. intro E. rewrite E in H. cbn [implb] in H. apply orb_true_iff in H. destruct H as [H|H]; [left; exact H|].
    apply andb_true_iff in H. destruct H as [H H']. right. split; [apply cls_eqb_iff, H | exact H'].
Qed.
Print Assumptions C78_swb_no_b3.
(* C78 the expanded classes agree with the original ones wherever those apply *)
Theorem C78_swb_extends d_p f_s phi b c :
  get_swb_class true b d_p f_s phi = Some c -> get_swb_class false b d_p f_s phi = Some c.
Proof.
  rewrite !swb_g, <- !is_iff.
  pose proof (all_places_spec d_p f_s phi (fun kd kf kp nn => implb (is (gG true b kd kf kp nn) c) (is (gG false b kd kf kp nn) c))
    ltac:(destruct b, c; vm_compute; reflexivity)) as H.
  cbv beta in H. intro E. rewrite E in H. exact H.
Qed.
Print Assumptions C78_swb_extends.
(* C78 the result is one of the documented names *)
Theorem C78_swb_names o b d_p f_s phi c : get_swb_class o b d_p f_s phi = Some c -> In c (get_swb_class_names b).
Proof.
  intro H. destruct b; [destruct c; cbn; auto 15|]. destruct c; cbn; auto 15. exfalso. revert H.
  unfold get_swb_class, match_D, match_C, match_B, match_A.
  repeat match goal with |- context [if ?x then _ else _] => destruct x end; discriminate.
Qed.
Print Assumptions C78_swb_names.
(* C78 in every mode at most one of the four groups matches, so the order of the tests does not matter *)
Theorem C78_swb_groups o b d_p f_s phi :
  (length (filter (fun c => match c with Some _ => true | None => false end)
     [match_A o b d_p f_s phi None; match_B o b d_p f_s phi None; match_C o d_p f_s phi None; match_D o d_p f_s phi None]) <= 1)%nat.
Proof.
  rewrite match_A_g, match_B_g, match_C_g, match_D_g. apply Nat.leb_le.
  exact (all_places_spec d_p f_s phi (fun kd kf kp nn => (length (filter (fun c : option cls => match c with Some _ => true | None => false end)
     [gA o b kd kf kp None; gB o b kd kf kp None; gC o kd kf kp nn None; gD o kd kf kp nn None]) <=? 1)%nat) ltac:(destruct o, b; vm_compute; reflexivity)).
Qed.
Print Assumptions C78_swb_groups.
(* C78 REFUTED "ORIGINAL uses the classes of Berghuijs et al.": with the default USE_B3 it gives B3, which they do not have *)
Theorem C78_swb_original_refuted d_p f_s phi : within (-(1)) d_p 1 -> within (45 # 100) f_s 1 -> within (175 # 100) phi (53 # 10) ->
  get_swb_class true true d_p f_s phi = Some B3.
Proof.
  intros A B C. apply (wD d_p 0 6 ltac:(lt) ltac:(lt)) in A. apply (wF f_s 3 4 ltac:(lt) ltac:(lt)) in B. apply (wP phi 6 8 ltac:(lt) ltac:(lt)) in C.
  rewrite swb_g, <- is_iff.
  pose proof (all_places_spec d_p f_s phi (fun kd kf kp nn => implb (nb 0 kd 6 && nb 3 kf 4 && nb 6 kp 8) (is (gG true true kd kf kp nn) B3)) eq_refl) as H.
  cbv beta in H. rewrite A, B, C in H. exact H.
Qed.
Print Assumptions C78_swb_original_refuted.
(* C78 REFUTED "unused slots are removed": one more value than there are sites comes back, a 0 *)
Theorem C78_collect_refuted n vals : (length vals < n)%nat -> collect n vals = Some (vals ++ [0]).
Proof.
  intro H. unfold collect. destruct (length vals <=? n)%nat eqn:E.
  - f_equal. rewrite firstn_app, firstn_all2 by lia. f_equal. replace (length vals + 1 - length vals)%nat with 1%nat by lia.
    destruct (n - length vals)%nat eqn:D; [lia | reflexivity].
  - apply Nat.leb_gt in E. lia.
Qed.
Print Assumptions C78_collect_refuted.
Example C78_swb_case : get_swb_class false true (-(1 # 2)) (3 # 10) 1 = Some A2 /\ get_swb_class false true (2 # 10) 0 1 = Some C1 /\
  get_swb_class false true (-(1 # 2)) 0 1 = None /\ get_swb_class false true (-(2 # 10)) 0 2 = None /\
  get_swb_class true true 0 (6 # 10) 2 = Some B3 /\ get_swb_class true false 0 (6 # 10) 2 = None /\
  get_swb_class false false (-(5 # 10)) (6 # 10) 2 = Some A3.
Proof. vm_compute. repeat split. Qed.
Example C78_collect_case : collect 5 [1; 2] = Some [1; 2; 0].
Proof. reflexivity. Qed.
