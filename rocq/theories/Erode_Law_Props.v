(* C76, the transport law. *)
From Coq Require Import Reals Lra.
From Verif Require Import ChanR_Model ChanR_Proofs Erode_Law.
Local Open Scope R_scope.

(* The law is Qs = K Q^m S^n with both discharges in m^3/s, converted from and to m^3/yr. *)
Theorem C76_law_per_second : forall K m n Q S, 0 <= Q ->
  sediment K m n Q S / 31536000 = K * powr (Q / 31536000) m * powr S n.
Proof.
  intros K m n Q S HQ. unfold sediment. change 31536000 with secs_per_year. assert (Hs : 0 < secs_per_year) by (unfold secs_per_year; lra).
  assert (E : Rpower secs_per_year (1 - m) * powr Q m / secs_per_year = powr (Q / secs_per_year) m).
  { unfold powr. destruct (Rle_dec Q 0) as [H|H].
    - destruct (Rle_dec (Q / secs_per_year) 0) as [H'|H']; [unfold Rdiv; ring|]. exfalso. apply H'.
      assert (Q = 0) by lra. subst Q. unfold Rdiv. lra.
    - destruct (Rle_dec (Q / secs_per_year) 0) as [H'|H'].
      + exfalso. assert (0 < Q / secs_per_year) by (apply Rdiv_lt_0_compat; lra). lra.
      + assert (E1 : Rpower Q m = Rpower (Q / secs_per_year) m * Rpower secs_per_year m).
        { rewrite Rpower_mult_distr; [f_equal; field; lra|lra|exact Hs]. }
        rewrite E1. unfold Rminus. rewrite Rpower_plus, Rpower_1, Rpower_Ropp by exact Hs.
        assert (0 < Rpower secs_per_year m) by apply exp_pos. field. split; lra. }
  rewrite <- E. unfold Rdiv. ring.
Qed.
Print Assumptions C76_law_per_second.

(* No slope, no rain or no drainage area: no sediment; otherwise a positive amount; more slope or more area
   never less. *)
Theorem C76_law : forall K m n p R0 A S, 0 < K -> 0 < m -> 0 < n -> 0 < p -> 0 <= R0 -> 0 <= A -> 0 <= S ->
  let Qs A S := sediment K m n (discharge R0 p A) S in
  0 <= Qs A S /\ (0 < Qs A S <-> 0 < R0 /\ 0 < A /\ 0 < S) /\
  forall A' S', A <= A' -> S <= S' -> Qs A S <= Qs A' S'.
Proof.
  intros K m n p R0 A S HK Hm Hn Hp HR HA HS Qs.
  assert (Hf : 0 < Rpower secs_per_year (1 - m)) by apply exp_pos.
  assert (Hd : forall a, 0 <= a -> 0 <= discharge R0 p a).
  { intros a Ha. unfold discharge. destruct (Req_EM_T p 1); apply Rmult_le_pos; try assumption. apply powr_nonneg. }
  assert (Hdp : forall a, 0 <= a -> (0 < discharge R0 p a <-> 0 < R0 /\ 0 < a)).
  { intros a Ha. unfold discharge. destruct (Req_EM_T p 1); split.
    - intros H. destruct (Req_dec R0 0) as [->|]; [lra|]. destruct (Req_dec a 0) as [->|]; [lra|]. lra.
    - intros [H1 H2]. apply Rmult_lt_0_compat; assumption.
    - intros H. destruct (Req_dec R0 0) as [->|]; [lra|]. destruct (Req_dec a 0) as [->|]; [rewrite powr_0 in H; lra|]. lra.
    - intros [H1 H2]. apply Rmult_lt_0_compat; [assumption|]. apply powr_pos. exact H2. }
  assert (Hmono : forall a a', 0 <= a -> a <= a' -> discharge R0 p a <= discharge R0 p a').
  { intros a a' Ha Haa. unfold discharge. destruct (Req_EM_T p 1); apply Rmult_le_compat_l; try assumption.
    apply powr_mono; lra. }
  assert (Hpos : 0 <= Qs A S).
  { unfold Qs, sediment. repeat apply Rmult_le_pos; try lra; apply powr_nonneg. }
  split; [exact Hpos|]. split.
  - split.
    + intros H. unfold Qs, sediment in H.
      destruct (Req_dec S 0) as [ES|ES]; [rewrite ES, powr_0 in H; lra|].
      destruct (Req_dec (discharge R0 p A) 0) as [EQ|EQ]; [rewrite EQ, powr_0 in H; lra|].
      pose proof (Hd A HA). destruct (proj1 (Hdp A HA) ltac:(lra)). repeat split; try assumption; lra.
    + intros (H1 & H2 & H3). unfold Qs, sediment. pose proof (proj2 (Hdp A HA) (conj H1 H2)) as HQ.
      repeat apply Rmult_lt_0_compat; try assumption; apply powr_pos; assumption.
  - intros A' S' HA' HS'. unfold Qs, sediment.
    apply Rmult_le_compat.
    + repeat apply Rmult_le_pos; try lra; apply powr_nonneg.
    + apply powr_nonneg.
    + apply Rmult_le_compat_l; [lra|]. apply Rmult_le_compat_l; [lra|]. apply powr_mono; [lra|]. apply Hmono; assumption.
    + apply powr_mono; lra.
Qed.
Print Assumptions C76_law.

Example C76_law_case : sediment 2 1 1 (discharge 3 1 5) 7 = 210.
Proof.
  unfold sediment, discharge, powr. destruct (Req_EM_T 1 1) as [_|N]; [|congruence].
  destruct (Rle_dec (3 * 5) 0); [lra|]. destruct (Rle_dec 7 0); [lra|].
  rewrite !Rpower_1 by lra. replace (1 - 1) with 0 by ring. rewrite Rpower_O by (unfold secs_per_year; lra). lra.
Qed.
