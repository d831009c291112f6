(* Lemmas for C69, Spearman cost. *)
From Coq Require Import Reals List Bool Arith Lra Lia.
From Verif Require Import Calib_Model Calib_Spec Spear_Model Spear_Spec.
Import ListNotations.
Local Open Scope R_scope.

(* ---------- sums over lists ---------- *)
Section Sums.
Context {X : Type}.
Definition sm (f : X -> R) (l : list X) : R := rsum (map f l).
Lemma sm_cons f x l : sm f (x :: l) = f x + sm f l. Proof. reflexivity. Qed.
Lemma sm_ext f g l : (forall x, In x l -> f x = g x) -> sm f l = sm g l.
Proof. induction l as [|x l IH]; intros E; [reflexivity|]. rewrite !sm_cons, (E x) by (left; reflexivity).
  rewrite IH; [reflexivity|]. intros; apply E; right; assumption. Qed.
Lemma sm_lin a b f g l : sm (fun x => a * f x + b * g x) l = a * sm f l + b * sm g l.
Proof. induction l as [|x l IH]; [cbn; ring|]. rewrite !sm_cons, IH. ring. Qed.
Lemma sm_nonneg f l : (forall x, In x l -> 0 <= f x) -> 0 <= sm f l.
Proof. induction l as [|x l IH]; intros E; [cbn; lra|]. rewrite sm_cons.
  assert (A := E x (or_introl eq_refl)). assert (B : 0 <= sm f l) by (apply IH; intros; apply E; right; assumption). lra. Qed.
Lemma sm_zero f l : (forall x, In x l -> 0 <= f x) -> sm f l = 0 -> forall x, In x l -> f x = 0.
Proof. induction l as [|x l IH]; intros E Z y Y; [destruct Y|]. rewrite sm_cons in Z.
  assert (A := E x (or_introl eq_refl)).
  assert (B : 0 <= sm f l) by (apply sm_nonneg; intros; apply E; right; assumption).
  destruct Y as [->|Y]; [lra|]. apply IH; auto; [intros; apply E; right; assumption|lra]. Qed.
End Sums.

Lemma combine_self (a : list R) f : rsum (map f (combine a a)) = sm (fun x => f (x, x)) a.
Proof. unfold sm. f_equal. induction a; cbn; congruence. Qed.
Lemma sm_fst a b f : length a = length b -> sm (fun p : R * R => f (fst p)) (combine a b) = sm f a.
Proof. unfold sm. revert b. induction a as [|x a IH]; intros [|y b] L; cbn in L; try discriminate; [reflexivity|].
  cbn. f_equal. apply IH; lia. Qed.
Lemma sm_snd a b f : length a = length b -> sm (fun p : R * R => f (snd p)) (combine a b) = sm f b.
Proof. unfold sm. revert b. induction a as [|x a IH]; intros [|y b] L; cbn in L; try discriminate; [reflexivity|].
  cbn. f_equal. apply IH; lia. Qed.

Lemma rsum_line c d : forall a b, length a = length b -> (forall p, In p (combine a b) -> snd p = c * fst p + d) ->
  rsum b = c * rsum a + d * INR (length a).
Proof. induction a as [|x a IH]; intros [|y b] L E; cbn in L; try discriminate.
  - cbn. ring.
  - cbn [rsum fold_right]. change (fold_right Rplus 0 ?l) with (rsum l). rewrite (IH b) by (try lia; intros; apply E; right; assumption).
    assert (Y := E (x, y) (or_introl eq_refl)). cbn in Y. rewrite Y. cbn [length]. rewrite S_INR. ring. Qed.

Section Corr.
Variables a b : list R.
Hypothesis L : length a = length b.
Let u (p : R * R) := fst p - mean a.
Let v (p : R * R) := snd p - mean b.
Let P := combine a b.
Lemma sxx_u : sxy a a = sm (fun p => u p * u p) P.
Proof. unfold sxy. rewrite combine_self. unfold P, u. rewrite (sm_fst a b (fun x => (x - mean a) * (x - mean a)) L). reflexivity. Qed.
Lemma sxx_v : sxy b b = sm (fun p => v p * v p) P.
Proof. unfold sxy. rewrite combine_self. unfold P, v. rewrite (sm_snd a b (fun x => (x - mean b) * (x - mean b)) L). reflexivity. Qed.
Lemma sxy_uv : sxy a b = sm (fun p => u p * v p) P. Proof. reflexivity. Qed.
Lemma sxx_nonneg_u : 0 <= sxy a a. Proof. rewrite sxx_u. apply sm_nonneg. intros; nra. Qed.
Lemma sxx_nonneg_v : 0 <= sxy b b. Proof. rewrite sxx_v. apply sm_nonneg. intros; nra. Qed.
Lemma sq_sum s t : sm (fun p => (s * u p + t * v p) * (s * u p + t * v p)) P
  = s * s * sxy a a + 2 * s * t * sxy a b + t * t * sxy b b.
Proof. rewrite sxx_u, sxx_v, sxy_uv.
  rewrite (sm_ext _ (fun p => 1 * ((s * s) * (u p * u p) + (2 * s * t) * (u p * v p)) + (t * t) * (v p * v p))) by (intros; ring).
  rewrite (sm_lin 1 (t * t) (fun p => s * s * (u p * u p) + 2 * s * t * (u p * v p)) (fun p => v p * v p)).
  rewrite (sm_lin (s * s) (2 * s * t)). ring. Qed.
(* Cauchy-Schwarz, with its equality case *)
Lemma corr_bounds c : corrcoef a b = Some c -> -1 <= c <= 1 /\
  (forall e, (e = 1 \/ e = -1) -> c = e -> 0 < sxy a a /\ 0 < sxy b b /\
     forall p, In p P -> u p * sqrt (sxy b b) = e * (v p * sqrt (sxy a a))).
Proof. unfold corrcoef. destruct (Req_EM_T _ _) as [|N]; [discriminate|]. intros E. injection E as E.
  assert (A := sxx_nonneg_u). assert (B := sxx_nonneg_v).
  assert (A0 : 0 < sxy a a) by (destruct A as [A|A]; [assumption|exfalso; apply N; rewrite <- A; ring]).
  assert (B0 : 0 < sxy b b) by (destruct B as [B|B]; [assumption|exfalso; apply N; rewrite <- B; ring]).
  rewrite sqrt_mult in E by assumption.
  set (SA := sqrt (sxy a a)) in *. set (SB := sqrt (sxy b b)) in *.
  assert (PA : 0 < SA) by (apply sqrt_lt_R0; assumption). assert (PB : 0 < SB) by (apply sqrt_lt_R0; assumption).
  assert (QA : SA * SA = sxy a a) by (apply sqrt_sqrt; assumption).
  assert (QB : SB * SB = sxy b b) by (apply sqrt_sqrt; assumption).
  assert (EC : sxy a b = c * (SA * SB)) by (rewrite <- E; field; split; lra).
  assert (K : forall e, (e = 1 \/ e = -1) ->
     sm (fun p => (SB * u p + (- e * SA) * v p) * (SB * u p + (- e * SA) * v p)) P = 2 * (SA * SA) * (SB * SB) * (1 - e * c)).
  { intros e He. rewrite sq_sum, EC, <- QA, <- QB. assert (e * e = 1) by (destruct He; subst; ring).
    transitivity (SB * SB * (SA * SA) - 2 * e * c * (SA * SA) * (SB * SB) + (e * e) * (SA * SA) * (SB * SB)); [ring|].
    rewrite H. ring. }
  assert (PAB : 0 < (SA * SA) * (SB * SB)) by (apply Rmult_lt_0_compat; nra).
  assert (G : forall e, 0 <= sm (fun p => (SB * u p + (- e * SA) * v p) * (SB * u p + (- e * SA) * v p)) P)
    by (intros e; apply sm_nonneg; intros x _; exact (Rle_0_sqr (SB * u x + (- e * SA) * v x))).
  assert (G1 := G 1). assert (G2 := G (-1)). rewrite K in G1, G2 by auto.
  split.
  { replace (2 * (SA * SA) * (SB * SB) * (1 - 1 * c)) with ((SA * SA) * (SB * SB) * (2 * (1 - c))) in G1 by ring.
    replace (2 * (SA * SA) * (SB * SB) * (1 - -1 * c)) with ((SA * SA) * (SB * SB) * (2 * (1 + c))) in G2 by ring.
    revert G1 G2 PAB. generalize ((SA * SA) * (SB * SB)). clear. intros; split; nra. }
  intros e He Ec. repeat split; [assumption|assumption|]. intros p Ip.
  assert (Z : sm (fun p => (SB * u p + (- e * SA) * v p) * (SB * u p + (- e * SA) * v p)) P = 0).
  { rewrite K by assumption. rewrite Ec. destruct He; subst e; ring. }
  assert (W := sm_zero _ _ (fun p _ => Rle_0_sqr (SB * u p + (- e * SA) * v p)) Z p Ip). unfold Rsqr in W.
  cbn beta in W. assert (SB * u p + (- e * SA) * v p = 0) by nra. lra. Qed.
Lemma corr_line c d : 0 < sxy a a -> c <> 0 -> (forall p, In p P -> snd p = c * fst p + d) ->
  corrcoef a b = Some (c / Rabs c).
Proof. intros A0 C E.
  assert (MB : a <> [] -> mean b = c * mean a + d).
  { intros NE. unfold mean. rewrite <- L.
    assert (LP : INR (length a) <> 0) by (apply not_0_INR; destruct a; [congruence|cbn; lia]).
    assert (S1 : rsum b = c * rsum a + d * INR (length a)).
    { apply rsum_line; assumption. }
    rewrite S1. field. assumption. }
  assert (NE : a <> []) by (intros ->; unfold sxy in A0; cbn in A0; lra).
  specialize (MB NE).
  assert (V : forall p, In p P -> v p = c * u p) by (intros p Ip; unfold u, v; rewrite E, MB by assumption; ring).
  assert (XY : sxy a b = c * sxy a a).
  { rewrite sxy_uv, sxx_u. rewrite (sm_ext _ (fun p => c * (u p * u p) + 0 * 0)) by (intros p Ip; rewrite V by assumption; ring).
    rewrite (sm_lin c 0 (fun p => u p * u p) (fun _ => 0)). ring. }
  assert (YY : sxy b b = c * c * sxy a a).
  { rewrite sxx_v, sxx_u. rewrite (sm_ext _ (fun p => (c * c) * (u p * u p) + 0 * 0)) by (intros p Ip; rewrite V by assumption; ring).
    rewrite (sm_lin (c * c) 0 (fun p => u p * u p) (fun _ => 0)). ring. }
  assert (CC : 0 < c * c) by nra.
  unfold corrcoef. destruct (Req_EM_T _ _) as [Z|_]; [exfalso; rewrite YY in Z; assert (0 < sxy a a * (c * c * sxy a a)) by (apply Rmult_lt_0_compat; [|apply Rmult_lt_0_compat]; assumption); lra|].
  f_equal. rewrite XY, YY. replace (sxy a a * (c * c * sxy a a)) with (Rsqr (c * sxy a a)) by (unfold Rsqr; ring).
  rewrite sqrt_Rsqr_abs, Rabs_mult, (Rabs_right (sxy a a)) by lra.
  assert (Rabs c <> 0) by (apply Rabs_no_R0; assumption). field. split; lra. Qed.
End Corr.

(* ---------- ranks ---------- *)
Definition rk (l : list R) (x : R) : R := INR (lower l x) + (INR (equal l x) + 1) / 2.
Lemma ranks_length l : length (ranks l) = length l. Proof. apply map_length. Qed.
Lemma equal_pos l x : In x l -> (1 <= equal l x)%nat.
Proof. unfold equal. induction l as [|y l IH]; intros I; [destruct I|]. cbn. destruct (Req_EM_T y x) as [|N]; cbn; [lia|].
  destruct I as [|I]; [congruence|auto]. Qed.
Lemma lower_equal l x y : x < y -> (lower l x + equal l x <= lower l y)%nat.
Proof. intros O. unfold lower, equal. induction l as [|z l IH]; [cbn; lia|]. cbn.
  destruct (Rlt_dec z x), (Req_EM_T z x), (Rlt_dec z y); cbn; try lia; lra. Qed.
Lemma rk_lt l x y : In x l -> x < y -> rk l x < rk l y.
Proof. intros I O. unfold rk. assert (A := lower_equal l x y O). assert (B := equal_pos l x I).
  apply le_INR in A. apply le_INR in B. rewrite plus_INR in A. cbn in B. assert (C := pos_INR (equal l y)). lra. Qed.
Lemma rk_order l x y : In x l -> In y l -> (rk l x < rk l y <-> x < y).
Proof. intros I J. split; [|apply rk_lt; assumption]. intros O. destruct (Rlt_dec x y) as [|N]; [assumption|].
  destruct (Req_EM_T x y) as [->|M]; [lra|]. assert (K := rk_lt l y x J). lra. Qed.
Lemma rk_inj l x y : In x l -> In y l -> rk l x = rk l y -> x = y.
Proof. intros I J E. destruct (Req_EM_T x y) as [|N]; [assumption|]. exfalso.
  destruct (Rlt_dec x y) as [O|O]; [|assert (y < x) by lra]; [assert (K := rk_lt l x y I O)|assert (K := rk_lt l y x J ltac:(assumption))]; lra. Qed.
Lemma ranks_combine x y : combine (ranks x) (ranks y) = map (fun p => (rk x (fst p), rk y (snd p))) (combine x y).
Proof. change (ranks x) with (map (rk x) x). change (ranks y) with (map (rk y) y).
  generalize (rk x) (rk y). revert y. induction x as [|a x IH]; intros [|b y] f g; cbn; [reflexivity..|]. f_equal. apply IH. Qed.

Lemma const_sxx l : sxy l l = 0 <-> constant l.
Proof. unfold sxy. rewrite combine_self. cbn [fst snd]. split.
  - intros Z a b A B. assert (K := sm_zero (fun x => (x - mean l) * (x - mean l)) l (fun x _ => Rle_0_sqr (x - mean l)) Z).
    assert (KA := K a A). assert (KB := K b B). cbn beta in *. destruct (Rmult_integral _ _ KA), (Rmult_integral _ _ KB); lra.
  - intros C. destruct l as [|a l]; [reflexivity|]. assert (M : mean (a :: l) = a).
    { assert (G : forall l, (forall b, In b l -> b = a) -> rsum l = a * INR (length l)).
      { clear. induction l as [|b l IH]; intros E; [cbn; ring|]. cbn [rsum fold_right]. change (fold_right Rplus 0 l) with (rsum l).
        rewrite IH by (intros; apply E; right; assumption). rewrite (E b) by (left; reflexivity). cbn [length]. rewrite S_INR. ring. }
      unfold mean. rewrite G by (intros b B; apply C; [assumption|left; reflexivity]). field. apply not_0_INR. cbn; lia. }
    rewrite M. rewrite (sm_ext _ (fun _ => 0 * 0 + 0 * 0)) by (intros b B; rewrite (C b a B) by (left; reflexivity); ring).
    rewrite (sm_lin 0 0 (fun _ => 0) (fun _ => 0)). ring. Qed.
Lemma const_ranks l : constant (ranks l) <-> constant l.
Proof. unfold ranks. change (fun x => INR (lower l x) + (INR (equal l x) + 1) / 2) with (rk l). split; intros C a b A B.
  - apply (rk_inj l); try assumption. apply C; apply in_map; assumption.
  - apply in_map_iff in A, B. destruct A as (a' & <- & A), B as (b' & <- & B). f_equal. apply C; assumption. Qed.
Lemma sxx_ranks l : ~ constant l -> 0 < sxy (ranks l) (ranks l).
Proof. intros N. destruct (sxx_nonneg_u (ranks l) (ranks l) eq_refl) as [|E]; [assumption|].
  exfalso. apply N. apply const_ranks, const_sxx. congruence. Qed.

(* ---------- the order of two series ---------- *)
Lemma combine_pos (x y : list R) i a c : at_pos x i a -> at_pos y i c -> In (a, c) (combine x y).
Proof. unfold at_pos. revert y i. induction x as [|u x IH]; intros [|v y] [|i] A C; cbn in *; try discriminate.
  - left. congruence.
  - right. eapply IH; eauto. Qed.
Lemma pos_combine (x y : list R) p : In p (combine x y) -> exists i, at_pos x i (fst p) /\ at_pos y i (snd p).
Proof. unfold at_pos. revert y. induction x as [|u x IH]; intros [|v y] I; try destruct I as [I|I]; try destruct I.
  - exists O. subst. split; reflexivity.
  - destruct (IH y I) as (i & A & B). exists (S i). split; assumption. Qed.
Lemma same_pairs x y : same_order x y <-> forall p q, In p (combine x y) -> In q (combine x y) -> (fst p < fst q <-> snd p < snd q).
Proof. split; intros H.
  - intros p q P Q. apply pos_combine in P, Q. destruct P as (i & A & B), Q as (j & C & D). eapply H; eauto.
  - intros i j a b c d A B C D. exact (H (a, c) (b, d) (combine_pos _ _ _ _ _ A C) (combine_pos _ _ _ _ _ B D)). Qed.
Lemma opposite_pairs x y : opposite_order x y <-> forall p q, In p (combine x y) -> In q (combine x y) -> (fst p < fst q <-> snd q < snd p).
Proof. split; intros H.
  - intros p q P Q. apply pos_combine in P, Q. destruct P as (i & A & B), Q as (j & C & D). eapply H; eauto.
  - intros i j a b c d A B C D. exact (H (a, c) (b, d) (combine_pos _ _ _ _ _ A C) (combine_pos _ _ _ _ _ B D)). Qed.
Lemma filter_fst (f : R -> bool) : forall x y : list R, length x = length y -> length (filter f x) = length (filter (fun p => f (fst p)) (combine x y)).
Proof. induction x as [|a x IH]; intros [|b y] L; cbn in L; try discriminate; [reflexivity|]. cbn.
  destruct (f a); cbn; rewrite (IH y) by lia; reflexivity. Qed.
Lemma filter_snd (f : R -> bool) : forall x y : list R, length x = length y -> length (filter f y) = length (filter (fun p => f (snd p)) (combine x y)).
Proof. induction x as [|a x IH]; intros [|b y] L; cbn in L; try discriminate; [reflexivity|]. cbn.
  destruct (f b); cbn; rewrite (IH y) by lia; reflexivity. Qed.
Definition upper (l : list R) (x : R) : nat := length (filter (fun y => if Rlt_dec x y then true else false) l).
Lemma three_parts l x : (lower l x + equal l x + upper l x = length l)%nat.
Proof. unfold lower, equal, upper. induction l as [|y l IH]; [reflexivity|]. cbn.
  destruct (Rlt_dec y x), (Req_EM_T y x), (Rlt_dec x y); cbn; try lia; lra. Qed.

Section Order.
Variables x y : list R.
Hypothesis L : length x = length y.
Lemma same_rk : same_order x y -> forall p, In p (combine x y) -> rk y (snd p) = rk x (fst p).
Proof. intros H p P. rewrite same_pairs in H. unfold rk, lower, equal.
  rewrite !(filter_fst _ x y L), !(filter_snd _ x y L).
  assert (E1 : filter (fun q : R * R => if Rlt_dec (snd q) (snd p) then true else false) (combine x y)
             = filter (fun q => if Rlt_dec (fst q) (fst p) then true else false) (combine x y)).
  { apply filter_ext_in. intros q Q. specialize (H q p Q P). destruct (Rlt_dec (snd q) (snd p)), (Rlt_dec (fst q) (fst p)); tauto. }
  assert (E2 : filter (fun q : R * R => if Req_EM_T (snd q) (snd p) then true else false) (combine x y)
             = filter (fun q => if Req_EM_T (fst q) (fst p) then true else false) (combine x y)).
  { apply filter_ext_in. intros q Q. assert (H1 := H q p Q P). assert (H2 := H p q P Q).
    destruct (Req_EM_T (snd q) (snd p)) as [E|N], (Req_EM_T (fst q) (fst p)) as [E'|N']; try reflexivity; exfalso.
    - rewrite E in *. destruct (Rlt_dec (fst q) (fst p)); [|assert (fst p < fst q) by lra]; assert (snd p < snd p) by tauto; lra.
    - rewrite E' in *. destruct (Rlt_dec (snd q) (snd p)); [|assert (snd p < snd q) by lra]; assert (fst p < fst p) by tauto; lra. }
  rewrite E1, E2. reflexivity. Qed.
Lemma opposite_rk : opposite_order x y -> forall p, In p (combine x y) -> rk y (snd p) = - rk x (fst p) + (INR (length x) + 1).
Proof. intros H p P. rewrite opposite_pairs in H.
  assert (E1 : lower y (snd p) = upper x (fst p)).
  { unfold lower, upper. rewrite (filter_fst _ x y L), (filter_snd _ x y L). f_equal. apply filter_ext_in. intros q Q.
    specialize (H p q P Q). destruct (Rlt_dec (snd q) (snd p)), (Rlt_dec (fst p) (fst q)); tauto. }
  assert (E2 : equal y (snd p) = equal x (fst p)).
  { unfold equal. rewrite (filter_fst _ x y L), (filter_snd _ x y L). f_equal. apply filter_ext_in. intros q Q.
    assert (H1 := H q p Q P). assert (H2 := H p q P Q).
    destruct (Req_EM_T (snd q) (snd p)) as [E|N], (Req_EM_T (fst q) (fst p)) as [E'|N']; try reflexivity; exfalso.
    - rewrite E in *. destruct (Rlt_dec (fst q) (fst p)); [|assert (fst p < fst q) by lra]; assert (snd p < snd p) by tauto; lra.
    - rewrite E' in *. destruct (Rlt_dec (snd q) (snd p)); [|assert (snd p < snd q) by lra]; assert (fst p < fst p) by tauto; lra. }
  unfold rk. rewrite E1, E2. assert (T := three_parts x (fst p)). apply (f_equal INR) in T. rewrite !plus_INR in T. lra. Qed.

Lemma ranks_L : length (ranks x) = length (ranks y). Proof. rewrite !ranks_length. exact L. Qed.
Lemma ranks_line c d : (forall p, In p (combine x y) -> rk y (snd p) = c * rk x (fst p) + d) ->
  forall p, In p (combine (ranks x) (ranks y)) -> snd p = c * fst p + d.
Proof. intros H p P. rewrite ranks_combine in P. apply in_map_iff in P. destruct P as (q & <- & Q). cbn. apply H. exact Q. Qed.
Lemma in_both p : In p (combine x y) -> In (fst p) x /\ In (snd p) y.
Proof. destruct p as [a b]. intros P. split; [eapply in_combine_l|eapply in_combine_r]; exact P. Qed.

Lemma spearman_ends e : (e = 1 \/ e = -1) -> spearman_metric x y = Some ((1 - e) / 2) <->
  (if Req_EM_T e 1 then same_order x y else opposite_order x y) /\ ~ constant x.
Proof. intros He. unfold spearman_metric, spearmanr. split.
  - destruct (corrcoef (ranks x) (ranks y)) as [c|] eqn:C; [|discriminate]. intros E. injection E as E.
    assert (c = e) by lra. subst c. destruct (corr_bounds _ _ ranks_L e C) as [_ B].
    destruct (B e He eq_refl) as (A0 & B0 & K). split.
    2: { intros N. rewrite <- const_ranks, <- const_sxx in N. lra. }
    assert (PA := sqrt_lt_R0 _ A0). assert (PB := sqrt_lt_R0 _ B0).
    assert (G : forall p, In p (combine x y) -> (rk x (fst p) - mean (ranks x)) * sqrt (sxy (ranks y) (ranks y))
                = e * ((rk y (snd p) - mean (ranks y)) * sqrt (sxy (ranks x) (ranks x)))).
    { intros p P. apply (K (rk x (fst p), rk y (snd p))). rewrite ranks_combine. apply in_map_iff. exists p. split; [reflexivity|exact P]. }
    set (SA := sqrt (sxy (ranks x) (ranks x))) in *. set (SB := sqrt (sxy (ranks y) (ranks y))) in *.
    assert (D : forall p q, In p (combine x y) -> In q (combine x y) ->
              (rk x (fst q) - rk x (fst p)) * SB = e * (rk y (snd q) - rk y (snd p)) * SA).
    { intros p q P Q. assert (GP := G p P). assert (GQ := G q Q). nra. }
    assert (F : forall p q, In p (combine x y) -> In q (combine x y) ->
              (rk x (fst p) < rk x (fst q) <-> 0 < e * (rk y (snd q) - rk y (snd p)))).
    { intros p q P Q. specialize (D p q P Q). revert D. generalize (e * (rk y (snd q) - rk y (snd p))). intros t D.
      split; intros H.
      - destruct (Rlt_dec 0 t); [assumption|]. assert (0 < (rk x (fst q) - rk x (fst p)) * SB) by (apply Rmult_lt_0_compat; lra). nra.
      - destruct (Rlt_dec (rk x (fst p)) (rk x (fst q))); [assumption|]. assert (0 < t * SA) by (apply Rmult_lt_0_compat; lra). nra. }
    destruct (Req_EM_T e 1) as [->|N].
    + apply same_pairs. intros p q P Q. destruct (in_both p P), (in_both q Q).
      rewrite <- (rk_order x (fst p)), <- (rk_order y (snd p)) by assumption. rewrite (F p q P Q). split; intros; lra.
    + apply opposite_pairs. intros p q P Q. destruct (in_both p P), (in_both q Q). assert (e = -1) by tauto. subst e.
      rewrite <- (rk_order x (fst p)), <- (rk_order y (snd q)) by assumption. rewrite (F p q P Q). split; intros; lra.
  - intros [H N]. apply sxx_ranks in N.
    rewrite (corr_line (ranks x) (ranks y) ranks_L e (if Req_EM_T e 1 then 0 else INR (length x) + 1) N).
    + f_equal. f_equal. f_equal. destruct He; subst e; [rewrite Rabs_R1|rewrite Rabs_left by lra]; field.
    + destruct He; lra.
    + apply ranks_line. destruct (Req_EM_T e 1) as [->|M].
      * intros p P. rewrite (same_rk H p P). ring.
      * assert (e = -1) by tauto. subst e. intros p P. rewrite (opposite_rk H p P). ring. Qed.
End Order.
