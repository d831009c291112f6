From Coq Require Import ZArith QArith Qminmax List Bool Lia Lqa ZifyBool Permutation.
From Verif Require Import Base D8_Model D8_Spec.
Import ListNotations.
Local Open Scope Z_scope.

(* ------------------------------------------------------------------ tables *)

Definition resolve_ok (c : Z) : bool :=
  existsb (fun k => (resolve_at c =? g k) && Z.testbit c (Z.of_nat k)) dirs.

Lemma resolve_table : forallb (fun c => resolve_ok (Z.of_nat c)) (seq 1 255) = true.
Proof. vm_compute. reflexivity. Qed.

Lemma In_dirs k : In k dirs <-> (k < 8)%nat.
Proof.
  unfold dirs. cbn. lia.
Qed.

Lemma resolve_spec c : 1 <= c <= 255 ->
  exists k, (k < 8)%nat /\ resolve_at c = g k /\ Z.testbit c (Z.of_nat k) = true.
Proof.
  intros Hc. pose proof resolve_table as H. rewrite forallb_forall in H.
  specialize (H (Z.to_nat c)). rewrite Z2Nat.id in H by lia.
  assert (Hin : In (Z.to_nat c) (seq 1 255)).
  { apply in_seq. lia. }
  specialize (H Hin). unfold resolve_ok in H. apply existsb_exists in H.
  destruct H as (k & Hk & H). apply In_dirs in Hk. apply andb_true_iff in H. destruct H as [H1 H2].
  exists k. split; [exact Hk|]. split; [lia|exact H2].
Qed.

Definition code_of (f : nat -> bool) : Z := sumZ (map (fun k => if f k then g k else 0) dirs).

Lemma bits8 : forall b0 b1 b2 b3 b4 b5 b6 b7 : bool,
    let c := (if b0 then g 0 else 0) + ((if b1 then g 1 else 0) + ((if b2 then g 2 else 0) +
       ((if b3 then g 3 else 0) + ((if b4 then g 4 else 0) + ((if b5 then g 5 else 0) +
       ((if b6 then g 6 else 0) + ((if b7 then g 7 else 0) + 0))))))) in
    0 <= c <= 255 /\ map (fun k => Z.testbit c (Z.of_nat k)) dirs = [b0;b1;b2;b3;b4;b5;b6;b7].
Proof.
  intros b0 b1 b2 b3 b4 b5 b6 b7.
  destruct b0, b1, b2, b3, b4, b5, b6, b7; vm_compute; (split; [split; discriminate|reflexivity]).
Qed.

Lemma code_of_bits f : 0 <= code_of f <= 255 /\
  forall k, (k < 8)%nat -> Z.testbit (code_of f) (Z.of_nat k) = f k.
Proof.
  destruct (bits8 (f 0%nat) (f 1%nat) (f 2%nat) (f 3%nat) (f 4%nat) (f 5%nat) (f 6%nat) (f 7%nat)) as [H1 H2].
  change (code_of f) with ((if f 0%nat then g 0 else 0) + ((if f 1%nat then g 1 else 0) + ((if f 2%nat then g 2 else 0) +
       ((if f 3%nat then g 3 else 0) + ((if f 4%nat then g 4 else 0) + ((if f 5%nat then g 5 else 0) +
       ((if f 6%nat then g 6 else 0) + ((if f 7%nat then g 7 else 0) + 0)))))))).
  split; [exact H1|]. intros k Hk.
  pose proof (f_equal (fun l => nth k l false) H2) as H3. cbn beta in H3.
  destruct k as [|[|[|[|[|[|[|[|k]]]]]]]]; [exact H3..|lia].
Qed.

Lemma code_of_pos f : 0 < code_of f <-> exists k, (k < 8)%nat /\ f k = true.
Proof.
  destruct (code_of_bits f) as [Hr Hb]. split.
  - intros Hp. destruct (existsb f dirs) eqn:E.
    + apply existsb_exists in E. destruct E as (k & Hk & Hf). exists k. split; [apply In_dirs; exact Hk|exact Hf].
    + exfalso. assert (Hall : forall k, (k < 8)%nat -> f k = false).
      { intros k Hk. destruct (f k) eqn:Ef; [|reflexivity].
        assert (existsb f dirs = true); [|congruence]. apply existsb_exists. exists k.
        split; [apply In_dirs; exact Hk|exact Ef]. }
      unfold code_of, dirs in Hp. cbn [map sumZ fold_right] in Hp.
      rewrite !Hall in Hp by lia. cbn in Hp. lia.
  - intros (k & Hk & Hf). assert (code_of f <> 0); [|lia]. intros E.
    rewrite <- (Hb k Hk) in Hf. rewrite E, Z.testbit_0_l in Hf. discriminate.
Qed.

Lemma allowed_table :
  forallb (fun c => forallb (fun k => Bool.eqb (nth k (allowed (Z.of_nat c)) false)
                                         (Z.testbit (Z.of_nat c) (Z.of_nat k))) dirs) (seq 0 256) = true.
Proof. vm_compute. reflexivity. Qed.

Lemma allowed_spec c k : 0 <= c <= 255 -> (k < 8)%nat ->
  nth k (allowed c) false = Z.testbit c (Z.of_nat k).
Proof.
  intros Hc Hk. pose proof allowed_table as H. rewrite forallb_forall in H.
  specialize (H (Z.to_nat c)). rewrite Z2Nat.id in H by lia.
  assert (Hin : In (Z.to_nat c) (seq 0 256)) by (apply in_seq; lia).
  specialize (H Hin). rewrite forallb_forall in H.
  specialize (H k (proj2 (In_dirs k) Hk)). apply Bool.eqb_prop in H. exact H.
Qed.

Lemma eight k : (k < 8)%nat ->
  k = 0%nat \/ k = 1%nat \/ k = 2%nat \/ k = 3%nat \/ k = 4%nat \/ k = 5%nat \/ k = 6%nat \/ k = 7%nat.
Proof. lia. Qed.
Ltac by_dir Hk := destruct (eight _ Hk) as [->|[->|[->|[->|[->|[->|[->| ->]]]]]]].

Lemma g_range k : (k < 8)%nat -> 1 <= g k <= 128.
Proof. intros Hk. by_dir Hk; cbv; split; discriminate. Qed.

Lemma g_inj k k' : (k < 8)%nat -> (k' < 8)%nat -> g k = g k' -> k = k'.
Proof. intros Hk Hk' H. by_dir Hk; by_dir Hk'; try reflexivity; cbv in H; discriminate. Qed.

Lemma g_testbit k k' : (k < 8)%nat -> (k' < 8)%nat -> Z.testbit (g k) (Z.of_nat k') = true -> k = k'.
Proof. intros Hk Hk' H. by_dir Hk; by_dir Hk'; try reflexivity; cbv in H; discriminate. Qed.

(* opposite direction *)
Definition opp (k : nat) : nat := nth k [4; 5; 6; 7; 0; 1; 2; 3]%nat 0%nat.
Lemma opp_lt k : (k < 8)%nat -> (opp k < 8)%nat.
Proof. intros Hk. by_dir Hk; cbv; lia. Qed.
Lemma opp_opp k : (k < 8)%nat -> opp (opp k) = k.
Proof. intros Hk. by_dir Hk; reflexivity. Qed.
Lemma h_opp k : (k < 8)%nat -> h k = g (opp k).
Proof. intros Hk. by_dir Hk; reflexivity. Qed.
Lemma drow_opp k : (k < 8)%nat -> drow (opp k) = - drow k.
Proof. intros Hk. by_dir Hk; reflexivity. Qed.
Lemma dcol_opp k : (k < 8)%nat -> dcol (opp k) = - dcol k.
Proof. intros Hk. by_dir Hk; reflexivity. Qed.

Definition is_gk (c : Z) : bool := existsb (fun k => c =? g k) dirs.
Lemma final_table : forallb (fun c => get 0 valid_code_map c =? (if is_gk (Z.of_nat c) then Z.of_nat c else 0)) (seq 0 129) = true.
Proof. vm_compute. reflexivity. Qed.

Lemma is_gk_spec c : is_gk c = true <-> exists k, (k < 8)%nat /\ c = g k.
Proof.
  unfold is_gk. rewrite existsb_exists. split.
  - intros (k & Hk & E). exists k. split; [apply In_dirs; exact Hk|lia].
  - intros (k & Hk & E). exists k. split; [apply In_dirs; exact Hk|lia].
Qed.

Lemma final_code_spec c : final_code c = if is_gk c then c else 0.
Proof.
  unfold final_code. destruct ((c <? 0) || (128 <? c)) eqn:E.
  - assert (is_gk c = false) as ->.
    { destruct (is_gk c) eqn:Eg; [|reflexivity]. apply is_gk_spec in Eg. destruct Eg as (k & Hk & ->).
      pose proof (g_range k Hk). lia. }
    reflexivity.
  - pose proof final_table as H. rewrite forallb_forall in H. specialize (H (Z.to_nat c)).
    assert (Hin : In (Z.to_nat c) (seq 0 129)) by (apply in_seq; lia).
    specialize (H Hin). rewrite Z2Nat.id in H by lia. lia.
Qed.

Lemma final_code_g k : (k < 8)%nat -> final_code (g k) = g k.
Proof.
  intros Hk. rewrite final_code_spec. assert (is_gk (g k) = true) as ->; [|reflexivity].
  apply is_gk_spec. exists k. auto.
Qed.

(* ------------------------------------------------------------------ neighbours *)

Section Geometry.
Variable G : geom.
Hypothesis HG : geom_ok G.

Lemma nx_pos : 0 < nx G. Proof. apply HG. Qed.
Lemma ny_pos : 0 < ny G. Proof. apply HG. Qed.

Lemma row_flat r c : 0 <= r -> 0 <= c < nx G -> row G (flat G r c) = r.
Proof.
  intros Hr Hc. unfold row, flat. pose proof nx_pos. rewrite Z2Nat.id by nia.
  rewrite Z.add_comm, Z.div_add by lia. rewrite Z.div_small by lia. lia.
Qed.
Lemma col_flat r c : 0 <= r -> 0 <= c < nx G -> col G (flat G r c) = c.
Proof.
  intros Hr Hc. unfold col, flat. pose proof nx_pos. rewrite Z2Nat.id by nia.
  rewrite Z.add_comm, Z.mod_add by lia. apply Z.mod_small. lia.
Qed.
Lemma flat_row_col i : flat G (row G i) (col G i) = i.
Proof.
  unfold flat, row, col. pose proof nx_pos.
  rewrite Z.mul_comm, <- Z.div_mod by lia. apply Nat2Z.id.
Qed.
Lemma col_range i : 0 <= col G i < nx G.
Proof. unfold col. apply Z.mod_pos_bound. exact nx_pos. Qed.
Lemma row_range i : (i < ncells G)%nat -> 0 <= row G i < ny G.
Proof.
  intros Hi. unfold ncells in Hi. unfold row. pose proof nx_pos. split.
  - apply Z.div_pos; lia.
  - apply Z.div_lt_upper_bound; lia.
Qed.
Lemma flat_lt r c : 0 <= r < ny G -> 0 <= c < nx G -> (flat G r c < ncells G)%nat.
Proof. intros Hr Hc. unfold flat, ncells. nia. Qed.

Lemma nbr_lt k i : (nbr G k i < ncells G)%nat.
Proof. unfold nbr. apply flat_lt; apply Z.mod_pos_bound; [exact ny_pos|exact nx_pos]. Qed.

Lemma row_nbr k i : row G (nbr G k i) = (row G i + drow k) mod ny G.
Proof.
  unfold nbr. apply row_flat; [apply Z.mod_pos_bound, ny_pos|apply Z.mod_pos_bound, nx_pos].
Qed.
Lemma col_nbr k i : col G (nbr G k i) = (col G i + dcol k) mod nx G.
Proof.
  unfold nbr. apply col_flat; [apply Z.mod_pos_bound, ny_pos|apply Z.mod_pos_bound, nx_pos].
Qed.

Lemma mod_back r a m : 0 < m -> 0 <= r < m -> ((r + a) mod m + - a) mod m = r.
Proof.
  intros Hm Hr. rewrite Z.add_mod_idemp_l by lia.
  replace (r + a + - a) with r by lia. apply Z.mod_small. lia.
Qed.

Lemma nbr_opp k i : (k < 8)%nat -> (i < ncells G)%nat -> nbr G (opp k) (nbr G k i) = i.
Proof.
  intros Hk Hi. unfold nbr at 1. rewrite row_nbr, col_nbr, drow_opp, dcol_opp by exact Hk.
  rewrite mod_back; [|exact ny_pos|apply row_range; exact Hi].
  rewrite mod_back; [|exact nx_pos|apply col_range].
  apply flat_row_col.
Qed.

Lemma nbr_opp' k i : (k < 8)%nat -> (i < ncells G)%nat -> nbr G k (nbr G (opp k) i) = i.
Proof.
  intros Hk Hi. rewrite <- (opp_opp k Hk) at 1. apply nbr_opp; [apply opp_lt; exact Hk|exact Hi].
Qed.

Lemma offset_g k : (k < 8)%nat -> offset (g k) = Some (drow k, dcol k).
Proof. intros Hk. by_dir Hk; reflexivity. Qed.

Lemma target_g k i : (k < 8)%nat -> target G i (g k) = Some (nbr G k i).
Proof. intros Hk. unfold target. rewrite offset_g by exact Hk. reflexivity. Qed.

Lemma offset_some c : offset c <> None -> exists k, (k < 8)%nat /\ c = g k.
Proof.
  intros H.
  assert (Hc : c = 1 \/ c = 2 \/ c = 4 \/ c = 8 \/ c = 16 \/ c = 32 \/ c = 64 \/ c = 128).
  { unfold offset in H.
    repeat (match goal with
            | H : match ?x with _ => _ end <> None |- _ => destruct x; try (exfalso; apply H; reflexivity); try lia
            end). }
  destruct Hc as [->|[->|[->|[->|[->|[->|[->| ->]]]]]]].
  - exists 0%nat; split; [lia|reflexivity].
  - exists 1%nat; split; [lia|reflexivity].
  - exists 2%nat; split; [lia|reflexivity].
  - exists 3%nat; split; [lia|reflexivity].
  - exists 4%nat; split; [lia|reflexivity].
  - exists 5%nat; split; [lia|reflexivity].
  - exists 6%nat; split; [lia|reflexivity].
  - exists 7%nat; split; [lia|reflexivity].
Qed.

Lemma dist_pos k : (k < 8)%nat -> (0 < dist G k)%Q.
Proof. destruct HG as (_ & _ & H1 & H2 & H3). intros Hk. by_dir Hk; assumption. Qed.

Lemma step_length_g k : (k < 8)%nat -> step_length G (g k) = dist G k.
Proof. intros Hk. by_dir Hk; reflexivity. Qed.

End Geometry.

(* ------------------------------------------------------------------ slopes *)

Lemma omax_some a b m : omax a b = Some m ->
  exists x y, a = Some x /\ b = Some y /\ m = Qmax x y.
Proof. destruct a as [x|], b as [y|]; cbn; intros H; try discriminate. inversion H. exists x, y. auto. Qed.

Lemma max_slope_some G dem i m : max_slope G dem i = Some m ->
  forall k, (k < 8)%nat -> exists s, slope G dem i k = Some s /\ (s <= m)%Q.
Proof.
  unfold max_slope. intros H.
  apply omax_some in H. destruct H as (x6 & y7 & H & E7 & ->).
  apply omax_some in H. destruct H as (x5 & y6 & H & E6 & ->).
  apply omax_some in H. destruct H as (x4 & y5 & H & E5 & ->).
  apply omax_some in H. destruct H as (x3 & y4 & H & E4 & ->).
  apply omax_some in H. destruct H as (x2 & y3 & H & E3 & ->).
  apply omax_some in H. destruct H as (x1 & y2 & H & E2 & ->).
  apply omax_some in H. destruct H as (x0 & y1 & E0 & E1 & ->).
  intros k Hk.
  pose proof (Q.le_max_l x0 y1). pose proof (Q.le_max_r x0 y1).
  generalize dependent (Qmax x0 y1). intros m1 L1 R1.
  pose proof (Q.le_max_l m1 y2). pose proof (Q.le_max_r m1 y2).
  generalize dependent (Qmax m1 y2). intros m2 L2 R2.
  pose proof (Q.le_max_l m2 y3). pose proof (Q.le_max_r m2 y3).
  generalize dependent (Qmax m2 y3). intros m3 L3 R3.
  pose proof (Q.le_max_l m3 y4). pose proof (Q.le_max_r m3 y4).
  generalize dependent (Qmax m3 y4). intros m4 L4 R4.
  pose proof (Q.le_max_l m4 y5). pose proof (Q.le_max_r m4 y5).
  generalize dependent (Qmax m4 y5). intros m5 L5 R5.
  pose proof (Q.le_max_l m5 y6). pose proof (Q.le_max_r m5 y6).
  generalize dependent (Qmax m5 y6). intros m6 L6 R6.
  pose proof (Q.le_max_l m6 y7). pose proof (Q.le_max_r m6 y7).
  generalize dependent (Qmax m6 y7). intros m7 L7 R7.
  by_dir Hk; [exists x0|exists y1|exists y2|exists y3|exists y4|exists y5|exists y6|exists y7];
    (split; [assumption|lra]).
Qed.

Lemma omax_attained a b m : omax a b = Some m ->
  (exists x, a = Some x /\ x == m)%Q \/ (exists x, b = Some x /\ x == m)%Q.
Proof.
  intros H. apply omax_some in H. destruct H as (x & y & -> & -> & ->).
  destruct (Q.max_spec x y) as [[_ E]|[_ E]]; [right; exists y|left; exists x]; split; auto; symmetry; exact E.
Qed.

Lemma max_slope_attained G dem i m : max_slope G dem i = Some m ->
  exists k s, (k < 8)%nat /\ slope G dem i k = Some s /\ (s == m)%Q.
Proof.
  unfold max_slope. intros H.
  assert (St : forall a b q, omax a b = Some q -> (q == m)%Q ->
             (exists x, a = Some x /\ x == m)%Q \/ (exists x, b = Some x /\ x == m)%Q).
  { intros a b q Hq Hm. destruct (omax_attained _ _ _ Hq) as [(x & Hx & E)|(x & Hx & E)];
      [left|right]; exists x; (split; [exact Hx|]); rewrite E; exact Hm. }
  destruct (St _ _ _ H (Qeq_refl m)) as [(q7 & H7 & E7)|(s & Hs & E)]; [|exists 7%nat, s; split; [lia|auto]].
  destruct (St _ _ _ H7 E7) as [(q6 & H6 & E6)|(s & Hs & E)]; [|exists 6%nat, s; split; [lia|auto]].
  destruct (St _ _ _ H6 E6) as [(q5 & H5 & E5)|(s & Hs & E)]; [|exists 5%nat, s; split; [lia|auto]].
  destruct (St _ _ _ H5 E5) as [(q4 & H4 & E4)|(s & Hs & E)]; [|exists 4%nat, s; split; [lia|auto]].
  destruct (St _ _ _ H4 E4) as [(q3 & H3 & E3)|(s & Hs & E)]; [|exists 3%nat, s; split; [lia|auto]].
  destruct (St _ _ _ H3 E3) as [(q2 & H2 & E2)|(s & Hs & E)]; [|exists 2%nat, s; split; [lia|auto]].
  destruct (St _ _ _ H2 E2) as [(s & Hs & E)|(s & Hs & E)]; [exists 0%nat, s|exists 1%nat, s]; (split; [lia|auto]).
Qed.

Lemma max_slope_defined G dem i : (forall k, (k < 8)%nat -> slope G dem i k <> None) ->
  exists m, max_slope G dem i = Some m.
Proof.
  intros H. unfold max_slope.
  destruct (slope G dem i 0) eqn:E0; [|exfalso; apply (H 0%nat); [lia|exact E0]].
  destruct (slope G dem i 1) eqn:E1; [|exfalso; apply (H 1%nat); [lia|exact E1]].
  destruct (slope G dem i 2) eqn:E2; [|exfalso; apply (H 2%nat); [lia|exact E2]].
  destruct (slope G dem i 3) eqn:E3; [|exfalso; apply (H 3%nat); [lia|exact E3]].
  destruct (slope G dem i 4) eqn:E4; [|exfalso; apply (H 4%nat); [lia|exact E4]].
  destruct (slope G dem i 5) eqn:E5; [|exfalso; apply (H 5%nat); [lia|exact E5]].
  destruct (slope G dem i 6) eqn:E6; [|exfalso; apply (H 6%nat); [lia|exact E6]].
  destruct (slope G dem i 7) eqn:E7; [|exfalso; apply (H 7%nat); [lia|exact E7]].
  cbn. eauto.
Qed.

Lemma raw_code_is G dem i :
  raw_code G dem i = code_of (fun k => oeqb (slope G dem i k) (max_slope G dem i)).
Proof. reflexivity. Qed.

Lemma oeqb_some a b : oeqb a b = true <-> exists x y, a = Some x /\ b = Some y /\ (x == y)%Q.
Proof.
  unfold oeqb. destruct a as [x|], b as [y|]; (split; [intros H; try discriminate H|intros (x' & y' & H1 & H2 & H3); try discriminate]).
  - exists x, y. split; [reflexivity|]. split; [reflexivity|]. apply Qeq_bool_iff. exact H.
  - inversion H1. inversion H2. apply Qeq_bool_iff. congruence.
Qed.

(* direction k attains the maximal slope m of cell i *)
Definition steep (G : geom) dem i k m : Prop :=
  max_slope G dem i = Some m /\ exists s, slope G dem i k = Some s /\ (s == m)%Q.

Lemma raw_code_bit G dem i k : (k < 8)%nat ->
  Z.testbit (raw_code G dem i) (Z.of_nat k) = true <-> exists m, steep G dem i k m.
Proof.
  intros Hk. rewrite raw_code_is, (proj2 (code_of_bits _) k Hk), oeqb_some. unfold steep. split.
  - intros (x & y & H1 & H2 & H3). exists y. split; [exact H2|]. exists x. auto.
  - intros (m & H1 & s & H2 & H3). exists s, m. auto.
Qed.

Lemma steep_slope G dem i k m : geom_ok G -> (k < 8)%nat -> steep G dem i k m ->
  exists zi zj, elev dem i = Some zi /\ elev dem (nbr G k i) = Some zj /\ (zi - zj == m * dist G k)%Q.
Proof.
  intros HG Hk (Hm & s & Hs & E). unfold slope in Hs.
  destruct (elev dem i) as [zi|]; [|discriminate]. destruct (elev dem (nbr G k i)) as [zj|]; [|discriminate].
  inversion Hs; subst. exists zi, zj. split; [reflexivity|]. split; [reflexivity|].
  rewrite <- E. field. pose proof (dist_pos G HG k Hk). lra.
Qed.

(* ------------------------------------------------------------------ counting *)

Lemma count_le n p q : (forall i, (i < n)%nat -> p i = true -> q i = true) -> (count n p <= count n q)%nat.
Proof.
  intros H. unfold count.
  assert (Hl : forall l, (forall i, In i l -> (i < n)%nat) -> (length (filter p l) <= length (filter q l))%nat).
  { induction l as [|a l IH]; intros Hl; cbn; [lia|].
    specialize (IH (fun i Hi => Hl i (or_intror Hi))).
    destruct (p a) eqn:Ep.
    - rewrite (H a (Hl a (or_introl eq_refl)) Ep). cbn. lia.
    - destruct (q a); cbn; lia. }
  apply Hl. intros i Hi. apply in_seq in Hi. lia.
Qed.

Lemma count_lt n p q : (forall i, (i < n)%nat -> p i = true -> q i = true) ->
  (exists i, (i < n)%nat /\ p i = false /\ q i = true) -> (count n p < count n q)%nat.
Proof.
  intros H (i0 & Hi0 & Hp0 & Hq0). unfold count.
  assert (Hl : forall l, (forall i, In i l -> (i < n)%nat) ->
    (length (filter p l) <= length (filter q l))%nat /\
    (In i0 l -> (length (filter p l) < length (filter q l))%nat)).
  { induction l as [|a l IH]; intros Hl; cbn; [split; [lia|intros []]|].
    destruct (IH (fun i Hi => Hl i (or_intror Hi))) as [IH1 IH2].
    split.
    - destruct (p a) eqn:Ep; [rewrite (H a (Hl a (or_introl eq_refl)) Ep)|destruct (q a)]; cbn; lia.
    - intros [->|Hin].
      + rewrite Hp0, Hq0. cbn. lia.
      + specialize (IH2 Hin).
        destruct (p a) eqn:Ep; [rewrite (H a (Hl a (or_introl eq_refl)) Ep)|destruct (q a)]; cbn; lia. }
  apply Hl.
  - intros i Hi. apply in_seq in Hi. lia.
  - apply in_seq. lia.
Qed.

Lemma count_bound n p : (count n p <= n)%nat.
Proof.
  unfold count. rewrite <- (seq_length n 0) at 2.
  generalize (seq 0 n). induction l as [|a l IH]; cbn; [lia|]. destruct (p a); cbn; lia.
Qed.

Lemma count_pos n p : (0 < count n p)%nat <-> exists i, (i < n)%nat /\ p i = true.
Proof.
  unfold count. split.
  - intros H. destruct (filter p (seq 0 n)) as [|a l] eqn:E; [cbn in H; lia|].
    assert (In a (filter p (seq 0 n))) by (rewrite E; left; reflexivity).
    apply filter_In in H0. destruct H0 as [H1 H2]. apply in_seq in H1. exists a. split; [lia|exact H2].
  - intros (i & Hi & Hp). assert (In i (filter p (seq 0 n))).
    { apply filter_In. split; [apply in_seq; lia|exact Hp]. }
    destruct (filter p (seq 0 n)); [destruct H|cbn; lia].
Qed.

Lemma count_zero n p : count n p = 0%nat <-> forall i, (i < n)%nat -> p i = false.
Proof.
  split.
  - intros H i Hi. destruct (p i) eqn:E; [|reflexivity].
    assert (0 < count n p)%nat by (apply count_pos; exists i; auto). lia.
  - intros H. destruct (count n p) eqn:E; [reflexivity|].
    assert (0 < count n p)%nat as Hp by lia. apply count_pos in Hp. destruct Hp as (i & Hi & Hp).
    rewrite H in Hp by exact Hi. discriminate.
Qed.

Lemma count_eq_all n p q : (forall i, (i < n)%nat -> p i = true -> q i = true) ->
  count n p = count n q -> forall i, (i < n)%nat -> q i = true -> p i = true.
Proof.
  intros H E i Hi Hq. destruct (p i) eqn:Ep; [reflexivity|].
  assert (count n p < count n q)%nat; [|lia]. apply count_lt; [exact H|]. exists i. auto.
Qed.

(* ------------------------------------------------------------------ link_flats *)

Section Link.
Variable G : geom.
Hypothesis HG : geom_ok G.

Definition is_open (dem : list (option Q)) (O : opts) (i : nat) : Prop :=
  (exists z, elev dem i = Some z /\ (DEM_nodata O < z)%Q) /\
  (LR_PERIODIC O = false -> left_edge G i = false /\ right_edge G i = false) /\
  (TB_PERIODIC O = false -> top_edge G i = false /\ bottom_edge G i = false).

Lemma start_code_spec O dem i :
  start_code G O dem i <> 0 ->
  is_open dem O i /\ exists m, max_slope G dem i = Some m /\
  ((0 < start_code G O dem i /\ start_code G O dem i = raw_code G dem i /\ (0 < m)%Q) \/
   (LINK_FLATS O = true /\ start_code G O dem i = - raw_code G dem i /\ (m == 0)%Q) \/
   (LINK_FLATS O = true /\ start_code G O dem i = -300 /\ (m < 0)%Q)).
Proof.
  unfold start_code. 
  set (bad := match elev dem i with None => true | Some z => Qle_bool z (DEM_nodata O) end).
  set (c0 := if LINK_FLATS O then _ else _).
  intros H.
  destruct (negb (TB_PERIODIC O) && (top_edge G i || bottom_edge G i)) eqn:E1; [congruence|].
  destruct (negb (LR_PERIODIC O) && (left_edge G i || right_edge G i)) eqn:E2; [congruence|].
  destruct bad eqn:E3; [congruence|].
  split.
  - split.
    { unfold bad in E3. destruct (elev dem i) as [z|]; [|discriminate]. exists z. split; [reflexivity|].
      apply Qleb_gt. exact E3. }
    split.
    + intros E. rewrite E in E2. cbn in E2. apply orb_false_iff in E2. exact E2.
    + intros E. rewrite E in E1. cbn in E1. apply orb_false_iff in E1. exact E1.
  - clear E1 E2 E3 bad.
    destruct (code_of_bits (fun k => oeqb (slope G dem i k) (max_slope G dem i))) as [Hr _].
    rewrite <- raw_code_is in Hr.
    destruct (max_slope G dem i) as [m|] eqn:Em.
    + exists m. split; [reflexivity|]. unfold c0 in *. clear c0. cbn [oeqb oltb oleb] in *.
      generalize dependent (raw_code G dem i). intros raw H Hr.
      destruct (LINK_FLATS O) eqn:EL.
      * destruct (Qltb m 0) eqn:Elt.
        -- right; right. split; [reflexivity|]. split; [reflexivity|]. apply Qltb_lt. exact Elt.
        -- destruct (Qeq_bool m 0) eqn:Eeq.
           ++ right; left. split; [reflexivity|]. split; [lia|]. apply Qeq_bool_iff. exact Eeq.
           ++ left. split; [lia|]. split; [reflexivity|].
              apply Qltb_ge in Elt. apply Qeqb_neq in Eeq. 
              destruct (Qlt_le_dec 0 m) as [Hl|Hl]; [exact Hl|]. exfalso. apply Eeq. lra.
      * destruct (Qle_bool m 0) eqn:Ele; [congruence|]. left. split; [lia|]. split; [reflexivity|].
        apply Qleb_gt. exact Ele.
    + exfalso. assert (raw_code G dem i = 0) as Hz.
      { rewrite raw_code_is, Em. assert (~ 0 < code_of (fun k => oeqb (slope G dem i k) None)).
        - rewrite code_of_pos. intros (k & Hk & Hf). unfold oeqb in Hf. destruct (slope G dem i k); discriminate.
        - pose proof (code_of_bits (fun k => oeqb (slope G dem i k) None)). lia. }
      unfold c0 in H. rewrite Hz in H. cbn in H. destruct (LINK_FLATS O); congruence.
Qed.

(* What is known of a grid during flat linking; rho i is the round in which i got its code. *)
Record Inv (O : opts) (dem : list (option Q)) (d : list Z) (rho : nat -> nat) (t : nat) : Prop := {
  inv_len : length d = ncells G;
  inv_open : forall i, (i < ncells G)%nat -> get 0 d i <> 0 -> is_open dem O i;
  inv_pos : forall i k, (i < ncells G)%nat -> (k < 8)%nat -> get 0 d i = g k ->
    exists m, steep G dem i k m /\
      ((0 < m)%Q \/ ((m == 0)%Q /\ 0 < get 0 d (nbr G k i) /\ get 0 d (nbr G k i) <> h k /\
                     (rho (nbr G k i) < rho i)%nat));
  inv_neg : forall i, (i < ncells G)%nat -> get 0 d i < 0 ->
    (get 0 d i = -300 /\ exists m, max_slope G dem i = Some m /\ (m < 0)%Q) \/
    (get 0 d i = - raw_code G dem i /\ exists m, max_slope G dem i = Some m /\ (m == 0)%Q);
  inv_rho : forall i, (i < ncells G)%nat -> 0 < get 0 d i -> (rho i < t)%nat;
  inv_zero : forall i, (i < ncells G)%nat -> get 0 d i = 0 -> start_code G O dem i = 0;
  inv_ties : BREAK_TIES O = true -> forall i, (i < ncells G)%nat -> 0 < get 0 d i ->
    exists k, (k < 8)%nat /\ get 0 d i = g k
}.

Lemma get_ties d i : get 0 (break_flow_grid_ties d) i = if 0 <? get 0 d i then resolve_at (get 0 d i) else get 0 d i.
Proof.
  unfold break_flow_grid_ties, get.
  exact (map_nth (fun c => if 0 <? c then resolve_at c else c) d 0 i).
Qed.

Lemma Inv_start O dem :
  let d := start_new_d8_codes G O dem in
  Inv O dem (if BREAK_TIES O then break_flow_grid_ties d else d) (fun _ => 0%nat) 1.
Proof.
  intros d.
  assert (Hd : forall i, (i < ncells G)%nat -> get 0 d i = start_code G O dem i).
  { intros i Hi. unfold d, start_new_d8_codes. apply get_tab. exact Hi. }
  set (d' := if BREAK_TIES O then _ else _).
  assert (Hd' : forall i, (i < ncells G)%nat ->
    (0 < get 0 d i /\ 0 < get 0 d' i /\ forall k, (k < 8)%nat -> get 0 d' i = g k -> Z.testbit (get 0 d i) (Z.of_nat k) = true)
    \/ (get 0 d i <= 0 /\ get 0 d' i = get 0 d i)).
  { intros i Hi. unfold d'. destruct (Z_lt_le_dec 0 (get 0 d i)) as [Hp|Hn].
    - left. split; [exact Hp|]. destruct (BREAK_TIES O).
      + rewrite get_ties. destruct (0 <? get 0 d i) eqn:E; [|lia].
        assert (Hr : 1 <= get 0 d i <= 255).
        { rewrite Hd in * by exact Hi.
          destruct (start_code_spec O dem i ltac:(lia)) as (_ & m & Hm & [(H1 & H2 & H3)|[(H1 & H2 & H3)|(H1 & H2 & H3)]]).
          - destruct (code_of_bits (fun k => oeqb (slope G dem i k) (max_slope G dem i))) as [Hr _].
            rewrite <- raw_code_is in Hr. lia.
          - destruct (code_of_bits (fun k => oeqb (slope G dem i k) (max_slope G dem i))) as [Hr _].
            rewrite <- raw_code_is in Hr. lia.
          - lia. }
        destruct (resolve_spec _ Hr) as (k & Hk & Ek & Hb). rewrite Ek. split; [pose proof (g_range k Hk); lia|].
        intros k' Hk' Eg. assert (k' = k) as -> by (apply g_inj; auto). exact Hb.
      + split; [exact Hp|]. intros k Hk E. rewrite E. by_dir Hk; reflexivity.
    - right. split; [exact Hn|]. destruct (BREAK_TIES O); [|reflexivity].
      rewrite get_ties. destruct (0 <? get 0 d i) eqn:E; [lia|reflexivity]. }
  split.
  - unfold d'. destruct (BREAK_TIES O); unfold break_flow_grid_ties; [rewrite map_length|]; apply tab_length.
  - intros i Hi Hne. apply start_code_spec. rewrite <- Hd by exact Hi.
    destruct (Hd' i Hi) as [(H1 & H2 & H3)|(H1 & H2)]; lia.
  - intros i k Hi Hk E. pose proof (g_range k Hk) as Hg.
    destruct (Hd' i Hi) as [(H1 & H2 & H3)|(H1 & H2)]; [|lia].
    specialize (H3 k Hk E). rewrite Hd in * by exact Hi.
    destruct (start_code_spec O dem i ltac:(lia)) as (_ & m & Hm & [(S1 & S2 & S3)|[(S1 & S2 & S3)|(S1 & S2 & S3)]]).
    + rewrite S2 in H3. apply raw_code_bit in H3; [|exact Hk]. destruct H3 as (m' & Hs).
      exists m'. split; [exact Hs|]. left. destruct Hs as [Hm' _]. congruence.
    + destruct (code_of_bits (fun k => oeqb (slope G dem i k) (max_slope G dem i))) as [Hr _].
      rewrite <- raw_code_is in Hr. lia.
    + lia.
  - intros i Hi Hneg. destruct (Hd' i Hi) as [(H1 & H2 & H3)|(H1 & H2)]; [lia|].
    rewrite H2 in *. rewrite Hd in * by exact Hi.
    destruct (start_code_spec O dem i ltac:(lia)) as (_ & m & Hm & [(S1 & S2 & S3)|[(S1 & S2 & S3)|(S1 & S2 & S3)]]).
    + lia.
    + right. split; [exact S2|]. exists m. auto.
    + left. split; [exact S2|]. exists m. auto.
  - intros i Hi Hp. lia.
  - intros i Hi Hz. rewrite <- Hd by exact Hi. destruct (Hd' i Hi) as [(H1 & H2 & H3)|(H1 & H2)]; lia.
  - intros EB i Hi Hp. destruct (Hd' i Hi) as [(H1 & H2 & H3)|(H1 & H2)]; [|lia].
    unfold d'. rewrite EB. rewrite get_ties. destruct (0 <? get 0 d i) eqn:E; [|lia].
    rewrite Hd in * by exact Hi.
    destruct (start_code_spec O dem i ltac:(lia)) as (_ & m & Hm & [(S1 & S2 & S3)|[(S1 & S2 & S3)|(S1 & S2 & S3)]]);
      [| |lia]; destruct (code_of_bits (fun k => oeqb (slope G dem i k) (max_slope G dem i))) as [Hr _];
      rewrite <- raw_code_is in Hr; [|lia].
    destruct (resolve_spec (start_code G O dem i)) as (k & Hk & Ek & _); [lia|]. exists k. auto.
Qed.

Lemma ready_code_is d i :
  ready_code G d i = code_of (fun k => valid G d i k && nth k (allowed (-1 * get 0 d i)) false).
Proof. reflexivity. Qed.

Lemma Inv_pass O dem d rho t : Inv O dem d rho t ->
  Inv O dem (link_pass G d) (fun i => if fixable G d i then t else rho i) (S t).
Proof.
  intros HI. pose proof HI as [Hl Ho Hp Hn Hr Hz Hti].
  assert (Hget : forall i, (i < ncells G)%nat -> get 0 (link_pass G d) i =
      if fixable G d i then resolve_at (ready_code G d i) else get 0 d i).
  { intros i Hi. unfold link_pass. rewrite get_tab by exact Hi. reflexivity. }
  assert (Hfix : forall i, (i < ncells G)%nat -> fixable G d i = true ->
      get 0 d i < 0 /\ 0 <= - get 0 d i <= 255 /\
      (get 0 d i = - raw_code G dem i /\ exists m, max_slope G dem i = Some m /\ (m == 0)%Q) /\
      exists k, (k < 8)%nat /\ resolve_at (ready_code G d i) = g k /\ valid G d i k = true /\
        Z.testbit (- get 0 d i) (Z.of_nat k) = true).
  { intros i Hi Hf. unfold fixable, is_flat in Hf.
    assert (Hneg : get 0 d i < 0) by lia. split; [exact Hneg|].
    destruct (Hn i Hi Hneg) as [[E _]|Hraw]; [lia|].
    destruct (code_of_bits (fun k => oeqb (slope G dem i k) (max_slope G dem i))) as [Hrr _].
    rewrite <- raw_code_is in Hrr. split; [lia|]. split; [exact Hraw|].
    destruct (code_of_bits (fun k => valid G d i k && nth k (allowed (-1 * get 0 d i)) false)) as [Hrc Hb].
    rewrite <- ready_code_is in Hrc, Hb.
    destruct (resolve_spec (ready_code G d i)) as (k & Hk & E & Ht); [lia|].
    exists k. split; [exact Hk|]. split; [exact E|]. rewrite Hb in Ht by exact Hk.
    apply andb_true_iff in Ht. destruct Ht as [Hv Ha]. split; [exact Hv|].
    rewrite allowed_spec in Ha by lia. replace (-1 * get 0 d i) with (- get 0 d i) in Ha by lia. exact Ha. }
  assert (Hposnf : forall i, 0 < get 0 d i -> fixable G d i = false).
  { intros i Hi. unfold fixable, is_flat. destruct (get 0 d i <? 0) eqn:E; [lia|reflexivity]. }
  assert (Hpos' : forall i, (i < ncells G)%nat -> 0 < get 0 d i -> get 0 (link_pass G d) i = get 0 d i).
  { intros i Hi Hpi. rewrite Hget, Hposnf; auto. }
  split.
  - unfold link_pass. apply tab_length.
  - intros i Hi Hne. apply Ho; [exact Hi|]. rewrite Hget in Hne by exact Hi.
    destruct (fixable G d i) eqn:Ef; [|exact Hne]. destruct (Hfix i Hi Ef) as [H1 _]. lia.
  - intros i k Hi Hk E. rewrite Hget in E by exact Hi.
    pose proof (nbr_lt G HG k i) as Hnl.
    destruct (fixable G d i) eqn:Ef.
    + destruct (Hfix i Hi Ef) as (Hneg & Hr1 & (Hraw & m & Hm & Hm0) & k' & Hk' & Ek' & Hv & Ht).
      assert (k' = k) as -> by (apply g_inj; auto; congruence).
      rewrite Hraw, Z.opp_involutive in Ht. apply raw_code_bit in Ht; [|exact Hk].
      destruct Ht as (m' & Hs). exists m'. split; [exact Hs|]. right.
      unfold valid in Hv. apply andb_true_iff in Hv.
      split. { destruct Hs as [Hm' _]. congruence. }
      rewrite Hpos' by (exact Hnl || lia). split; [lia|]. split; [lia|].
      rewrite Hposnf by lia. apply Hr; [exact Hnl|lia].
    + destruct (Hp i k Hi Hk E) as (m & Hs & [Hm|(Hm & Hpn & Hne & Hrho)]); exists m; (split; [exact Hs|]).
      * left. exact Hm.
      * right. rewrite Hpos' by (exact Hnl || lia). rewrite Hposnf by lia.
        split; [exact Hm|]. split; [exact Hpn|]. split; [exact Hne|exact Hrho].
  - intros i Hi Hneg. rewrite Hget in Hneg |- * by exact Hi. destruct (fixable G d i) eqn:Ef.
    + destruct (Hfix i Hi Ef) as (_ & _ & _ & k & Hk & Ek & _). rewrite Ek in Hneg.
      pose proof (g_range k Hk). lia.
    + apply Hn; assumption.
  - intros i Hi Hpi. rewrite Hget in Hpi by exact Hi. destruct (fixable G d i) eqn:Ef; [lia|].
    specialize (Hr i Hi Hpi). lia.
  - intros i Hi Hzi. rewrite Hget in Hzi by exact Hi. destruct (fixable G d i) eqn:Ef; [|apply Hz; assumption].
    destruct (Hfix i Hi Ef) as (_ & _ & _ & k & Hk & Ek & _). rewrite Ek in Hzi.
    pose proof (g_range k Hk). lia.
  - intros EB i Hi Hpi. rewrite Hget in Hpi |- * by exact Hi. destruct (fixable G d i) eqn:Ef; [|apply Hti; assumption].
    destruct (Hfix i Hi Ef) as (_ & _ & _ & k & Hk & Ek & _). exists k. auto.
Qed.

(* flats never reappear; a pass with a fixable cell removes at least one *)
Lemma link_pass_flats O dem d rho t i : Inv O dem d rho t -> (i < ncells G)%nat ->
  is_flat G (link_pass G d) i = is_flat G d i && negb (fixable G d i).
Proof.
  intros HI Hi. pose proof (Inv_pass _ _ _ _ _ HI) as HI'.
  unfold is_flat. unfold link_pass at 1 2. rewrite get_tab by exact Hi.
  destruct (fixable G d i) eqn:Ef; cbn [negb].
  - rewrite andb_false_r. destruct HI as [Hl Ho Hp Hn Hr Hz Hti].
    unfold fixable in Ef. apply andb_true_iff in Ef. destruct Ef as [_ Ef].
    destruct (code_of_bits (fun k => valid G d i k && nth k (allowed (-1 * get 0 d i)) false)) as [Hrc Hb].
    rewrite <- ready_code_is in Hrc.
    destruct (resolve_spec (ready_code G d i)) as (k & Hk & E & Ht); [lia|]. rewrite E.
    pose proof (g_range k Hk). destruct (g k <? 0) eqn:Eg; [lia|reflexivity].
  - rewrite andb_true_r. reflexivity.
Qed.

(* Result of link_flats: enough fuel, invariant kept, and no fixable flat is left. *)
Lemma link_flats_spec fuel O dem : forall d rho t, Inv O dem d rho t ->
  (count (ncells G) (is_flat G d) <= fuel)%nat ->
  exists d' rho' t', link_flats fuel G d = Some d' /\ Inv O dem d' rho' t' /\
    (forall i, (i < ncells G)%nat -> fixable G d' i = false) /\
    (forall i, (i < ncells G)%nat -> 0 < get 0 d i -> get 0 d' i = get 0 d i).
Proof.
  induction fuel as [|fuel IH]; intros d rho t HI Hc.
  - exists d, rho, t. cbn [link_flats].
    assert (count (ncells G) (is_flat G d) = 0)%nat as E by lia. rewrite E. cbn.
    split; [reflexivity|]. split; [exact HI|]. split; [|auto].
    intros i Hi. unfold fixable. rewrite (proj1 (count_zero _ _) E i Hi). reflexivity.
  - cbn [link_flats].
    destruct (Nat.eqb (count (ncells G) (is_flat G d)) 0) eqn:E0.
    + apply Nat.eqb_eq in E0. exists d, rho, t. split; [reflexivity|]. split; [exact HI|]. split; [|auto].
      intros i Hi. unfold fixable. rewrite (proj1 (count_zero _ _) E0 i Hi). reflexivity.
    + apply Nat.eqb_neq in E0.
      assert (Hsame : forall i, (i < ncells G)%nat -> 0 < get 0 d i -> get 0 (link_pass G d) i = get 0 d i).
      { intros i Hi Hpi. unfold link_pass. rewrite get_tab by exact Hi.
        assert (fixable G d i = false) as ->; [|reflexivity].
        unfold fixable, is_flat. destruct (get 0 d i <? 0) eqn:E; [lia|reflexivity]. }
      destruct (Nat.eqb (count (ncells G) (fixable G d)) 0) eqn:E1.
      * rewrite orb_true_r. apply Nat.eqb_eq in E1. exists d, rho, t.
        split; [reflexivity|]. split; [exact HI|]. split; [|auto].
        intros i Hi. apply (proj1 (count_zero _ _) E1 i Hi).
      * apply Nat.eqb_neq in E1. rewrite orb_false_r.
        pose proof (Inv_pass _ _ _ _ _ HI) as HI'.
        destruct (Nat.eqb (count (ncells G) (fixable G d)) (count (ncells G) (is_flat G d))) eqn:E2.
        -- apply Nat.eqb_eq in E2. exists (link_pass G d), (fun i => if fixable G d i then t else rho i), (S t).
           split; [reflexivity|]. split; [exact HI'|]. split; [|exact Hsame].
           intros i Hi. unfold fixable at 1. rewrite (link_pass_flats _ _ _ _ _ _ HI Hi).
           destruct (is_flat G d i) eqn:Ef; [|reflexivity].
           assert (fixable G d i = true) as ->; [|reflexivity].
           apply (count_eq_all (ncells G) (fixable G d) (is_flat G d)); auto.
           intros j Hj Hf. unfold fixable in Hf. apply andb_true_iff in Hf. apply Hf.
        -- apply Nat.eqb_neq in E2.
           destruct (IH _ _ _ HI') as (d' & rho' & t' & H1 & H2 & H3 & H4).
           { assert (count (ncells G) (is_flat G (link_pass G d)) < count (ncells G) (is_flat G d))%nat; [|lia].
             apply count_lt.
             - intros i Hi Hf. rewrite (link_pass_flats _ _ _ _ _ _ HI Hi) in Hf.
               apply andb_true_iff in Hf. apply Hf.
             - assert (0 < count (ncells G) (fixable G d))%nat as Hp by lia.
               apply count_pos in Hp. destruct Hp as (i & Hi & Hf). exists i. split; [exact Hi|].
               rewrite (link_pass_flats _ _ _ _ _ _ HI Hi), Hf. rewrite andb_false_r. split; [reflexivity|].
               unfold fixable in Hf. apply andb_true_iff in Hf. apply Hf. }
           exists d', rho', t'. split; [exact H1|]. split; [exact H2|]. split; [exact H3|].
           intros i Hi Hpi. rewrite H4; [apply Hsame; assumption|exact Hi|rewrite Hsame; assumption].
Qed.

(* The grid before the final clean-up. *)
Lemma update_flow_grid_inv O dem :
  exists d rho t, update_flow_grid G O dem = Some (map final_code d) /\ Inv O dem d rho t /\
    (LINK_FLATS O = true -> forall i, (i < ncells G)%nat -> fixable G d i = false) /\
    (forall i, (i < ncells G)%nat -> 0 < start_code G O dem i ->
       get 0 d i = if BREAK_TIES O then resolve_at (start_code G O dem i) else start_code G O dem i).
Proof.
  pose proof (Inv_start O dem) as HI. cbv zeta in HI. unfold update_flow_grid.
  assert (Hst : forall i, (i < ncells G)%nat -> 0 < start_code G O dem i ->
     get 0 (if BREAK_TIES O then break_flow_grid_ties (start_new_d8_codes G O dem)
            else start_new_d8_codes G O dem) i = if BREAK_TIES O then resolve_at (start_code G O dem i) else start_code G O dem i).
  { intros i Hi Hp. assert (get 0 (start_new_d8_codes G O dem) i = start_code G O dem i) as E.
    { unfold start_new_d8_codes. apply get_tab. exact Hi. }
    destruct (BREAK_TIES O); [rewrite get_ties|]; rewrite E; [|reflexivity].
    destruct (0 <? start_code G O dem i) eqn:E'; [reflexivity|lia]. }
  destruct (LINK_FLATS O) eqn:EL.
  - destruct (link_flats_spec (ncells G) O dem _ _ _ HI (count_bound _ _)) as (d' & rho' & t' & H1 & H2 & H3 & H4).
    rewrite H1. exists d', rho', t'. split; [reflexivity|]. split; [exact H2|]. split; [auto|].
    intros i Hi Hp. rewrite H4; [apply Hst; assumption|exact Hi|].
    rewrite Hst by assumption. destruct (BREAK_TIES O); [|exact Hp].
    destruct (start_code_spec O dem i ltac:(lia)) as (_ & m & Hm & [(S1 & S2 & S3)|[(S1 & S2 & S3)|(S1 & S2 & S3)]]); [| |lia];
     destruct (code_of_bits (fun k => oeqb (slope G dem i k) (max_slope G dem i))) as [Hr _];
     rewrite <- raw_code_is in Hr; [|lia].
    destruct (resolve_spec (start_code G O dem i)) as (k & Hk & -> & _); [lia|].
    pose proof (g_range k Hk). lia.
  - eexists _, _, _. split; [reflexivity|]. split; [exact HI|]. split; [discriminate|exact Hst].
Qed.

End Link.
