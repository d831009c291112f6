(* C86: smoothing a DEM with a slope-area law. *)
From Coq Require Import Reals ZArith QArith List Bool Arith Lra Lia.
From Verif Require Import Base Smooth_Model.
Import ListNotations.
Local Open Scope Q_scope.

(* ---------- specification: the elevation and distance of a cell k steps upstream of a start cell with data ---------- *)
Definition anchored (G : grids) (i : nat) : Prop := start G i = true /\ ~ z0 G i == nodata.
Inductive chain (G : grids) : nat -> nat -> Q -> Q -> Prop :=
| ch_start i : anchored G i -> chain G 0 i (z0 G i) 0
| ch_up k i z L : ~ anchored G i -> chain G k (pid G i) z L -> chain G (S k) i (z + slope G i * ds G i) (L + ds G i).
Definition wf (G : grids) : Prop := forall i, (i < n G)%nat -> (pid G i < n G)%nat.
(* elevations above the nodata value (or equal to it), nothing goes down upstream *)
Definition sound (G : grids) : Prop := forall i, (i < n G)%nat -> nodata <= z0 G i /\ 0 <= slope G i * ds G i.

Lemma known_true x : known x = true <-> ~ x == nodata.
Proof. unfold known. rewrite negb_true_iff. split; [intros E H; apply Qeq_bool_iff in H; congruence | intro H; apply not_true_iff_false; rewrite Qeq_bool_iff; exact H]. Qed.
Lemma known_false x : known x = false <-> x == nodata.
Proof. unfold known. rewrite negb_false_iff. apply Qeq_bool_iff. Qed.
Lemma chain_det G : forall d i z L, chain G d i z L -> forall d' z' L', chain G d' i z' L' -> d = d' /\ z = z' /\ L = L'.
Proof.
  induction 1 as [i H|k i z L H C IH]; intros d' z' L' C'; inversion C'; subst; try contradiction; [repeat split|].
  destruct (IH _ _ _ H1) as (-> & -> & ->). repeat split.
Qed.
Lemma chain_above G : wf G -> sound G -> forall d i z L, chain G d i z L -> (i < n G)%nat -> nodata < z.
Proof.
  intros W SD. induction 1 as [i [H N]|k i z L H C IH]; intro I.
  - destruct (SD i I) as [A _]. apply Qle_lteq in A. destruct A as [A|A]; [exact A | exfalso; apply N; symmetry; exact A].
  - destruct (SD i I) as [_ A]. specialize (IH (W i I)). apply Qlt_le_trans with z; [exact IH|]. rewrite <- (Qplus_0_r z) at 1. apply Qplus_le_r. exact A.
Qed.
Lemma mem_in i l : mem i l = true <-> In i l.
Proof. unfold mem. rewrite existsb_exists. split; [intros (x & I & E); apply Nat.eqb_eq in E; subst; exact I | intro I; exists i; split; [exact I | apply Nat.eqb_refl]]. Qed.
Lemma in_IDs G s i : In i (IDs G s) <-> (i < n G)%nat /\ known (DEM s i) = false.
Proof. unfold IDs. rewrite filter_In, in_seq, negb_true_iff. intuition lia. Qed.
Lemma in_ready G s i : In i (ready G s) <-> (i < n G)%nat /\ known (DEM s i) = false /\ known (DEM s (pid G i)) = true.
Proof. unfold ready. rewrite filter_In, in_IDs. tauto. Qed.
Lemma filter_length_le {X} (f : X -> bool) l : (length (filter f l) <= length l)%nat.
Proof. induction l as [|x l IH]; [cbn; lia|]. cbn [filter]. destruct (f x); cbn; lia. Qed.
Lemma filter_lt {X} (f g : X -> bool) : forall l, (forall x, In x l -> g x = true -> f x = true) -> (exists x, In x l /\ f x = true /\ g x = false) -> (length (filter g l) < length (filter f l))%nat.
Proof.
  assert (LE : forall l, (forall x, In x l -> g x = true -> f x = true) -> (length (filter g l) <= length (filter f l))%nat).
  { induction l as [|x l IH]; intro H; [cbn; lia|]. cbn [filter]. specialize (IH (fun y I => H y (or_intror I))). destruct (g x) eqn:E; [rewrite (H x (or_introl eq_refl) E); cbn; lia|]. destruct (f x); cbn; lia. }
  induction l as [|x l IH]; intros H (y & I & F & N); [destruct I|]. pose proof (fun y I => H y (or_intror I)) as H'. cbn [filter]. destruct I as [->|I].
  - rewrite F, N. specialize (LE l H'). cbn. lia.
  - specialize (IH H' (ex_intro _ y (conj I (conj F N)))). destruct (g x) eqn:E; [rewrite (H x (or_introl eq_refl) E); cbn; lia|]. destruct (f x); cbn; lia.
Qed.

Definition inv (G : grids) (k : nat) (s : state) : Prop := forall i, (i < n G)%nat ->
  (forall d z L, chain G d i z L -> (d <= k)%nat -> DEM s i = z /\ dist s i = L) /\ (known (DEM s i) = true -> exists d z L, (d <= k)%nat /\ chain G d i z L).
Section Sweep.
Variable G : grids.
Hypothesis W : wf G.
Hypothesis SD : sound G.
Lemma anch i : {anchored G i} + {~ anchored G i}.
Proof. unfold anchored. destruct (start G i); [|right; intros [H _]; discriminate]. destruct (Qeq_dec (z0 G i) nodata); [right; tauto | left; tauto]. Qed.
Lemma chain_known d i z L : (i < n G)%nat -> chain G d i z L -> known z = true.
Proof. intros I C. apply known_true. pose proof (chain_above G W SD d i z L C I) as H. intro E. rewrite E in H. exact (Qlt_irrefl _ H). Qed.
Lemma inv_init : inv G 0 (init G).
Proof.
  intros i I. split.
  - intros d z L C LE. assert (d = 0%nat) by lia. subst d. inversion C as [j [H N]|]; subst. unfold init. cbn [DEM dist]. rewrite H. split; reflexivity.
  - intro K. unfold init in K. cbn [DEM] in K. destruct (start G i) eqn:E; [|apply known_true in K; exfalso; apply K; reflexivity]. apply known_true in K. exists 0%nat, (z0 G i), 0. split; [lia|]. constructor. split; assumption.
Qed.
Lemma inv_pass k s : inv G k s -> inv G (S k) (pass G s).
Proof.
  intros V i I. destruct (V i I) as [A B]. unfold pass. cbn [DEM dist]. destruct (mem i (ready G s)) eqn:M.
  - apply mem_in, in_ready in M. destruct M as (_ & K & KP). pose proof (W i I) as PI. destruct (V _ PI) as [AP BP]. destruct (BP KP) as (d & z & L & LE & C). destruct (AP d z L C LE) as [E1 E2].
    assert (NA : ~ anchored G i). { intro H. destruct (A 0%nat _ _ (ch_start G i H) ltac:(lia)) as [X _]. rewrite X in K. rewrite (chain_known _ _ _ _ I (ch_start G i H)) in K. discriminate. }
    assert (C' := ch_up G d i z L NA C). rewrite E1, E2. split.
    + intros d' z' L' CC _. destruct (chain_det G _ _ _ _ C' _ _ _ CC) as (_ & -> & ->). split; reflexivity.
    + intros _. eexists _, _, _. split; [|exact C']. lia.
  - split.
    + intros d z L C LE. destruct (Nat.eq_dec d (S k)) as [->|ND]; [|apply (A d z L C); lia]. exfalso. inversion C as [|k' i' z' L' NA CP]; subst. destruct (V _ (W i I)) as [AP _]. destruct (AP _ _ _ CP (le_n k)) as [E _].
      assert (KP : known (DEM s (pid G i)) = true) by (rewrite E; exact (chain_known _ _ _ _ (W i I) CP)). destruct (known (DEM s i)) eqn:K.
      * destruct (B eq_refl) as (d & z & L & LD & C2). destruct (chain_det G _ _ _ _ C _ _ _ C2) as (X & _). lia.
      * assert (X : mem i (ready G s) = true) by (apply mem_in, in_ready; auto). congruence.
    + intro K. destruct (B K) as (d & z & L & LD & C). exists d, z, L. split; [lia | exact C].
Qed.
Definition final (s : state) : Prop := forall i, (i < n G)%nat -> (forall d z L, chain G d i z L -> DEM s i = z /\ dist s i = L) /\ (known (DEM s i) = true -> exists d z L, chain G d i z L).
Lemma final_from k s : inv G k s -> (forall i d z L, (i < n G)%nat -> chain G d i z L -> known (DEM s i) = true) -> final s.
Proof.
  intros V H i I. destruct (V i I) as [A B]. split.
  - intros d z L C. destruct (B (H i d z L I C)) as (d' & z' & L' & LD & C'). destruct (chain_det G _ _ _ _ C _ _ _ C') as (-> & -> & ->). apply (A d' z' L' C' LD).
  - intro K. destruct (B K) as (d & z & L & _ & C). exists d, z, L. exact C.
Qed.
Lemma pass_length k s : inv G k s -> length (ready G s) <> 0%nat -> (length (IDs G (pass G s)) < length (IDs G s))%nat.
Proof.
  intros V R. unfold IDs. apply filter_lt.
  - intros i I. apply in_seq in I. rewrite !negb_true_iff. unfold pass. cbn [DEM]. destruct (mem i (ready G s)) eqn:M; [intros _; apply mem_in, in_ready in M; tauto | tauto].
  - destruct (ready G s) as [|i r] eqn:E; [cbn in R; lia|]. assert (I : In i (ready G s)) by (rewrite E; left; reflexivity). pose proof I as I'. apply in_ready in I. destruct I as (I & K & KP). exists i. split; [apply in_seq; lia|]. split; [rewrite K; reflexivity|].
    apply negb_false_iff. destruct (V _ (W i I)) as [AP BP]. destruct (BP KP) as (d & z & L & LD & C). destruct (inv_pass k s V i I) as [A _]. destruct (V i I) as [A0 _].
    assert (NA : ~ anchored G i). { intro H. destruct (A0 0%nat _ _ (ch_start G i H) ltac:(lia)) as [X _]. rewrite X in K. rewrite (chain_known _ _ _ _ I (ch_start G i H)) in K. discriminate. }
    destruct (A _ _ _ (ch_up G d i z L NA C) ltac:(lia)) as [-> _]. exact (chain_known _ _ _ _ I (ch_up G d i z L NA C)).
Qed.
Lemma sweep_ok : forall fuel k s reps, inv G k s -> (length (IDs G s) < fuel)%nat -> exists s' reps', sweep fuel G s reps = Some (s', reps') /\ final s' /\ (reps < reps' <= reps + fuel)%nat.
Proof.
  induction fuel as [|fuel IH]; intros k s reps V L; [lia|]. cbn [sweep]. cbv zeta. destruct (Nat.eqb_spec (length (IDs G s)) 0) as [E|NE].
  - exists s, (S reps). split; [reflexivity|]. split; [|lia]. apply (final_from k s V). intros i d z' L' I _. destruct (known (DEM s i)) eqn:K; [reflexivity|]. assert (X : In i (IDs G s)) by (apply in_IDs; auto). destruct (IDs G s); [destruct X | discriminate].
  - destruct (Nat.eqb_spec (length (ready G s)) 0) as [E|NR].
    + exists s, (S reps). split; [reflexivity|]. split; [|lia]. apply (final_from k s V). intros i d z' L' I C. induction C as [i H|d i z' L' NA C IHC].
      * destruct (V i I) as [A _]. destruct (A _ _ _ (ch_start G i H) ltac:(lia)) as [-> _]. exact (chain_known _ _ _ _ I (ch_start G i H)).
      * specialize (IHC (W i I)). destruct (known (DEM s i)) eqn:K; [reflexivity|]. assert (X : In i (ready G s)) by (apply in_ready; auto). destruct (ready G s); [destruct X | discriminate].
    + pose proof (inv_pass k s V) as V'. pose proof (pass_length k s V NR) as LT. destruct (Nat.eqb_spec (length (ready G s)) (length (IDs G s))) as [E|NE'].
      * exists (pass G s), (S reps). split; [reflexivity|]. split; [|lia]. apply (final_from (S k) _ V'). intros i d z' L' I C. destruct (known (DEM (pass G s) i)) eqn:K; [reflexivity|]. exfalso.
        assert (U : known (DEM s i) = false). { unfold pass in K. cbn [DEM] in K. destruct (mem i (ready G s)) eqn:M; [apply mem_in, in_ready in M; tauto | exact K]. }
        assert (X : In i (ready G s)).
        { assert (EQ : forall (l : list nat) f, length (filter f l) = length l -> forall x, In x l -> f x = true).
          { induction l as [|x l IHl]; intros f F y Y; [destruct Y|]. cbn [filter] in F. destruct (f x) eqn:FX; [|pose proof (filter_length_le f l); cbn in F; lia]. cbn in F. destruct Y as [<-|Y]; [exact FX | apply IHl; [lia | exact Y]]. }
          unfold ready in E |- *. apply filter_In. split; [apply in_IDs; auto|]. apply (EQ _ (fun j => known (DEM s (pid G j))) E). apply in_IDs. auto. }
        apply in_ready in X. destruct X as (_ & _ & KP). destruct (V _ (W i I)) as [_ BP]. destruct (BP KP) as (d1 & z1 & L1 & LD & C1). destruct (V i I) as [A0 _].
        assert (NA : ~ anchored G i). { intro H. destruct (A0 0%nat _ _ (ch_start G i H) ltac:(lia)) as [X _]. rewrite X in U. rewrite (chain_known _ _ _ _ I (ch_start G i H)) in U. discriminate. }
        destruct (V' i I) as [A' _]. destruct (A' _ _ _ (ch_up G d1 i z1 L1 NA C1) ltac:(lia)) as [X _]. rewrite X in K. rewrite (chain_known _ _ _ _ I (ch_up G d1 i z1 L1 NA C1)) in K. discriminate.
      * destruct (IH (S k) (pass G s) (S reps) V' ltac:(lia)) as (s' & reps' & E & F & B). exists s', reps'. split; [exact E|]. split; [exact F | lia].
Qed.
End Sweep.

(* ---------- theorems ---------- *)
(* every cell upstream of a start cell with data gets its elevation and flow distance along the flow path; the others stay without data; the loop ends *)
Theorem C86_sweep G : wf G -> sound G -> exists s reps, sweep (S (n G)) G (init G) 0 = Some (s, reps) /\ (0 < reps <= S (n G))%nat /\
  forall i, (i < n G)%nat -> (forall k z L, chain G k i z L -> DEM s i = z /\ dist s i = L) /\ (~ DEM s i == nodata -> exists k z L, chain G k i z L).
Proof.
  intros W SD. destruct (sweep_ok G W SD (S (n G)) 0 (init G) 0 (inv_init G)) as (s & reps & E & F & B).
  - unfold IDs. pose proof (filter_length_le (fun i => negb (known (DEM (init G) i))) (seq 0 (n G))) as H. rewrite seq_length in H. lia.
  - exists s, reps. split; [exact E|]. split; [lia|]. intros i I. destruct (F i I) as [A K]. split; [exact A | intro N; apply K, known_true, N].
Qed.
Print Assumptions C86_sweep.
(* more fuel does not change the result: the loop of the code ends with the same grids *)
Theorem C86_fuel G s reps r : forall f f', sweep f G s reps = Some r -> (f <= f')%nat -> sweep f' G s reps = Some r.
Proof.
  intros f. revert s reps. induction f as [|f IH]; intros s reps f' E L; [discriminate|]. destruct f' as [|f']; [lia|]. cbn [sweep] in *. cbv zeta in *.
  destruct (Nat.eqb (length (IDs G s)) 0); [exact E|]. destruct (Nat.eqb (length (ready G s)) 0); [exact E|]. destruct (Nat.eqb (length (ready G s)) (length (IDs G s))); [exact E|]. apply IH; [exact E | lia].
Qed.
Print Assumptions C86_fuel.
(* which cells are reached: those from which following the parents leads to a start cell with data *)
Lemma iter_r {X} (f : X -> X) k x : Nat.iter (S k) f x = Nat.iter k f (f x).
Proof. induction k as [|k IH]; [reflexivity|]. change (f (Nat.iter (S k) f x) = f (Nat.iter k f (f x))). rewrite IH. reflexivity. Qed.
Theorem C86_reached G i : (exists k z L, chain G k i z L) <-> exists k, anchored G (Nat.iter k (pid G) i).
Proof.
  split.
  - intros (k & z & L & C). induction C as [i H|k i z L NA C (m & IH)]; [exists 0%nat; exact H|]. exists (S m). rewrite iter_r. exact IH.
  - intros (k & H). revert i H. induction k as [|k IH]; intros i H; [exists 0%nat, (z0 G i), 0; constructor; exact H|]. rewrite iter_r in H. destruct (anch G i) as [D|D]; [exists 0%nat, (z0 G i), 0; constructor; exact D|]. destruct (IH _ H) as (m & z & L & C). eexists _, _, _. apply ch_up; [exact D | exact C].
Qed.
Print Assumptions C86_reached.
(* start cells with data keep their elevation; from every other cell with data the land falls to its parent by exactly slope times length *)
Theorem C86_profile G s reps i : wf G -> sound G -> sweep (S (n G)) G (init G) 0 = Some (s, reps) -> (i < n G)%nat ->
  (anchored G i -> DEM s i = z0 G i /\ dist s i = 0) /\
  (~ anchored G i -> ~ DEM s i == nodata -> ~ DEM s (pid G i) == nodata /\ DEM s i - DEM s (pid G i) == slope G i * ds G i /\ dist s i - dist s (pid G i) == ds G i).
Proof.
  intros W SD E I. destruct (C86_sweep G W SD) as (s' & reps' & E' & _ & F). rewrite E in E'. injection E' as <- <-. split.
  - intro H. apply (proj1 (F i I) _ _ _ (ch_start G i H)).
  - intros NA K. destruct (F i I) as [A B]. destruct (B K) as (k & z & L & C). destruct (A _ _ _ C) as [-> ->]. inversion C as [|k' i' z' L' NA' CP]; subst; [contradiction|]. destruct (F _ (W i I)) as [AP _]. destruct (AP _ _ _ CP) as [-> ->].
    split; [apply known_true; exact (chain_known G W SD _ _ _ _ (W i I) CP)|]. split; ring.
Qed.
Print Assumptions C86_profile.
(* water runs downhill on the new terrain along the old flow paths *)
Theorem C86_downhill G s reps i : wf G -> sound G -> sweep (S (n G)) G (init G) 0 = Some (s, reps) -> (i < n G)%nat -> ~ anchored G i -> ~ DEM s i == nodata -> 0 < slope G i -> 0 < ds G i -> DEM s (pid G i) < DEM s i.
Proof.
  intros W SD E I NA K P Q. destruct (C86_profile G s reps i W SD E I) as [_ B]. destruct (B NA K) as (_ & D & _). pose proof (Qmult_lt_0_compat _ _ P Q) as X. rewrite <- D in X. apply Qlt_minus_iff. exact X.
Qed.
Print Assumptions C86_downhill.
Theorem C86_unreached G s reps i : wf G -> sound G -> sweep (S (n G)) G (init G) 0 = Some (s, reps) -> (i < n G)%nat -> (DEM s i == nodata <-> forall k, ~ anchored G (Nat.iter k (pid G) i)).
Proof.
  intros W SD E I. destruct (C86_sweep G W SD) as (s' & reps' & E' & _ & F). rewrite E in E'. injection E' as <- <-. destruct (F i I) as [A B]. split.
  - intros N k H. destruct (proj2 (C86_reached G i) (ex_intro _ k H)) as (k' & z & L & C). destruct (A _ _ _ C) as [X _]. pose proof (chain_known G W SD _ _ _ _ I C) as K. apply known_true in K. apply K. rewrite <- X. exact N.
  - intro H. destruct (Qeq_dec (DEM s i) nodata) as [Y|N]; [exact Y|]. exfalso. destruct (proj1 (C86_reached G i) (B N)) as (k & X). exact (H k X).
Qed.
Print Assumptions C86_unreached.
(* without start cells the DEM is left alone *)
Theorem C86_no_start G fuel : update_DEM fuel G = Unchanged <-> forall i, (i < n G)%nat -> code G (pid G i) <> 0%Z.
Proof.
  unfold update_DEM. destruct (Nat.eqb_spec (length (filter (start G) (seq 0 (n G)))) 0) as [E|NE]; split; intro H; try reflexivity; try discriminate.
  - intros i I C. assert (X : In i (filter (start G) (seq 0 (n G)))) by (apply filter_In; split; [apply in_seq; lia | apply Z.eqb_eq, C]). destruct (filter (start G) (seq 0 (n G))); [destruct X | discriminate].
  - exfalso. destruct (filter (start G) (seq 0 (n G))) as [|i l] eqn:E; [cbn in NE; lia|]. assert (X : In i (filter (start G) (seq 0 (n G)))) by (rewrite E; left; reflexivity). apply filter_In in X. destruct X as [X Y]. apply in_seq in X. apply Z.eqb_eq in Y. apply (H i); [lia | exact Y].
Qed.
Print Assumptions C86_no_start.
(* a cell without data has flow code 0 and parent 0 (d8_global.py 645-648), so it is a start cell and takes the elevation of cell 0 *)
Definition ex : grids := mkG 4 (fun i => nth i [0; 1; 0; 16]%Z 0%Z) (fun i => nth i [0; 0; 0; 1] 0)%nat (fun i => if Nat.eqb i 2 then 0 else 1 # 10) (fun _ => 30) (fun i => nth i [120; 130; -9999; 140] 0).
Theorem C86_nodata_refuted : wf ex /\ sound ex /\ z0 ex 2 == nodata /\ code ex 2 = 0%Z /\ exists s reps, sweep 5 ex (init ex) 0 = Some (s, reps) /\ DEM s 2 == z0 ex 0.
Proof.
  split; [intros i I; cbn in I; do 4 (destruct i as [|i]; [cbn; lia|]); lia|]. split; [intros i I; cbn in I; do 4 (destruct i as [|i]; [cbn; split; discriminate|]); lia|]. split; [reflexivity|]. split; [reflexivity|]. eexists _, _. split; [reflexivity|]. reflexivity.
Qed.
Print Assumptions C86_nodata_refuted.
Example C86_case : match sweep 5 ex (init ex) 0 with Some (s, reps) => Qeq_bool (DEM s 3) 133 && Qeq_bool (dist s 3) 30 && Qeq_bool (DEM s 1) 130 && Nat.eqb reps 1 | None => false end = true.
Proof. reflexivity. Qed.

(* ---------- the profile ---------- *)
Lemma diff_length l : length (diff l) = (length l - 1)%nat.
Proof. unfold diff. rewrite map_length, seq_length. reflexivity. Qed.
Lemma diff_nth l k : (S k < length l)%nat -> nth k (diff l) 0 = nth (S k) l 0 - nth k l 0.
Proof.
  intro H. unfold diff. rewrite (nth_indep _ 0 (nth (S (length l)) l 0 - nth (length l) l 0)) by (rewrite map_length, seq_length; lia).
  rewrite (map_nth (fun k => nth (S k) l 0 - nth k l 0)). rewrite seq_nth by lia. reflexivity.
Qed.
(* seen from the outlet, the k-th length is the distance in metres between the points k-1 and k *)
Theorem C86_lengths d l : ds_profile d = Some l -> length l = length d /\ forall k, (0 < k < length d)%nat -> nth k l 0 == 1000 * (nth (length d - k) d 0 - nth (length d - 1 - k) d 0).
Proof.
  unfold ds_profile. destruct (nth_error (diff d) (length (diff d) - 2)) as [x|] eqn:X; [|discriminate]. pose proof (diff_length d) as LD. destruct (length (diff d)) as [|[|m]] eqn:E; try discriminate. intro H. injection H as <-.
  split; [rewrite rev_length, map_length, app_length, E; cbn [length]; lia|]. intros k K. set (v := map _ _). assert (LV : length v = length d) by (unfold v; rewrite map_length, app_length, E; cbn [length]; lia).
  rewrite rev_nth by lia. rewrite LV. unfold v. change 0 with ((fun v : Q => v * 1000) 0) at 1 2. 
  assert (M : forall j, nth j (map (fun v : Q => v * 1000) (diff d ++ [x])) 0 == 1000 * nth j (diff d ++ [x]) 0).
  { intro j. destruct (Nat.lt_ge_cases j (length (diff d ++ [x]))) as [J|J]; [|rewrite !nth_overflow by (rewrite ?map_length; exact J); reflexivity]. rewrite (nth_indep _ 0 (0 * 1000)) by (rewrite map_length; exact J). rewrite (map_nth (fun v => v * 1000)). ring. }
  rewrite M. rewrite app_nth1 by lia. rewrite diff_nth by lia. replace (S (length d - S k)) with (length d - k)%nat by lia. replace (length d - S k)%nat with (length d - 1 - k)%nat by lia. reflexivity.
Qed.
Print Assumptions C86_lengths.
Theorem C86_lengths_short d : ds_profile d = None <-> (length d < 3)%nat.
Proof.
  unfold ds_profile. pose proof (diff_length d) as LD. destruct (nth_error (diff d) (length (diff d) - 2)) as [x|] eqn:X.
  - destruct (length (diff d)) as [|[|m]]; split; intro H; try reflexivity; try discriminate; lia.
  - apply nth_error_None in X. split; [lia | reflexivity].
Qed.
Print Assumptions C86_lengths_short.

(* ---------- the law and its fit ---------- *)
Local Open Scope R_scope.
Theorem C86_slope_law c p a b : 0 <= c -> p <= 0 -> 0 < a <= b -> 0 <= slope_law c p b <= slope_law c p a.
Proof.
  intros C P [H1 H2]. unfold slope_law. destruct (Rlt_dec 0 a); [|lra]. destruct (Rlt_dec 0 b); [|lra]. assert (X : Rpower b p <= Rpower a p).
  { unfold Rpower. destruct (Req_dec a b) as [->|N]; [lra|]. assert (L : ln a < ln b) by (apply ln_increasing; lra). destruct (Req_dec p 0) as [->|NP]; [rewrite !Rmult_0_l; lra|]. left. apply exp_increasing. nra. }
  pose proof (exp_pos (p * ln b)). fold (Rpower b p) in H. split; [nra|]. apply Rmult_le_compat_l; assumption.
Qed.
Print Assumptions C86_slope_law.
Lemma rsum_ext m f g : (forall k, (k < m)%nat -> f k = g k) -> rsum m f = rsum m g.
Proof. induction m as [|m IH]; intro H; [reflexivity|]. cbn [rsum]. rewrite IH by (intros; apply H; lia). rewrite (H m) by lia. reflexivity. Qed.
Lemma rsum_scal m f x : rsum m (fun k => x * f k) = x * rsum m f.
Proof. induction m as [|m IH]; cbn [rsum]; [ring|]. rewrite IH. ring. Qed.
Lemma rsum_plus m f g : rsum m (fun k => f k + g k) = rsum m f + rsum m g.
Proof. induction m as [|m IH]; cbn [rsum]; [ring|]. rewrite IH. ring. Qed.
Lemma rsum_nonneg m f : (forall k, (k < m)%nat -> 0 <= f k) -> 0 <= rsum m f.
Proof. induction m as [|m IH]; intro H; cbn [rsum]; [lra|]. pose proof (H m ltac:(lia)). specialize (IH ltac:(intros; apply H; lia)). lra. Qed.
Lemma rsum_zero m f : (forall k, (k < m)%nat -> 0 <= f k) -> rsum m f = 0 -> forall k, (k < m)%nat -> f k = 0.
Proof.
  induction m as [|m IH]; intros H E k K; [lia|]. cbn [rsum] in E. pose proof (H m ltac:(lia)) as A. pose proof (rsum_nonneg m f ltac:(intros; apply H; lia)) as B. destruct (Nat.eq_dec k m) as [->|]; [lra|]. apply IH; [intros; apply H; lia | lra | lia].
Qed.
(* the elevations that update_DEM builds along the profile: every step up adds slope times length of the upper cell *)
Definition built (P : profile) (c p : R) (k : nat) : R := z P 0 + rsum k (fun j => slope_law c p (A P (S j)) * dl P (S j)).
Definition sq_error (P : profile) (f : nat -> R) : R := rsum (nz P) (fun k => (z P k - f k) ^ 2).
Lemma built_F P c p k : (forall j, 0 < A P j) -> built P c p k = z P 0 + c * Fk P p k.
Proof.
  intro H. unfold built, Fk. rewrite <- rsum_scal. f_equal. apply rsum_ext. intros j _. unfold slope_law. destruct (Rlt_dec 0 (A P (S j))) as [_|N]; [ring | specialize (H (S j)); contradiction].
Qed.
(* c2_function gives the best factor for a given exponent ... *)
Theorem C86_c2_best P p c : (forall j, 0 < A P j) -> rsum (nz P) (fun k => Fk P p k ^ 2) <> 0 -> sq_error P (built P (c2 P p) p) <= sq_error P (built P c p).
Proof.
  intros H N. assert (E : forall c, sq_error P (built P c p) = rsum (nz P) (fun k => (z P k - z P 0) ^ 2) - 2 * c * rsum (nz P) (fun k => (z P k - z P 0) * Fk P p k) + c ^ 2 * rsum (nz P) (fun k => Fk P p k ^ 2)).
  { intro x. unfold sq_error. rewrite (rsum_ext _ _ (fun k => (z P k - z P 0) ^ 2 + ((- (2 * x)) * ((z P k - z P 0) * Fk P p k) + x ^ 2 * Fk P p k ^ 2))). { rewrite rsum_plus, rsum_plus, !rsum_scal. ring. } intros k _. rewrite (built_F P x p k H). ring. }
  rewrite !E. unfold c2. set (a := rsum _ (fun k => Fk P p k ^ 2)) in *. set (b := rsum _ (fun k => _ * Fk P p k)). set (t := rsum _ (fun k => (z P k - z P 0) ^ 2)). assert (AP : 0 <= a) by (apply rsum_nonneg; intros; apply pow2_ge_0). clearbody a b t.
  assert (0 < a) by lra. replace (t - 2 * (b / a) * b + (b / a) ^ 2 * a) with (t - b * b / a) by (field; lra). replace (t - 2 * c * b + c ^ 2 * a) with (t - b * b / a + a * (c - b / a) ^ 2) by (field; lra). pose proof (pow2_ge_0 (c - b / a)). nra.
Qed.
Print Assumptions C86_c2_best.
(* ... and c1_function the only nonzero factor for which the error does not change with the exponent *)
Lemma d_rsum m (f f' : nat -> R -> R) p : (forall k, derivable_pt_lim (f k) p (f' k p)) -> derivable_pt_lim (fun p => rsum m (fun k => f k p)) p (rsum m (fun k => f' k p)).
Proof.
  intro H. induction m as [|m IH]; cbn [rsum]; [apply derivable_pt_lim_const|]. apply derivable_pt_lim_plus; [exact IH | apply H].
Qed.
Lemma d_power a p : derivable_pt_lim (fun p => Rpower a p) p (Rpower a p * ln a).
Proof.
  unfold Rpower. replace (exp (p * ln a) * ln a) with (exp (p * ln a) * (1 * ln a + p * 0)) by ring. apply (derivable_pt_lim_comp (fun p => p * ln a) exp); [|apply derivable_pt_lim_exp].
  apply (derivable_pt_lim_mult (fun p => p) (fun _ => ln a)); [apply derivable_pt_lim_id | apply derivable_pt_lim_const].
Qed.
Theorem C86_c1_stationary P p c : (forall j, 0 < A P j) -> c <> 0 -> rsum (nz P) (fun k => Fk P p k * Fkd P p k) <> 0 -> (derivable_pt_lim (fun q => sq_error P (built P c q)) p 0 <-> c = c1 P p).
Proof.
  intros H C N. assert (DF : forall k, derivable_pt_lim (fun q => Fk P q k) p (Fkd P p k)).
  { intro k. unfold Fk, Fkd. apply (d_rsum k (fun j q => Rpower (A P (S j)) q * dl P (S j)) (fun j q => Rpower (A P (S j)) q * ln (A P (S j)) * dl P (S j))). intro j. replace (Rpower (A P (S j)) p * ln (A P (S j)) * dl P (S j)) with (Rpower (A P (S j)) p * ln (A P (S j)) * dl P (S j) + Rpower (A P (S j)) p * 0) by ring.
    apply (derivable_pt_lim_mult (fun q => Rpower (A P (S j)) q) (fun _ => dl P (S j))); [apply d_power | apply derivable_pt_lim_const]. }
  assert (D : derivable_pt_lim (fun q => sq_error P (built P c q)) p (rsum (nz P) (fun k => -2 * c * ((z P k - z P 0 - c * Fk P p k) * Fkd P p k)))).
  { assert (EX : forall q, rsum (nz P) (fun k => (z P k - z P 0 - c * Fk P q k) * (z P k - z P 0 - c * Fk P q k)) = sq_error P (built P c q)) by (intro q; unfold sq_error; apply rsum_ext; intros k _; rewrite (built_F P c q k H); ring).
    assert (DD : derivable_pt_lim (fun q => rsum (nz P) (fun k => (z P k - z P 0 - c * Fk P q k) * (z P k - z P 0 - c * Fk P q k))) p (rsum (nz P) (fun k => -2 * c * ((z P k - z P 0 - c * Fk P p k) * Fkd P p k)))).
    { apply (d_rsum (nz P) (fun k q => (z P k - z P 0 - c * Fk P q k) * (z P k - z P 0 - c * Fk P q k)) (fun k q => -2 * c * ((z P k - z P 0 - c * Fk P q k) * Fkd P q k))). intro k. assert (D1 : derivable_pt_lim (fun q => z P k - z P 0 - c * Fk P q k) p (0 - c * Fkd P p k)).
      { apply (derivable_pt_lim_minus (fun _ => z P k - z P 0) (fun q => c * Fk P q k)); [apply derivable_pt_lim_const|]. replace (c * Fkd P p k) with (0 * Fk P p k + c * Fkd P p k) by ring. apply (derivable_pt_lim_mult (fun _ => c) (fun q => Fk P q k)); [apply derivable_pt_lim_const | apply DF]. }
      replace (-2 * c * ((z P k - z P 0 - c * Fk P p k) * Fkd P p k)) with ((0 - c * Fkd P p k) * (z P k - z P 0 - c * Fk P p k) + (z P k - z P 0 - c * Fk P p k) * (0 - c * Fkd P p k)) by ring. exact (derivable_pt_lim_mult _ _ _ _ _ D1 D1). }
    intros eps He. destruct (DD eps He) as [del Hd]. exists del. intros h Hh Hl. specialize (Hd h Hh Hl). cbv beta in Hd. rewrite !EX in Hd. exact Hd. }
  assert (S1 : rsum (nz P) (fun k => -2 * c * ((z P k - z P 0 - c * Fk P p k) * Fkd P p k)) = -2 * c * (rsum (nz P) (fun k => (z P k - z P 0) * Fkd P p k) - c * rsum (nz P) (fun k => Fk P p k * Fkd P p k))).
  { rewrite rsum_scal. f_equal. transitivity (rsum (nz P) (fun k => (z P k - z P 0) * Fkd P p k + (- c) * (Fk P p k * Fkd P p k))); [apply rsum_ext; intros k _; ring|]. rewrite rsum_plus, rsum_scal. ring. }
  rewrite S1 in D. unfold c1. set (b := rsum (nz P) (fun k => Fk P p k * Fkd P p k)) in *. set (t := rsum (nz P) (fun k => (z P k - z P 0) * Fkd P p k)) in *. clearbody b t. split.
  - intro Z. pose proof (uniqueness_limite _ _ _ _ D Z) as E. assert (t - c * b = 0) by (apply Rmult_eq_reg_l with (-2 * c); [lra | nra]). apply Rmult_eq_reg_r with b; [|exact N]. field_simplify; [lra | exact N].
  - intro E. replace 0 with (-2 * c * (t - c * b)); [exact D|]. rewrite E. field. exact N.
Qed.
Print Assumptions C86_c1_stationary.
(* a profile that follows the law is recognised by both *)
Theorem C86_exact_profile P c p : (forall j, 0 < A P j) -> (forall k, (k < nz P)%nat -> z P k = built P c p k) ->
  (rsum (nz P) (fun k => Fk P p k ^ 2) <> 0 -> c2 P p = c) /\ (rsum (nz P) (fun k => Fk P p k * Fkd P p k) <> 0 -> c1 P p = c).
Proof.
  intros H E. assert (X : forall k, (k < nz P)%nat -> z P k - z P 0 = c * Fk P p k) by (intros k K; rewrite (E k K) at 1; rewrite (built_F P c p k H); ring). split; intro N.
  - unfold c2. rewrite (rsum_ext _ (fun k => (z P k - z P 0) * Fk P p k) (fun k => c * Fk P p k ^ 2)) by (intros k K; rewrite (X k K); ring). rewrite rsum_scal. field. exact N.
  - unfold c1. rewrite (rsum_ext _ (fun k => (z P k - z P 0) * Fkd P p k) (fun k => c * (Fk P p k * Fkd P p k))) by (intros k K; rewrite (X k K); ring). rewrite rsum_scal. field. exact N.
Qed.
Print Assumptions C86_exact_profile.
(* the function that is minimised is a weighted error of another profile: lengths and areas shifted down by one point *)
Theorem C86_error_meaning P c p : (0 < nz P)%nat -> (forall j, 0 < A P j) -> (L2_error P c p = 0 <-> forall k, (k < nz P)%nat -> z P k = z P 0 + rsum k (fun j => slope_law c p (A P j) * dl P j)).
Proof.
  intros Z H. assert (F : forall k, fit P c p k = z P 0 + rsum k (fun j => slope_law c p (A P j) * dl P j)).
  { intro k. unfold fit. f_equal. apply rsum_ext. intros j _. unfold slope_law. destruct (Rlt_dec 0 (A P j)) as [_|N]; [ring | specialize (H j); contradiction]. }
  assert (NP : 0 < INR (nz P)) by (apply lt_0_INR; exact Z). assert (T : forall k, (k < nz P)%nat -> 0 <= A P k * (z P k - fit P c p k) ^ 2) by (intros k _; apply Rmult_le_pos; [left; apply H | apply pow2_ge_0]). pose proof (rsum_nonneg _ _ T) as S0. unfold L2_error. split.
  - intros E k K. apply sqrt_eq_0 in E; [|apply Rmult_le_pos; [exact S0 | left; apply Rinv_0_lt_compat, NP]]. assert (S1 : rsum (nz P) (fun k => A P k * (z P k - fit P c p k) ^ 2) = 0) by (apply Rmult_eq_reg_r with (/ INR (nz P)); [unfold Rdiv in E; lra | apply Rinv_neq_0_compat; lra]).
    pose proof (rsum_zero _ _ T S1 k K) as X. cbv beta in X. apply Rmult_integral in X. destruct X as [X|X]; [specialize (H k); lra|]. rewrite <- F. assert (z P k - fit P c p k = 0); [|lra]. apply Rsqr_0_uniq. unfold Rsqr. lra.
  - intro E. rewrite (rsum_ext _ _ (fun _ => 0)). { replace (rsum (nz P) (fun _ => 0) / INR (nz P)) with 0; [apply sqrt_0|]. assert (R0 : forall m, rsum m (fun _ => 0) = 0) by (induction m as [|m IH]; cbn [rsum]; lra). rewrite R0. field. lra. } intros k K. rewrite F, <- (E k K). ring.
Qed.
Print Assumptions C86_error_meaning.
(* so a profile that follows the law exactly has a nonzero error at the right parameters *)
Definition px : profile := mkP 3 (fun k => match k with 0%nat => 0 | 1%nat => 2 | _ => 3 end) (fun _ => 1) (fun k => match k with 0%nat => 1 | 1%nat => 2 | _ => 1 end).
Theorem C86_fit_refuted : (forall k, (k < nz px)%nat -> z px k = built px 1 (-1/2) k) /\ L2_error px 1 (-1/2) <> 0.
Proof.
  assert (P1 : forall p, Rpower 1 p = 1) by (intro p; unfold Rpower; rewrite ln_1, Rmult_0_r; apply exp_0). assert (SL : slope_law 1 (-1/2) 1 = 1) by (unfold slope_law; destruct (Rlt_dec 0 1); [rewrite P1; ring | lra]). split.
  - intros k K. unfold built, px in *. cbn [nz z A dl] in *. rewrite SL. destruct k as [|[|[|k]]]; [| | | lia]; cbn [rsum]; ring.
  - intro E. pose proof (proj1 (C86_error_meaning px 1 (-1/2) ltac:(unfold px; cbn; lia) ltac:(intro; unfold px; cbn; lra)) E) as M. clear E. rename M into E. specialize (E 1%nat ltac:(unfold px; cbn; lia)). unfold px in E. cbn [z A dl rsum] in E. rewrite SL in E. lra.
Qed.
Print Assumptions C86_fit_refuted.
(* the starting guess does not reach the top of the profile either: it uses one length too many *)
Theorem C86_guess P : (0 < nz P)%nat -> (forall j, 0 < A P j) -> (forall j, 0 < dl P j) -> z P 0 < z P (nz P - 1) -> fit P (c_guess P) (- (1 / 2)) (nz P - 1) < z P (nz P - 1).
Proof.
  intros Z H D L. unfold fit. rewrite rsum_scal. unfold c_guess. set (f := fun j => dl P j * Rpower (A P j) (- (1 / 2))). assert (F0 : forall k, 0 < f k) by (intro k; unfold f; apply Rmult_lt_0_compat; [apply D | apply exp_pos]). replace (nz P) with (S (nz P - 1)) at 2 by lia. cbn [rsum].
  pose proof (rsum_nonneg (nz P - 1) f ltac:(intros; left; apply F0)) as S0. pose proof (F0 (nz P - 1)%nat) as F1. set (a := rsum (nz P - 1) f) in *. set (b := f (nz P - 1)%nat) in *. set (h := z P (nz P - 1)) in *. set (h0 := z P 0) in *. clearbody a b h h0.
  assert (a / (a + b) < 1) by (apply Rmult_lt_reg_r with (a + b); [lra|]; field_simplify; lra). replace ((h - h0) / (a + b) * a) with ((h - h0) * (a / (a + b))) by (field; lra). nra.
Qed.
Print Assumptions C86_guess.
(* areas of e km2, unit lengths, exponent 0: the hypotheses of both formulas are met *)
Definition py : profile := mkP 3 (fun k => 2 * INR k) (fun _ => exp 1) (fun _ => 1).
Example C86_fit_case : (forall j, 0 < A py j) /\ rsum (nz py) (fun k => Fk py 0 k ^ 2) = 5 /\ rsum (nz py) (fun k => Fk py 0 k * Fkd py 0 k) = 5 /\ c1 py 0 = 2 /\ c2 py 0 = 2.
Proof.
  assert (P : Rpower (exp 1) 0 = 1) by (unfold Rpower; rewrite Rmult_0_l; apply exp_0). assert (E1 : rsum (nz py) (fun k => Fk py 0 k ^ 2) = 5) by (unfold py, Fk; cbn [nz A dl rsum]; rewrite P; ring). assert (E2 : rsum (nz py) (fun k => Fk py 0 k * Fkd py 0 k) = 5) by (unfold py, Fk, Fkd; cbn [nz A dl rsum]; rewrite P, ln_exp; ring).
  assert (H : forall j, 0 < A py j) by (intro; unfold py; cbn; apply exp_pos). assert (B : forall k, (k < nz py)%nat -> z py k = built py 2 0 k).
  { intros k K. rewrite (built_F _ _ _ _ H). unfold py, Fk in *. cbn [nz z A dl] in *. destruct k as [|[|[|k]]]; [| | | lia]; cbn [rsum INR]; rewrite ?P; ring. }
  split; [exact H|]. split; [exact E1|]. split; [exact E2|]. destruct (C86_exact_profile py 2 0 H B) as [X Y]. split; [apply Y | apply X]; lra.
Qed.
(* areas of 0 count as 1 in the fit, all others and the elevations and lengths are as they were *)
Theorem C86_prepare P k : nz (prepare P) = nz P /\ z (prepare P) k = z P k /\ dl (prepare P) k = dl P k /\ (A P k = 0 -> A (prepare P) k = 1) /\ (A P k <> 0 -> A (prepare P) k = A P k) /\ (0 <= A P k -> 0 < A (prepare P) k).
Proof.
  repeat split; cbn [prepare A]; destruct (Req_EM_T (A P k) 0); intros; try reflexivity; try contradiction; lra.
Qed.
Print Assumptions C86_prepare.
