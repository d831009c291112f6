(* Properties of the hydrologic indicators: monthly statistics, days per month, affected population (C81). *)
From Coq Require Import Reals List Arith Bool Lia Lra.
From Verif Require Import Base Indic_Model.
Import ListNotations.
Local Open Scope R_scope.

(* ---------- specification ---------- *)
Definition rsum (l : list R) : R := fold_right Rplus 0 l.
Definition avg (l : list R) : R := rsum l / INR (length l).
Definition sdev (l : list R) : R := sqrt (avg (map (fun x => (x - avg l) ^ 2) l)).
(* a stack, cut where the month changes: (month, values) *)
Notation runs := (list (nat * list R)).
Definition flat (rs : runs) : list (nat * R) := concat (map (fun r => map (pair (fst r)) (snd r)) rs).
Fixpoint changes (rs : runs) : Prop :=
  match rs with r :: ((r' :: _) as t) => fst r <> fst r' /\ changes t | _ => True end.
Definition valid (rs : runs) : Prop := (forall r, In r rs -> (1 <= fst r <= 12)%nat /\ snd r <> []) /\ changes rs.
(* the runs of one month in the order of the years *)
Definition of_month (m : nat) (rs : runs) : list (list R) := map snd (filter (fun r => Nat.eqb (fst r) m) rs).
Definition row (st : list stats) (m : nat) : stats := get (mkS 0 0 NaN NaN) st (m - 1).

(* ---------- every stack is a sequence of runs ---------- *)
Theorem C81_runs l : l <> [] -> (forall m x, In (m, x) l -> (1 <= m <= 12)%nat) -> exists rs r, valid (rs ++ [r]) /\ flat (rs ++ [r]) = l.
Proof.
  intros N V. assert (H : exists rs, rs <> [] /\ valid rs /\ flat rs = l).
  { induction l as [|[m x] l IH]; [congruence|]. destruct l as [|y l].
    - exists [(m, [x])]. split; [discriminate|]. split; [|reflexivity]. split; [|exact I]. intros r [<-|[]]. cbn. split; [apply (V m x); left; reflexivity | discriminate].
    - destruct IH as [rs [R1 [[R2 R3] R4]]]; [discriminate | intros; eapply V; right; eassumption|].
      destruct rs as [|[m' v] rs]; [congruence|]. destruct (Nat.eq_dec m m') as [<-|D].
      + exists ((m, x :: v) :: rs). split; [discriminate|]. split.
        * split; [|destruct rs; exact R3]. intros r [<-|I]; [split; [apply (V m x); left; reflexivity | discriminate] | apply R2; right; exact I].
        * unfold flat in *. cbn in *. rewrite R4. reflexivity.
      + exists ((m, [x]) :: (m', v) :: rs). split; [discriminate|]. split.
        * split; [|split; [exact D | exact R3]]. intros r [<-|I]; [split; [apply (V m x); left; reflexivity | discriminate] | apply R2; exact I].
        * unfold flat in *. cbn in *. rewrite R4. reflexivity. }
  destruct H as [rs [A [B C]]]. destruct (exists_last A) as [rs' [r E]]. exists rs', r. rewrite <- E. auto.
Qed.
Print Assumptions C81_runs.

(* ---------- the loop on one run ---------- *)
Definition racc (first : bool) (r : nat * list R) : acc :=
  let v := snd r in
  mkA (Some (fst r)) (length v) (fold_left Rmin (if first then tl v else v) max_num) (fold_left Rmax v min_num)
      (rsum v) (rsum (map (fun x => x ^ 2) v)).
Lemma loop_same v : forall i m a t, (0 < i)%nat -> month_num a = Some m ->
  stat_loop i (map (pair m) v) (a, t) =
  (mkA (Some m) (per_month a + length v) (fold_left Rmin v (mn a)) (fold_left Rmax v (mx a)) (sm a + rsum v) (sq a + rsum (map (fun x => x ^ 2) v)), t).
Proof.
  induction v as [|x v IH]; intros i m a t I M; destruct a as [mo n b c d e]; cbn in M; subst mo.
  - cbn. rewrite Nat.add_0_r, !Rplus_0_r. reflexivity.
  - cbn [map stat_loop]. unfold stat_step. cbn [month_num]. rewrite Nat.eqb_refl. cbn [negb month_num per_month mn mx sm sq].
    destruct (Nat.ltb_spec 0 i) as [_|?]; [|lia]. rewrite IH by (cbn; lia || reflexivity). cbn. rewrite <- Nat.add_assoc, !Rplus_assoc. reflexivity.
Qed.
Lemma stat_loop_app l1 : forall i l2 s, stat_loop i (l1 ++ l2) s = stat_loop (i + length l1) l2 (stat_loop i l1 s).
Proof. induction l1 as [|[m x] l1 IH]; intros i l2 s; cbn; [rewrite Nat.add_0_r; reflexivity|]. rewrite IH. f_equal. lia. Qed.
Definition fine (a : acc) : Prop := mn a <= max_num /\ min_num <= mx a.
Lemma fold_min_le l : forall z, fold_left Rmin l z <= z.
Proof. induction l as [|x l IH]; intro z; cbn; [lra|]. eapply Rle_trans; [apply IH | apply Rmin_l]. Qed.
Lemma fold_max_ge l : forall z, z <= fold_left Rmax l z.
Proof. induction l as [|x l IH]; intro z; cbn; [lra|]. eapply Rle_trans; [|apply IH]. apply Rmax_l. Qed.
Lemma racc_fine f r : fine (racc f r).
Proof. split; [apply fold_min_le | apply fold_max_ge]. Qed.
Lemma loop_run i r a t : snd r <> [] -> month_num a <> Some (fst r) -> fine a ->
  stat_loop i (map (pair (fst r)) (snd r)) (a, t) =
  (racc (Nat.eqb i 0) r, match month_num a with Some m => close_month true m a t | None => t end).
Proof.
  intros N M [F1 F2]. destruct r as [m v]. cbn [fst snd] in *. destruct v as [|x v]; [congruence|]. cbn [map stat_loop].
  unfold stat_step.
  assert (B : match month_num a with Some m0 => negb (Nat.eqb m m0) | None => true end = true).
  { destruct (month_num a) as [m0|]; [|reflexivity]. destruct (Nat.eqb_spec m m0); [congruence | reflexivity]. }
  rewrite B. cbn [month_num per_month mn mx sm sq]. rewrite loop_same by (cbn; lia || reflexivity). cbn [month_num per_month mn mx sm sq].
  rewrite (Rmax_right (mn a) max_num F1), (Rmin_right (mx a) min_num F2). unfold racc. cbn [fst snd length map rsum fold_right].
  f_equal. f_equal; [destruct i; reflexivity | unfold rsum; lra | unfold rsum; cbn [map fold_right]; lra].
Qed.
(* ---------- closing of several runs ---------- *)
Definition close (r : bool * (nat * list R)) (t : tables) : tables := close_month true (fst (snd r)) (racc (fst r) (snd r)) t.
Definition closes (l : list (bool * (nat * list R))) (t : tables) : tables := fold_left (fun t r => close r t) l t.
Definition tag (rs : runs) : list (bool * (nat * list R)) := match rs with [] => [] | r :: t => (true, r) :: map (pair false) t end.
Lemma loop_runs rs : forall i f r0 r t, (0 < i)%nat -> valid (r0 :: rs ++ [r]) ->
  stat_loop i (flat (rs ++ [r])) (racc f r0, t) = (racc false r, closes ((f, r0) :: map (pair false) rs) t).
Proof.
  induction rs as [|r1 rs IH]; intros i f r0 r t I [V1 V2].
  - unfold flat. cbn [app map concat]. rewrite app_nil_r. cbn in V2. rewrite loop_run; [|apply V1; right; left; reflexivity | cbn; intro E; injection E; tauto | apply racc_fine].
    destruct (Nat.eqb_spec i 0); [lia|]. reflexivity.
  - change (flat ((r1 :: rs) ++ [r])) with (map (pair (fst r1)) (snd r1) ++ flat (rs ++ [r])). rewrite stat_loop_app.
    cbn in V2. rewrite loop_run; [|apply V1; right; left; reflexivity | cbn; intro E; injection E; tauto | apply racc_fine].
    destruct (Nat.eqb_spec i 0); [lia|]. rewrite IH; [reflexivity | lia|]. split; [|apply V2]. intros r' I'. apply V1. right. exact I'.
Qed.
Definition finish (f : bool) (r : nat * list R) (t : tables) : tables := close_month false (fst r) (racc f r) t.
Definition out_of (t : tables) : list stats :=
  tab 12 (fun k => mkS (get 0 (MIN t) k) (get 0 (MAX t) k)
                       (ndiv (get 0 (MEAN t) k) (get 0%nat (YEARS t) k)) (ndiv (get 0 (SDEV t) k) (get 0%nat (YEARS t) k))).
Definition is_nil {A} (l : list A) : bool := match l with [] => true | _ => false end.
Lemma stats_runs rs r : valid (rs ++ [r]) ->
  create_stat_grid_stacks (flat (rs ++ [r])) = Some (out_of (finish (is_nil rs) r (closes (tag rs) tables0))).
Proof.
  intro V. unfold create_stat_grid_stacks.
  assert (F0 : fine acc0) by (split; cbn; unfold min_num; lra).
  assert (E : stat_loop 0 (flat (rs ++ [r])) (acc0, tables0) = (racc (is_nil rs) r, closes (tag rs) tables0)).
  { destruct rs as [|r0 rs].
    - unfold flat. cbn [app map concat]. rewrite app_nil_r. rewrite loop_run; [reflexivity | apply V; left; reflexivity | discriminate | exact F0].
    - change (flat ((r0 :: rs) ++ [r])) with (map (pair (fst r0)) (snd r0) ++ flat (rs ++ [r])). rewrite stat_loop_app.
      destruct V as [V1 V2]. rewrite loop_run; [|apply V1; left; reflexivity | discriminate | exact F0]. cbn [Nat.eqb month_num acc0].
      rewrite map_length. rewrite loop_runs; [reflexivity| |split; assumption]. destruct (V1 r0 (or_introl eq_refl)) as [_ N]. destruct (snd r0); [congruence | cbn; lia]. }
  rewrite E. reflexivity.
Qed.
(* ---------- the tables ---------- *)
Definition wf (t : tables) : Prop := length (MIN t) = 12%nat /\ length (MAX t) = 12%nat /\ length (MEAN t) = 12%nat /\ length (SDEV t) = 12%nat /\ length (YEARS t) = 12%nat.
Lemma wf_close c m a t : wf t -> wf (close_month c m a t).
Proof. intros (A & B & C & D & E). unfold close_month. repeat split; cbn; try (rewrite set_length; assumption). destruct c; [rewrite set_length|]; assumption. Qed.
Lemma wf_closes l : forall t, wf t -> wf (closes l t).
Proof. induction l as [|r l IH]; intros t W; [exact W|]. cbn. apply IH, wf_close, W. Qed.
Lemma wf0 : wf tables0.
Proof. repeat split. Qed.
Lemma get_rep {A} (d x : A) n k : (k < n)%nat -> get d (repeat x n) k = x.
Proof. intro K. unfold get. rewrite (nth_indep _ d x) by (rewrite repeat_length; exact K). apply nth_repeat. Qed.
Definition mean_sd (v : list R) : R * R := (rsum v / INR (length v), sqrt (rsum (map (fun x => x ^ 2) v) / INR (length v) - (rsum v / INR (length v)) ^ 2)).
Definition sel (m : nat) (l : list (bool * (nat * list R))) : list (list R) := map (fun r => snd (snd r)) (filter (fun r => Nat.eqb (fst (snd r)) m) l).
Lemma sums_closes m l : (1 <= m <= 12)%nat -> forall t, wf t -> (forall r, In r l -> (1 <= fst (snd r))%nat) ->
  get 0 (MEAN (closes l t)) (m - 1) = get 0 (MEAN t) (m - 1) + rsum (map (fun v => fst (mean_sd v)) (sel m l)) /\
  get 0 (SDEV (closes l t)) (m - 1) = get 0 (SDEV t) (m - 1) + rsum (map (fun v => snd (mean_sd v)) (sel m l)) /\
  get 0%nat (YEARS (closes l t)) (m - 1) = (get 0%nat (YEARS t) (m - 1) + length (sel m l))%nat.
Proof.
  intro M. induction l as [|r l IH]; intros t W P.
  - cbn. repeat split; try lra. lia.
  - cbn [closes fold_left]. change (fold_left (fun t r => close r t) l (close r t)) with (closes l (close r t)).
    destruct (IH (close r t) (wf_close _ _ _ _ W) ltac:(intros; apply P; right; assumption)) as (E1 & E2 & E3).
    rewrite E1, E2, E3. specialize (P r (or_introl eq_refl)). destruct W as (W1 & W2 & W3 & W4 & W5).
    unfold sel. cbn [filter]. destruct (Nat.eqb_spec (fst (snd r)) m) as [E|E].
    + cbn [map rsum fold_right length]. unfold close, close_month. cbn [MEAN SDEV YEARS]. rewrite E.
      rewrite !get_set_same by lia. cbn [racc sm sq per_month mean_sd fst snd]. repeat split; try (unfold rsum; lra). fold (sel m l). unfold sel. lia.
    + unfold close, close_month. cbn [MEAN SDEV YEARS]. rewrite !get_set_other by lia. repeat split; reflexivity.
Qed.
Lemma sel_tag m rs : sel m (tag rs) = of_month m rs.
Proof.
  assert (H : forall l, sel m (map (pair false) l) = of_month m l).
  { unfold sel, of_month. induction l as [|r l IH]; [reflexivity|]. cbn. destruct (Nat.eqb (fst r) m); cbn; rewrite IH; reflexivity. }
  destruct rs as [|r rs]; [reflexivity|]. cbn. unfold sel, of_month in *. cbn. destruct (Nat.eqb (fst r) m); cbn; rewrite H; reflexivity.
Qed.
Lemma tag_months rs : (forall r, In r rs -> (1 <= fst r)%nat) -> forall r, In r (tag rs) -> (1 <= fst (snd r))%nat.
Proof. intros H r I. destruct rs as [|r0 rs]; [destruct I|]. destruct I as [<-|I]; [apply H; left; reflexivity|]. apply in_map_iff in I. destruct I as [r' [<- I]]. apply H. right. exact I. Qed.
Lemma row_out t m : (1 <= m <= 12)%nat -> row (out_of t) m =
  mkS (get 0 (MIN t) (m - 1)) (get 0 (MAX t) (m - 1)) (ndiv (get 0 (MEAN t) (m - 1)) (get 0%nat (YEARS t) (m - 1))) (ndiv (get 0 (SDEV t) (m - 1)) (get 0%nat (YEARS t) (m - 1))).
Proof. intro M. unfold row, out_of. rewrite get_tab by lia. reflexivity. Qed.
Lemma rsum_app a b : rsum (a ++ b) = rsum a + rsum b.
Proof. unfold rsum. induction a as [|x a IH]; cbn; [lra|]. rewrite IH. lra. Qed.
Lemma rsum_plus {A} (f g : A -> R) l : rsum (map (fun x => f x + g x) l) = rsum (map f l) + rsum (map g l).
Proof. unfold rsum. induction l; cbn in *; lra. Qed.
Lemma rsum_scale {A} c (f : A -> R) l : rsum (map (fun x => c * f x) l) = c * rsum (map f l).
Proof. unfold rsum. induction l as [|a l IH]; cbn in *; [lra|]. rewrite IH. lra. Qed.
Lemma rsum_const {A} c (l : list A) : rsum (map (fun _ => c) l) = INR (length l) * c.
Proof. induction l as [|a l IH]; [cbn; lra|]. cbn [map rsum fold_right length]. fold (rsum (map (fun _ => c) l)). rewrite IH, S_INR. lra. Qed.
Lemma variance v : v <> [] -> mean_sd v = (avg v, sdev v).
Proof.
  intro N. unfold mean_sd, sdev. f_equal. f_equal. unfold avg at 1. rewrite map_length.
  assert (P : INR (length v) <> 0) by (apply not_0_INR; destruct v; [congruence | cbn; lia]).
  rewrite (map_ext (fun x => (x - avg v) ^ 2) (fun x => x ^ 2 + ((-2 * avg v) * x + avg v ^ 2))) by (intro; ring).
  rewrite rsum_plus, (rsum_plus (fun x => (-2 * avg v) * x) (fun _ => avg v ^ 2)), rsum_const, (rsum_scale (-2 * avg v) (fun x => x)), map_id.
  unfold avg. field. exact P.
Qed.
Lemma of_month_In m rs v : In v (of_month m rs) -> exists r, In r rs /\ snd r = v /\ fst r = m.
Proof. unfold of_month. intro H. apply in_map_iff in H. destruct H as [r [E I]]. apply filter_In in I. destruct I as [I Q]. apply Nat.eqb_eq in Q. eauto. Qed.
Lemma means_of rs m : (forall r, In r rs -> snd r <> []) -> map (fun v => fst (mean_sd v)) (of_month m rs) = map avg (of_month m rs) /\ map (fun v => snd (mean_sd v)) (of_month m rs) = map sdev (of_month m rs).
Proof.
  intro N. split; apply map_ext_in; intros v I; apply of_month_In in I; destruct I as [r [I [<- _]]]; rewrite (variance _ (N r I)); reflexivity.
Qed.
Lemma valid_parts rs r : valid (rs ++ [r]) -> (forall r', In r' rs -> (1 <= fst r')%nat) /\ (forall r', In r' rs -> snd r' <> []) /\ (1 <= fst r <= 12)%nat /\ snd r <> [].
Proof.
  intros [V _]. split; [intros r' I; apply (V r'), in_or_app; left; exact I|]. split; [intros r' I; apply (V r'), in_or_app; left; exact I|].
  apply V, in_or_app. right. left. reflexivity.
Qed.
Lemma tables_final rs r m : valid (rs ++ [r]) -> (1 <= m <= 12)%nat ->
  let t := finish (is_nil rs) r (closes (tag rs) tables0) in let runs_m := of_month m (rs ++ [r]) in
  get 0 (MEAN t) (m - 1) = rsum (map avg runs_m) /\ get 0 (SDEV t) (m - 1) = rsum (map sdev runs_m) /\ get 0%nat (YEARS t) (m - 1) = length (of_month m rs).
Proof.
  intros V M t runs_m. destruct (valid_parts rs r V) as (P1 & P2 & P3 & P4).
  destruct (sums_closes m (tag rs) M tables0 wf0 (tag_months rs P1)) as (E1 & E2 & E3). rewrite sel_tag in E1, E2, E3.
  destruct (means_of rs m P2) as [Q1 Q2]. rewrite Q1 in E1. rewrite Q2 in E2.
  rewrite (get_rep 0 0 12 (m - 1) ltac:(lia) : get 0 (MEAN tables0) (m - 1) = 0) in E1.
  rewrite (get_rep 0 0 12 (m - 1) ltac:(lia) : get 0 (SDEV tables0) (m - 1) = 0) in E2.
  rewrite (get_rep 0%nat 0%nat 12 (m - 1) ltac:(lia) : get 0%nat (YEARS tables0) (m - 1) = 0%nat) in E3. cbn [Nat.add] in E3.
  destruct (wf_closes (tag rs) tables0 wf0) as (W1 & W2 & W3 & W4 & W5).
  unfold runs_m, of_month. rewrite filter_app, map_app. fold (of_month m rs). cbn [filter].
  unfold t, finish, close_month. cbn [MEAN SDEV YEARS]. destruct (Nat.eqb_spec (fst r) m) as [E|E].
  - rewrite E, !get_set_same by lia. cbn [racc sm sq per_month]. pose proof (variance (snd r) P4) as Va. assert (Va2 : sqrt (rsum (map (fun x => x ^ 2) (snd r)) / INR (length (snd r)) - (rsum (snd r) / INR (length (snd r))) ^ 2) = sdev (snd r)) by exact (f_equal snd Va).
    change (rsum (snd r) / INR (length (snd r))) with (avg (snd r)) in *.
    rewrite E1, E2, E3. rewrite !map_app, !rsum_app. cbn [map rsum fold_right]. rewrite Va2. repeat split; unfold rsum; lra.
  - rewrite !get_set_other by lia. rewrite E1, E2, E3. cbn [map]. rewrite app_nil_r. repeat split; lra.
Qed.

(* C81 for every month but that of the last grid, mean and standard deviation are the average over the years of the
   mean and (population) standard deviation of the month *)
Theorem C81_month rs r m : valid (rs ++ [r]) -> (1 <= m <= 12)%nat -> m <> fst r -> of_month m rs <> [] ->
  exists st, create_stat_grid_stacks (flat (rs ++ [r])) = Some st /\
    s_mean (row st m) = Fin (avg (map avg (of_month m (rs ++ [r])))) /\ s_sdev (row st m) = Fin (avg (map sdev (of_month m (rs ++ [r])))).
Proof.
  intros V M D N. eexists. split; [apply stats_runs; exact V|]. rewrite row_out by exact M. cbn [s_mean s_sdev].
  destruct (tables_final rs r m V M) as (E1 & E2 & E3). rewrite E1, E2, E3.
  assert (L : of_month m (rs ++ [r]) = of_month m rs).
  { unfold of_month. rewrite filter_app. cbn. destruct (Nat.eqb_spec (fst r) m); [congruence|]. rewrite app_nil_r. reflexivity. }
  rewrite L. unfold avg at 2 4. rewrite !map_length. destruct (of_month m rs) as [|v l]; [congruence|]. split; reflexivity.
Qed.
Print Assumptions C81_month.
(* C81 when the month has the same number of grids every year, that mean is the mean of all its grids *)
Theorem C81_mean_all k vs : (0 < k)%nat -> vs <> [] -> (forall v, In v vs -> length v = k) -> avg (map avg vs) = avg (concat vs).
Proof.
  intros K N L. unfold avg at 1 3. rewrite map_length.
  assert (S1 : rsum (map avg vs) = rsum (concat vs) / INR k /\ length (concat vs) = (length vs * k)%nat).
  { clear N. induction vs as [|v vs IH]; [split; [cbn; field; apply not_0_INR; lia | reflexivity]|]. destruct IH as [A B]; [intros; apply L; right; assumption|].
    cbn [map rsum fold_right concat length]. fold (rsum (map avg vs)). rewrite A, rsum_app, app_length, B, (L v (or_introl eq_refl)). unfold avg. rewrite (L v (or_introl eq_refl)).
    split; [field; apply not_0_INR; lia | lia]. }
  destruct S1 as [A B]. rewrite A, B, mult_INR. assert (INR k <> 0) by (apply not_0_INR; lia).
  assert (INR (length vs) <> 0) by (apply not_0_INR; destruct vs; [congruence | cbn; lia]). field. auto.
Qed.
Print Assumptions C81_mean_all.
(* C81 refuted: the month of the last grid is divided by one year too few; seen once, its mean is no number at all *)
Theorem C81_last_month_refuted rs r : valid (rs ++ [r]) ->
  exists st, create_stat_grid_stacks (flat (rs ++ [r])) = Some st /\
    let m := fst r in let k := length (of_month m rs) in
    (k = 0%nat -> forall y, s_mean (row st m) <> Fin y /\ s_sdev (row st m) <> Fin y) /\
    ((0 < k)%nat -> s_mean (row st m) = Fin (avg (map avg (of_month m (rs ++ [r]))) * ((INR k + 1) / INR k)) /\
                    s_sdev (row st m) = Fin (avg (map sdev (of_month m (rs ++ [r]))) * ((INR k + 1) / INR k))).
Proof.
  intro V. eexists. split; [apply stats_runs; exact V|]. intros m k. destruct (valid_parts rs r V) as (P1 & P2 & P3 & P4).
  rewrite row_out by exact P3. cbn [s_mean s_sdev]. destruct (tables_final rs r (fst r) V P3) as (E1 & E2 & E3). unfold m. rewrite E1, E2, E3.
  fold m. fold k. split.
  - intros -> y. unfold ndiv. split.
    + destruct (Req_EM_T _ 0); [discriminate|]. destruct (Rlt_dec 0 _); discriminate.
    + destruct (Req_EM_T _ 0); [discriminate|]. destruct (Rlt_dec 0 _); discriminate.
  - intro K. assert (Ln : length (of_month m (rs ++ [r])) = S k).
    { unfold k, of_month. rewrite filter_app, map_app, app_length. cbn. unfold m. rewrite Nat.eqb_refl. cbn. lia. }
    assert (INR k <> 0) by (apply not_0_INR; lia). assert (INR k + 1 <> 0) by (rewrite <- S_INR; apply not_0_INR; lia).
    unfold avg at 2 4. rewrite !map_length, Ln, S_INR. unfold ndiv. destruct k as [|k']; [lia|]. split; f_equal; field; auto.
Qed.
Print Assumptions C81_last_month_refuted.
(* C81 a month that never occurs: no mean, and the start values as extremes *)
Lemma extremes_closes m l : (1 <= m <= 12)%nat -> forall t, wf t -> (forall r, In r l -> (1 <= fst (snd r))%nat) ->
  let bs := map (fun r => mn (racc (fst r) (snd r))) (filter (fun r => Nat.eqb (fst (snd r)) m) l) in
  let cs := map (fun r => mx (racc (fst r) (snd r))) (filter (fun r => Nat.eqb (fst (snd r)) m) l) in
  get 0 (MIN (closes l t)) (m - 1) = fold_left (fun z b => Rmin b z) bs (get 0 (MIN t) (m - 1)) /\
  get 0 (MAX (closes l t)) (m - 1) = fold_left (fun z b => Rmax b z) cs (get 0 (MAX t) (m - 1)).
Proof.
  intro M. induction l as [|r l IH]; intros t W P; [split; reflexivity|].
  cbn [closes fold_left]. change (fold_left (fun t r => close r t) l (close r t)) with (closes l (close r t)).
  destruct (IH (close r t) (wf_close _ _ _ _ W) ltac:(intros; apply P; right; assumption)) as (E1 & E2). cbn zeta in E1, E2.
  rewrite E1, E2. specialize (P r (or_introl eq_refl)). destruct W as (W1 & W2 & W3 & W4 & W5). cbn [filter].
  destruct (Nat.eqb_spec (fst (snd r)) m) as [E|E]; unfold close, close_month; cbn [MIN MAX].
  - rewrite E, !get_set_same by lia. split; reflexivity.
  - rewrite !get_set_other by lia. split; reflexivity.
Qed.
Lemma fold_min_spec l : forall z, let f := fold_left (fun z b => Rmin b z) l z in f <= z /\ (forall b, In b l -> f <= b) /\ (f = z \/ In f l).
Proof.
  induction l as [|b l IH]; intro z; cbn; [repeat split; [lra | tauto | left; reflexivity]|].
  destruct (IH (Rmin b z)) as (A & B & C). cbn zeta in *. pose proof (Rmin_l b z). pose proof (Rmin_r b z). repeat split; [lra| |].
  - intros b' [<-|I]; [lra | apply B, I].
  - destruct C as [C|C]; [|right; right; exact C]. rewrite C. unfold Rmin. destruct (Rle_dec b z); [right; left; reflexivity | left; reflexivity].
Qed.
Lemma fold_max_spec l : forall z, let f := fold_left (fun z b => Rmax b z) l z in z <= f /\ (forall b, In b l -> b <= f) /\ (f = z \/ In f l).
Proof.
  induction l as [|b l IH]; intro z; cbn; [repeat split; [lra | tauto | left; reflexivity]|].
  destruct (IH (Rmax b z)) as (A & B & C). cbn zeta in *. pose proof (Rmax_l b z). pose proof (Rmax_r b z). repeat split; [lra| |].
  - intros b' [<-|I]; [lra | apply B, I].
  - destruct C as [C|C]; [|right; right; exact C]. rewrite C. unfold Rmax. destruct (Rle_dec b z); [left; reflexivity | right; left; reflexivity].
Qed.
Lemma fold_min_spec' l z : let f := fold_left Rmin l z in f <= z /\ (forall b, In b l -> f <= b) /\ (f = z \/ In f l).
Proof.
  assert (E : fold_left Rmin l z = fold_left (fun z b => Rmin b z) l z) by (revert z; induction l as [|b l IH]; intro z; cbn; [reflexivity|]; rewrite Rmin_comm; apply IH).
  rewrite E. apply fold_min_spec.
Qed.
Lemma fold_max_spec' l z : let f := fold_left Rmax l z in z <= f /\ (forall b, In b l -> b <= f) /\ (f = z \/ In f l).
Proof.
  assert (E : fold_left Rmax l z = fold_left (fun z b => Rmax b z) l z) by (revert z; induction l as [|b l IH]; intro z; cbn; [reflexivity|]; rewrite Rmax_comm; apply IH).
  rewrite E. apply fold_max_spec.
Qed.
Lemma closes_app l1 l2 t : closes (l1 ++ l2) t = closes l2 (closes l1 t).
Proof. apply fold_left_app. Qed.
Lemma finish_extremes rs r : MIN (finish (is_nil rs) r (closes (tag rs) tables0)) = MIN (closes (tag (rs ++ [r])) tables0) /\
  MAX (finish (is_nil rs) r (closes (tag rs) tables0)) = MAX (closes (tag (rs ++ [r])) tables0).
Proof.
  assert (E : tag (rs ++ [r]) = tag rs ++ [(is_nil rs, r)]) by (destruct rs as [|r0 rs]; [reflexivity|]; cbn; rewrite map_app; reflexivity).
  rewrite E, closes_app. split; reflexivity.
Qed.
Lemma in_flat rs m x : In (m, x) (flat rs) <-> exists v, In (m, v) rs /\ In x v.
Proof.
  unfold flat. rewrite in_concat. split.
  - intros [y [I J]]. apply in_map_iff in I. destruct I as [[m' v] [<- I]]. apply in_map_iff in J. destruct J as [x' [E J]]. cbn in E, J. injection E as <- <-. eauto.
  - intros [v [I J]]. exists (map (pair m) v). split; [apply in_map_iff; exists (m, v); auto | apply in_map; exact J].
Qed.
Lemma in_tl_flat rs m x : (forall r, In r rs -> snd r <> []) ->
  (In (m, x) (tl (flat rs)) <-> exists f v, In (f, (m, v)) (tag rs) /\ In x (if f : bool then tl v else v)).
Proof.
  intro N. destruct rs as [|[m0 v0] rs].
  - cbn. split; [tauto | intros (f & v & [] & _)].
  - specialize (N (m0, v0) (or_introl eq_refl)). cbn in N. destruct v0 as [|y v0]; [congruence|].
    change (tl (flat ((m0, y :: v0) :: rs))) with (map (pair m0) v0 ++ flat rs). rewrite in_app_iff, in_flat. cbn [tag]. split.
    + intros [I|[v [I J]]].
      * apply in_map_iff in I. destruct I as [x' [E I]]. injection E as <- <-. exists true, (y :: v0). split; [left; reflexivity | exact I].
      * exists false, v. split; [right; apply in_map; exact I | exact J].
    + intros (f & v & [E|I] & J).
      * injection E as <- <- <-. left. apply in_map. exact J.
      * apply in_map_iff in I. destruct I as [r [E I]]. inversion E; subst. right. eauto.
Qed.
(* C81 the maximum of a month is reached by one of its grids and exceeded by none; the minimum likewise, among the grids
   after the first one of the file *)
Theorem C81_extremes l : l <> [] -> (forall m x, In (m, x) l -> (1 <= m <= 12)%nat) ->
  exists st, create_stat_grid_stacks l = Some st /\
    (forall m x, In (m, x) l -> x <= s_max (row st m)) /\
    (forall m, (1 <= m <= 12)%nat -> s_max (row st m) = - (9999999) \/ In (m, s_max (row st m)) l) /\
    (forall m x, In (m, x) (tl l) -> s_min (row st m) <= x) /\
    (forall m, (1 <= m <= 12)%nat -> s_min (row st m) = 9999999 \/ In (m, s_min (row st m)) (tl l)).
Proof.
  intros N V. destruct (C81_runs l N V) as (rs & r & W & <-). eexists. split; [apply stats_runs; exact W|].
  destruct (finish_extremes rs r) as [F1 F2]. set (L := tag (rs ++ [r])) in *.
  assert (P : forall r', In r' L -> (1 <= fst (snd r'))%nat) by (apply tag_months; intros r' I; apply (proj1 W r' I)).
  assert (NE : forall r', In r' (rs ++ [r]) -> snd r' <> []) by (intros r' I; apply (proj1 W r' I)).
  assert (EX : forall m, (1 <= m <= 12)%nat -> 
     s_min (row (out_of (finish (is_nil rs) r (closes (tag rs) tables0))) m) = fold_left (fun z b => Rmin b z) (map (fun r => mn (racc (fst r) (snd r))) (filter (fun r => Nat.eqb (fst (snd r)) m) L)) 9999999 /\
     s_max (row (out_of (finish (is_nil rs) r (closes (tag rs) tables0))) m) = fold_left (fun z b => Rmax b z) (map (fun r => mx (racc (fst r) (snd r))) (filter (fun r => Nat.eqb (fst (snd r)) m) L)) (-9999999)).
  { intros m M. rewrite row_out by exact M. cbn [s_min s_max]. rewrite F1, F2. destruct (extremes_closes m L M tables0 wf0 P) as [A B]. cbn zeta in A, B. rewrite A, B.
    rewrite (get_rep 0 (0 + max_num) 12 (m - 1) ltac:(lia) : get 0 (MIN tables0) (m - 1) = 0 + max_num).
    rewrite (get_rep 0 (0 + min_num) 12 (m - 1) ltac:(lia) : get 0 (MAX tables0) (m - 1) = 0 + min_num).
    split; f_equal; unfold min_num, max_num; lra. }
  assert (TG : forall m v, In (m, v) (rs ++ [r]) -> exists f, In (f, (m, v)) L).
  { unfold L. intros m v I. destruct (rs ++ [r]) as [|r0 t]; [destruct I|]. destruct I as [->|I]; [exists true; left; reflexivity | exists false; right; apply in_map; exact I]. }
  assert (GT : forall f m v, In (f, (m, v)) L -> In (m, v) (rs ++ [r])).
  { unfold L. intros f m v I. destruct (rs ++ [r]) as [|r0 t]; [destruct I|]. destruct I as [E|I]; [inversion E; subst; left; reflexivity|]. apply in_map_iff in I. destruct I as [r' [E I]]. inversion E; subst. right. exact I. }
  split; [|split; [|split]].
  - intros m x I. destruct (EX m (V m x I)) as [_ E]. rewrite E. apply in_flat in I. destruct I as [v [I J]]. destruct (TG m v I) as [f T].
    destruct (fold_max_spec (map (fun r => mx (racc (fst r) (snd r))) (filter (fun r => Nat.eqb (fst (snd r)) m) L)) (-9999999)) as (_ & B & _). cbn zeta in B.
    eapply Rle_trans; [|apply B; apply in_map_iff; exists (f, (m, v)); split; [reflexivity | apply filter_In; split; [exact T | cbn; apply Nat.eqb_refl]]].
    cbn. destruct (fold_max_spec' v min_num) as (_ & D & _). apply D, J.
  - intros m M. destruct (EX m M) as [_ E]. rewrite E.
    destruct (fold_max_spec (map (fun r => mx (racc (fst r) (snd r))) (filter (fun r => Nat.eqb (fst (snd r)) m) L)) (-9999999)) as (_ & _ & [C|C]); cbn zeta in C; [left; exact C|].
    set (y := fold_left _ _ _) in C |- *. apply in_map_iff in C. destruct C as [[f [m' v]] [C1 C2]]. apply filter_In in C2. destruct C2 as [C2 C3]. cbn in C3. apply Nat.eqb_eq in C3. subst m'.
    cbn in C1. destruct (fold_max_spec' v min_num) as (_ & _ & [D|D]); cbn zeta in D.
    + left. rewrite <- C1, D. reflexivity.
    + right. apply in_flat. exists v. split; [apply (GT f), C2 | rewrite <- C1; exact D].
  - intros m x I. assert (M : (1 <= m <= 12)%nat) by (apply (V m x); destruct (flat (rs ++ [r])); [exact I | right; exact I]).
    destruct (EX m M) as [E _]. rewrite E. apply in_tl_flat in I; [|exact NE]. destruct I as (f & v & T & J).
    destruct (fold_min_spec (map (fun r => mn (racc (fst r) (snd r))) (filter (fun r => Nat.eqb (fst (snd r)) m) L)) 9999999) as (_ & B & _). cbn zeta in B.
    eapply Rle_trans; [apply B; apply in_map_iff; exists (f, (m, v)); split; [reflexivity | apply filter_In; split; [exact T | cbn; apply Nat.eqb_refl]]|].
    cbn. destruct (fold_min_spec' (if f then tl v else v) max_num) as (_ & D & _). apply D, J.
  - intros m M. destruct (EX m M) as [E _]. rewrite E.
    destruct (fold_min_spec (map (fun r => mn (racc (fst r) (snd r))) (filter (fun r => Nat.eqb (fst (snd r)) m) L)) 9999999) as (_ & _ & [C|C]); cbn zeta in C; [left; exact C|].
    set (y := fold_left _ _ _) in C |- *. apply in_map_iff in C. destruct C as [[f [m' v]] [C1 C2]]. apply filter_In in C2. destruct C2 as [C2 C3]. cbn in C3. apply Nat.eqb_eq in C3. subst m'.
    cbn in C1. destruct (fold_min_spec' (if f then tl v else v) max_num) as (_ & _ & [D|D]); cbn zeta in D.
    + left. rewrite <- C1, D. reflexivity.
    + right. apply in_tl_flat; [exact NE|]. exists f, v. split; [exact C2 | rewrite <- C1; exact D].
Qed.
Print Assumptions C81_extremes.
(* C81 refuted: a minimum that is reached in the first grid is not reported *)
Theorem C81_first_grid_refuted m x l : (forall m' x', In (m', x') ((m, x) :: l) -> (1 <= m' <= 12)%nat) -> x < 9999999 -> (forall y, In (m, y) l -> x < y) ->
  exists st, create_stat_grid_stacks ((m, x) :: l) = Some st /\ x < s_min (row st m).
Proof.
  intros V X L. destruct (C81_extremes ((m, x) :: l) ltac:(discriminate) V) as (st & E & _ & _ & _ & C). exists st. split; [exact E|].
  destruct (C m (V m x (or_introl eq_refl))) as [->|I]; [exact X | apply L; exact I].
Qed.
Print Assumptions C81_first_grid_refuted.
(* C81 a month that does not occur has no mean, and the start values as extremes *)
Theorem C81_absent l m : l <> [] -> (forall m x, In (m, x) l -> (1 <= m <= 12)%nat) -> (1 <= m <= 12)%nat -> (forall x, ~ In (m, x) l) ->
  exists st, create_stat_grid_stacks l = Some st /\ row st m = mkS 9999999 (- (9999999)) NaN NaN.
Proof.
  intros N V M A. destruct (C81_extremes l N V) as (st & E & _ & C1 & _ & C2). exists st. split; [exact E|].
  destruct (C1 m M) as [E1|I]; [|exfalso; eapply A; exact I]. destruct (C2 m M) as [E2|I]; [|exfalso; apply (A (s_min (row st m))); destruct l; [exact I | right; exact I]].
  destruct (C81_runs l N V) as (rs & r & W & F). subst l. rewrite (stats_runs rs r W) in E. injection E as <-. rewrite row_out in * by exact M. cbn [s_max s_min] in E1, E2.
  destruct (tables_final rs r m W M) as (T1 & T2 & T3). rewrite T1, T2, T3, E1, E2.
  assert (Z : of_month m (rs ++ [r]) = []).
  { destruct (of_month m (rs ++ [r])) as [|v t] eqn:E; [reflexivity|]. exfalso.
    destruct (of_month_In m (rs ++ [r]) v ltac:(rewrite E; left; reflexivity)) as ([m' v'] & I & Q1 & Q2). cbn in Q1, Q2. subst m' v'. destruct (proj1 W _ I) as [_ NN]. cbn in NN.
    destruct v as [|x v]; [congruence|]. apply (A x). apply in_flat. exists (x :: v). split; [exact I | left; reflexivity]. }
  assert (Z' : of_month m rs = []) by (unfold of_month in *; rewrite filter_app, map_app in Z; apply app_eq_nil in Z; apply Z).
  rewrite Z, Z'. cbn. destruct (Req_EM_T 0 0); [reflexivity | congruence].
Qed.
Print Assumptions C81_absent.

(* ---------- days per month ---------- *)
(* does the condition hold in grid i?  (increase and decrease compare with the grid before) *)
Definition holds (c : condition) (thr : nat -> num) (l : list (nat * nat * R)) (i : nat) : Prop :=
  match nth_error l i with
  | None => False
  | Some (m, _, x) =>
      match c with
      | Low => thr m = PInf \/ exists t, thr m = Fin t /\ x < t
      | High => thr m = NInf \/ exists t, thr m = Fin t /\ t < x
      | Flooding => 1 / 10 < x
      | Incr => match i with O => 0 < x | S j => match nth_error l j with Some (_, _, y) => y < x | None => False end end
      | Decr => match i with O => x < 0 | S j => match nth_error l j with Some (_, _, y) => x < y | None => False end end
      end
  end.
Fixpoint hits (c : condition) (thr : nat -> num) (last : R) (l : list (nat * nat * R)) : list bool :=
  match l with [] => [] | (m, d, x) :: r => detect c (thr m) last x :: hits c thr x r end.
Lemma hits_length c thr l : forall last, length (hits c thr last l) = length l.
Proof. induction l as [|[[m d] x] l IH]; intro last; cbn; [reflexivity | rewrite IH; reflexivity]. Qed.
Lemma hits_nth c thr l : forall last i, nth i (hits c thr last l) false = 
  match nth_error l i with None => false | Some (m, _, x) => detect c (thr m) (match i with O => last | S j => match nth_error l j with Some (_, _, y) => y | None => 0 end end) x end.
Proof.
  induction l as [|[[m d] x] l IH]; intros last i; [destruct i; reflexivity|]. destruct i as [|i]; [reflexivity|]. cbn [hits nth nth_error]. rewrite IH.
  destruct i as [|i]; [reflexivity|]. reflexivity.
Qed.
Theorem C81_condition c thr l i : nth i (hits c thr 0 l) false = true <-> holds c thr l i.
Proof.
  rewrite hits_nth. unfold holds. destruct (nth_error l i) as [[[m d] x]|] eqn:E; [|split; [discriminate | tauto]].
  destruct c; cbn [detect].
  - unfold below. destruct (thr m) as [y| | |].
    + destruct (Rlt_dec x y); split; intro H; try discriminate; try reflexivity; [right; eauto | destruct H as [H|[t [H1 H2]]]; [discriminate | injection H1 as ->; contradiction]].
    + split; auto.
    + split; [discriminate | intros [H|[t [H _]]]; discriminate].
    + split; [discriminate | intros [H|[t [H _]]]; discriminate].
  - unfold above. destruct (thr m) as [y| | |].
    + destruct (Rlt_dec y x); split; intro H; try discriminate; try reflexivity; [right; eauto | destruct H as [H|[t [H1 H2]]]; [discriminate | injection H1 as ->; contradiction]].
    + split; [discriminate | intros [H|[t [H _]]]; discriminate].
    + split; auto.
    + split; [discriminate | intros [H|[t [H _]]]; discriminate].
  - destruct (Rlt_dec (1 / 10) x); split; auto; discriminate.
  - destruct i as [|j]; [destruct (Rlt_dec 0 x); split; auto; discriminate|].
    assert (nth_error l j <> None) by (apply nth_error_Some; assert (S j < length l)%nat by (apply nth_error_Some; congruence); lia).
    destruct (nth_error l j) as [[[m' d'] y]|]; [|congruence]. destruct (Rlt_dec y x); split; auto; discriminate.
  - destruct i as [|j]; [destruct (Rlt_dec x 0); split; auto; discriminate|].
    assert (nth_error l j <> None) by (apply nth_error_Some; assert (S j < length l)%nat by (apply nth_error_Some; congruence); lia).
    destruct (nth_error l j) as [[[m' d'] y]|]; [|congruence]. destruct (Rlt_dec x y); split; auto; discriminate.
Qed.
Print Assumptions C81_condition.
(* a stack laid out as a calendar: months of days of grids; for each grid whether the condition holds *)
Notation calendar := (list (nat * list (nat * list bool))).
Definition cal_flat (cal : calendar) : list (nat * nat * bool) :=
  concat (map (fun mo => concat (map (fun da => map (pair (fst mo, fst da)) (snd da)) (snd mo))) cal).
(* a file with the grids of a calendar: at least one grid per day and one day per month; neighbouring days have different numbers *)
Fixpoint day_numbers (l : list nat) : Prop := match l with a :: ((b :: _) as t) => a <> b /\ day_numbers t | _ => True end.
Definition cal_ok (cal : calendar) : Prop :=
  (forall mo, In mo cal -> snd mo <> [] /\ forall da, In da (snd mo) -> snd da <> []) /\
  day_numbers (map fst cal) /\ day_numbers (concat (map (fun mo => map fst (snd mo)) cal)).
Definition laid_out (c : condition) (thr : nat -> num) (l : list (nat * nat * R)) (cal : calendar) : Prop :=
  combine (map fst l) (hits c thr 0 l) = cal_flat cal.
(* the number of days with the condition *)
Definition hit_day (da : nat * list bool) : bool := existsb (fun b => b) (snd da).
Definition day_count (ds : list (nat * list bool)) : nat := length (filter hit_day ds).

Fixpoint dsteps (l : list (nat * nat * bool)) (s : dstate) : dstate :=
  match l with [] => s | (m, d, h) :: r => dsteps r (day_step m d h s) end.
Lemma dsteps_app a : forall b s, dsteps (a ++ b) s = dsteps b (dsteps a s).
Proof. induction a as [|[[m d] h] a IH]; intros b s; [reflexivity | cbn; apply IH]. Qed.
Lemma loop_dsteps c thr l : forall last s, day_loop c thr last l s = dsteps (combine (map fst l) (hits c thr last l)) s.
Proof. induction l as [|[[m d] x] l IH]; intros last s; [reflexivity | cbn; apply IH]. Qed.
Definition anyb (v : list bool) : bool := existsb (fun b => b) v.
Lemma same_day v m d n h w : dsteps (map (pair (m, d)) v) (mkD (Some m) (Some d) n h w) = mkD (Some m) (Some d) n (anyb v || h) w.
Proof.
  revert h. induction v as [|b v IH]; intro h; [reflexivity|]. cbn [map dsteps]. unfold day_step. cbn [same dmonth dday days hit written]. rewrite !Nat.eqb_refl. cbn [same dmonth dday days hit written]. rewrite ?Nat.eqb_refl. cbn [same dmonth dday days hit written]. rewrite IH.
  f_equal. unfold anyb. cbn. destruct b, h; cbn; rewrite ?orb_true_r; reflexivity.
Qed.
Definition b2n (b : bool) : nat := if b then 1 else 0.
Lemma next_day v m d d' n h w : v <> [] -> d <> d' -> dsteps (map (pair (m, d')) v) (mkD (Some m) (Some d) n h w) = mkD (Some m) (Some d') (n + b2n h) (anyb v) w.
Proof.
  intros N D. destruct v as [|b v]; [congruence|]. cbn [map dsteps]. unfold day_step. cbn [same dmonth dday days hit written]. rewrite Nat.eqb_refl.
  cbn [same dmonth dday days hit written]. destruct (Nat.eqb_spec d' d); [congruence|]. cbn [dmonth dday days hit written]. rewrite same_day. f_equal; [destruct h; cbn; lia|]. cbn. destruct b; [rewrite orb_true_r; reflexivity | rewrite orb_false_r; reflexivity].
Qed.
Definition lastd (ds : list (nat * list bool)) : nat * list bool := last ds (0%nat, []).
Definition days_flat (m : nat) (ds : list (nat * list bool)) : list (nat * nat * bool) := concat (map (fun da => map (pair (m, fst da)) (snd da)) ds).
(* the days of one month after its first day has been read *)
Lemma month_days ds : forall m da n w, (forall x, In x ds -> snd x <> []) -> day_numbers (map fst (da :: ds)) ->
  dsteps (days_flat m ds) (mkD (Some m) (Some (fst da)) n (hit_day da) w) =
  mkD (Some m) (Some (fst (lastd (da :: ds)))) (n + day_count (removelast (da :: ds))) (hit_day (lastd (da :: ds))) w.
Proof.
  induction ds as [|db ds IH]; intros m da n w N D.
  - cbn. rewrite Nat.add_0_r. reflexivity.
  - change (days_flat m (db :: ds)) with (map (pair (m, fst db)) (snd db) ++ days_flat m ds). rewrite dsteps_app.
    rewrite next_day; [|apply N; left; reflexivity | apply D]. fold (hit_day db). change (anyb (snd db)) with (hit_day db). rewrite IH; [|intros; apply N; right; assumption | apply D].
    change (lastd (da :: db :: ds)) with (lastd (db :: ds)). f_equal. change (removelast (da :: db :: ds)) with (da :: removelast (db :: ds)).
    unfold day_count. cbn [filter]. destruct (hit_day da); cbn; lia.
Qed.
(* what the file says: the hit days of the month without its last day, and the last day of the month before *)
Fixpoint reported (before : bool) (cal : calendar) : list nat :=
  match cal with
  | [] => []
  | mo :: r => (b2n before + day_count (removelast (snd mo)))%nat :: reported (hit_day (lastd (snd mo))) r
  end.
Lemma new_month v m m' d d' n h w : v <> [] -> m <> m' -> d <> d' ->
  dsteps (map (pair (m', d')) v) (mkD (Some m) (Some d) n h w) = mkD (Some m') (Some d') (b2n h) (anyb v) (w ++ [n]).
Proof.
  intros N M D. destruct v as [|b v]; [congruence|]. cbn [map dsteps]. unfold day_step. cbn [same dmonth dday days hit written]. destruct (Nat.eqb_spec m' m); [congruence|].
  cbn [same dmonth dday days hit written]. destruct (Nat.eqb_spec d' d); [congruence|]. cbn [dmonth dday days hit written]. rewrite same_day. f_equal.
  cbn. destruct b; [rewrite orb_true_r; reflexivity | rewrite orb_false_r; reflexivity].
Qed.
Lemma day_numbers_app a : forall b, day_numbers (a ++ b) -> day_numbers a /\ day_numbers b.
Proof.
  induction a as [|x a IH]; intros b H; [split; [exact I | exact H]|]. destruct a as [|y a].
  - split; [exact I|]. destruct b; [exact I | apply H].
  - destruct H as [H1 H2]. destruct (IH b H2) as [A B]. split; [split; assumption | exact B].
Qed.
Lemma lastd_join ds b : ds <> [] -> day_numbers (map fst ds ++ [b]) -> fst (lastd ds) <> b.
Proof.
  induction ds as [|x ds IH]; intros N H; [congruence|]. destruct ds as [|y ds]; [cbn in *; tauto|]. change (lastd (x :: y :: ds)) with (lastd (y :: ds)). apply IH; [discriminate | apply H].
Qed.
Lemma months_loop cal : forall m prev n w, prev <> [] -> cal_ok ((m, prev) :: cal) ->
  let s := dsteps (cal_flat cal) (mkD (Some m) (Some (fst (lastd prev))) n (hit_day (lastd prev)) w) in
  written s ++ [days s] = w ++ n :: reported (hit_day (lastd prev)) cal.
Proof.
  induction cal as [|[m' ds] cal IH]; intros m prev n w P (K1 & K2 & K3); [reflexivity|].
  destruct (K1 (m', ds) ltac:(right; left; reflexivity)) as [N1 N2]. cbn [fst snd] in *. destruct ds as [|da ds]; [congruence|].
  change (cal_flat ((m', da :: ds) :: cal)) with ((map (pair (m', fst da)) (snd da) ++ days_flat m' ds) ++ cal_flat cal).
  rewrite !dsteps_app. cbn [map concat] in K2, K3. cbn [snd fst map concat] in K3.
  assert (J : fst (lastd prev) <> fst da).
  { apply lastd_join; [exact P|]. replace (map fst prev ++ _) with ((map fst prev ++ [fst da]) ++ (map fst ds ++ concat (map (fun mo : nat * list (nat * list bool) => map fst (snd mo)) cal))) in K3 by (rewrite <- app_assoc; reflexivity).
    apply day_numbers_app in K3. apply K3. }
  assert (M : m <> m') by (apply K2). rewrite new_month; [|apply N2; left; reflexivity | exact M | exact J]. change (anyb (snd da)) with (hit_day da).
  assert (D : day_numbers (map fst (da :: ds))).
  { apply day_numbers_app in K3. destruct K3 as [_ K3]. change (fst da :: map fst ds ++ ?x) with ((fst da :: map fst ds) ++ x) in K3. apply day_numbers_app in K3. apply K3. }
  rewrite month_days; [|intros; apply N2; right; assumption | exact D].
  rewrite IH; [|discriminate|].
  - rewrite <- app_assoc. reflexivity.
  - split; [intros mo I; apply K1; right; exact I|]. split; [apply K2|]. apply day_numbers_app in K3. apply K3.
Qed.
Theorem C81_days_file c thr l cal : cal <> [] -> cal_ok cal -> laid_out c thr l cal -> create_day_count c thr l = reported false cal.
Proof.
  intros N K L. unfold create_day_count. rewrite loop_dsteps, L. destruct cal as [|[m ds] cal]; [congruence|]. pose proof K as (K1 & K2 & K3).
  destruct (K1 (m, ds) ltac:(left; reflexivity)) as [N1 N2]. cbn [fst snd] in *. destruct ds as [|da ds]; [congruence|].
  change (cal_flat ((m, da :: ds) :: cal)) with ((map (pair (m, fst da)) (snd da) ++ days_flat m ds) ++ cal_flat cal). rewrite !dsteps_app.
  assert (F : dsteps (map (pair (m, fst da)) (snd da)) dstate0 = mkD (Some m) (Some (fst da)) 0 (hit_day da) []).
  { assert (NN : snd da <> []) by (apply N2; left; reflexivity). unfold hit_day. destruct (snd da) as [|b v]; [congruence|]. cbn [map dsteps]. unfold day_step, dstate0. cbn [same dmonth dday days hit written].
    rewrite same_day. f_equal. cbn. destruct b; [apply orb_true_r | apply orb_false_r]. }
  rewrite F. cbn [map concat fst snd] in K3.
  assert (D : day_numbers (map fst (da :: ds))) by (cbn [map] in K3; change (fst da :: map fst ds ++ ?x) with ((fst da :: map fst ds) ++ x) in K3; apply day_numbers_app in K3; apply K3).
  rewrite month_days; [|intros; apply N2; right; assumption | exact D]. rewrite months_loop; [reflexivity | discriminate | exact K].
Qed.
Print Assumptions C81_days_file.
Lemma count_removelast ds : ds <> [] -> day_count ds = (day_count (removelast ds) + b2n (hit_day (lastd ds)))%nat.
Proof.
  intro N. destruct (exists_last N) as [l [a ->]]. rewrite removelast_last. unfold lastd. rewrite last_last. unfold day_count. rewrite filter_app, app_length. cbn. destruct (hit_day a); reflexivity.
Qed.
Definition last_hit (cal : calendar) : bool := hit_day (lastd (snd (last cal (0%nat, [])))).
Lemma reported_nth pre : forall mo post b, (forall m, In m (pre ++ mo :: post) -> snd m <> []) ->
  (nth (length pre) (reported b (pre ++ mo :: post)) 0 + b2n (hit_day (lastd (snd mo))) = day_count (snd mo) + b2n (match pre with [] => b | _ => last_hit pre end))%nat.
Proof.
  induction pre as [|m0 pre IH]; intros mo post b N.
  - cbn [app length reported nth]. rewrite (count_removelast (snd mo)) by (apply N; left; reflexivity). lia.
  - cbn [app length reported nth]. rewrite IH by (intros; apply N; right; assumption). f_equal. f_equal. destruct pre; [reflexivity|]. unfold last_hit. reflexivity.
Qed.
(* C81 the count of a month lacks its last day and includes the last day of the month before *)
Theorem C81_days c thr l pre mo post : cal_ok (pre ++ mo :: post) -> laid_out c thr l (pre ++ mo :: post) ->
  (nth (length pre) (create_day_count c thr l) 0 + b2n (hit_day (lastd (snd mo))) =
   day_count (snd mo) + b2n (match pre with [] => false | _ => last_hit pre end))%nat.
Proof.
  intros K L. rewrite (C81_days_file c thr l _ (fun E => app_cons_not_nil _ _ _ (eq_sym E)) K L). apply reported_nth. intros m I. apply (proj1 K m I).
Qed.
Print Assumptions C81_days.
(* C81 refuted: an event on the last day of a month is not counted in that month, and in the following month instead *)
Theorem C81_month_end_refuted c thr l pre mo mo' post : cal_ok (pre ++ mo :: mo' :: post) -> laid_out c thr l (pre ++ mo :: mo' :: post) ->
  (forall da, In da (removelast (snd mo)) -> hit_day da = false) -> hit_day (lastd (snd mo)) = true -> (pre = [] \/ last_hit pre = false) ->
  (forall da, In da (snd mo') -> hit_day da = false) ->
  day_count (snd mo) = 1%nat /\ nth (length pre) (create_day_count c thr l) 0%nat = 0%nat /\
  day_count (snd mo') = 0%nat /\ nth (S (length pre)) (create_day_count c thr l) 0%nat = 1%nat.
Proof.
  intros K L A B P C. assert (Z : forall ds, (forall da, In da ds -> hit_day da = false) -> day_count ds = 0%nat).
  { unfold day_count. induction ds as [|a ds IH]; intro H; [reflexivity|]. cbn. rewrite (H a (or_introl eq_refl)). apply IH. intros; apply H; right; assumption. }
  assert (N : snd mo <> []) by (apply (proj1 K mo); apply in_or_app; right; left; reflexivity).
  assert (N' : snd mo' <> []) by (apply (proj1 K mo'); apply in_or_app; right; right; left; reflexivity).
  assert (D : day_count (snd mo) = 1%nat) by (rewrite (count_removelast _ N), B, (Z _ A); reflexivity).
  pose proof (C81_days c thr l pre mo (mo' :: post) K L) as E1. rewrite D, B in E1.
  replace (pre ++ mo :: mo' :: post) with ((pre ++ [mo]) ++ mo' :: post) in K, L by (rewrite <- app_assoc; reflexivity).
  pose proof (C81_days c thr l (pre ++ [mo]) mo' post K L) as E2. rewrite (Z _ C) in E2.
  assert (H' : hit_day (lastd (snd mo')) = false) by (apply C; unfold lastd; destruct (exists_last N') as [y [a ->]]; rewrite last_last; apply in_or_app; right; left; reflexivity).
  rewrite H', app_length in E2. cbn [length] in E2. replace (length pre + 1)%nat with (S (length pre)) in E2 by lia.
  assert (Q : match pre ++ [mo] with [] => false | _ => last_hit (pre ++ [mo]) end = true).
  { destruct (pre ++ [mo]) eqn:E; [destruct pre; discriminate|]. rewrite <- E. unfold last_hit. rewrite last_last. exact B. }
  rewrite Q in E2. cbn [b2n] in E1, E2. assert (P' : match pre with [] => false | _ :: _ => last_hit pre end = false) by (destruct pre; [reflexivity | destruct P as [P|P]; [discriminate | exact P]]).
  rewrite P' in E1. cbn [b2n] in E1. repeat split; [exact D | lia | apply Z, C | lia].
Qed.
Print Assumptions C81_month_end_refuted.
(* C81 refuted: over the whole file every day with the condition is counted once, except the last day of the file *)
Lemma reported_total cal : forall b, (forall m, In m cal -> snd m <> []) ->
  (list_sum (reported b cal) + b2n (match cal with [] => b | _ => last_hit cal end) = b2n b + list_sum (map (fun mo => day_count (snd mo)) cal))%nat.
Proof.
  induction cal as [|mo cal IH]; intros b N; [cbn; lia|]. cbn [reported map]. specialize (IH (hit_day (lastd (snd mo))) ltac:(intros; apply N; right; assumption)).
  change (list_sum (?a :: ?t)) with (a + list_sum t)%nat. rewrite (count_removelast (snd mo)) by (apply N; left; reflexivity).
  destruct cal as [|mo' cal]; [unfold last_hit in *; cbn in *; lia|]. change (last_hit (mo :: mo' :: cal)) with (last_hit (mo' :: cal)). cbn [map] in *. lia.
Qed.
Theorem C81_last_day_refuted c thr l cal : cal <> [] -> cal_ok cal -> laid_out c thr l cal ->
  (list_sum (create_day_count c thr l) + b2n (last_hit cal) = list_sum (map (fun mo => day_count (snd mo)) cal))%nat.
Proof.
  intros N K L. rewrite (C81_days_file c thr l cal N K L). pose proof (reported_total cal false ltac:(intros m I; apply (proj1 K m I))) as E. destruct cal; [congruence|]. cbn [b2n] in E. lia.
Qed.
Print Assumptions C81_last_day_refuted.
(* C81 refuted: with the statistics of the same file, the month of the last grid, seen in one year only, never has a low or a high day *)
Theorem C81_single_year_refuted rs r c last x : valid (rs ++ [r]) -> of_month (fst r) rs = [] -> c = Low \/ c = High ->
  exists st, create_stat_grid_stacks (flat (rs ++ [r])) = Some st /\ detect c (thresholds c st (fst r)) last x = false.
Proof.
  intros V Z C. eexists. split; [apply stats_runs; exact V|]. destruct (valid_parts rs r V) as (P1 & P2 & P3 & P4).
  unfold thresholds. cbn zeta. fold (row (out_of (finish (is_nil rs) r (closes (tag rs) tables0))) (fst r)). rewrite row_out by exact P3. cbn [s_mean s_sdev].
  destruct (tables_final rs r (fst r) V P3) as (E1 & E2 & E3). rewrite E1, E2, E3, Z. cbn [length].
  assert (Q : of_month (fst r) (rs ++ [r]) = [snd r]) by (unfold of_month in *; rewrite filter_app, map_app, Z; cbn; rewrite Nat.eqb_refl; reflexivity).
  rewrite Q. cbn [map rsum fold_right]. assert (S0 : 0 <= sdev (snd r) + 0) by (unfold sdev; pose proof (sqrt_pos (avg (map (fun x => (x - avg (snd r)) ^ 2) (snd r)))); lra).
  unfold ndiv. destruct C as [-> | ->]; destruct (Req_EM_T (avg (snd r) + 0) 0), (Req_EM_T (sdev (snd r) + 0) 0); try destruct (Rlt_dec 0 (avg (snd r) + 0)); try destruct (Rlt_dec 0 (sdev (snd r) + 0)); try reflexivity; exfalso; lra.
Qed.
Print Assumptions C81_single_year_refuted.
(* C81 affected people: those of the cell in months with at least one day, never negative *)
Theorem C81_population pop ds i : (i < length ds)%nat ->
  nth i (affected pop ds) 0 = (if (0 <? nth i ds 0)%nat then Rmax pop 0 else 0) /\ 0 <= nth i (affected pop ds) 0 /\ length (affected pop ds) = length ds.
Proof.
  intro L. unfold affected. rewrite map_length. rewrite (nth_indep _ 0 ((fun n => if (0 <? n)%nat then clean_pop pop else 0) 0%nat)) by (rewrite map_length; exact L).
  rewrite (map_nth (fun n => if (0 <? n)%nat then clean_pop pop else 0)).
  assert (E : clean_pop pop = Rmax pop 0) by (unfold clean_pop, Rmax; destruct (Rlt_dec pop 0), (Rle_dec pop 0); lra). rewrite E.
  destruct (0 <? nth i ds 0)%nat; repeat split; try lra. apply Rmax_r.
Qed.
Print Assumptions C81_population.

(* ---------- cases ---------- *)
Example C81_month_case : valid [(1%nat, [1; 3]); (2%nat, [5]); (1%nat, [4; 4]); (2%nat, [7])] /\
  of_month 1 [(1%nat, [1; 3]); (2%nat, [5]); (1%nat, [4; 4])] = [[1; 3]; [4; 4]] /\
  exists st, create_stat_grid_stacks [(1%nat, 1); (1%nat, 3); (2%nat, 5); (1%nat, 4); (1%nat, 4); (2%nat, 7)] = Some st /\
    s_mean (row st 1) = Fin 3 /\ s_mean (row st 2) = Fin 12.
Proof.
  assert (V : valid ([(1%nat, [1; 3]); (2%nat, [5]); (1%nat, [4; 4])] ++ [(2%nat, [7])])).
  { split; [|cbn; repeat split; discriminate]. intros r H. cbn in H. repeat destruct H as [<-|H]; try (cbn; split; [lia | discriminate]). destruct H. }
  split; [exact V|]. split; [reflexivity|].
  destruct (C81_month _ _ 1 V ltac:(lia) ltac:(discriminate) ltac:(discriminate)) as (st & E & A & _). exists st. split; [exact E|]. split; [rewrite A; f_equal; cbv - [Rplus Rmult Rdiv Rinv]; cbn; lra|].
  destruct (C81_last_month_refuted _ _ V) as (st' & E' & _ & B). rewrite E in E'. injection E' as <-. destruct (B ltac:(cbn; lia)) as [C _]. cbn [fst] in C. rewrite C. f_equal. unfold avg, rsum, of_month. cbn. lra.
Qed.
Example C81_days_case : let l := [(1%nat, 30%nat, 0); (1%nat, 31%nat, 2); (2%nat, 1%nat, 0)] in
  let cal := [(1%nat, [(30%nat, [false]); (31%nat, [true])]); (2%nat, [(1%nat, [false])])] in
  cal_ok cal /\ laid_out Flooding (fun _ => NaN) l cal /\ create_day_count Flooding (fun _ => NaN) l = [0%nat; 1%nat].
Proof.
  intros l cal. assert (L : laid_out Flooding (fun _ => NaN) l cal).
  { unfold laid_out, l. cbn. destruct (Rlt_dec (1 / 10) 0) as [?|?]; [lra|]. destruct (Rlt_dec (1 / 10) 2) as [?|?]; [|lra]. reflexivity. }
  assert (K : cal_ok cal).
  { split; [|split; cbn; repeat split; discriminate]. intros mo H. cbn in H. repeat destruct H as [<-|H]; try (split; [discriminate|]; intros da H'; cbn in H'; repeat destruct H' as [<-|H']; try discriminate; destruct H'). destruct H. }
  split; [exact K|]. split; [exact L|]. rewrite (C81_days_file _ _ _ cal ltac:(discriminate) K L). reflexivity.
Qed.
