(* C94: the final report describes the state at the end of the run. *)
From Coq Require Import List ZArith QArith Qabs Bool String Lia Lqa.
From Verif Require Import Report_Model.
Import ListNotations.
Local Open Scope Q_scope.

(* ---------- specification ---------- *)
Definition is_inner (ny nx i j : nat) : Prop := (1 <= i)%nat /\ (i + 1 < ny)%nat /\ (1 <= j)%nat /\ (j + 1 < nx)%nat.
(* the numbers are the extremes of the cells that are not on the edge *)
Definition extremes (ny nx : nat) (g : grid) (lo hi : Q) : Prop :=
  (forall i j, is_inner ny nx i j -> lo <= g i j <= hi) /\
  (exists i j, is_inner ny nx i j /\ lo == g i j) /\ (exists i j, is_inner ny nx i j /\ hi == g i j).
Definition within (ny nx : nat) (g : grid) : Prop := forall i j, is_inner ny nx i j -> -1000000 <= g i j <= 1000000.
Definition no_report (r : option (chan * list report)) : Prop := match r with None => True | Some (_, l) => l = [] end.

(* ---------- extremes ---------- *)
Lemma qmin_le : forall l x, fold_left qmin l x <= x /\ forall y, In y l -> fold_left qmin l x <= y.
Proof.
  induction l as [|a l IH]; intros x; cbn [fold_left]; [split; [lra|intros y []]|]. destruct (IH (qmin x a)) as [A B].
  assert (C : qmin x a <= x /\ qmin x a <= a) by (unfold qmin; destruct (Qlt_le_dec a x); lra). split; [lra|]. intros y [<-|H]; [lra|auto].
Qed.
Lemma qmax_le : forall l x, x <= fold_left qmax l x /\ forall y, In y l -> y <= fold_left qmax l x.
Proof.
  induction l as [|a l IH]; intros x; cbn [fold_left]; [split; [lra|intros y []]|]. destruct (IH (qmax x a)) as [A B].
  assert (C : x <= qmax x a /\ a <= qmax x a) by (unfold qmax; destruct (Qlt_le_dec x a); lra). split; [lra|]. intros y [<-|H]; [lra|auto].
Qed.
Lemma qmin_in : forall l x, In (fold_left qmin l x) (x :: l).
Proof.
  induction l as [|a l IH]; intros x; cbn [fold_left]; [now left|]. destruct (IH (qmin x a)) as [H|H]; [|right; now right].
  rewrite <- H. unfold qmin. destruct (Qlt_le_dec a x); [right; left|left]; reflexivity.
Qed.
Lemma qmax_in : forall l x, In (fold_left qmax l x) (x :: l).
Proof.
  induction l as [|a l IH]; intros x; cbn [fold_left]; [now left|]. destruct (IH (qmax x a)) as [H|H]; [|right; now right].
  rewrite <- H. unfold qmax. destruct (Qlt_le_dec x a); [right; left|left]; reflexivity.
Qed.
Lemma inner_in : forall ny nx g v, In v (inner ny nx g) <-> exists i j, is_inner ny nx i j /\ v = g i j.
Proof.
  intros ny nx g v. unfold inner, is_inner. rewrite in_flat_map. split.
  - intros (i & Hi & H). apply in_seq in Hi. apply in_map_iff in H. destruct H as (j & <- & Hj). apply in_seq in Hj. exists i, j. split; [lia|reflexivity].
  - intros (i & j & H & ->). exists i. split; [apply in_seq; lia|]. apply in_map_iff. exists j. split; [reflexivity|]. apply in_seq. lia.
Qed.
Lemma inner_some : forall ny nx g, (3 <= ny)%nat -> (3 <= nx)%nat -> exists x r, inner ny nx g = x :: r.
Proof.
  intros ny nx g A B. destruct (inner ny nx g) as [|x r] eqn:E; [|eauto]. exfalso.
  assert (H : In (g 1%nat 1%nat) (inner ny nx g)) by (apply inner_in; exists 1%nat, 1%nat; unfold is_inner; split; [lia|reflexivity]). rewrite E in H. exact H.
Qed.
Lemma inner_none : forall ny nx g, (ny <= 2 \/ nx <= 2)%nat -> inner ny nx g = [].
Proof.
  intros ny nx g H. destruct (inner ny nx g) as [|x r] eqn:E; [reflexivity|]. exfalso.
  assert (I : In x (inner ny nx g)) by (rewrite E; now left). apply inner_in in I. destruct I as (i & j & (A & B & C & D) & _). lia.
Qed.
Lemma extremes_of : forall ny nx g lo hi, lower_min 1000000 (inner ny nx g) = Some lo -> raise_max (-1000000) (inner ny nx g) = Some hi -> within ny nx g -> extremes ny nx g lo hi.
Proof.
  intros ny nx g lo hi L H W. unfold lower_min, raise_max in *. destruct (inner ny nx g) as [|x r] eqn:E; [discriminate|]. cbn [amin amax option_map] in *.
  injection L as L. injection H as H. set (m := fold_left qmin r x) in *. set (M := fold_left qmax r x) in *.
  assert (Im : In m (inner ny nx g)) by (rewrite E; apply qmin_in). assert (IM : In M (inner ny nx g)) by (rewrite E; apply qmax_in).
  apply inner_in in Im. destruct Im as (i & j & Hij & Em). apply inner_in in IM. destruct IM as (k & l & Hkl & EM).
  pose proof (W i j Hij) as W1. pose proof (W k l Hkl) as W2. rewrite <- Em in W1. rewrite <- EM in W2.
  assert (Lm : lo == m) by (rewrite <- L; destruct (Qlt_le_dec m 1000000); lra). assert (HM : hi == M) by (rewrite <- H; destruct (Qlt_le_dec (-1000000) M); lra).
  repeat split.
  - rewrite Lm. assert (I : In (g i0 j0) (inner ny nx g)) by (apply inner_in; eauto). rewrite E in I. unfold m. destruct (qmin_le r x) as [A B]. destruct I as [<-|I]; auto.
  - rewrite HM. assert (I : In (g i0 j0) (inner ny nx g)) by (apply inner_in; eauto). rewrite E in I. unfold M. destruct (qmax_le r x) as [A B]. destruct I as [<-|I]; auto.
  - exists i, j. split; [exact Hij|]. now rewrite Lm, Em.
  - exists k, l. split; [exact Hkl|]. now rewrite HM, EM.
Qed.

(* ---------- the order of the provider file ---------- *)
Definition only_others (ks : list comp) : Prop := Forall (fun k => exists n, k = Other n) ks.
Lemma others_pass : forall ny nx on o ks s, only_others ks -> finalize_all ny nx on o ks s = Some s.
Proof. intros ny nx on o ks s H. induction H as [|k ks [n ->] _ IH]; [reflexivity|]. cbn [finalize_all]. unfold finalize1 at 1. destruct (negb (on (Other n))); exact IH. Qed.
Lemma others_app : forall ny nx on o a b s, only_others a -> finalize_all ny nx on o (a ++ b) s = finalize_all ny nx on o b s.
Proof. intros ny nx on o a b s H. induction H as [|k a [n ->] _ IH]; [reflexivity|]. cbn [app finalize_all]. unfold finalize1 at 1. destruct (negb (on (Other n))); exact IH. Qed.
(* provider lists with the two named components once, in this order *)
Definition ordered (first second : comp) (ks : list comp) : Prop := exists a b c, ks = a ++ first :: b ++ second :: c /\ only_others a /\ only_others b /\ only_others c.

Lemma finalize_channels_some : forall ny nx c, (3 <= ny)%nat -> (3 <= nx)%nat -> exists c', finalize_channels ny nx c = Some c' /\
  lower_min (Q_min c) (inner ny nx (cQ c)) = Some (Q_min c') /\ raise_max (Q_max c) (inner ny nx (cQ c)) = Some (Q_max c') /\
  lower_min (u_min c) (inner ny nx (cu c)) = Some (u_min c') /\ raise_max (u_max c) (inner ny nx (cu c)) = Some (u_max c') /\
  lower_min (d_min c) (inner ny nx (cd c)) = Some (d_min c') /\ raise_max (d_max c) (inner ny nx (cd c)) = Some (d_max c') /\
  vol_chan_sum c' = qsum_list (vol_chan c) /\ vol_flood_sum c' = qsum_list (vol_flood c).
Proof.
  intros ny nx c A B. unfold finalize_channels, lower_min, raise_max.
  destruct (inner_some ny nx (cQ c) A B) as (x1 & r1 & ->). destruct (inner_some ny nx (cu c) A B) as (x2 & r2 & ->). destruct (inner_some ny nx (cd c) A B) as (x3 & r3 & ->).
  cbn [amin amax option_map]. eexists. split; [reflexivity|]. cbn. repeat split.
Qed.

(* with the channels before the driver, as in the examples, the report gives the extremes and the volumes at the end *)
Theorem C94_report : forall ny nx on o ks gQ u d vc vf sum0, (3 <= ny)%nat -> (3 <= nx)%nat -> ordered Channels Driver ks -> on Channels = true -> on Driver = true ->
  within ny nx gQ -> within ny nx u -> within ny nx d ->
  exists c r, finalize_all ny nx on o ks (unfinished gQ u d vc vf sum0, []) = Some (c, [r]) /\
    extremes ny nx gQ (fst (rQ r)) (snd (rQ r)) /\ extremes ny nx u (fst (ru r)) (snd (ru r)) /\ extremes ny nx d (fst (rd r)) (snd (rd r)) /\
    vol_final r == qsum_list vc + qsum_list vf + vol_soil o + vol_swe o /\ vol_start r == vol_chan_sum0 o + vol_soil_start o + vol_swe_start o /\
    vol_change r == vol_final r - vol_start r /\ vol_error r == vol_P o - vol_ET o - vol_edge o - vol_change r.
Proof.
  intros ny nx on o ks gQ u d vc vf sum0 A B (k1 & k2 & k3 & -> & O1 & O2 & O3) onC onD WQ Wu Wd. rewrite others_app by exact O1. cbn [finalize_all]. unfold finalize1 at 1. rewrite onC. cbn [negb fst snd].
  destruct (finalize_channels_some ny nx (unfinished gQ u d vc vf sum0) A B) as (c' & -> & E1 & E2 & E3 & E4 & E5 & E6 & V1 & V2). cbn [option_map].
  cbn [unfinished Q_min Q_max u_min u_max d_min d_max cQ cu cd Report_Model.vol_chan Report_Model.vol_flood] in *.
  rewrite others_app by exact O2. cbn [finalize_all]. unfold finalize1 at 1. rewrite onD. cbn [negb fst snd app]. rewrite others_pass by exact O3. eexists. eexists. split; [reflexivity|].
  unfold final_report. cbn [rQ ru rd vol_start vol_final vol_change vol_error fst snd].
  split; [now apply extremes_of|]. split; [now apply extremes_of|]. split; [now apply extremes_of|]. rewrite V1, V2. repeat split; ring.
Qed.
Print Assumptions C94_report.
(* with the driver first the report gives the initial values, whatever happened *)
Theorem C94_order_refuted : forall ny nx on o ks gQ u d vc vf sum0, (3 <= ny)%nat -> (3 <= nx)%nat -> ordered Driver Channels ks -> on Channels = true -> on Driver = true ->
  exists c r, finalize_all ny nx on o ks (unfinished gQ u d vc vf sum0, []) = Some (c, [r]) /\ rQ r = (1000000, -1000000) /\ ru r = (1000000, -1000000) /\ rd r = (1000000, -1000000) /\
    vol_final r == sum0 + vol_soil o + vol_swe o.
Proof.
  intros ny nx on o ks gQ u d vc vf sum0 A B (k1 & k2 & k3 & -> & O1 & O2 & O3) onC onD. rewrite others_app by exact O1. cbn [finalize_all]. unfold finalize1 at 1. rewrite onD. cbn [negb fst snd app].
  rewrite others_app by exact O2. cbn [finalize_all]. unfold finalize1 at 1. rewrite onC. cbn [negb fst snd].
  destruct (finalize_channels_some ny nx (unfinished gQ u d vc vf sum0) A B) as (c' & -> & _). cbn [option_map]. rewrite others_pass by exact O3. eexists. eexists. split; [reflexivity|].
  repeat split. unfold final_report. cbn. ring.
Qed.
Print Assumptions C94_order_refuted.
(* the other components may stand anywhere *)
Theorem C94_others : forall ny nx on o ks s, finalize_all ny nx on o ks s = finalize_all ny nx on o (filter (fun k => match k with Other _ => false | _ => true end) ks) s.
Proof.
  intros ny nx on o ks. induction ks as [|k ks IH]; intros s; [reflexivity|]. destruct k as [| |n]; cbn [filter finalize_all].
  - destruct (finalize1 ny nx on o Channels s); [apply IH|reflexivity].
  - destruct (finalize1 ny nx on o Driver s); [apply IH|reflexivity].
  - unfold finalize1. destruct (negb (on (Other n))); apply IH.
Qed.
Print Assumptions C94_others.
(* grids without inner cells get no report at all *)
Theorem C94_small_grid_refuted : forall ny nx on o ks gQ u d vc vf sum0, (ny <= 2 \/ nx <= 2)%nat -> ordered Channels Driver ks -> on Channels = true ->
  finalize_all ny nx on o ks (unfinished gQ u d vc vf sum0, []) = None.
Proof.
  intros ny nx on o ks gQ u d vc vf sum0 H (k1 & k2 & k3 & -> & O1 & O2 & O3) onC. rewrite others_app by exact O1. cbn [finalize_all]. unfold finalize1 at 1. rewrite onC. cbn [negb fst snd].
  unfold finalize_channels, lower_min. rewrite (inner_none ny nx _ H). reflexivity.
Qed.
Print Assumptions C94_small_grid_refuted.
(* a driver that is switched off writes no report *)
Theorem C94_disabled : forall ny nx on o ks s, on Driver = false -> match finalize_all ny nx on o ks s with Some (_, l) => l = snd s | None => True end.
Proof.
  intros ny nx on o ks. induction ks as [|k ks IH]; intros s H; [destruct s; reflexivity|]. cbn [finalize_all]. unfold finalize1 at 1. destruct (on k) eqn:E; cbn [negb].
  - destruct k; [destruct (finalize_channels ny nx (fst s)) as [c|]; cbn [option_map]; [apply (IH (c, snd s) H)|exact I]|congruence|apply IH; exact H].
  - now apply IH.
Qed.
Print Assumptions C94_disabled.
(* values beyond 10^6 are cut: the smallest reported discharge is then no discharge of the run *)
Theorem C94_large_refuted : forall ny nx g lo, (3 <= ny)%nat -> (3 <= nx)%nat -> (forall i j, is_inner ny nx i j -> 1000000 < g i j) -> lower_min 1000000 (inner ny nx g) = Some lo -> lo == 1000000 /\ forall i j, is_inner ny nx i j -> ~ lo == g i j.
Proof.
  intros ny nx g lo A B H L. assert (E : lo == 1000000).
  { unfold lower_min in L. destruct (inner ny nx g) as [|x r] eqn:E; [discriminate|]. cbn [amin option_map] in L. injection L as L.
    assert (I : In (fold_left qmin r x) (inner ny nx g)) by (rewrite E; apply qmin_in). apply inner_in in I. destruct I as (i & j & Hij & Em). pose proof (H i j Hij) as W. rewrite <- Em in W.
    rewrite <- L. destruct (Qlt_le_dec (fold_left qmin r x) 1000000); lra. }
  split; [exact E|]. intros i j Hij C. pose proof (H i j Hij). lra.
Qed.
Print Assumptions C94_large_refuted.
(* cells on the edge, where outlets lie, are not looked at: their discharge can be above the reported maximum *)
Theorem C94_edge_refuted : forall ny nx on o ks gQ gQ' u d vc vf sum0, (forall i j, is_inner ny nx i j -> gQ i j = gQ' i j) ->
  option_map snd (finalize_all ny nx on o ks (unfinished gQ u d vc vf sum0, [])) = option_map snd (finalize_all ny nx on o ks (unfinished gQ' u d vc vf sum0, [])).
Proof.
  intros ny nx on o ks gQ gQ' u d vc vf sum0 H.
  assert (E : inner ny nx gQ = inner ny nx gQ').
  { unfold inner. rewrite !flat_map_concat_map. f_equal. apply map_ext_in. intros i Hi. apply map_ext_in. intros j Hj. apply in_seq in Hi. apply in_seq in Hj. apply H. unfold is_inner. lia. }
  set (same := fun s s' : chan * list report => cQ (fst s) = gQ /\ cQ (fst s') = gQ' /\ snd s = snd s' /\ fst s' = mkChan gQ' (cu (fst s)) (cd (fst s)) (vol_chan (fst s)) (vol_flood (fst s)) (Q_min (fst s)) (Q_max (fst s)) (u_min (fst s)) (u_max (fst s)) (d_min (fst s)) (d_max (fst s)) (vol_chan_sum (fst s)) (vol_flood_sum (fst s))).
  assert (G : forall ks s s', same s s' -> option_map snd (finalize_all ny nx on o ks s) = option_map snd (finalize_all ny nx on o ks s')).
  { clear ks. induction ks as [|k ks IH]; intros s s' (S1 & S2 & S3 & S4).
    - cbn. now rewrite S3.
    - cbn [finalize_all]. unfold finalize1. destruct (on k); cbn [negb].
      + destruct k.
        * unfold finalize_channels. rewrite S1, S2. rewrite S4. cbn [cu cd vol_chan vol_flood Q_min Q_max u_min u_max d_min d_max]. rewrite <- E.
          destruct (lower_min (Q_min (fst s)) (inner ny nx gQ)), (raise_max (Q_max (fst s)) (inner ny nx gQ)), (lower_min (u_min (fst s)) (inner ny nx (cu (fst s)))), (raise_max (u_max (fst s)) (inner ny nx (cu (fst s)))), (lower_min (d_min (fst s)) (inner ny nx (cd (fst s)))), (raise_max (d_max (fst s)) (inner ny nx (cd (fst s)))); try reflexivity.
          cbn [option_map]. apply IH. unfold same. cbn. repeat split. exact S3.
        * apply IH. unfold same. cbn [fst snd]. repeat split; try assumption. rewrite S3, S4. reflexivity.
        * apply IH. unfold same. auto.
      + apply IH. unfold same. auto. }
  apply G. unfold same. cbn. repeat split.
Qed.
Print Assumptions C94_edge_refuted.

(* ---------- the words of the report ---------- *)
(* water that is missing is called a gain, water from nowhere a loss *)
Theorem C94_label_refuted : forall c o, let expected := vol_start (final_report c o) + vol_P o - vol_ET o - vol_edge o in
  (vol_final (final_report c o) < expected -> error_label (final_report c o) = "volume gain error = "%string) /\
  (expected < vol_final (final_report c o) -> error_label (final_report c o) = "volume loss error = "%string).
Proof.
  intros c o. unfold final_report. cbn [vol_start vol_final error_label]. split; intros H; destruct (Qlt_le_dec 0 _) as [L|L]; try reflexivity; exfalso; lra.
Qed.
Print Assumptions C94_label_refuted.
(* the simulated time is that of the clock, unless the run was to stop at a given time: then it is that time *)
Theorem C94_simulated_time : forall c o, T_stop o = None -> T_final (final_report c o) = time_min o.
Proof. intros c o H. unfold final_report. cbn [T_final]. now rewrite H. Qed.
Print Assumptions C94_simulated_time.
Theorem C94_simulated_time_refuted : forall c o t, T_stop o = Some t -> ~ t == time_min o -> ~ T_final (final_report c o) == time_min o.
Proof. intros c o t H N. unfold final_report. cbn [T_final]. rewrite H. exact N. Qed.
Print Assumptions C94_simulated_time_refuted.
(* a volume is shown as a number and a unit whose product it is *)
Theorem C94_volumes : forall v, fst (vol_str v) * snd (vol_str v) == v /\ (snd (vol_str v) == 1 \/ 1 <= Qabs (fst (vol_str v))).
Proof.
  intros v. unfold vol_str. destruct (Qlt_le_dec (Qabs v) 1000000) as [L|L]; cbn [fst snd]; [split; [ring|left; reflexivity]|].
  split; [field|]. right. unfold Qdiv. rewrite Qabs_Qmult. change (Qabs (/ 1000000)) with (/ 1000000). apply Qle_shift_div_l; [reflexivity|]. lra.
Qed.
Print Assumptions C94_volumes.

(* ---------- a case ---------- *)
Definition g3 : grid := fun i j => inject_Z (Z.of_nat (i * 4 + j)).
Definition o3 : others := mkOthers 10 0 0 0 0 100 5 20 61 (Some 60).
Definition ks3 : list comp := [Other 0; Channels; Other 1; Driver].
Example C94_case : ordered Channels Driver ks3 /\ within 3 4 g3 /\
  (exists c r, finalize_all 3 4 (fun _ => true) o3 ks3 (unfinished g3 g3 g3 [30; 40] [1; 2] 10, []) = Some (c, [r]) /\ rQ r = (5, 6) /\ vol_change r == 63 /\ vol_error r == 12 /\ error_label r = "volume gain error = "%string /\ T_final r == 60) /\
  (exists c r, finalize_all 3 4 (fun _ => true) o3 [Driver; Channels] (unfinished g3 g3 g3 [30; 40] [1; 2] 10, []) = Some (c, [r]) /\ rQ r = (1000000, -1000000)) /\ g3 2%nat 3%nat == 11.
Proof.
  split; [exists [Other 0], [Other 1], []; repeat split; repeat constructor; eauto|].
  split; [intros i j (A & B & C & D); assert (i = 1)%nat by lia; subst i; assert (j = 1 \/ j = 2)%nat as [->| ->] by lia; split; vm_compute; discriminate|].
  split; [eexists; eexists; split; [vm_compute; reflexivity|]; repeat split; vm_compute; reflexivity|].
  split; [eexists; eexists; split; [vm_compute; reflexivity|]; reflexivity|reflexivity].
Qed.
