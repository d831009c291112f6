(** C120: the rain of a run is that of its file. *)

From Coq Require Import Reals List Arith Lia Lra.
From Verif Require Import Time_Model Rainfile_Model.
Import ListNotations.
Local Open Scope R_scope.

(** ** What is asked *)

(** a rate of the file in metres per second: mm per hour, or mm per second in files for NextGen *)
Definition in_mps (c : conf) (x : R) : R := if NGEN_CSV c then x / 1000 else x / (3600 * 1000).
(** the values of a record: one, or one per cell *)
Definition width (c : conf) : nat := match P_type c with Grid_Sequence => n_pixels c | _ => 1%nat end.
Definition rates (c : conf) (v : list R) : list R := map (fun x => in_mps c x * P_factor c) v.
(** the rain on all cells *)
Definition falls (c : conf) (v : list R) : R :=
  match P_type c with Grid_Sequence => sum (rates c v) | _ => INR (n_pixels c) * sum (rates c v) end.
Definition good (c : conf) (v : list R) : Prop := length v = width c.
Definition from_file (c : conf) : Prop := P_type c <> Scalar /\ (0 < n_pixels c)%nat.
Definition duration (c : conf) (s : option R) : R := match s with None => dt c | Some d => d end.

(** ** Reading *)

Lemma width_pos c : (0 < n_pixels c)%nat -> (0 < width c)%nat.
Proof. unfold width. destruct (P_type c); lia. Qed.
Lemma scaled c v : map (fun x => x * P_factor c) (map (fun x => x * P_units_factor c) v) = rates c v.
Proof.
  unfold rates. rewrite map_map. apply map_ext. intros x. unfold in_mps, P_units_factor. destruct (NGEN_CSV c); unfold mmps_to_mps, mmph_to_mps, Rdiv; ring.
Qed.
Lemma read_value c m v r : from_file c -> good c v -> P_unit m = Some (Some v :: r) ->
  read_input_files c m = Ok {| P := rates c v; RAIN_OVER := RAIN_OVER m; P_unit := Some r; time_index := time_index m; time_sec := time_sec m; P_max := P_max m; vol_P := vol_P m |}.
Proof.
  intros [T N] G U. unfold read_input_files, read_next. rewrite U. unfold good, width in G. destruct (P_type c) eqn:E; [congruence| |].
  - cbn [rbind fst snd]. now rewrite scaled.
  - rewrite G. destruct (Nat.eqb_spec (n_pixels c) 0); [lia|]. rewrite Nat.eqb_refl. cbn [rbind fst snd]. now rewrite scaled.
Qed.
Definition after_end (c : conf) (m : met) (r : list record) : met :=
  {| P := if RAIN_OVER m then P m else map (fun _ => 0) (P m); RAIN_OVER := true; P_unit := Some r; time_index := time_index m; time_sec := time_sec m; P_max := P_max m; vol_P := vol_P m |}.
Lemma read_none c m r : from_file c -> P_unit m = Some (None :: r) -> read_input_files c m = Ok (after_end c m r).
Proof.
  intros [T N] U. unfold read_input_files, read_next. rewrite U. unfold set_rain_to_zero, after_end.
  destruct (P_type c) eqn:E; [congruence| |]; cbn; destruct (RAIN_OVER m); reflexivity.
Qed.
Lemma read_end c m : from_file c -> P_unit m = Some [] -> read_input_files c m = Ok (after_end c m []).
Proof.
  intros [T N] U. unfold read_input_files, read_next. rewrite U. unfold set_rain_to_zero, after_end.
  destruct (P_type c) eqn:E; [congruence| |]; cbn; destruct (RAIN_OVER m); reflexivity.
Qed.
(** the part of update after the reading *)
Definition finish (c : conf) (m : met) (s : option R) : met :=
  {| P := P m; RAIN_OVER := RAIN_OVER m; P_unit := P_unit m; time_index := S (time_index m); time_sec := time_sec m + duration c s;
     P_max := Rmax (P_max m) (maximum (P m)); vol_P := vol_P m + volume c (P m) |}.
Lemma update_later c m s : time_index m <> O -> update c m s = rbind (read_input_files c m) (fun m => Ok (finish c m s)).
Proof. intros T. unfold update. destruct (time_index m); [congruence|]. reflexivity. Qed.
Lemma update_first c m s : time_index m = O -> update c m s = Ok (finish c m s).
Proof. intros T. unfold update. rewrite T. reflexivity. Qed.

Lemma volume_rates c v : from_file c -> good c v -> volume c (rates c v) = falls c v * (da c * dt c).
Proof.
  intros [T N] G. unfold volume, falls, good, width in *. destruct (P_type c) eqn:E; [congruence| |].
  - destruct v as [|x [|y v]]; try discriminate G. cbn. ring.
  - assert (S : forall l, sum (map (fun x => x * da c * dt c) l) = sum l * (da c * dt c)).
    { intros l. unfold sum. induction l as [|x l IH]; cbn; [ring|]. rewrite IH. ring. }
    destruct (rates c v) as [|x [|y l]] eqn:RE; [cbn; ring| |apply S].
    assert (L : n_pixels c = 1%nat) by (rewrite <- G, <- (map_length (fun x => in_mps c x * P_factor c) v); change (map (fun x => in_mps c x * P_factor c) v) with (rates c v); now rewrite RE).
    rewrite L. cbn. ring.
Qed.
Lemma volume_zero c n : volume c (repeat 0 n) = 0.
Proof.
  destruct n as [|[|n]]; [reflexivity|cbn; ring|]. unfold volume. cbn [repeat]. change (0 :: 0 :: repeat 0 n) with (repeat 0 (S (S n))). generalize (S (S n)) as k. clear.
  unfold sum. induction k as [|k IH]; cbn; [reflexivity|]. rewrite IH. ring.
Qed.
Lemma zeros (l : list R) : map (fun _ => 0) l = repeat 0 (length l).
Proof. induction l as [|x l IH]; [reflexivity|]. cbn. now rewrite IH. Qed.

(** ** The end *)

(** when the rain is over and the file at its end nothing changes *)
Lemma run_over c : from_file c -> forall steps m, time_index m <> O -> RAIN_OVER m = true -> P_unit m = Some [] -> exists l, run c m steps = Ok l /\ length l = length steps /\
  forall k m', nth_error l k = Some m' -> P m' = P m /\ vol_P m' = vol_P m + INR (S k) * volume c (P m).
Proof.
  intros F. induction steps as [|s steps IH]; intros m T O U; [exists []; split; [reflexivity|split; [reflexivity|let j := fresh in let q := fresh in let K := fresh in intros j q K; destruct j; discriminate K]]|].
  cbn [run]. rewrite update_later, read_end by auto. cbn [rbind].
  destruct (IH (finish c (after_end c m []) s)) as (l & R & L & H); try reflexivity; [discriminate|]. rewrite R. cbn [rbind]. eexists. split; [reflexivity|]. split; [cbn; lia|].
  assert (E : P (after_end c m []) = P m) by (cbn; now rewrite O).
  intros [|k] m'; cbn [nth_error].
  - intros [= <-]. cbn [finish P vol_P]. rewrite E. cbn [after_end vol_P]. split; [reflexivity|]. change (INR 1) with 1. ring.
  - intros K. destruct (H k m' K) as [H1 H2]. rewrite H1, H2. cbn [finish P vol_P]. rewrite E. cbn [after_end vol_P]. split; [reflexivity|]. rewrite (S_INR (S k)). ring.
Qed.
Lemma run_file c : from_file c -> forall steps recs m, time_index m <> O -> RAIN_OVER m = false -> P_unit m = Some (map Some recs) -> Forall (good c) recs -> length (P m) = width c ->
  exists l, run c m steps = Ok l /\ length l = length steps /\
  forall k m', nth_error l k = Some m' ->
    P m' = match nth_error recs k with Some v => rates c v | None => repeat 0 (width c) end /\
    vol_P m' = vol_P m + sum (map (falls c) (firstn (S k) recs)) * (da c * dt c).
Proof.
  intros F. induction steps as [|s steps IH]; intros recs m T O U G W; [exists []; split; [reflexivity|split; [reflexivity|let j := fresh in let q := fresh in let K := fresh in intros j q K; destruct j; discriminate K]]|].
  cbn [run]. rewrite update_later by exact T. destruct recs as [|v recs].
  - rewrite read_end by auto. cbn [rbind].
    destruct (run_over c F steps (finish c (after_end c m []) s)) as (l & R & L & H); try reflexivity; [discriminate|]. rewrite R. cbn [rbind]. eexists. split; [reflexivity|]. split; [cbn; lia|].
    assert (E : P (after_end c m []) = repeat 0 (width c)) by (cbn; now rewrite O, zeros, W).
    intros [|k] m'; cbn [nth_error firstn map sum fold_right].
    + intros [= <-]. cbn [finish P vol_P]. rewrite E, volume_zero. cbn [after_end vol_P]. split; [reflexivity|]. ring.
    + intros K. destruct (H k m' K) as [H1 H2]. rewrite H1, H2. cbn [finish P vol_P]. rewrite E, volume_zero. cbn [after_end vol_P]. split; [reflexivity|]. ring.
  - apply Forall_cons_iff in G as [G1 G2]. rewrite (read_value c m v (map Some recs) F G1 U). cbn [rbind].
    set (m1 := finish c _ s). destruct (IH recs m1) as (l & R & L & H); auto; [discriminate|cbn; unfold rates; now rewrite map_length|].
    rewrite R. cbn [rbind]. eexists. split; [reflexivity|]. split; [cbn; lia|].
    intros [|k] m'; cbn [nth_error].
    + intros [= <-]. cbn [m1 finish P vol_P firstn map sum fold_right]. rewrite volume_rates by auto. split; [reflexivity|]. ring.
    + intros K. destruct (H k m' K) as [H1 H2]. rewrite H1, H2. split; [reflexivity|]. cbn [m1 finish P vol_P]. rewrite volume_rates by auto.
      change (firstn (S (S k)) (v :: recs)) with (v :: firstn (S k) recs). cbn [map sum fold_right]. fold (sum (map (falls c) (firstn (S k) recs))). ring.
Qed.

(** Rain from a file: in each step that of the line or grid of its turn, zero after the last; the volume is that of the records so far. *)
Theorem C120_file : forall c P0 recs steps, from_file c -> Forall (good c) recs ->
  exists l, simulate c P0 (Some (map Some recs)) steps = Ok l /\ length l = length steps /\
  forall k m, nth_error l k = Some m ->
    P m = match nth_error recs k with Some v => rates c v | None => repeat 0 (width c) end /\
    vol_P m = sum (map (falls c) (firstn (S k) recs)) * (da c * dt c).
Proof.
  intros c P0 recs steps F G. unfold simulate. pose proof F as [T N].
  assert (I : exists m, initialize c P0 (Some (map Some recs)) = Ok m /\
     time_index m = O /\ vol_P m = 0 /\ P m = match recs with v :: _ => rates c v | [] => repeat 0 (width c) end /\
     P_unit m = Some (map Some (tl recs)) /\ RAIN_OVER m = match recs with _ :: _ => false | [] => true end).
  { unfold initialize. match goal with |- context [read_input_files c ?x] => set (m0 := x) end.
    assert (LP : length (P m0) = width c) by (unfold m0, width; cbn [P]; destruct (P_type c); [reflexivity|reflexivity|apply repeat_length]).
    destruct recs as [|v recs].
    - rewrite read_end by auto. cbn [rbind]. eexists. split; [reflexivity|]. cbn [after_end P RAIN_OVER P_unit time_index time_sec P_max vol_P]. change (RAIN_OVER m0) with false. cbv iota. rewrite zeros, LP.
      destruct (P_type c); try congruence; repeat split.
    - apply Forall_cons_iff in G as [G1 G2]. rewrite (read_value c m0 v (map Some recs) F G1 eq_refl). cbn [rbind]. eexists. split; [reflexivity|]. cbn. destruct (P_type c); try congruence; repeat split. }
  destruct I as (m & -> & TI & V & PM & U & O). cbn [rbind]. destruct steps as [|s steps]; [exists []; split; [reflexivity|split; [reflexivity|let j := fresh in let q := fresh in let K := fresh in intros j q K; destruct j; discriminate K]]|].
  cbn [run]. rewrite update_first by exact TI. cbn [rbind]. set (m1 := finish c m s). assert (T1 : time_index m1 <> 0%nat) by discriminate.
  assert (V1 : vol_P m1 = match recs with v :: _ => falls c v * (da c * dt c) | [] => 0 end).
  { cbn [m1 finish vol_P]. rewrite V, PM. destruct recs as [|v recs]; [rewrite volume_zero; ring|]. apply Forall_cons_iff in G as [G1 _]. rewrite volume_rates by auto. ring. }
  assert (REST : exists l, run c m1 steps = Ok l /\ length l = length steps /\ forall k m', nth_error l k = Some m' ->
     P m' = match nth_error (tl recs) k with Some v => rates c v | None => repeat 0 (width c) end /\ vol_P m' = vol_P m1 + sum (map (falls c) (firstn (S k) (tl recs))) * (da c * dt c)).
  { destruct recs as [|v recs].
    - destruct (run_over c F steps m1 T1 O U) as (l & R & L & H). exists l. split; [exact R|]. split; [exact L|]. intros k m' K. destruct (H k m' K) as [H1 H2]. rewrite H1, H2.
      cbn [m1 finish P]. rewrite PM, volume_zero. cbn [tl]. destruct k; cbn; split; auto; ring.
    - apply Forall_cons_iff in G as [G1 G2]. apply (run_file c F steps recs m1 T1 O U G2). cbn [m1 finish P]. rewrite PM. unfold rates. now rewrite map_length. }
  destruct REST as (l & -> & L & H). cbn [rbind]. eexists. split; [reflexivity|]. split; [cbn; lia|]. intros [|k] m'; cbn [nth_error].
  - intros [= <-]. rewrite V1. cbn [m1 finish P]. rewrite PM. destruct recs as [|v recs]; cbn; split; auto; ring.
  - intros K. destruct (H k m' K) as [H1 H2]. rewrite H1, H2, V1. destruct recs as [|v recs]; cbn [tl].
    + destruct k; cbn; split; auto; ring.
    + split; [reflexivity|]. change (firstn (S (S k)) (v :: recs)) with (v :: firstn (S k) recs). cbn [map sum fold_right]. fold (sum (map (falls c) (firstn (S k) recs))). ring.
Qed.
Print Assumptions C120_file.

(** Refuted: the rain ends with the file.  After a blank line in it, the last value stays for ever. *)
Lemma run_held c : from_file c -> forall recs steps m v, time_index m <> O -> RAIN_OVER m = true -> P_unit m = Some (map Some (recs ++ [v])) -> Forall (good c) (recs ++ [v]) ->
  exists l, run c m steps = Ok l /\ length l = length steps /\ forall k m', nth_error l k = Some m' -> (length recs <= k)%nat -> P m' = rates c v.
Proof.
  intros F. induction recs as [|w recs IH]; intros [|s steps] m v T O U G; try (exists []; split; [reflexivity|split; [reflexivity|let j := fresh in let q := fresh in let K := fresh in intros j q K; destruct j; discriminate K]]); cbn [run]; rewrite update_later by exact T; cbn [app] in *; apply Forall_cons_iff in G as [G1 G2].
  - rewrite (read_value c m v [] F G1 U). cbn [rbind]. set (m1 := finish c _ s). destruct (run_over c F steps m1) as (l & R & L & H); auto; [discriminate|].
    rewrite R. cbn [rbind]. eexists. split; [reflexivity|]. split; [cbn; lia|]. intros [|k] m'; cbn [nth_error]; [now intros [= <-]|]. intros K _. now destruct (H k m' K) as [-> _].
  - rewrite (read_value c m w (map Some (recs ++ [v])) F G1 U). cbn [rbind]. set (m1 := finish c _ s). destruct (IH steps m1 v) as (l & R & L & H); auto; [discriminate|].
    rewrite R. cbn [rbind]. eexists. split; [reflexivity|]. split; [cbn; lia|]. intros [|k] m'; cbn [nth_error length]; [lia|]. intros K KL. apply (H k m' K). lia.
Qed.
Lemma run_blank c : from_file c -> forall recs1 steps m recs2 v, time_index m <> O -> P_unit m = Some (map Some recs1 ++ None :: map Some (recs2 ++ [v])) -> Forall (good c) recs1 -> Forall (good c) (recs2 ++ [v]) ->
  exists l, run c m steps = Ok l /\ length l = length steps /\ forall k m', nth_error l k = Some m' -> (length recs1 + 1 + length recs2 <= k)%nat -> P m' = rates c v.
Proof.
  intros F. induction recs1 as [|w recs1 IH]; intros [|s steps] m recs2 v T U G1 G2; try (exists []; split; [reflexivity|split; [reflexivity|let j := fresh in let q := fresh in let K := fresh in intros j q K; destruct j; discriminate K]]); cbn [run]; rewrite update_later by exact T; cbn [map app] in *.
  - rewrite (read_none c m _ F U). cbn [rbind]. set (m1 := finish c _ s). destruct (run_held c F recs2 steps m1 v) as (l & R & L & H); auto; [discriminate|].
    rewrite R. cbn [rbind]. eexists. split; [reflexivity|]. split; [cbn; lia|]. intros [|k] m'; cbn [nth_error length]; [lia|]. intros K KL. apply (H k m' K). lia.
  - apply Forall_cons_iff in G1 as [G0 G1]. rewrite (read_value c m w _ F G0 U). cbn [rbind]. set (m1 := finish c _ s). destruct (IH steps m1 recs2 v) as (l & R & L & H); auto; [discriminate|].
    rewrite R. cbn [rbind]. eexists. split; [reflexivity|]. split; [cbn; lia|]. intros [|k] m'; cbn [nth_error length]; [lia|]. intros K KL. apply (H k m' K). lia.
Qed.
Theorem C120_blank_refuted : forall c P0 w recs1 recs2 v steps, P_type c = Time_Series -> (0 < n_pixels c)%nat -> Forall (good c) (w :: recs1) -> Forall (good c) (recs2 ++ [v]) ->
  exists l, simulate c P0 (Some (map Some (w :: recs1) ++ None :: map Some (recs2 ++ [v]))) steps = Ok l /\ length l = length steps /\
  forall k m, nth_error l k = Some m -> (length (w :: recs1) + 1 + length recs2 <= k)%nat -> P m = rates c v.
Proof.
  intros c P0 w recs1 recs2 v steps T N G1 G2. assert (F : from_file c) by (split; [congruence|exact N]). apply Forall_cons_iff in G1 as [G0 G1].
  unfold simulate, initialize. rewrite T. cbn [map app]. erewrite (read_value c _ w) by (auto; reflexivity). cbn [rbind]. set (m := Build_met _ _ _ _ _ _ _).
  destruct steps as [|s steps]; [exists []; split; [reflexivity|split; [reflexivity|let j := fresh in let q := fresh in let K := fresh in intros j q K; destruct j; discriminate K]]|]. cbn [run]. rewrite update_first by reflexivity. cbn [rbind].
  destruct (run_blank c F recs1 steps (finish c m s) recs2 v) as (l & R & L & H); auto; [discriminate|]. rewrite R. cbn [rbind]. eexists. split; [reflexivity|]. split; [cbn; lia|].
  intros [|k] m'; cbn [nth_error length]; [lia|]. intros K KL. apply (H k m' K). lia.
Qed.
Print Assumptions C120_blank_refuted.

(** A file that is missing, or a grid that is cut short, stops the run with an error. *)
Theorem C120_errors : forall c P0 recs v r steps, from_file c -> Forall (good c) recs ->
  simulate c P0 None steps = Err AttributeError /\
  (P_type c = Grid_Sequence -> length v <> O -> length v <> n_pixels c -> (length recs < length steps)%nat ->
   simulate c P0 (Some (map Some (recs ++ [v]) ++ r)) steps = Err ValueError).
Proof.
  intros c P0 recs v r steps F G. split.
  - unfold simulate, initialize, read_input_files, read_next. destruct F as [T _]. destruct (P_type c); [congruence|reflexivity|reflexivity].
  - intros T L0 L1 K. unfold simulate, initialize. rewrite T. assert (BAD : forall m, P_unit m = Some (Some v :: r) -> read_input_files c m = Err ValueError).
    { intros m U. unfold read_input_files, read_next. rewrite T, U. destruct (Nat.eqb_spec (length v) 0); [contradiction|]. destruct (Nat.eqb_spec (length v) (n_pixels c)); [contradiction|reflexivity]. }
    assert (LATER : forall recs steps m, Forall (good c) recs -> time_index m <> O -> P_unit m = Some (map Some (recs ++ [v]) ++ r) -> (length recs < length steps)%nat -> run c m steps = Err ValueError).
    { clear G K steps recs. induction recs as [|w recs IH]; intros [|s steps] m G T0 U K; cbn in K; try lia; cbn [run]; rewrite update_later by exact T0; cbn [map app] in U.
      - now rewrite BAD.
      - apply Forall_cons_iff in G as [G0 G1]. rewrite (read_value c m w _ F G0 U). cbn [rbind]. rewrite IH; auto; [discriminate|lia]. }
    destruct recs as [|w recs]; cbn [map app].
    + now rewrite BAD.
    + apply Forall_cons_iff in G as [G0 G1]. erewrite (read_value c _ w) by (auto; reflexivity). cbn [rbind]. destruct steps as [|s steps]; [cbn in K; lia|]. cbn [run].
      rewrite update_first by reflexivity. cbn [rbind]. rewrite (LATER recs); auto; [discriminate|cbn in K; lia].
Qed.
Print Assumptions C120_errors.

(** ** One rate *)

Fixpoint elapsed (c : conf) (k : nat) (steps : list (option R)) : R :=
  match k, steps with S k, s :: r => duration c s + elapsed c k r | _, _ => 0 end.
Lemma elapsed_nonneg c : 0 <= dt c -> forall steps k, Forall (fun s => 0 <= duration c s) steps -> 0 <= elapsed c k steps.
Proof.
  intros D. induction steps as [|s steps IH]; intros [|k] H; cbn [elapsed]; try lra. apply Forall_cons_iff in H as [H1 H2]. specialize (IH k H2). lra.
Qed.
Lemma run_scalar c : P_type c = Scalar -> 0 <= dt c -> forall steps m p, time_index m <> O -> P m = (if RAIN_OVER m then [0] else [p]) -> (RAIN_OVER m = true -> dt c <= time_sec m) -> Forall (fun s => 0 <= duration c s) steps ->
  exists l, run c m steps = Ok l /\ length l = length steps /\
  forall k m', nth_error l k = Some m' -> P m' = if Rlt_dec (time_sec m + elapsed c k steps) (dt c) then [p] else [0].
Proof.
  intros T D. induction steps as [|s steps IH]; intros m p T0 PM O H; [exists []; split; [reflexivity|split; [reflexivity|let j := fresh in let q := fresh in let K := fresh in intros j q K; destruct j; discriminate K]]|]. apply Forall_cons_iff in H as [H1 H2].
  cbn [run]. rewrite update_later by exact T0. unfold read_input_files, read_next. rewrite T. cbn [rbind fst snd]. unfold set_rain_to_zero. cbn [RAIN_OVER time_sec P]. rewrite T.
  match goal with |- context [finish c ?x s] => set (m1 := x) end.
  assert (M : P m1 = (if Rlt_dec (time_sec m) (dt c) then [p] else [0]) /\ RAIN_OVER m1 = (if Rlt_dec (time_sec m) (dt c) then false else true) /\ time_sec m1 = time_sec m /\ time_index m1 = time_index m).
  { unfold m1. destruct (RAIN_OVER m) eqn:E.
    - specialize (O eq_refl). destruct (Rlt_dec (time_sec m) (dt c)); [lra|]. cbn. now rewrite PM.
    - destruct (Rlt_dec (time_sec m) (dt c)); cbn; rewrite PM; auto. }
  destruct M as (M1 & M2 & M3 & M4). destruct (IH (finish c m1 s) p) as (l & R & L & K).
  - discriminate.
  - cbn [finish P RAIN_OVER]. rewrite M1, M2. now destruct (Rlt_dec (time_sec m) (dt c)).
  - cbn [finish time_sec RAIN_OVER]. rewrite M2, M3. destruct (Rlt_dec (time_sec m) (dt c)); [discriminate|]. intros _. lra.
  - exact H2.
  - rewrite R. cbn [rbind]. eexists. split; [reflexivity|]. split; [cbn; lia|]. intros [|k] m'; cbn [nth_error elapsed].
    + intros [= <-]. cbn [finish P]. rewrite M1, Rplus_0_r. reflexivity.
    + intros N. rewrite (K k m' N). cbn [finish time_sec]. rewrite M3, Rplus_assoc. reflexivity.
Qed.
(** A rate from the CFG file is the rain until the time of the component reaches its time step, and zero after; so with steps of the usual
    length it rains in the first one only. *)
Theorem C120_scalar : forall c P0 u steps, P_type c = Scalar -> 0 < dt c -> Forall (fun s => 0 <= duration c s) steps ->
  exists l, simulate c P0 u steps = Ok l /\ length l = length steps /\
  (forall k m, nth_error l k = Some m -> P m = if Rlt_dec (elapsed c k steps) (dt c) then [P0 / (3600 * 1000)] else [0]) /\
  (Forall (fun s => s = None) steps -> forall k m, nth_error l k = Some m -> P m = match k with O => [P0 / (3600 * 1000)] | S _ => [0] end).
Proof.
  intros c P0 u steps T D H. unfold simulate, initialize. rewrite T. unfold read_input_files, read_next. rewrite T. cbn [rbind fst snd]. unfold set_rain_to_zero. cbn [RAIN_OVER time_sec]. rewrite T.
  destruct (Rlt_dec 0 (dt c)) as [_|X]; [|lra]. cbn [P RAIN_OVER P_unit time_index time_sec map]. set (m := Build_met _ _ _ _ _ _ _).
  assert (E : P0 * mmph_to_mps = P0 / (3600 * 1000)) by reflexivity.
  assert (MAIN : exists l, run c m steps = Ok l /\ length l = length steps /\ forall k m', nth_error l k = Some m' -> P m' = if Rlt_dec (elapsed c k steps) (dt c) then [P0 / (3600 * 1000)] else [0]).
  { destruct steps as [|s steps]; [exists []; split; [reflexivity|split; [reflexivity|let j := fresh in let q := fresh in let K := fresh in intros j q K; destruct j; discriminate K]]|]. apply Forall_cons_iff in H as [H1 H2]. cbn [run]. rewrite update_first by reflexivity. cbn [rbind].
    destruct (run_scalar c T (Rlt_le _ _ D) steps (finish c m s) (P0 / (3600 * 1000))) as (l & R & L & K); auto; try discriminate.
    rewrite R. cbn [rbind]. eexists. split; [reflexivity|]. split; [cbn; lia|]. intros [|k] m'; cbn [nth_error elapsed].
    - intros [= <-]. cbn [m finish P]. rewrite E. destruct (Rlt_dec 0 (dt c)); [reflexivity|lra].
    - intros N. rewrite (K k m' N). cbn [m finish time_sec]. rewrite Rplus_0_l. reflexivity. }
  destruct MAIN as (l & R & L & K). exists l. split; [exact R|]. split; [exact L|]. split; [exact K|]. intros A k m' N. rewrite (K k m' N). clear - A D H N L.
  destruct k as [|k]; cbn [elapsed].
  - destruct (Rlt_dec 0 (dt c)); [reflexivity|lra].
  - destruct steps as [|s steps]; [destruct l; [discriminate N|discriminate L]|]. apply Forall_cons_iff in A as [-> A]. apply Forall_cons_iff in H as [_ H].
    pose proof (elapsed_nonneg c (Rlt_le _ _ D) steps k H). cbn [duration]. destruct (Rlt_dec (dt c + elapsed c k steps) (dt c)); [lra|reflexivity].
Qed.
Print Assumptions C120_scalar.

(** Refuted: P_factor multiplies the rain.  Not that of the CFG file. *)
Definition with_factor (c : conf) (f : R) : conf := {| P_type := P_type c; dt := dt c; P_factor := f; NGEN_CSV := NGEN_CSV c; n_pixels := n_pixels c; da := da c |}.
Theorem C120_factor_refuted : forall c P0 u steps f, P_type c = Scalar -> simulate (with_factor c f) P0 u steps = simulate c P0 u steps.
Proof.
  intros c P0 u steps f T. assert (RD : forall m, read_input_files (with_factor c f) m = read_input_files c m) by (intros m; unfold read_input_files, read_next, set_rain_to_zero; cbn [with_factor P_type dt]; rewrite T; reflexivity).
  unfold simulate, initialize. cbn [with_factor P_type]. rewrite T. rewrite RD. destruct (read_input_files c _) as [m|e]; [|reflexivity]. cbn [rbind].
  generalize (Build_met (map (fun x => x * mmph_to_mps) (P m)) (RAIN_OVER m) (P_unit m) (time_index m) (time_sec m) (maximum (map (fun x => x * mmph_to_mps) (P m))) 0) as m1. clear m.
  induction steps as [|s steps IH]; intros m1; [reflexivity|]. cbn [run]. assert (U : update (with_factor c f) m1 s = update c m1 s) by (unfold update; rewrite RD; reflexivity).
  rewrite U. destruct (update c m1 s) as [m2|e]; [|reflexivity]. cbn [rbind]. now rewrite IH.
Qed.
Print Assumptions C120_factor_refuted.

(** ** The greatest rate *)

Lemma maximum_in : forall l, l <> [] -> In (maximum l) l.
Proof.
  intros [|a l] N; [congruence|]. clear N. cbn [maximum]. revert a. induction l as [|b l IH]; intros a; [now left|]. cbn [fold_left]. destruct (IH (Rmax a b)) as [E|E].
  - rewrite <- E. unfold Rmax. destruct (Rle_dec a b); [right; now left|now left].
  - right. now right.
Qed.
Lemma maximum_max : forall l x, In x l -> x <= maximum l.
Proof.
  assert (G : forall l a, a <= fold_left Rmax l a /\ forall x, In x l -> x <= fold_left Rmax l a).
  { induction l as [|b l IH]; intros a; cbn [fold_left]; [split; [lra|intros x []]|]. destruct (IH (Rmax a b)) as [H1 H2]. pose proof (Rmax_l a b). pose proof (Rmax_r a b). split; [lra|].
    intros x [<-|X]; [lra|now apply H2]. }
  intros [|a l] x X; [destruct X|]. cbn [maximum]. destruct (G l a) as [G1 G2]. destruct X as [<-|X]; [exact G1|now apply G2].
Qed.
Lemma run_max c : forall steps m l, run c m steps = Ok l -> (forall m', In m' l -> P m' <> []) -> forall k mk, nth_error l k = Some mk ->
  P_max m <= P_max mk /\ (forall i mi x, (i <= k)%nat -> nth_error l i = Some mi -> In x (P mi) -> x <= P_max mk) /\
  (P_max mk = P_max m \/ exists i mi, (i <= k)%nat /\ nth_error l i = Some mi /\ In (P_max mk) (P mi)).
Proof.
  assert (UP : forall m s m1, update c m s = Ok m1 -> P_max m1 = Rmax (P_max m) (maximum (P m1))).
  { intros m s m1 U. unfold update in U. destruct (time_index m).
    - cbn in U. injection U as <-. reflexivity.
    - destruct (read_input_files c m) as [m2|e] eqn:E; [|discriminate U]. cbn in U. injection U as <-. cbn. f_equal. unfold read_input_files in E. destruct (read_next c (P_unit m)) as [[v u]|]; [|discriminate E]. cbn in E.
      destruct v; injection E as <-; [reflexivity|]. unfold set_rain_to_zero. cbn. destruct (RAIN_OVER m); [reflexivity|]. destruct (P_type c); [destruct (Rlt_dec (time_sec m) (dt c))| |]; reflexivity. }
  induction steps as [|s steps IH]; intros m l; cbn [run]; [intros [= <-] _ k mk K; destruct k; discriminate K|].
  destruct (update c m s) as [m1|e] eqn:U; [|discriminate]. cbn [rbind]. destruct (run c m1 steps) as [l1|e] eqn:R; [|discriminate]. cbn [rbind]. intros [= <-] NE k mk K.
  pose proof (UP m s m1 U) as E. pose proof (Rmax_l (P_max m) (maximum (P m1))) as X1. pose proof (Rmax_r (P_max m) (maximum (P m1))) as X2. rewrite <- E in X1, X2.
  assert (OWN : P_max m1 = P_max m \/ In (P_max m1) (P m1)).
  { rewrite E. unfold Rmax. destruct (Rle_dec (P_max m) (maximum (P m1))); [right; apply maximum_in, NE; now left|now left]. }
  destruct k as [|k]; cbn [nth_error] in K.
  - injection K as <-. split; [lra|]. split.
    + intros [|i] mi x I; [|lia]. cbn. intros [= <-] X. apply maximum_max in X. lra.
    + destruct OWN as [O|O]; [now left|]. right. exists 0%nat, m1. auto.
  - destruct (IH m1 l1 R (fun m' I => NE m' (or_intror I)) k mk K) as (H1 & H2 & H3). split; [lra|]. split.
    + intros [|i] mi x I; cbn [nth_error].
      * intros [= <-] X. apply maximum_max in X. lra.
      * intros N X. apply (H2 i mi x); auto; lia.
    + destruct H3 as [H3|(i & mi & I & N & X)].
      * rewrite H3. destruct OWN as [O|O]; [now left|]. right. exists 0%nat, m1. repeat split; auto; lia.
      * right. exists (S i), mi. repeat split; auto; lia.
Qed.
(** P_max is the greatest rate of any cell in any step so far. *)
Theorem C120_max : forall c P0 u steps l, simulate c P0 u steps = Ok l -> (forall m, In m l -> P m <> []) -> forall k mk, nth_error l k = Some mk ->
  (forall i mi x, (i <= k)%nat -> nth_error l i = Some mi -> In x (P mi) -> x <= P_max mk) /\ exists i mi, (i <= k)%nat /\ nth_error l i = Some mi /\ In (P_max mk) (P mi).
Proof.
  intros c P0 u steps l S NE k mk K. unfold simulate in S. destruct (initialize c P0 u) as [m|e] eqn:I; [|discriminate S]. cbn [rbind] in S.
  destruct (run_max c steps m l S NE k mk K) as (H1 & H2 & H3). split; [exact H2|]. destruct H3 as [H3|H3]; [|exact H3].
  assert (M : P_max m = maximum (P m) /\ time_index m = O).
  { unfold initialize in I. match type of I with context [read_input_files c ?x] => set (m0 := x) in I end. destruct (read_input_files c m0) as [m2|e] eqn:E; [|discriminate I]. cbn in I. injection I as <-. cbn. split; [reflexivity|].
    unfold read_input_files in E. destruct (read_next c (P_unit m0)) as [[v w]|]; [|discriminate E]. cbn in E. destruct v; injection E as <-; [reflexivity|]. unfold set_rain_to_zero. cbn.
    destruct (P_type c); [destruct (Rlt_dec 0 (dt c))| |]; reflexivity. }
  destruct M as [M1 M2]. destruct steps as [|s steps]; cbn [run] in S; [injection S as <-; destruct k; discriminate K|]. rewrite update_first in S by exact M2. cbn [rbind] in S.
  destruct (run c (finish c m s) steps) as [l1|e]; [|discriminate S]. cbn [rbind] in S. injection S as <-. exists 0%nat, (finish c m s). split; [lia|]. split; [reflexivity|]. rewrite H3, M1. cbn [finish P].
  apply maximum_in. apply (NE (finish c m s)). now left.
Qed.
Print Assumptions C120_max.

Example C120_case :
  let c := {| P_type := Time_Series; dt := 60; P_factor := 2; NGEN_CSV := false; n_pixels := 4; da := 100 |} in
  from_file c /\ Forall (good c) [[36]; [18]] /\
  (exists l, simulate c 0 (Some [Some [36]; Some [18]]) [None; None; None] = Ok l /\ map P l = [[2 / 100000]; [1 / 100000]; [0]]) /\
  (exists l m, simulate c 0 (Some [Some [36]; None; Some [18]]) [None; None; None; None; None] = Ok l /\ nth_error l 4 = Some m /\ P m = [1 / 100000]) /\
  (exists l, simulate {| P_type := Scalar; dt := 60; P_factor := 2; NGEN_CSV := false; n_pixels := 4; da := 100 |} 36 None [None; None] = Ok l /\ map P l = [[1 / 100000]; [0]]) /\
  simulate {| P_type := Grid_Sequence; dt := 60; P_factor := 1; NGEN_CSV := false; n_pixels := 2; da := 100 |} 0 (Some [Some [36; 0]; Some [18]]) [None; None] = Err ValueError.
Proof.
  intros c. assert (F : from_file c) by (split; [discriminate|cbn; lia]). assert (G : Forall (good c) [[36]; [18]]) by (repeat constructor). split; [exact F|]. split; [exact G|].
  assert (R2 : rates c [36] = [2 / 100000]) by (unfold rates, in_mps; cbn [map NGEN_CSV P_factor c]; f_equal; field).
  assert (R1 : rates c [18] = [1 / 100000]) by (unfold rates, in_mps; cbn [map NGEN_CSV P_factor c]; f_equal; field). split; [|split; [|split]].
  - destruct (C120_file c 0 [[36]; [18]] [None; None; None] F G) as (l & S & L & H). exists l. split; [exact S|]. destruct l as [|a [|b [|d [|e l]]]]; try discriminate L. cbn [map].
    rewrite (proj1 (H 0%nat a eq_refl)), (proj1 (H 1%nat b eq_refl)), (proj1 (H 2%nat d eq_refl)). cbn [nth_error]. rewrite R2, R1. reflexivity.
  - destruct (C120_blank_refuted c 0 [36] [] [] [18] [None; None; None; None; None] eq_refl) as (l & S & L & H); [cbn; lia|repeat constructor|repeat constructor|].
    destruct (nth_error l 4) as [m|] eqn:E; [|apply nth_error_None in E; cbn in L; lia]. exists l, m. split; [exact S|]. split; [exact E|]. rewrite (H 4%nat m E) by (cbn; lia). exact R1.
  - destruct (C120_scalar {| P_type := Scalar; dt := 60; P_factor := 2; NGEN_CSV := false; n_pixels := 4; da := 100 |} 36 None [None; None]) as (l & S & L & _ & H); [reflexivity|cbn; lra|repeat constructor; cbn; lra|].
    exists l. split; [exact S|]. destruct l as [|a [|b [|d l]]]; try discriminate L. assert (A : Forall (fun s : option R => s = None) [None; None]) by (repeat constructor).
    cbn [map]. rewrite (H A 0%nat a eq_refl), (H A 1%nat b eq_refl). f_equal. f_equal. field.
  - refine (proj2 (C120_errors {| P_type := Grid_Sequence; dt := 60; P_factor := 1; NGEN_CSV := false; n_pixels := 2; da := 100 |} 0 [[36; 0]] [18] [] [None; None] _ _) eq_refl _ _ _); [split; [discriminate|cbn; lia]|repeat constructor|discriminate|discriminate|cbn; lia].
Qed.
