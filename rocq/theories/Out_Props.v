(* C70: results are saved at the requested times, with the right labels, in both files. *)
From Coq Require Import ZArith QArith Qround Lqa String Ascii List Bool Arith Lia.
From Verif Require Import Base Time_Model Time_Spec Time_Cal Time_Proofs Time_Props Io_Model Io_Proofs Out_Model Out_Spec.
Import ListNotations.
Local Open Scope Q_scope.

(* ---------- when frames are saved ---------- *)
Lemma trunc_Z z x : x == inject_Z z -> trunc x = z.
Proof.
  intros E. unfold trunc. destruct (Qlt_le_dec x 0); rewrite E; [|apply Qfloor_Z].
  rewrite <- inject_Z_opp, Qfloor_Z. lia.
Qed.
Lemma updates_snoc {X} (step : X -> X) n dt save c :
  updates step (S n) dt save c = match updates step n dt save c with None => None | Some c => update step dt save c end.
Proof.
  revert c. induction n as [|n IH]; intros c.
  - cbn. destruct (update step dt save c); reflexivity.
  - cbn [updates] in *. destruct (update step dt save c) as [c'|]; [|reflexivity]. rewrite <- IH. reflexivity.
Qed.

Section Times.
Context {X : Type}.
Variable step : X -> X.
Definition frames_ok (L dt n : Z) (x : X) (l : list (Q * X)) : Prop :=
  (forall k, (k < length l)%nat <-> (Z.of_nat k * L < n * dt)%Z) /\
  (forall k t y, nth_error l k = Some (t, y) ->
     t == Qnat k * Qz L / 60 /\ exists m : nat, (Z.of_nat m * dt = Z.of_nat k * L)%Z /\ y = after step (S m) x).

Lemma run_inv (dt s : Z) (x : X) : (0 < dt)%Z -> (0 < s)%Z -> forall n,
  exists c, updates step n (inject_Z dt) (inject_Z s) (start x) = Some c /\
    clock c == inject_Z (Z.of_nat n * dt) /\ st c = after step n x /\
    frames_ok (Z.lcm dt s) dt (Z.of_nat n) x (saved c).
Proof.
  intros Hd Hs n. set (L := Z.lcm dt s).
  assert (HL : (0 < L)%Z).
  { assert (L <> 0)%Z by (unfold L; rewrite Z.lcm_eq_0; lia). pose proof (Z.lcm_nonneg dt s). unfold L in *. lia. }
  induction n as [|n (c & E & C & ST & (LEN & FR))].
  - exists (start x). split; [reflexivity|]. split; [reflexivity|]. split; [reflexivity|]. split.
    + intros k. cbn [start saved length]. split; [lia|nia].
    + intros k t y H. destruct k; discriminate H.
  - rewrite updates_snoc, E. unfold update. rewrite ST. unfold save_now.
    rewrite (trunc_Z s) by reflexivity. rewrite (trunc_Z _ _ C).
    replace (s =? 0)%Z with false by (symmetry; apply Z.eqb_neq; lia).
    eexists. split; [reflexivity|]. cbn [clock st saved]. split.
    { rewrite C. rewrite <- inject_Z_plus. replace (Z.of_nat (S n)) with (Z.of_nat n + 1)%Z by lia.
      replace ((Z.of_nat n + 1) * dt)%Z with (Z.of_nat n * dt + dt)%Z by ring. reflexivity. }
    split; [reflexivity|].
    destruct (Z.of_nat n * dt mod s =? 0)%Z eqn:B.
    + apply Z.eqb_eq, Z.mod_divide in B; [|lia].
      assert (D : (L | Z.of_nat n * dt)%Z) by (apply Z.lcm_least; [apply Z.divide_factor_r|exact B]).
      destruct D as [q D]. assert (Hq : (0 <= q)%Z) by nia.
      assert (LQ : length (saved c) = Z.to_nat q).
      { destruct (Nat.lt_total (length (saved c)) (Z.to_nat q)) as [H|[H|H]]; [|exact H|]; exfalso.
        - assert (Z.of_nat (length (saved c)) * L < Z.of_nat n * dt)%Z by nia. apply LEN in H0. lia.
        - apply LEN in H. nia. }
      split.
      * intros k. rewrite app_length. cbn [length]. rewrite LQ. split; intros H.
        -- assert (Z.of_nat k <= q)%Z by lia. nia.
        -- assert (dt <= L)%Z by (apply Z.divide_pos_le; [exact HL|apply Z.divide_lcm_l]). 
           assert (Z.of_nat k <= q)%Z by nia. lia.
      * intros k t y H. destruct (Nat.lt_ge_cases k (length (saved c))) as [K|K].
        -- rewrite nth_error_app1 in H by exact K. apply (FR k t y H).
        -- rewrite nth_error_app2 in H by exact K. destruct (k - length (saved c))%nat as [|j] eqn:EJ; [|destruct j; discriminate H].
           injection H as <- <-. assert (k = Z.to_nat q) by lia. subst k. split.
           ++ rewrite C, D. unfold Qnat, Qz. rewrite Z2Nat.id, inject_Z_mult by exact Hq. reflexivity.
           ++ exists n. split; [rewrite Z2Nat.id by exact Hq; exact D|reflexivity].
    + assert (ND : ~ (s | Z.of_nat n * dt)%Z).
      { intros H. apply Z.mod_divide in H; [|lia]. rewrite H in B. discriminate B. }
      split.
      * intros k. rewrite LEN. split; [nia|]. intros H.
        assert (dt | L)%Z by apply Z.divide_lcm_l. destruct H0 as [m Hm].
        assert (Z.of_nat k * m < Z.of_nat n + 1)%Z by nia.
        destruct (Z.eq_dec (Z.of_nat k * m) (Z.of_nat n)) as [EQ|NE]; [|nia]. exfalso. apply ND.
        replace (Z.of_nat n * dt)%Z with (Z.of_nat k * L)%Z by (rewrite Hm, <- EQ; ring).
        apply Z.divide_mul_r. apply Z.divide_lcm_r.
      * exact FR.
Qed.
End Times.

(* With a whole number of seconds for the time step and the saving interval (the larger of the requested interval and
   the step), frame number k carries the label k * L where L is their least common multiple, and nothing else is
   saved: the frames are those with label before the end.  A frame labelled t holds the state after the update that
   starts at t. *)
Theorem C70_saving_times : forall (X : Type) (step : X -> X) (dt save : Z) (n : nat) (x : X), (0 < dt)%Z ->
  let L := Z.lcm dt (Z.max dt save) in
  exists c, run step n (Qz dt) (Qz save) x = Some c /\
    (forall k, (k < length (saved c))%nat <-> (Z.of_nat k * L < Z.of_nat n * dt)%Z) /\
    (forall k t y, nth_error (saved c) k = Some (t, y) ->
       t * 60 == Qnat k * Qz L /\ exists m : nat, Qnat m * Qz dt == t * 60 /\ y = after step (S m) x).
Proof.
  intros X step dt save n x Hd L. unfold run, Qz.
  assert (E : effective_dt (inject_Z save) (inject_Z dt) = inject_Z (Z.max dt save)).
  { unfold effective_dt. destruct (Qlt_le_dec (inject_Z save) (inject_Z dt)) as [H|H]; f_equal.
    - rewrite <- Zlt_Qlt in H. lia.
    - rewrite <- Zle_Qle in H. lia. }
  rewrite E. destruct (run_inv step dt (Z.max dt save) x Hd ltac:(lia) n) as (c & R & _ & _ & LEN & FR).
  exists c. split; [exact R|]. split; [exact LEN|]. intros k t y H. destruct (FR k t y H) as (T & m & M & Y).
  assert (T60 : t * 60 == Qnat k * inject_Z L) by (rewrite T; unfold Qz, L; field). split; [exact T60|].
  exists m. split; [|exact Y]. rewrite T60. unfold Qnat. rewrite <- !inject_Z_mult. unfold L. rewrite M. reflexivity.
Qed.
Print Assumptions C70_saving_times.
(* a requested interval that is a multiple of the step is kept *)
Theorem C70_requested_interval : forall (X : Type) (step : X -> X) (dt save : Z) (n : nat) (x : X), (0 < dt)%Z -> (0 < save)%Z -> (dt | save)%Z ->
  exists c, run step n (Qz dt) (Qz save) x = Some c /\
    (forall k, (k < length (saved c))%nat <-> (Z.of_nat k * save < Z.of_nat n * dt)%Z) /\
    (forall k t y, nth_error (saved c) k = Some (t, y) -> t * 60 == Qnat k * Qz save).
Proof.
  intros X step dt save n x Hd Hs D. assert (Hle : (dt <= save)%Z) by (apply Z.divide_pos_le; assumption).
  destruct (C70_saving_times X step dt save n x Hd) as (c & R & A & B). exists c. split; [exact R|].
  assert (E : Z.lcm dt (Z.max dt save) = save).
  { rewrite Z.max_r by lia. apply Z.divide_lcm_eq_r; [lia|exact D]. }
  rewrite E in *. split; [exact A|]. intros k t y H. apply (B k t y H).
Qed.
Print Assumptions C70_requested_interval.
(* any other interval is not: frames come at most half as often as requested *)
Theorem C70_requested_interval_refuted : forall (dt save : Z), (0 < dt < save)%Z -> ~ (dt | save)%Z ->
  (2 * save <= Z.lcm dt (Z.max dt save))%Z.
Proof.
  intros dt save H ND. rewrite Z.max_r by lia. set (L := Z.lcm dt save).
  assert (HL : (0 < L)%Z). { assert (L <> 0)%Z by (unfold L; rewrite Z.lcm_eq_0; lia). pose proof (Z.lcm_nonneg dt save). unfold L in *. lia. }
  destruct (Z.divide_lcm_r dt save) as [q Q]. fold L in Q. assert (1 <= q)%Z by nia.
  destruct (Z.eq_dec q 1) as [->|N]; [|nia]. exfalso. apply ND. replace save with L by lia. apply Z.divide_lcm_l.
Qed.
Print Assumptions C70_requested_interval_refuted.
(* the comment in the code: 250 s steps, 600 s requested, 3000 s obtained *)
Example C70_250_600 : Z.lcm 250 (Z.max 250 600) = 3000%Z.
Proof. reflexivity. Qed.
(* steps shorter than a second save several frames for one time *)
Theorem C70_subsecond_refuted :
  exists c, run S 4 (1#2) (Qz 60) 0%nat = Some c /\ map snd (saved c) = [1; 2]%nat /\
    Forall2 Qeq (map fst (saved c)) [0; 1#120].
Proof.
  eexists. split; [vm_compute; reflexivity|]. split; [reflexivity|]. cbn.
  constructor; [vm_compute; reflexivity|]. constructor; [vm_compute; reflexivity|constructor].
Qed.
Print Assumptions C70_subsecond_refuted.
(* a saving interval below a second stops the run *)
Theorem C70_short_interval_refuted : forall (X : Type) (step : X -> X) (dt save : Q) (n : nat) (x : X),
  0 < dt < 1 -> save < 1 -> run step (S n) dt save x = None.
Proof.
  intros X step dt save n x [Hd1 Hd2] Hs. unfold run. cbn [updates]. unfold update, save_now.
  assert (E : trunc (effective_dt save dt) = 0%Z).
  { unfold effective_dt. destruct (Qlt_le_dec save dt) as [H|H].
    - unfold trunc. destruct (Qlt_le_dec dt 0); [lra|]. assert (0 <= Qfloor dt)%Z.
      { replace 0%Z with (Qfloor 0) by reflexivity. apply Qfloor_resp_le. lra. }
      assert (Qfloor dt < 1)%Z. { rewrite Zlt_Qlt. pose proof (Qfloor_le dt). change (inject_Z 1) with 1. lra. } lia.
    - unfold trunc. destruct (Qlt_le_dec save 0); [lra|]. assert (0 <= Qfloor save)%Z.
      { replace 0%Z with (Qfloor 0) by reflexivity. apply Qfloor_resp_le. lra. }
      assert (Qfloor save < 1)%Z. { rewrite Zlt_Qlt. pose proof (Qfloor_le save). change (inject_Z 1) with 1. lra. } lia. }
  rewrite E. reflexivity.
Qed.
Print Assumptions C70_short_interval_refuted.
(* the frame labelled t is not the state at time t, and the initial state is not saved *)
Theorem C70_label_refuted : exists c, run S 3 (Qz 60) (Qz 60) 0%nat = Some c /\
  Forall2 (fun p q => fst p == fst q /\ snd p = snd q) (saved c) [(0, 1%nat); (1, 2%nat); (2, 3%nat)].
Proof.
  eexists. split; [vm_compute; reflexivity|]. cbn.
  repeat (constructor; [split; [vm_compute; reflexivity|reflexivity]|]). constructor.
Qed.
Print Assumptions C70_label_refuted.

(* ---------- the grid stack files ---------- *)
Definition cells_of (n : nat) (g : gvar) : list Q := match g with GNum q => repeat q n | GGrid l => l end.
Lemma nc_put_end {A} (l : list (option A)) n v : length l = n -> nc_put l n v = l ++ [Some v].
Proof. intros <-. unfold nc_put. rewrite firstn_all, Nat.sub_diag, skipn_all2 by lia. reflexivity. Qed.

Definition good (f : ncgs) : Prop :=
  length (nc_times f) = time_index f /\ length (nc_datetimes f) = time_index f /\ length (nc_frames f) = time_index f /\ n_grids f = time_index f.
Lemma add_good f g t d : good f -> get_current_datetime (start_datetime f) t "minutes" = Ok d -> length (cells_of (n_cells f) g) = n_cells f ->
  let f' := fst (ncgs_add_grid f g (Some t) "minutes" None) in
  good f' /\ n_cells f' = n_cells f /\ start_datetime f' = start_datetime f /\
  nc_times f' = nc_times f ++ [Some t] /\ nc_datetimes f' = nc_datetimes f ++ [Some d] /\ nc_frames f' = nc_frames f ++ [Some (cells_of (n_cells f) g)].
Proof.
  intros (G1 & G2 & G3 & G4) D LC. unfold ncgs_add_grid. rewrite D. fold (cells_of (n_cells f) g). rewrite LC, Nat.eqb_refl. cbn [fst].
  cbn [n_cells start_datetime nc_times nc_datetimes nc_frames n_grids time_index].
  rewrite (nc_put_end _ _ _ G1), (nc_put_end _ _ _ G2), (nc_put_end _ _ _ G3).
  unfold good. cbn [n_cells start_datetime nc_times nc_datetimes nc_frames n_grids time_index]. rewrite !app_length. cbn [length].
  repeat split; lia.
Qed.

(* Every saved frame is in both files, in order, with its time and its date: the start date plus that many minutes. *)
Theorem C70_files : forall cells start o (l : list (Q * gvar)), get_datetime_obj_from_one_str start = Ok o ->
  (forall t g, In (t, g) l -> length (cells_of cells g) = cells /\ exists d, get_datetime_from_time_since o t "minutes" = Ok d) ->
  let f := save_frames {| nc := ncgs_new cells start; rts := [] |} l in
  rts f = map (fun p => cells_of cells (snd p)) l /\
  nc_frames (nc f) = map Some (rts f) /\
  nc_times (nc f) = map (fun p => Some (fst p)) l /\
  n_grids (nc f) = length l /\
  Forall2 (fun p d => exists dd, d = Some dd /\ get_datetime_from_time_since o (fst p) "minutes" = Ok dd) l (nc_datetimes (nc f)).
Proof.
  intros cells start o l So H. 
  assert (GEN : forall l f0, (forall t g, In (t, g) l -> length (cells_of cells g) = cells /\ exists d, get_datetime_from_time_since o t "minutes" = Ok d) ->
     good (nc f0) -> n_cells (nc f0) = cells -> start_datetime (nc f0) = start ->
     let f := save_frames f0 l in good (nc f) /\ 
       rts f = rts f0 ++ map (fun p => cells_of cells (snd p)) l /\
       nc_frames (nc f) = nc_frames (nc f0) ++ map (fun p => Some (cells_of cells (snd p))) l /\
       nc_times (nc f) = nc_times (nc f0) ++ map (fun p => Some (fst p)) l /\
       exists ds, nc_datetimes (nc f) = nc_datetimes (nc f0) ++ ds /\
         Forall2 (fun p d => exists dd, d = Some dd /\ get_datetime_from_time_since o (fst p) "minutes" = Ok dd) l ds).
  { clear l H. induction l as [|[t g] l IH]; intros f0 H G NC SD; cbn [save_frames fold_left map].
    - rewrite !app_nil_r. repeat (split; [auto|]). exists []. rewrite app_nil_r. split; [reflexivity|constructor].
    - destruct (H t g (or_introl eq_refl)) as [LC (d & D)].
      assert (D' : get_current_datetime (start_datetime (nc f0)) t "minutes" = Ok d).
      { rewrite SD. unfold get_current_datetime. rewrite So. exact D. }
      destruct (add_good (nc f0) g t d G D' ltac:(rewrite NC; exact LC)) as (G' & N' & S' & T' & DT' & F').
      specialize (IH (add_grid f0 g t) (fun t g I => H t g (or_intror I)) G' ltac:(unfold add_grid; cbn [nc]; rewrite N'; exact NC) ltac:(unfold add_grid; cbn [nc]; rewrite S'; exact SD)).
      cbn [save_frames fst snd] in IH |- *. destruct IH as (IG & IR & IF & IT & ds & IDs & IFA).
      split; [exact IG|]. unfold save_frames in *. rewrite IR, IF, IT, IDs. cbn [add_grid nc rts]. rewrite F', T', DT', NC.
      rewrite <- !app_assoc. split; [reflexivity|]. split; [reflexivity|]. split; [reflexivity|].
      exists (Some d :: ds). split; [reflexivity|]. constructor; [exists d; split; [reflexivity|exact D]|exact IFA]. }
  intros f. destruct (GEN l {| nc := ncgs_new cells start; rts := [] |} H) as (G & R & F & T & ds & DS & FA); [repeat split|reflexivity|reflexivity|].
  fold f in G, R, F, T, DS. cbn [rts nc ncgs_new nc_frames nc_times nc_datetimes app] in *.
  split; [exact R|]. split; [rewrite R, map_map; exact F|]. split; [exact T|]. split; [|rewrite DS; exact FA].
  destruct G as (G1 & _ & _ & G4). rewrite G4, <- G1, T, map_length. reflexivity.
Qed.
Print Assumptions C70_files.

(* Dates of the frames of a run: start + k * save seconds, exactly. *)
Theorem C70_frame_date : forall (o d : dt) (t : Q) (k : nat) (s : Z), t * 60 == Qnat k * Qz s ->
  get_datetime_from_time_since o t "minutes" = Ok d -> to_us d = (to_us o + Z.of_nat k * s * 1000000)%Z.
Proof.
  intros o d t k s E H. destruct (forward_us o t "minutes"%string 60%Z d ltac:(unfold fixed_unit; auto 10) H) as (x & Xe & _ & U).
  rewrite U. f_equal. apply round_even_int. rewrite Xe, E. unfold Qnat, Qz. rewrite <- !inject_Z_mult. reflexivity.
Qed.
Print Assumptions C70_frame_date.

(* a date that cannot be computed: the frame is missing from one file, without any message, and the files disagree *)
Theorem C70_lost_frame_refuted :
  let f := save_frames {| nc := ncgs_new 1 "9999-12-31 23:59:00"; rts := [] |} [(0, GNum 5); (1, GNum 6)] in
  rts f = [[5]; [6]] /\ nc_frames (nc f) = [Some [5]] /\ nc_times (nc f) = [Some 0; Some 1].
Proof. vm_compute. auto. Qed.
Print Assumptions C70_lost_frame_refuted.
(* writing a frame at a given index moves the counter as well: the next frame leaves a hole *)
Theorem C70_given_index_refuted :
  let f0 := ncgs_new 1 "2000-01-01 00:00:00" in
  let f1 := fst (ncgs_add_grid f0 (GNum 1) (Some 0) "minutes" None) in
  let f2 := fst (ncgs_add_grid f1 (GNum 2) (Some 0) "minutes" (Some 0%nat)) in
  let f3 := fst (ncgs_add_grid f2 (GNum 3) (Some 1) "minutes" None) in
  nc_frames f3 = [Some [2]; None; Some [3]].
Proof. vm_compute. reflexivity. Qed.
Print Assumptions C70_given_index_refuted.

(* ---------- coordinates ---------- *)
(* position of a time series: the centre of its cell *)
Theorem C70_series_position : forall west south north xcell ycell nrows row col, north == south + Qz nrows * ycell ->
  series_lon west xcell col == centre_lon west xcell col /\ series_lat south ycell nrows row == centre_lat north ycell row.
Proof.
  intros west south north xc yc nr row col E. unfold series_lon, series_lat, centre_lon, centre_lat, Qz in *. cbv zeta. split; [field|].
  rewrite E. replace (nr - 1)%Z with (nr + -1)%Z by ring. rewrite inject_Z_plus. change (inject_Z (-1)) with (-1). field.
Qed.
Print Assumptions C70_series_position.

Lemma linspace_nth a b n k : (2 <= n)%nat -> (k < n)%nat ->
  nth_error (linspace a b n) k = Some (a + inject_Z (Z.of_nat k) * ((b - a) / inject_Z (Z.of_nat (n - 1)))).
Proof.
  intros Hn Hk. unfold linspace. destruct n as [|[|n]]; [lia|lia|]. set (N := S (S n)) in *.
  rewrite nth_error_map, (nth_error_nth' _ 0%nat) by (rewrite seq_length; exact Hk). rewrite seq_nth by exact Hk. reflexivity.
Qed.
(* columns of a grid stack: off the centre by up to half a cell, and right only in the middle column *)
Theorem C70_x_coordinates : forall west east cell (ncols col : nat), (2 <= ncols)%nat -> (col < ncols)%nat -> 0 < cell ->
  east == west + Qnat ncols * cell ->
  exists x, nth_error (x_vector west east ncols) col = Some x /\
    Qabs.Qabs (x - centre_lon west cell (Z.of_nat col)) <= cell / 2 /\
    (x == centre_lon west cell (Z.of_nat col) <-> (2 * col + 1 = ncols)%nat).
Proof.
  intros west east cell nc col Hn Hc Hp E. unfold x_vector. eexists. split; [apply linspace_nth; assumption|].
  set (N := inject_Z (Z.of_nat (nc - 1))). assert (N1 : 1 <= N) by (unfold N; change 1 with (inject_Z 1); rewrite <- Zle_Qle; lia).
  assert (EN : Qnat nc == N + 1).
  { unfold Qnat, N. change 1 with (inject_Z 1). rewrite <- inject_Z_plus. replace (Z.of_nat (nc - 1) + 1)%Z with (Z.of_nat nc) by lia. reflexivity. }
  set (k := inject_Z (Z.of_nat col)) in *. assert (K0 : 0 <= k <= N).
  { unfold k, N. change 0 with (inject_Z 0). rewrite <- !Zle_Qle. lia. }
  assert (D : west + k * ((east - west) / N) - centre_lon west cell (Z.of_nat col) == (k / N - (1#2)) * cell).
  { rewrite E, EN. unfold centre_lon, Qz. fold k. field. lra. }
  assert (F0 : 0 <= k / N) by (apply Qle_shift_div_l; lra). assert (F1 : k / N <= 1) by (apply Qle_shift_div_r; lra).
  split.
  - rewrite D. set (f := k / N) in *. clearbody f. assert (G0 : 0 <= f * cell) by (apply Qmult_le_0_compat; lra).
    assert (G1 : 0 <= (1 - f) * cell) by (apply Qmult_le_0_compat; lra). apply Qabs.Qabs_Qle_condition. unfold Qdiv. change (/ 2) with (1#2). split; lra.
  - assert (C0 : k / N * N == k) by (field; lra). split; intros H.
    + assert (Z0 : (k / N - (1#2)) * cell == 0) by (rewrite <- D, H; ring).
      set (f := k / N) in *. assert (F2 : f == 1#2).
      { destruct (Qeq_dec f (1#2)) as [Y|Y]; [exact Y|]. exfalso. apply Y. assert (f - (1#2) == 0) by (apply (Qmult_inj_r _ _ cell); [lra|lra]). lra. }
      assert (HK : 2 * k == N) by (rewrite <- C0, F2; ring). unfold k, N in HK. change 2 with (inject_Z 2) in HK. rewrite <- inject_Z_mult in HK. rewrite inject_Z_injective in HK. lia.
    + assert (HK : 2 * k == N). { unfold k, N. change 2 with (inject_Z 2). rewrite <- inject_Z_mult. apply inject_Z_injective. lia. }
      assert (FH : k / N == (1#2)) by (rewrite <- HK; field; lra). rewrite FH in D. lra.
Qed.
Print Assumptions C70_x_coordinates.
(* rows: the grids are stored from north to south, their coordinates from south to north *)
Theorem C70_y_coordinates_refuted : forall south north (nrows : nat), (2 <= nrows)%nat -> south < north ->
  (exists y0 y1, nth_error (y_vector south north nrows) 0 = Some y0 /\ nth_error (y_vector south north nrows) (nrows - 1) = Some y1 /\
     y0 == south /\ y1 == north) /\
  (forall cell r, 0 < cell -> north == south + Qnat nrows * cell -> (r < nrows)%nat ->
     exists y, nth_error (y_vector south north nrows) r = Some y /\
       Qabs.Qabs (y - centre_lat north cell (Z.of_nat (nrows - 1 - r))) <= cell / 2).
Proof.
  intros south north nr Hn Hs. unfold y_vector. assert (N1 : 1 <= inject_Z (Z.of_nat (nr - 1))) by (change 1 with (inject_Z 1); rewrite <- Zle_Qle; lia).
  split.
  - do 2 eexists. rewrite !linspace_nth by lia. split; [reflexivity|]. split; [reflexivity|]. split; [change (inject_Z (Z.of_nat 0)) with 0; ring|field; lra].
  - intros cell r Hc E Hr. destruct (C70_x_coordinates south north cell nr r Hn Hr Hc E) as (y & Y & B & _). exists y. split; [exact Y|].
    assert (EC : centre_lat north cell (Z.of_nat (nr - 1 - r)) == centre_lon south cell (Z.of_nat r)).
    { unfold centre_lat, centre_lon, Qz. rewrite E. unfold Qnat. replace (Z.of_nat (nr - 1 - r)) with (Z.of_nat nr + - Z.of_nat r + -1)%Z by lia.
      rewrite !inject_Z_plus, inject_Z_opp. change (inject_Z (-1)) with (-1). field. }
    rewrite EC. exact B.
Qed.
Print Assumptions C70_y_coordinates_refuted.

(* ---------- names ---------- *)
Lemma split_ne c s : split c s <> [].
Proof. destruct s; cbn; [discriminate|]. destruct (Ascii.eqb a c); [discriminate|]. destruct (split c s) eqn:E; [|discriminate]. revert E. induction s as [|b s IH]; cbn; [discriminate|]. destruct (Ascii.eqb b c); [discriminate|]. destruct (split c s); [intros _; apply IH; reflexivity|discriminate]. Qed.
Lemma split_sep c a b : split c (a ++ String c b)%string = split c a ++ split c b.
Proof.
  induction a as [|x a IH]; cbn [append split]; [rewrite Ascii.eqb_refl; reflexivity|].
  destruct (Ascii.eqb x c); [rewrite IH; reflexivity|]. rewrite IH. destruct (split c a) as [|p ps] eqn:E; [destruct (split_ne c a E)|reflexivity].
Qed.
Lemma digits_str z : (0 <= z)%Z -> nosep "_" (py_str z) = true.
Proof. intros H. rewrite py_str_nonneg by exact H. apply nosep_digits; [reflexivity|apply str_N_digits]. Qed.
Lemma int16_str z : (0 <= z <= 32767)%Z -> np_int16 (py_str z) = Ok z.
Proof.
  intros H. unfold np_int16. pose proof (py_int_zeros_str 0 z (proj1 H)) as P. cbn [zeros append] in P. rewrite P. cbn [rbind].
  replace (-32768 <=? z)%Z with true by (symmetry; apply Z.leb_le; lia). replace (z <=? 32767)%Z with true by (symmetry; apply Z.leb_le; lia). reflexivity.
Qed.
(* the symbol, row and column are recovered from the name of a series, whatever the symbol *)
Theorem C70_series_names : forall var row col, (0 <= row <= 32767)%Z -> (0 <= col <= 32767)%Z ->
  short_name (series_name var row col) = var /\ cell_of_name (series_name var row col) = Ok (row, col).
Proof.
  intros var row col Hr Hc. unfold series_name. split.
  - unfold short_name. change ("_" ++ py_str row ++ "_" ++ py_str col)%string with (String "_" (py_str row ++ String "_" (py_str col)))%string.
    assert (A : (var ++ String "_" (py_str row ++ String "_" (py_str col)) = (var ++ String "_" (py_str row)) ++ String "_" (py_str col))%string).
    { induction var as [|x v IH]; cbn [append]; [reflexivity|]. f_equal. exact IH. }
    rewrite A. unfold cut_pos. rewrite rfind_app by (apply digits_str; lia). rewrite take_app by reflexivity.
    rewrite rfind_app by (apply digits_str; lia). rewrite take_app by reflexivity. reflexivity.
  - unfold cell_of_name. change ("_" ++ py_str row ++ "_" ++ py_str col)%string with (String "_" (py_str row ++ String "_" (py_str col)))%string.
    rewrite split_sep, split_sep. rewrite (split_last _ (py_str row)) by (apply digits_str; lia). rewrite (split_last _ (py_str col)) by (apply digits_str; lia).
    set (p := split "_" var). cbn [app]. rewrite !app_length. cbn [length]. replace (length p + 2 - 2)%nat with (length p) by lia.
    replace (length p + 2 - 1)%nat with (length p + 1)%nat by lia. unfold item. rewrite nth_error_app2, Nat.sub_diag by lia. cbn [nth_error rbind].
    rewrite int16_str by lia. cbn [rbind]. rewrite nth_error_app2 by lia. replace (length p + 1 - length p)%nat with 1%nat by lia. cbn [nth_error rbind].
    rewrite int16_str by lia. reflexivity.
Qed.
Print Assumptions C70_series_names.
(* rows or columns from 32768 on cannot be given a series *)
Theorem C70_large_grid_refuted : cell_of_name (series_name "Q" 40000 7) = Err OverflowError.
Proof. vm_compute. reflexivity. Qed.
Print Assumptions C70_large_grid_refuted.

Lemma dup_false l : dup l = false <-> NoDup l.
Proof.
  induction l as [|s l IH]; cbn [dup]; [split; [constructor|reflexivity]|]. rewrite orb_false_iff, IH. split.
  - intros [A B]. constructor; [|exact B]. intros I. apply not_true_iff_false in A. apply A. apply existsb_exists. exists s. split; [exact I|apply String.eqb_refl].
  - intros H. inversion H; subst. split; [|assumption]. apply not_true_iff_false. intros A. apply existsb_exists in A as (x & I & E). apply String.eqb_eq in E. subst. contradiction.
Qed.
(* a file can be opened exactly when the outlets are different cells *)
Theorem C70_distinct_outlets : forall var IDs, (forall r c, In (r, c) IDs -> (0 <= r <= 32767)%Z /\ (0 <= c <= 32767)%Z) ->
  ((exists f, ts_new var IDs = Ok f) <-> NoDup IDs).
Proof.
  intros var IDs H. unfold ts_new. set (nm := fun p : Z * Z => series_name var (fst p) (snd p)).
  assert (INJ : forall p q, In p IDs -> In q IDs -> nm p = nm q -> p = q).
  { intros [r c] [r' c'] I J E. destruct (H _ _ I), (H _ _ J). pose proof (proj2 (C70_series_names var r c ltac:(assumption) ltac:(assumption))) as A.
    pose proof (proj2 (C70_series_names var r' c' ltac:(assumption) ltac:(assumption))) as B. unfold nm in E. cbn [fst snd] in E. rewrite E, B in A. injection A as -> ->. reflexivity. }
  assert (RM : forall l, (forall p, In p l -> In p IDs) -> exists y, rmap cell_of_name (map nm l) = Ok y).
  { induction l as [|[r c] l IH]; intros I; [eexists; reflexivity|]. cbn [map rmap]. destruct (H _ _ (I _ (or_introl eq_refl))).
    unfold nm at 1. cbn [fst snd]. rewrite (proj2 (C70_series_names var r c ltac:(assumption) ltac:(assumption))). cbn [rbind].
    destruct IH as [y ->]; [intros p J; apply I; right; exact J|]. eexists. reflexivity. }
  assert (ND : NoDup (map nm IDs) <-> NoDup IDs).
  { clear H RM. split; [apply NoDup_map_inv|]. induction IDs as [|p l IH]; intros N; [constructor|]. inversion N; subst. cbn [map]. constructor.
    - intros I. apply in_map_iff in I as (q & E & J). apply INJ in E; [subst; contradiction|right; exact J|left; reflexivity].
    - apply IH; [|assumption]. intros a b A B. apply INJ; right; assumption. }
  rewrite <- ND, <- dup_false. destruct (dup (map nm IDs)).
  - split; [intros [f E]; discriminate E|discriminate].
  - split; [reflexivity|]. intros _. destruct (RM IDs (fun p I => I)) as [y ->]. eexists. reflexivity.
Qed.
Print Assumptions C70_distinct_outlets.

Lemma rmap_nth {A B} (f : A -> res B) l ys k p : rmap f l = Ok ys -> nth_error l k = Some p -> exists y, f p = Ok y /\ nth_error ys k = Some y.
Proof.
  revert ys k. induction l as [|x l IH]; intros ys k E K; [destruct k; discriminate K|]. cbn [rmap] in E.
  destruct (f x) as [y|] eqn:FX; [|discriminate E]. cbn [rbind] in E. destruct (rmap f l) as [ys'|]; [|discriminate E]. injection E as <-.
  destruct k as [|k]; [injection K as <-; exists y; auto|]. apply (IH ys' k eq_refl K).
Qed.
(* the value stored for an outlet is the value of its cell *)
Theorem C70_series_values : forall nx ny IDs f t l f' k r c, ts_add nx ny IDs f t (GGrid l) = Ok f' ->
  nth_error IDs k = Some (Z.of_nat r, Z.of_nat c) ->
  (r < ny)%nat /\ (c < nx)%nat /\ exists v vs, nth_error l (r * nx + c) = Some v /\ ts_values f' = ts_values f ++ [vs] /\
    ts_times f' = ts_times f ++ [t] /\ nth_error vs k = Some v.
Proof.
  intros nx ny IDs f t l f' k r c E HK. unfold ts_add in E.
  destruct (values_at nx ny (GGrid l) IDs) as [vs|] eqn:V; [|discriminate E]. injection E as <-. cbn [ts_values ts_times].
  cbn [values_at] in V. destruct (rmap_nth _ _ _ _ _ V HK) as (y & EY & NY). cbv beta iota in EY.
  replace (Z.of_nat r <? 0)%Z with false in EY by (symmetry; apply Z.ltb_ge; lia).
  replace (Z.of_nat c <? 0)%Z with false in EY by (symmetry; apply Z.ltb_ge; lia).
  destruct ((0 <=? Z.of_nat r) && (Z.of_nat r <? Z.of_nat ny) && (0 <=? Z.of_nat c) && (Z.of_nat c <? Z.of_nat nx))%Z eqn:B; [|discriminate EY].
  rewrite !andb_true_iff, !Z.ltb_lt in B. rewrite !Nat2Z.id in EY. split; [lia|]. split; [lia|]. unfold item in EY.
  destruct (nth_error l (r * nx + c)) as [v|]; [|discriminate EY]. injection EY as <-. exists v, vs. auto.
Qed.
Print Assumptions C70_series_values.
(* a number is stored for every outlet *)
Theorem C70_series_scalar : forall nx ny IDs f t q f', ts_add nx ny IDs f t (GNum q) = Ok f' ->
  ts_values f' = ts_values f ++ [repeat q (length IDs)].
Proof. intros nx ny IDs f t q f' E. injection E as <-. reflexivity. Qed.

(* Non-vacuity *)
Example C70_demo_dates : exists o d, get_datetime_obj_from_one_str "2000-02-28 23:30:00" = Ok o /\
  get_datetime_from_time_since o 60 "minutes" = Ok d /\ (mo d, dy d) = (2, 29)%Z.
Proof. do 2 eexists. split; [vm_compute; reflexivity|]. split; [vm_compute; reflexivity|reflexivity]. Qed.
Example C70_demo_series : exists f f', ts_new "d_flood" [(0, 1); (1, 0)]%Z = Ok f /\
  ts_add 2 2 [(0, 1); (1, 0)]%Z f 0 (GGrid [1; 2; 3; 4]) = Ok f' /\ ts_values f' = [[2; 3]] /\ ts_names f' = ["d_flood_0_1"; "d_flood_1_0"]%string.
Proof. do 2 eexists. split; [vm_compute; reflexivity|]. split; [vm_compute; reflexivity|split; reflexivity]. Qed.
