(* Theorems about precipitation partitioning, snow and glacier components (C19-C23, C49). *)
From Coq Require Import ZArith QArith Qminmax List Bool Lia Lqa.
From Verif Require Import Base Field Snow_Model Snow_Spec Snow_Proofs Glacier_Proofs.
Import ListNotations.
Local Open Scope Q_scope.

(* C19.  In every update of every history, at every cell, all precipitation is snow (if T_air <= T_rain_snow)
   or all of it is rain. *)
Theorem C19_rain_or_snow : forall n da dt Trs s xs l, met_trace n da dt Trs s xs = Some l ->
  length l = length xs /\
  forall k x s', nth_error xs k = Some x -> nth_error l k = Some s' -> forall i, (i < n)%nat ->
     (fat (mT x) i <= fat Trs i /\ fat (P_rain s') i == 0 /\ fat (P_snow s') i == fat (mP x) i) \/
     (fat Trs i < fat (mT x) i /\ fat (P_rain s') i == fat (mP x) i /\ fat (P_snow s') i == 0).
Proof.
  intros n da dt Trs s xs l H. split.
  - exact (proj2 (proj2 (met_trace_balance n da dt Trs xs s l H))).
  - exact (met_trace_nth n da dt Trs xs s l H).
Qed.
Print Assumptions C19_rain_or_snow.

(* C19.  The domain integrals: rain + snow = precipitation, and the precipitation integral is the sum over
   steps and cells of P*da*dt. *)
Theorem C19_precipitation_volumes_add_up : forall n da dt Trs s xs l, met_trace n da dt Trs s xs = Some l ->
  vol_PR s + vol_PS s == vol_P s ->
  vol_PR (final s l) + vol_PS (final s l) == vol_P (final s l) /\
  vol_P (final s l) == vol_P s + qsuml (fun x => qsum n (fun i => fat (mP x) i * fat da i * dt)) xs.
Proof.
  intros n da dt Trs s xs l H E. destruct (met_trace_balance n da dt Trs xs s l H) as (A & B & _). split; lra.
Qed.
Print Assumptions C19_precipitation_volumes_add_up.

(* C19.  P_max is the largest precipitation rate of the history (or its initial value). *)
Theorem C19_P_max_is_running_maximum : forall n da dt Trs s xs l, (0 < n)%nat ->
  met_trace n da dt Trs s xs = Some l -> Forall (fun x => shaped n (mP x)) xs ->
  P_max s <= P_max (final s l) /\
  (forall x i, In x xs -> (i < n)%nat -> fat (mP x) i <= P_max (final s l)) /\
  (P_max (final s l) == P_max s \/ exists x i, In x xs /\ (i < n)%nat /\ P_max (final s l) == fat (mP x) i).
Proof. intros n da dt Trs s xs l Hn. exact (met_trace_max n da dt Trs xs Hn s l). Qed.
Print Assumptions C19_P_max_is_running_maximum.

(* C19.  No update raises if precipitation is a grid, or if precipitation and air temperature are scalars
   and the type of T_air is 'Scalar'. *)
Theorem C19_met_update_raises_only_for_0D_precipitation : forall n da dt Trs s x,
  (is_scalar (P_rain s) = true -> is_scalar (mP x) && is_scalar (mT x) && is_scalar Trs && T_type_scalar x = true) ->
  (is_scalar (P_snow s) = true -> is_scalar (mP x) && is_scalar (mT x) && is_scalar Trs && T_type_scalar x = true) ->
  exists s', met_update n da dt Trs s x = Some s' /\ is_scalar (P_rain s') = is_scalar (P_rain s) /\
             is_scalar (P_snow s') = is_scalar (P_snow s).
Proof. exact met_no_error. Qed.
Print Assumptions C19_met_update_raises_only_for_0D_precipitation.
(* With scalar precipitation and a T_air that comes from a time series (type 'Time_Series', also a scalar),
   update() raises IndexError: P_rain[:] on a 0D array. *)
Theorem C19_time_series_temperature_refuted :
  ~ (forall n da dt Trs s x, is_scalar (P_rain s) = true -> is_scalar (P_snow s) = true ->
       is_scalar (mP x) = true -> is_scalar (mT x) = true -> is_scalar Trs = true ->
       exists s', met_update n da dt Trs s x = Some s').
Proof.
  intros H. destruct (H 1%nat (Scalar 1) 1 (Scalar 0) (mkMet (Scalar 0) (Scalar 0) 0 0 0 0) (mkMetIn (Scalar 1) (Scalar 5) false))
    as (s' & E); try reflexivity. discriminate E.
Qed.
Print Assumptions C19_time_series_temperature_refuted.
Example C19_demo :
  exists l, met_trace 2 (Scalar 10) 60 (Scalar 1) (mkMet (Grid [0; 0]) (Grid [0; 0]) 0 0 0 0)
     [mkMetIn (Grid [1; 2]) (Grid [0; 3]) false; mkMetIn (Grid [4; 1]) (Scalar 1) true] = Some l /\
  let f := final (mkMet (Grid [0; 0]) (Grid [0; 0]) 0 0 0 0) l in
  Qred (vol_PR f) = 1200 /\ Qred (vol_PS f) = 3600 /\ Qred (vol_P f) = 4800 /\ P_max f = 4.
Proof. eexists. split; [vm_compute; reflexivity|]. vm_compute. auto. Qed.

(* C20.  For every melt method and every history of non-negative snowfall, cell by cell: melt never exceeds
   the snow water present, nothing goes negative, and
   initial SWE + all snowfall = final SWE + all melt. *)
Theorem C20_melt_never_exceeds_snow : forall n da dt, 0 < dt -> forall m s x s' i,
  snow_update n da dt m s x = Some s' -> (i < n)%nat -> 0 <= fat (h_swe s) i -> 0 <= fat (sP x) i ->
  0 <= fat (SM s') i /\ fat (SM s') i * dt <= fat (h_swe s) i /\ 0 <= fat (h_swe s') i /\
  fat (h_swe s') i + fat (SM s') i * dt == fat (h_swe s) i + fat (sP x) i * dt.
Proof. exact snow_step_bounds. Qed.
Print Assumptions C20_melt_never_exceeds_snow.
Theorem C20_snowpack_mass_balance : forall n da dt, 0 < dt -> forall m i, (i < n)%nat -> forall xs s l,
  snow_trace n da dt m s xs = Some l -> 0 <= fat (h_swe s) i -> Forall (fun x => 0 <= fat (sP x) i) xs ->
  0 <= fat (h_swe (final s l)) i /\
  fat (h_swe (final s l)) i + depth_at dt i (map SM l) == fat (h_swe s) i + depth_at dt i (map sP xs) /\
  Forall (fun s' => 0 <= fat (SM s') i /\ 0 <= fat (h_swe s') i) l.
Proof. exact snow_trace_balance. Qed.
Print Assumptions C20_snowpack_mass_balance.
(* The same for the domain volumes that the component reports: vol_swe and vol_SM against the snowfall
   volume (the vol_PS of the meteorology component). *)
Theorem C20_snowpack_volume_balance : forall n da dt, 0 < dt -> forall m xs s l, snow_trace n da dt m s xs = Some l ->
  (forall i, (i < n)%nat -> 0 <= fat (h_swe s) i /\ Forall (fun x => 0 <= fat (sP x) i) xs) ->
  total_volume n da (h_swe (final s l)) + vol_SM (final s l) ==
  total_volume n da (h_swe s) + vol_SM s + qsuml (fun x => qsum n (fun i => fat (sP x) i * fat da i * dt)) xs.
Proof.
  intros n da dt Hdt m xs s l H H0. rewrite (snow_trace_volume n da dt Hdt m xs s l H H0).
  apply Qplus_comp; [reflexivity|]. apply qsuml_ext. intros x _. apply volume_eq.
Qed.
Print Assumptions C20_snowpack_volume_balance.
(* Updates raise only when a 0D state variable meets a grid input. *)
Theorem C20_snow_update_total : forall n da dt m s x, snow_shapes m s x ->
  exists s', snow_update n da dt m s x = Some s' /\
    is_scalar (SM s') = is_scalar (SM s) /\ is_scalar (h_swe s') = is_scalar (h_swe s) /\
    is_scalar (h_snow s') = is_scalar (h_snow s) /\ is_scalar (Ecc s') = is_scalar (Ecc s).
Proof. exact snow_no_error. Qed.
Print Assumptions C20_snow_update_total.
Definition snow2 : snow := mkSnow (Grid [0; 0]) (Grid [1; 3]) (Grid [2; 6]) (Grid [0; 500000000]) 0.
Definition day : Q := 86400.
Definition xs2 : list snow_in :=
  [mkSnowIn (Scalar 0) (Grid [5; 5]) (Grid [10000; 10000]) (Scalar 2);
   mkSnowIn (Grid [1#86400; 0]) (Scalar (-(1#1))) (Scalar 0) (Scalar 2)].
Example C20_demo :
  exists l, snow_trace 2 (Scalar 100) day (DegreeDay (Scalar 300) (Scalar 0)) snow2 xs2 = Some l /\
  let f := final snow2 l in
  map (fun s => map (fun i => Qred (fat (SM s) i * day)) [0; 1]%nat) l = [[1; 3#2]; [0; 0]] /\
  map (fun i => Qred (fat (h_swe f) i)) [0; 1]%nat = [1; 3#2] /\ Qred (vol_SM f) = 250.
Proof. eexists. split; [vm_compute; reflexivity|]. vm_compute. auto. Qed.

(* C21.  Energy-balance snow melt, one update at one cell: the energy received goes into removing cold
   content, into melting (L = 3.34e8 J per m3 of water), and is lost only when all snow present melts.  Cold
   content stays non-negative, and nothing melts before it is used up. *)
Theorem C21_cold_content_energy_balance : forall n da dt, 0 < dt -> forall s x s' i,
  snow_update n da dt EnergyBalance s x = Some s' -> (i < n)%nat -> 0 <= fat (h_swe s) i ->
  exists lost, 0 <= lost /\
    fat (Q_sum x) i * dt == (fat (Ecc s) i - fat (Ecc s') i) + 334000000 * (fat (SM s') i * dt) + lost /\
    (~ lost == 0 -> fat (SM s') i * dt == fat (h_swe s) i) /\
    0 <= fat (Ecc s') i /\ (0 < fat (Ecc s') i -> fat (SM s') i == 0).
Proof. exact energy_step. Qed.
Print Assumptions C21_cold_content_energy_balance.
(* Over any history melting never uses more energy than came in plus what the pack's cold content gained. *)
Theorem C21_melt_energy_is_supplied : forall n da dt, 0 < dt -> forall i, (i < n)%nat -> forall xs s l,
  snow_trace n da dt EnergyBalance s xs = Some l -> 0 <= fat (h_swe s) i -> Forall (fun x => 0 <= fat (sP x) i) xs ->
  334000000 * depth_at dt i (map SM l) + fat (Ecc s) i <= fat (Ecc (final s l)) i + depth_at dt i (map Q_sum xs).
Proof. exact energy_trace. Qed.
Print Assumptions C21_melt_energy_is_supplied.
Example C21_demo :
  exists l, snow_trace 2 (Scalar 100) day EnergyBalance snow2 xs2 = Some l /\
  map (fun s => map (fun i => Qred (fat (SM s) i * day)) [0; 1]%nat) l = [[1; 182#167]; [0; 0]] /\
  map (fun s => map (fun i => Qred (fat (Ecc s) i)) [0; 1]%nat) l = [[0; 0]; [0; 0]].
Proof. eexists. split; [vm_compute; reflexivity|]. vm_compute. auto. Qed.
(* If all snow parameters are scalars the cold content is 0D, and a grid of energy fluxes makes update() raise. *)
Theorem C21_scalar_parameters_refuted :
  ~ (forall n da dt s x, is_scalar (SM s) = false -> is_scalar (h_swe s) = false -> is_scalar (h_snow s) = false ->
       exists s', snow_update n da dt EnergyBalance s x = Some s').
Proof.
  intros H. destruct (H 1%nat (Scalar 1) 1 (mkSnow (Grid [0]) (Grid [1]) (Grid [1]) (Scalar 0) 0)
                        (mkSnowIn (Scalar 0) (Scalar 0) (Grid [1]) (Scalar 1))) as (s' & E); try reflexivity. discriminate E.
Qed.
Print Assumptions C21_scalar_parameters_refuted.

(* C22.  Degree-day melt. *)
Theorem C22_degree_day_melt : forall n da dt c0 T0, 0 < dt -> forall s x s' i,
  snow_update n da dt (DegreeDay c0 T0) s x = Some s' -> (i < n)%nat -> 0 <= fat (h_swe s) i -> 0 <= fat c0 i ->
  let potential := fat c0 i / 86400000 * (fat (sT x) i - fat T0 i) in
  (fat (sT x) i <= fat T0 i -> fat (SM s') i == 0) /\
  (fat T0 i <= fat (sT x) i -> potential * dt <= fat (h_swe s) i -> fat (SM s') i == potential) /\
  (fat (h_swe s) i <= potential * dt -> fat (SM s') i * dt == fat (h_swe s) i) /\
  (forall y s2, snow_update n da dt (DegreeDay c0 T0) s y = Some s2 -> fat (sT x) i <= fat (sT y) i ->
     fat (SM s') i <= fat (SM s2) i).
Proof.
  intros n da dt c0 T0 Hdt s x s' i H Hi Hh Hc P.
  pose proof (degree_day n da dt c0 T0 s x s' i H Hi) as E. fold P in E.
  assert (K : 0 <= fat c0 i / 86400000) by (apply Qle_shift_div_l; lra).
  assert (D : 0 <= fat (h_swe s) i / dt) by (apply Qle_shift_div_l; lra).
  assert (D1 : fat (h_swe s) i / dt * dt == fat (h_swe s) i) by (field; lra).
  assert (Mono : forall a b, a <= b -> fat c0 i / 86400000 * (a - fat T0 i) <= fat c0 i / 86400000 * (b - fat T0 i)).
  { intros a b Hab. rewrite !(Qmult_comm (fat c0 i / 86400000)). apply Qmult_le_compat_r; [lra|exact K]. }
  split; [|split; [|split]].
  - intros HT. specialize (Mono _ _ HT). fold P in Mono. rewrite E. qcase; lra.
  - intros HT HP. specialize (Mono _ _ HT). fold P in Mono.
    assert (P <= fat (h_swe s) i / dt) by (apply Qle_shift_div_l; lra). rewrite E. qcase; lra.
  - intros HP. assert (fat (h_swe s) i / dt <= P) by (apply Qle_shift_div_r; lra).
    assert (Z : fat (SM s') i == fat (h_swe s) i / dt) by (rewrite E; qcase; lra). rewrite Z. exact D1.
  - intros y s2 H2 HT. rewrite E, (degree_day n da dt c0 T0 s y s2 i H2 Hi). specialize (Mono _ _ HT). fold P in Mono.
    qcase; lra.
Qed.
Print Assumptions C22_degree_day_melt.

(* C23.  Glacier component, one update at one cell: snow and ice melt are limited by what is stored, both
   stores keep their balance, ice melts only where there is no snow before and after the update, and then no
   snow melts. *)
Theorem C23_glacier_cell : forall dt, 0 < dt -> forall p c x, 0 <= gswe c -> 0 <= giwe c -> 0 <= gP x ->
  let c' := glacier_cell dt p c x in
  (0 <= gSM c' /\ gSM c' * dt <= gswe c /\ 0 <= gswe c' /\ gswe c' + gSM c' * dt == gswe c + gP x * dt) /\
  (0 <= gIM c' /\ gIM c' * dt <= giwe c /\ 0 <= giwe c' /\ giwe c' + gIM c' * dt == giwe c) /\
  (~ gIM c' == 0 -> gswe c == 0 /\ gswe c' == 0 /\ gSM c' == 0) /\
  gM_total c' == gSM c' + gIM c'.
Proof.
  intros dt Hdt p c x H1 H2 H3. destruct (glacier_cell_spec dt Hdt p c x H1 H2 H3) as (A & B & C & D & _).
  repeat (split; [assumption|]). assumption.
Qed.
Print Assumptions C23_glacier_cell.
(* Over any history: domain totals of snow and ice against the reported melt volumes. *)
Theorem C23_glacier_mass_balance : forall n da dt, 0 < dt -> forall p xs s, gok n s -> Forall (snowfall_ok n) xs ->
  let f := final s (glacier_trace n da dt p s xs) in
  gok n f /\
  gtot n da gswe f + gvol_SM f ==
    gtot n da gswe s + gvol_SM s + qsuml (fun x => qsum n (fun i => gP (get gi0 x i) * fat da i * dt)) xs /\
  gtot n da giwe f + gvol_IM f == gtot n da giwe s + gvol_IM s.
Proof. exact glacier_run. Qed.
Print Assumptions C23_glacier_mass_balance.
Definition gp : gparams := mkGP 334000000 1000000 0 2 1.
Definition gl : glacier := mkGl [mkG 0 0 0 0 5 0 5 0 0; mkG 0 0 0 1 5 2 5 0 0] 0 0.
Example C23_demo :
  gok 2 gl /\
  let l := glacier_trace 2 (Scalar 1) day gp gl [[mkGin 0 5000 1; mkGin 0 5000 1]; [mkGin 0 5000 1; mkGin (1#86400) 5000 (-(1#1))]] in
  map (fun s => map (fun c => (Qred (gSM c * day), Qred (gIM c * day))) (cells s)) l =
    [[(0, 216#167); (1, 0)]; [(0, 216#167); (0, 0)]].
Proof.
  split; [|vm_compute; reflexivity].
  intros i Hi. destruct i as [|[|i]]; [split; vm_compute; discriminate|split; vm_compute; discriminate|lia].
Qed.

(* C49.  A snow-free cell has no cold content: true of the glacier component, ... *)
Theorem C49_glacier_cold_content_needs_snow : forall dt, 0 < dt -> forall p c x,
  0 <= gswe c -> 0 <= giwe c -> 0 <= gP x ->
  let c' := glacier_cell dt p c x in
  (0 <= gEccs c -> 0 <= gEccs c') /\ 0 <= gEcci c' /\ (gswe c' == 0 -> gEccs c' == 0) /\ (ghice c == 0 -> gEcci c' == 0).
Proof.
  intros dt Hdt p c x H1 H2 H3. destruct (glacier_cell_spec dt Hdt p c x H1 H2 H3) as (_ & _ & _ & _ & A & B & C & D & _).
  repeat (split; [assumption|]). assumption.
Qed.
Print Assumptions C49_glacier_cold_content_needs_snow.
(* ... and false of the snow component: a cooling snow-free cell accumulates cold content. *)
Theorem C49_snow_cold_content_needs_snow_refuted :
  ~ (forall n da dt s x s' i, 0 < dt -> snow_update n da dt EnergyBalance s x = Some s' -> (i < n)%nat ->
       0 <= fat (h_swe s) i -> fat (h_swe s') i == 0 -> fat (Ecc s) i == 0 -> fat (Ecc s') i == 0).
Proof.
  intros H.
  specialize (H 1%nat (Scalar 1) 1 (mkSnow (Grid [0]) (Grid [0]) (Grid [0]) (Grid [0]) 0)
                (mkSnowIn (Scalar 0) (Scalar 0) (Grid [-(1#1)]) (Scalar 1)) _ 0%nat ltac:(lra) eq_refl ltac:(lia)).
  vm_compute in H. specialize (H ltac:(discriminate) eq_refl eq_refl). discriminate H.
Qed.
Print Assumptions C49_snow_cold_content_needs_snow_refuted.
