(* C70, profiles and cubes. *)
From Coq Require Import ZArith QArith String List Bool Arith Lia.
From Verif Require Import Time_Model Io_Model Out_Model Out_Props Prof_Model.
Import ListNotations.
Local Open Scope Q_scope.

(* The four kinds of output file are opened with an option that only two of them know. *)
Theorem C70_open_calls : call_ncgs = Ok tt /\ call_ncts = Ok tt /\ call_ncps = Err TypeError /\ call_nccs = Err TypeError.
Proof. repeat split. Qed.
Print Assumptions C70_open_calls.
(* a run that is to save any soil profile stops at initialization *)
Theorem C70_profiles_refuted : forall f, open_profiles f = (if existsb (fun b => b) f then Err TypeError else Ok tt).
Proof. induction f as [|[] f IH]; [reflexivity|reflexivity|]. exact IH. Qed.
Print Assumptions C70_profiles_refuted.
(* a run that is to save soil cubes goes on without a word and saves none *)
Theorem C70_cubes_refuted : forall f times,
  fold_left (fun c t => save_cubes stack_vars f t c) times (open_cubes stack_vars f []) = [].
Proof. intros f times.
  assert (O : forall names f c, open_cubes names f c = c).
  { induction names as [|n names IH]; intros [|b g] c; try reflexivity. cbn [open_cubes]. destruct b; apply IH. }
  assert (A : forall names f t c, save_cubes names f t c = c).
  { induction names as [|n names IH]; intros [|b g] t c; try reflexivity. cbn [save_cubes]. destruct b; apply IH. }
  rewrite O. induction times as [|t times IH]; [reflexivity|]. cbn [fold_left]. rewrite A. exact IH. Qed.
Print Assumptions C70_cubes_refuted.
(* nor would the arguments in the right order save one *)
Theorem C70_cube_call_refuted : forall c var name time, add_cube c var name time = c.
Proof. intros c v [q| |s] t; reflexivity. Qed.
Print Assumptions C70_cube_call_refuted.

(* ---------- the profile file itself ---------- *)
Definition column_of (nx : nat) (v : pvar) (r c : nat) (p : list Q) : Prop :=
  match v with
  | Column l => p = l
  | Layers ls => length p = length ls /\ forall z layer, nth_error ls z = Some layer -> nth_error p z = nth_error layer (r * nx + c)
  end.
Lemma rmap_length {A B} (f : A -> res B) l ys : rmap f l = Ok ys -> length ys = length l.
Proof. revert ys. induction l as [|x l IH]; intros ys E; cbn [rmap] in E; [injection E as <-; reflexivity|].
  destruct (f x) as [y|]; [|discriminate]. cbn [rbind] in E. destruct (rmap f l) as [zs|]; [|discriminate]. injection E as <-.
  cbn. f_equal. apply IH. reflexivity. Qed.
Lemma profiles_length nx ny v IDs ps : profiles_at nx ny v IDs = Ok ps -> length ps = length IDs.
Proof. destruct v as [l|ls]; cbn [profiles_at].
  - intros E. injection E as <-. apply map_length.
  - destruct (rmap _ ls) as [rows|]; [|discriminate]. cbn [rbind]. intros E. injection E as <-. rewrite map_length, seq_length. reflexivity. Qed.
Lemma profiles_column nx ny v IDs ps k r c : profiles_at nx ny v IDs = Ok ps -> nth_error IDs k = Some (Z.of_nat r, Z.of_nat c) ->
  exists p, nth_error ps k = Some p /\ column_of nx v r c p.
Proof. intros E K. destruct v as [l|ls]; cbn [profiles_at] in E.
  - injection E as <-. exists l. rewrite nth_error_map, K. split; reflexivity.
  - destruct (rmap _ ls) as [rows|] eqn:RR; [|discriminate]. cbn [rbind] in E. injection E as <-.
    assert (KL : (k < length IDs)%nat) by (apply nth_error_Some; congruence).
    exists (map (fun row => nth k row 0) rows). split.
    { rewrite nth_error_map. replace (nth_error (seq 0 (length IDs)) k) with (Some k); [reflexivity|].
      symmetry. rewrite (nth_error_nth' _ O) by (rewrite seq_length; exact KL). rewrite seq_nth by exact KL. reflexivity. }
    split; [rewrite map_length; apply (rmap_length _ _ _ RR)|]. intros z layer Z.
    destruct (rmap_nth _ _ _ _ _ RR Z) as (row & ER & NR). rewrite nth_error_map, NR. cbn [option_map].
    destruct (C70_series_values nx ny IDs {| ts_names := []; ts_times := []; ts_values := [] |} 0 layer
      {| ts_names := []; ts_times := [0]; ts_values := [row] |} k r c) as (_ & _ & x & xs & X & V & _ & N).
    { unfold ts_add. rewrite ER. reflexivity. }
    { exact K. }
    cbn in V. injection V as <-. rewrite X. f_equal. apply nth_error_nth. exact N. Qed.

Definition pgood (n : nat) (f : ncps) : Prop := length (ps_times f) = n /\ ps_index f = n /\ Forall (fun s => length s = n) (ps_data f).
Lemma zip_end l ps n : length l = length ps -> Forall (fun s => length s = n) l ->
  zip_with (fun (series : list (option (list Q))) p => nc_put series n p) l ps = zip_with (fun s p => s ++ [Some p]) l ps.
Proof. revert ps. induction l as [|s l IH]; intros [|p ps] L F; try reflexivity. cbn. inversion F; subst.
  rewrite nc_put_end by reflexivity. f_equal. apply IH; [cbn in L; lia|assumption]. Qed.
Lemma zip_length {A B C} (f : A -> B -> C) l m : length l = length m -> length (zip_with f l m) = length l.
Proof. revert m. induction l as [|a l IH]; intros [|b m] L; cbn in *; try lia. rewrite IH; lia. Qed.
Lemma zip_nth {A B C} (f : A -> B -> C) l m k a b : nth_error l k = Some a -> nth_error m k = Some b -> nth_error (zip_with f l m) k = Some (f a b).
Proof. revert m k. induction l as [|x l IH]; intros [|y m] [|k] E F; cbn in *; try discriminate; [congruence|]. eapply IH; eauto. Qed.

Theorem C70_profiles_saved : forall nx ny var IDs f l f', ps_new var IDs = Ok f -> ps_add_all nx ny IDs f l = Ok f' ->
  ps_times f' = map (fun p => Some (fst p)) l /\ ps_count f' = map (fun _ => length l) IDs /\ ps_names f' = ps_names f /\
  (* the dates are never written *)
  ps_dates f' = [] /\
  (* frame j of the series of outlet k is the column of its cell *)
  forall k r c, nth_error IDs k = Some (Z.of_nat r, Z.of_nat c) ->
    exists s, nth_error (ps_data f') k = Some s /\ length s = length l /\
      forall j t v, nth_error l j = Some (t, v) -> exists p, nth_error s j = Some (Some p) /\ column_of nx v r c p.
Proof. intros nx ny var IDs f l f' N A.
  assert (GEN : forall l f f' n, pgood n f -> length (ps_data f) = length IDs -> ps_count f = map (fun _ => n) IDs -> ps_add_all nx ny IDs f l = Ok f' ->
    ps_times f' = ps_times f ++ map (fun p => Some (fst p)) l /\ ps_count f' = map (fun _ => (n + length l)%nat) IDs /\ ps_names f' = ps_names f /\
    ps_dates f' = ps_dates f /\ forall k r c s0, nth_error IDs k = Some (Z.of_nat r, Z.of_nat c) -> nth_error (ps_data f) k = Some s0 ->
      exists s, nth_error (ps_data f') k = Some (s0 ++ s) /\ length s = length l /\
      forall j t v, nth_error l j = Some (t, v) -> exists p, nth_error s j = Some (Some p) /\ column_of nx v r c p).
  { clear l f f' N A. induction l as [|[t v] l IH]; intros f f' n G LD CN A; cbn [ps_add_all] in A.
    - injection A as <-. rewrite app_nil_r. cbn. rewrite Nat.add_0_r. repeat split; auto. intros k r c s0 K S0. exists []. rewrite app_nil_r.
      repeat split; auto. intros [|j] t v E; discriminate.
    - destruct (ps_add nx ny IDs f v (Some t) None) as [f1|] eqn:E1; [|discriminate]. cbn [rbind] in A.
      unfold ps_add in E1. destruct (profiles_at nx ny v IDs) as [ps|] eqn:P; [|discriminate]. cbn [rbind] in E1. injection E1 as E1.
      destruct G as (G1 & G2 & G3). assert (PL := profiles_length _ _ _ _ _ P). rewrite G2 in E1.
      rewrite (nc_put_end _ _ _ G1), (zip_end (ps_data f) ps n (eq_trans LD (eq_sym PL)) G3), CN in E1.
      assert (G' : pgood (S n) f1).
      { subst f1. repeat split; cbn [ps_times ps_index ps_data]; [rewrite app_length; cbn; lia|].
        assert (LL : length (ps_data f) = length ps) by congruence. revert LL G3. clear. generalize (ps_data f). intros d. revert ps.
        induction d as [|s d IHd]; intros [|p ps] LL F; cbn in *; try constructor.
        - rewrite app_length. inversion F; subst. cbn. lia.
        - apply IHd; [lia|]. inversion F; assumption. }
      specialize (IH f1 f' (S n) G'). destruct IH as (T & C & NM & D & V).
      { subst f1. cbn [ps_data]. rewrite zip_length; congruence. }
      { subst f1. cbn [ps_count]. rewrite map_map. reflexivity. }
      { exact A. }
      rewrite T, C, NM, D. subst f1. cbn [ps_times ps_names ps_dates length map fst].
      split; [rewrite <- app_assoc; reflexivity|]. split; [apply map_ext; intros; lia|]. split; [reflexivity|]. split; [reflexivity|].
      intros k r c s0 K S0. destruct (profiles_column _ _ _ _ _ _ _ _ P K) as (p & NP & CO).
      destruct (V k r c (s0 ++ [Some p]) K) as (s & NS & LS & VS).
      { cbn [ps_data]. apply (zip_nth (fun s q => s ++ [Some q]) _ _ _ _ _ S0 NP). }
      exists (Some p :: s). rewrite <- app_assoc in NS. split; [exact NS|]. split; [cbn; lia|].
      intros [|j] t' v' J; cbn in J; [injection J as <- <-; exists p; split; [reflexivity|exact CO]|]. apply (VS j t' v' J). }
  unfold ps_new in N. destruct (dup _); [discriminate|]. destruct (rmap cell_of_name _); [|discriminate]. cbn [rbind] in N. injection N as <-.
  match type of A with ps_add_all _ _ _ ?f0 _ = _ => set (f := f0) in *; assert (G0 : pgood O f) end.
  { split; [reflexivity|]. split; [reflexivity|]. unfold f. cbn [ps_data]. clear. induction IDs; constructor; auto. }
  destruct (GEN l f f' O G0 (map_length _ _) eq_refl A) as (T & C & NM & D & V). unfold f in *.
  cbn [ps_times ps_dates ps_names ps_data app Nat.add] in *. repeat split; auto.
  intros k r c K. destruct (V k r c [] K) as (s & S & L & W); [rewrite nth_error_map, K; reflexivity|]. exists s. auto. Qed.
Print Assumptions C70_profiles_saved.
Example C70_profiles_saved_case : exists f f', ps_new "p" [(0, 1); (1, 0)]%Z = Ok f /\
  ps_add_all 2 2 [(0, 1); (1, 0)]%Z f [(0, Layers [[1; 2; 3; 4]; [5; 6; 7; 8]]); (60, Column [9; 10])] = Ok f' /\
  ps_data f' = [[Some [2; 6]; Some [9; 10]]; [Some [3; 7]; Some [9; 10]]] /\ ps_names f' = ["p_0_1"; "p_1_0"]%string.
Proof. do 2 eexists. split; [vm_compute; reflexivity|]. split; [vm_compute; reflexivity|split; reflexivity]. Qed.

(* no profile can be read back with get_profile: the depths are stored as 'Z' and looked up as 'z' *)
Lemma series_not_z var r c : series_name var r c <> "z"%string.
Proof. unfold series_name. destruct var as [|a [|b var]]; cbn; discriminate. Qed.
Theorem C70_profile_readback_refuted : forall nx ny var IDs f l f' v k, ps_new var IDs = Ok f -> ps_add_all nx ny IDs f l = Ok f' ->
  get_profile f' v k = Err KeyError.
Proof. intros nx ny var IDs f l f' v k N A. destruct (C70_profiles_saved _ _ _ _ _ _ _ N A) as (_ & _ & NM & _).
  unfold get_profile. destruct (negb (mem v (ps_variables f'))); [reflexivity|].
  replace (mem "z" (ps_variables f')) with false; [reflexivity|]. unfold ps_variables. rewrite NM. symmetry.
  unfold ps_new in N. destruct (dup _); [discriminate|]. destruct (rmap cell_of_name _); [|discriminate]. cbn [rbind] in N. injection N as <-.
  cbn [ps_names app]. unfold mem. cbn [existsb]. clear. induction IDs as [|[r c] IDs IH]; [reflexivity|]. cbn [map existsb fst snd].
  assert (E := String.eqb_spec "z" (series_name var r c)). destruct E as [E|_]; [symmetry in E; destruct (series_not_z _ _ _ E)|]. exact IH. Qed.
Print Assumptions C70_profile_readback_refuted.
(* profiles added one by one overwrite each other unless the caller moves the index *)
Theorem C70_add_profile_refuted : forall f, ps_new "p" [(0, 0)]%Z = Ok f ->
  let f1 := fst (ps_add_profile "2000-01-01 00:00:00" f 0 [1; 2] 0) in
  let f2 := fst (ps_add_profile "2000-01-01 00:00:00" f1 0 [3; 4] 60) in
  ps_data f1 = [[Some [1; 2]]] /\ ps_data f2 = [[Some [3; 4]]] /\ ps_times f2 = [Some 60] /\ ps_count f2 = [O].
Proof. intros f E. vm_compute in E. injection E as <-. vm_compute. auto. Qed.
Print Assumptions C70_add_profile_refuted.
