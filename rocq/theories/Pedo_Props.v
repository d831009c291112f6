(* C73: soil hydraulic parameters from soil grids. *)
From Coq Require Import Reals List Bool Lra Lia.
From Verif Require Import Prep_Model Tca_Props ChanR_Model Richards_Model Pedo_Model Pedo_Spec Pedo_Proofs.
Import ListNotations.
Local Open Scope R_scope.

(* every grid holds at least one measurement that is not zero *)
Definition has_data (vmax : R) (l : list R) : Prop := exists v, In v l /\ valid vmax v /\ v <> 0.

(* After reading, whatever stood in the files, the contents of every cell make physical sense, provided each file holds
   at least one measurement that is not zero; the shape is kept. *)
Theorem C73_reader_physical C S OC D :
  length S = length C -> length OC = length C -> length D = length C ->
  has_data 100 C -> has_data 100 S -> has_data 1000 OC -> has_data 2650 D ->
  exists g, read_soil C S OC D = Some g /\ length g = length C /\ forall x, In x g -> physical x.
Proof.
  intros L1 L2 L3 H1 H2 H3 H4. unfold read_soil.
  assert (K : forall vmax l, has_data vmax l -> exists l', repair vmax l = Some l').
  { intros vmax l (v & I & [V1 V2] & V3). destruct (repair vmax l) as [l'|] eqn:E; [eauto|].
    apply repair_none in E as [E|E]; specialize (E v I); lra. }
  destruct (K _ _ H1) as [C1 E1]. destruct (K _ _ H2) as [S1 E2]. destruct (K _ _ H3) as [O1 E3]. destruct (K _ _ H4) as [D1 E4].
  rewrite E1, E2, E3, E4. eexists. split; [reflexivity|].
  pose proof (repair_length _ _ _ E1). pose proof (repair_length _ _ _ E2). pose proof (repair_length _ _ _ E3). pose proof (repair_length _ _ _ E4).
  split. { rewrite zip4_length; rewrite ?map_length; lia. }
  intros x I. apply in_at in I as [i I]. apply zip4_at in I as (I1 & I2 & I3 & I4).
  apply at_map in I3 as (o & I3 & X3). apply at_map in I4 as (d & I4 & X4).
  apply at_in in I1, I2, I3, I4.
  assert (Y1 := repair_range 100 _ _ ltac:(lra) H1 E1 _ I1). assert (Y2 := repair_range 100 _ _ ltac:(lra) H2 E2 _ I2).
  assert (Y3 := repair_range 1000 _ _ ltac:(lra) H3 E3 _ I3). assert (Y4 := repair_range 2650 _ _ ltac:(lra) H4 E4 _ I4).
  unfold physical. rewrite X3, X4. unfold om_of_oc, d_of_d, nodata. repeat rcase; lra.
Qed.
Print Assumptions C73_reader_physical.

(* Measurements come through: clay and silt as they are, organic carbon [g/kg] as organic matter [%] = 0.1724 times the
   value, density in kg/m3 divided by 1000; only a measured zero becomes 1 (in the units of the file). *)
Theorem C73_reader_keeps C S OC D g i c s o d :
  read_soil C S OC D = Some g -> at_ C i c -> at_ S i s -> at_ OC i o -> at_ D i d ->
  0 < c <= 100 -> 0 < s <= 100 -> 0 < o <= 1000 -> 0 < d <= 2650 ->
  at_ g i (mkCell c s (o * (1724/10000)) (d / 1000)).
Proof.
  unfold read_soil. intros E A1 A2 A3 A4 V1 V2 V3 V4.
  destruct (repair 100 C) as [C1|] eqn:E1; [|discriminate]. destruct (repair 100 S) as [S1|] eqn:E2; [|discriminate].
  destruct (repair 1000 OC) as [O1|] eqn:E3; [|discriminate]. destruct (repair 2650 D) as [D1|] eqn:E4; [|discriminate].
  injection E as <-. apply zip4_at. cbn [clay silt om dens].
  assert (B1 := repair_keeps 100 C C1 i c ltac:(lra) E1 A1 ltac:(split; lra)). rewrite (proj2 (req_f c 0)) in B1 by lra.
  assert (B2 := repair_keeps 100 S S1 i s ltac:(lra) E2 A2 ltac:(split; lra)). rewrite (proj2 (req_f s 0)) in B2 by lra.
  assert (B3 := repair_keeps 1000 OC O1 i o ltac:(lra) E3 A3 ltac:(split; lra)). rewrite (proj2 (req_f o 0)) in B3 by lra.
  assert (B4 := repair_keeps 2650 D D1 i d ltac:(lra) E4 A4 ltac:(split; lra)). rewrite (proj2 (req_f d 0)) in B4 by lra.
  split; [assumption|]. split; [assumption|]. split.
  - apply at_map. exists o. split; [assumption|]. unfold om_of_oc. rewrite (proj2 (req_f o nodata)) by (unfold nodata; lra). field.
  - apply at_map. exists d. split; [assumption|]. unfold d_of_d. rewrite (proj2 (req_f d nodata)) by (unfold nodata; lra). reflexivity.
Qed.
Print Assumptions C73_reader_keeps.
Theorem C73_reader_zero C S OC D g i c s o d :
  read_soil C S OC D = Some g -> at_ C i c -> at_ S i s -> at_ OC i o -> at_ D i d ->
  c = 0 -> s = 0 -> o = 0 -> d = 0 -> at_ g i (mkCell 1 1 (1724/10000) (1/1000)).
Proof.
  unfold read_soil. intros E A1 A2 A3 A4 -> -> -> ->.
  destruct (repair 100 C) as [C1|] eqn:E1; [|discriminate]. destruct (repair 100 S) as [S1|] eqn:E2; [|discriminate].
  destruct (repair 1000 OC) as [O1|] eqn:E3; [|discriminate]. destruct (repair 2650 D) as [D1|] eqn:E4; [|discriminate].
  injection E as <-. apply zip4_at. cbn [clay silt om dens].
  assert (Z : req 0 0 = true) by (apply req_t; reflexivity).
  assert (B1 := repair_keeps 100 C C1 i 0 ltac:(lra) E1 A1 ltac:(split; lra)). rewrite Z in B1.
  assert (B2 := repair_keeps 100 S S1 i 0 ltac:(lra) E2 A2 ltac:(split; lra)). rewrite Z in B2.
  assert (B3 := repair_keeps 1000 OC O1 i 0 ltac:(lra) E3 A3 ltac:(split; lra)). rewrite Z in B3.
  assert (B4 := repair_keeps 2650 D D1 i 0 ltac:(lra) E4 A4 ltac:(split; lra)). rewrite Z in B4.
  split; [assumption|]. split; [assumption|]. split.
  - apply at_map. exists 1. split; [assumption|]. unfold om_of_oc. rewrite (proj2 (req_f 1 nodata)) by (unfold nodata; lra). field.
  - apply at_map. exists 1. split; [assumption|]. unfold d_of_d. rewrite (proj2 (req_f 1 nodata)) by (unfold nodata; lra). reflexivity.
Qed.
Print Assumptions C73_reader_zero.
(* Missing values of the clay grid get the middle between the smallest value that is not negative and the largest value
   of at most 100 (the other grids alike: [repair] is the same function). *)
Theorem C73_reader_missing C S OC D g i lo hi x :
  read_soil C S OC D = Some g -> at_ g i x ->
  (In lo C /\ 0 <= lo /\ forall v, In v C -> 0 <= v -> lo <= v) -> (In hi C /\ hi <= 100 /\ forall v, In v C -> v <= 100 -> v <= hi) ->
  forall c, at_ C i c -> c < 0 \/ 100 < c -> clay x = (lo + hi) / 2.
Proof.
  unfold read_soil. intros E A (L1 & L2 & L3) (H1 & H2 & H3) c Ac V.
  destruct (repair 100 C) as [C1|] eqn:E1; [|discriminate]. destruct (repair 100 S) as [S1|] eqn:E2; [|discriminate].
  destruct (repair 1000 OC) as [O1|] eqn:E3; [|discriminate]. destruct (repair 2650 D) as [D1|] eqn:E4; [|discriminate].
  injection E as <-. apply zip4_at in A as (A & _). revert E1. unfold repair.
  destruct (filter _ C) as [|x0 a] eqn:Ea; [discriminate|]. destruct (filter (fun v => rle v 100) C) as [|y b] eqn:Eb; [discriminate|].
  intros E. injection E as <-. destruct (minl_spec x0 a) as [M1 M2]. destruct (maxl_spec y b) as [M3 M4].
  rewrite <- Ea in M1, M2. rewrite <- Eb in M3, M4.
  apply filter_In in M2 as [M2 M2']. apply rle_t in M2'. apply filter_In in M4 as [M4 M4']. apply rle_t in M4'.
  assert (minl x0 a = lo). { apply Rle_antisym; [apply M1; apply filter_In; split; [assumption|apply rle_t; assumption]|apply L3; assumption]. }
  assert (maxl y b = hi). { apply Rle_antisym; [apply H3; assumption|apply M3; apply filter_In; split; [assumption|apply rle_t; assumption]]. }
  rewrite map_map in A. apply at_map in A as (c' & A & ->). assert (c' = c) by (unfold at_ in *; congruence). subst c'.
  rewrite (proj2 (req_f c 0)) by lra. destruct V as [V|V].
  - rewrite (proj2 (rlt_t c 0) V). cbn [orb]. congruence.
  - rewrite (proj2 (rlt_t 100 c) V), orb_true_r. congruence.
Qed.
Print Assumptions C73_reader_missing.
(* The reader fails (ValueError) exactly when a grid holds only negative values or only values that are too large. *)
Theorem C73_reader_fails C S OC D :
  read_soil C S OC D = None <->
  Exists (fun p => (forall v, In v (snd p) -> v < 0) \/ (forall v, In v (snd p) -> fst p < v)) [(100, C); (100, S); (1000, OC); (2650, D)].
Proof.
  unfold read_soil. split.
  - destruct (repair 100 C) as [C1|] eqn:E1; [|intros _; left; apply repair_none; assumption].
    destruct (repair 100 S) as [S1|] eqn:E2; [|intros _; right; left; apply repair_none; assumption].
    destruct (repair 1000 OC) as [O1|] eqn:E3; [|intros _; right; right; left; apply repair_none; assumption].
    destruct (repair 2650 D) as [D1|] eqn:E4; [discriminate|intros _; right; right; right; left; apply repair_none; assumption].
  - intros X. repeat (apply Exists_cons in X as [X|X]); [..|inversion X]; cbn [fst snd] in X; apply repair_none in X; rewrite X;
      destruct (repair 100 C), (repair 100 S), (repair 1000 OC), (repair 2650 D); try reflexivity; discriminate.
Qed.
Print Assumptions C73_reader_fails.
(* Not so when the only measurement is zero (the mid-range value is then 0, and 1/C, log(S)... are infinite), nor
   when missing values of both kinds are all there is. *)
Theorem C73_reader_zero_left_refuted :
  ~ (forall C S OC D g, read_soil C S OC D = Some g -> forall x, In x g -> 0 < clay x)
  /\ (exists g x, read_soil [0; -9999] [0; -9999] [10; 10] [1000; 1000] = Some g /\ In x g /\ clay x = 0 /\ silt x = 0)
  /\ (exists g x, read_soil [255; -9999] [50; 50] [10; 10] [1000; 1000] = Some g /\ In x g /\ clay x < 0).
Proof.
  assert (One : forall vmax v, 0 < v <= vmax -> repair vmax [v; v] = Some [v; v]).
  { intros vmax v V. unfold repair. cbn [filter]. rewrite (proj2 (rle_t 0 v)), (proj2 (rle_t v vmax)) by lra. cbn [map].
    rewrite (proj2 (req_f v 0)), (proj2 (rlt_f v 0)), (proj2 (rlt_f vmax v)) by lra. reflexivity. }
  assert (Z : repair 100 [0; -9999] = Some [1; 0]).
  { unfold repair. cbn [filter]. rewrite (proj2 (rle_t 0 0)), (proj2 (rle_f 0 (-9999))), (proj2 (rle_t 0 100)), (proj2 (rle_t (-9999) 100)) by lra.
    cbn [map minl maxl fold_right]. rewrite (proj2 (req_t 0 0)), (proj2 (req_f (-9999) 0)), (proj2 (rlt_f 1 0)), (proj2 (rlt_f 100 1)), (proj2 (rlt_t (-9999) 0)) by lra.
    cbn [orb]. rewrite (Rmax_right (-9999) 0) by lra. do 3 f_equal. lra. }
  assert (N : repair 100 [255; -9999] = Some [-4872; -4872]).
  { unfold repair. cbn [filter]. rewrite (proj2 (rle_t 0 255)), (proj2 (rle_f 0 (-9999))), (proj2 (rle_f 255 100)), (proj2 (rle_t (-9999) 100)) by lra.
    cbn [map minl maxl fold_right]. rewrite (proj2 (req_f 255 0)), (proj2 (req_f (-9999) 0)), (proj2 (rlt_f 255 0)), (proj2 (rlt_t 100 255)), (proj2 (rlt_t (-9999) 0)) by lra.
    cbn [orb]. do 2 f_equal; [lra|]. f_equal. lra. }
  assert (X2 : exists g x, read_soil [255; -9999] [50; 50] [10; 10] [1000; 1000] = Some g /\ In x g /\ clay x < 0).
  { unfold read_soil. rewrite N, !One by lra. eexists. eexists. split; [reflexivity|]. cbn. split; [left; reflexivity|]. cbn. lra. }
  split; [|split; [|exact X2]].
  - intros K. destruct X2 as (g & x & E & I & V). specialize (K _ _ _ _ _ E x I). lra.
  - unfold read_soil. rewrite Z, !One by lra. eexists. eexists. split; [reflexivity|]. cbn. split; [right; left; reflexivity|]. cbn. lra.
Qed.
Print Assumptions C73_reader_zero_left_refuted.

(* ---------- the published regressions ---------- *)
(* The formulas, before anything is forced into range, are the published ones: the water content itself, the logarithm
   of the conductivity in cm/day (8640000 times m/s), of -alpha in 1/cm, of n - 1, and of (10+L)/(10-L). *)
Theorem C73_published t x : physical x -> measured x ->
  theta_cell t x = regression porosity_table t x /\
  ln (Ks_cell t x * 8640000) = regression Ks_table t x /\
  ln (- alpha_raw t x) = regression alpha_table t x /\
  ln (n_raw t x - 1) = regression n_table t x /\
  ln ((10 + L_raw x) / (10 - L_raw x)) = regression L_table t x.
Proof.
  intros (P1 & P2 & P3 & P4) (M1 & M2 & M3 & M4).
  unfold regression, porosity_table, Ks_table, alpha_table, n_table, L_table. cbn [fold_right fst snd regress]. unfold Q2R. cbn [QArith_base.Qnum QArith_base.Qden].
  split; [|split; [|split; [|split]]].
  - unfold theta_cell. rewrite !(proj2 (req_f _ _)) by assumption. cbn [orb]. cbv zeta. field. lra.
  - unfold Ks_cell. cbv zeta. match goal with |- ln (exp ?e / ?k * ?k') = _ => assert (E : exp e / k * k' = exp e) by field end. rewrite E, ln_exp. field. lra.
  - unfold alpha_raw. cbv zeta. match goal with |- ln (- (_ * exp ?e)) = _ => replace (- (-1 * exp e)) with (exp e) by ring end. rewrite ln_exp. field. lra.
  - unfold n_raw. cbv zeta. match goal with |- ln (exp ?e + 1 - 1) = _ => replace (exp e + 1 - 1) with (exp e) by ring end. rewrite ln_exp. field. lra.
  - unfold L_raw. cbv zeta. match goal with |- context [exp ?e] => pose proof (exp_pos e) as E end.
    match goal with |- ln ?r = _ => match r with context [exp ?e] => replace r with (exp e) by (field; lra) end end. rewrite ln_exp. field.
Qed.
Print Assumptions C73_published.

(* ---------- saturated water content ---------- *)
(* All values are between 0 and 1, and cells where the formula already gives such a value keep it. *)
Theorem C73_porosity_range g t q : wosten_theta_s g t true = Some q ->
  length q = length g /\ (forall v, In v q -> 0 <= v <= 1) /\
  (forall i x, at_ g i x -> 0 <= theta_cell t x <= 1 -> at_ q i (theta_cell t x)).
Proof.
  unfold wosten_theta_s. intros E. apply theta_force_some in E as (E1 & E2 & E3). rewrite map_length in E1.
  split; [assumption|]. split; [assumption|]. intros i x A V. apply E3; [|assumption]. apply at_map. eauto.
Qed.
Print Assumptions C73_porosity_range.
(* It does not fail when a single cell has a value strictly between 0 and 1... *)
Theorem C73_porosity_total g t : (exists x, In x g /\ 0 < theta_cell t x < 1) -> exists q, wosten_theta_s g t true = Some q.
Proof. intros (x & I & V). apply theta_force_total. exists (theta_cell t x). split; [apply in_map; assumption|assumption]. Qed.
Print Assumptions C73_porosity_total.
(* ... but does when all values are too large (max of an empty selection), for instance for a single cell *)
Lemma theta_demo : theta_cell 0 (mkCell (1/1000) 1 1 1) > 1.
Proof.
  unfold theta_cell. cbn [clay silt om dens]. rewrite ln_1.
  rewrite (proj2 (req_f 1 101)), (proj2 (req_f 1 10)), (proj2 (req_f (1/1000) 101)) by lra. cbn [orb].
  replace (1 / (1/1000)) with 1000 by field. replace (1/1) with 1 by field. lra.
Qed.
Theorem C73_porosity_total_refuted :
  ~ (forall g t, (forall x, In x g -> physical x) -> exists q, wosten_theta_s g t true = Some q).
Proof.
  intros K. destruct (K [mkCell (1/1000) 1 1 1] 0) as [q E].
  - intros x [<-|[]]. unfold physical. cbn. lra.
  - revert E. unfold wosten_theta_s, theta_force. pose proof theta_demo as T. cbn [map]. revert T. generalize (theta_cell 0 (mkCell (1/1000) 1 1 1)). intros v V.
    cbn [existsb filter]. rewrite (proj2 (rlt_f v 0)), (proj2 (rlt_t 1 v)), (proj2 (rlt_t 0 v)) by lra. cbn [orb andb map filter].
    rewrite (proj2 (rlt_f v 1)) by lra. discriminate.
Qed.
Print Assumptions C73_porosity_total_refuted.
(* Cells marked as missing do not stay marked: -9999 is below 0 and is forced into range like any other value. *)
Theorem C73_nodata_kept_refuted :
  ~ (forall g t q i x, wosten_theta_s g t true = Some q -> at_ g i x -> ~ measured x -> at_ q i nodata)
  /\ (forall g t q i x, wosten_theta_s g t false = Some q -> at_ g i x -> ~ measured x -> at_ q i nodata)
  /\ (forall g t q, wosten_theta_s g t true = Some q -> ~ In nodata q).
Proof.
  assert (ND : forall t x, ~ measured x -> theta_cell t x = nodata).
  { intros t x M. unfold theta_cell. destruct (_ || _) eqn:E; [reflexivity|]. exfalso. apply M.
    apply orb_false_iff in E as [E E']. apply orb_false_iff in E as [E1 E2]. apply orb_false_iff in E' as [E3 E4].
    apply req_f in E1, E2, E3, E4. split; [assumption|]. split; [assumption|]. split; assumption. }
  assert (T : forall g t q, wosten_theta_s g t true = Some q -> ~ In nodata q).
  { intros g t q E I. apply C73_porosity_range in E as (_ & E & _). specialize (E _ I). unfold nodata in E. lra. }
  split; [|split; [|exact T]].
  - intros K.
    assert (V : 0 < theta_cell 0 (mkCell 50 1 1 1) < 1).
    { unfold theta_cell. cbn [clay silt om dens]. rewrite ln_1.
      rewrite (proj2 (req_f 1 101)), (proj2 (req_f 1 10)), (proj2 (req_f 50 101)) by lra. cbn [orb]. replace (1/1) with 1 by field. lra. }
    destruct (C73_porosity_total [mkCell 50 1 1 1; mkCell 101 101 101 10] 0) as [q E].
    { eexists. split; [left; reflexivity|assumption]. }
    refine (T _ _ _ E _). eapply at_in. eapply (K _ _ _ 1%nat (mkCell 101 101 101 10) E); [reflexivity|]. intros (M & _). apply M. reflexivity.
  - intros g t q i x E A M. unfold wosten_theta_s, theta_force in E. rewrite andb_false_r in E. injection E as <-.
    apply at_map. exists x. split; [assumption|]. symmetry. apply ND. assumption.
Qed.
Print Assumptions C73_nodata_kept_refuted.
(* Before values are forced into range, denser soil holds less water at saturation. *)
Theorem C73_porosity_density g g' t q q' i x y :
  wosten_theta_s g t false = Some q -> wosten_theta_s g' t false = Some q' -> at_ g i x -> at_ g' i y ->
  physical x -> physical y -> measured x -> measured y -> denser x y ->
  forall a b, at_ q i a -> at_ q' i b -> b < a.
Proof.
  unfold wosten_theta_s, theta_force. rewrite !andb_false_r. intros E E' A A' P1 P2 M1 M2 (D1 & D2 & D3 & D4) a b Qa Qb.
  injection E as <-. injection E' as <-. apply at_map in Qa as (x' & Qa & ->). apply at_map in Qb as (y' & Qb & ->).
  assert (x' = x) by (unfold at_ in *; congruence). assert (y' = y) by (unfold at_ in *; congruence). subst x' y'.
  unfold theta_cell. destruct M1 as (M1 & M2' & M3 & M4), M2 as (N1 & N2 & N3 & N4).
  rewrite !(proj2 (req_f _ _)) by assumption. cbn [orb]. cbv zeta. rewrite <- D1, <- D2, <- D3.
  destruct P1 as (P1 & P1' & P1'' & _).
  assert (0 < clay x * (dens y - dens x)) by (apply Rmult_lt_0_compat; lra).
  assert (0 < om x * (dens y - dens x)) by (apply Rmult_lt_0_compat; lra). nra.
Qed.
Print Assumptions C73_porosity_density.

(* ---------- conductivity ---------- *)
(* Positive for every soil, in m/s (100*24*3600 times it is the value in cm/day), and denser soil conducts less. *)
Theorem C73_conductivity_positive g t v : In v (wosten_K_s g t) -> 0 < v.
Proof.
  intros I. apply in_map_iff in I as (x & <- & _). unfold Ks_cell. cbv zeta. apply Rdiv_lt_0_compat; [apply exp_pos|lra].
Qed.
Print Assumptions C73_conductivity_positive.
Theorem C73_conductivity_density g g' t i x y : at_ g i x -> at_ g' i y -> physical x -> physical y -> denser x y ->
  forall a b, at_ (wosten_K_s g t) i a -> at_ (wosten_K_s g' t) i b -> b < a.
Proof.
  intros A A' P1 P2 (D1 & D2 & D3 & D4) a b Qa Qb.
  apply at_map in Qa as (x' & Qa & ->). apply at_map in Qb as (y' & Qb & ->).
  assert (x' = x) by (unfold at_ in *; congruence). assert (y' = y) by (unfold at_ in *; congruence). subst x' y'.
  unfold Ks_cell. cbv zeta. rewrite <- D1, <- D2, <- D3.
  destruct P1 as (P1 & P1' & P1'' & P1d).
  assert (0 < clay x * (dens y - dens x)) by (apply Rmult_lt_0_compat; lra).
  assert (0 < om x * (dens y - dens x)) by (apply Rmult_lt_0_compat; lra).
  assert (0 < (dens y + dens x) * (dens y - dens x)) by (apply Rmult_lt_0_compat; lra).
  match goal with |- exp ?u / ?k < exp ?w / _ => assert (Lt : u < w) end.
  { match goal with |- ?u < ?w => assert (E : w - u = 967/1000 * ((dens y + dens x) * (dens y - dens x)) + 1398/100000 * (clay x * (dens y - dens x)) + 1673/10000 * (om x * (dens y - dens x))) by (unfold Rdiv; ring) end. lra. }
  match goal with |- ?p / ?k < ?q / _ => change (p * / k < q * / k) end. apply Rmult_lt_compat_r; [apply Rinv_0_lt_compat; lra|]. apply exp_increasing. exact Lt.
Qed.
Print Assumptions C73_conductivity_density.

(* ---------- van Genuchten parameters ---------- *)
(* alpha [1/m] is between -15 and -0.4, and where the formula [1/cm] is between -0.15 and -0.004 it is 100 times that *)
Theorem C73_alpha_range g t : exists a, wosten_alpha g t true = Some a /\ length a = length g /\
  (forall v, In v a -> -15 <= v <= -4/10) /\
  (forall i x, at_ g i x -> -15/100 <= alpha_raw t x <= -4/1000 -> at_ a i (100 * alpha_raw t x)).
Proof.
  eexists. split; [apply alpha_local|]. split; [apply map_length|]. split.
  - intros v I. apply in_map_iff in I as (x & <- & _). unfold alpha_clip, alpha_min, alpha_max. repeat rcase; lra.
  - intros i x A V. apply at_map. exists x. split; [assumption|]. unfold alpha_clip, alpha_min, alpha_max. repeat rcase; lra.
Qed.
Print Assumptions C73_alpha_range.
Theorem C73_n_range g t : length (wosten_n g t true) = length g /\ (forall v, In v (wosten_n g t true) -> 1 < v <= 3) /\
  (forall i x, at_ g i x -> n_raw t x <= 3 -> at_ (wosten_n g t true) i (n_raw t x)).
Proof.
  rewrite n_local. split; [apply map_length|]. split.
  - intros v I. apply in_map_iff in I as (x & <- & _). pose proof (n_raw_gt t x). unfold n_clip. rcase; lra.
  - intros i x A V. apply at_map. exists x. split; [assumption|]. unfold n_clip. rcase; lra.
Qed.
Print Assumptions C73_n_range.
(* L is strictly between -10 and 10 without any forcing *)
Theorem C73_L_range g f : length (wosten_L g f) = length g /\ (forall v, In v (wosten_L g f) -> -10 < v < 10) /\ wosten_L g true = wosten_L g false.
Proof.
  rewrite !L_local. split; [apply map_length|]. split; [|reflexivity].
  intros v I. apply in_map_iff in I as (x & <- & _). apply L_raw_range.
Qed.
Print Assumptions C73_L_range.

(* ---------- transitional Brooks-Corey parameters ---------- *)
Theorem C73_brooks_corey gam alpha n i a k : at_ alpha i a -> at_ n i k -> -15 <= a <= -4/10 -> 1 < k <= 3 ->
  exists pB lam, at_ (psi_B (get_tBC gam alpha n)) i pB /\ at_ (t_lam (get_tBC gam alpha n)) i lam /\
    at_ (t_c (get_tBC gam alpha n)) i (lam + 1) /\ at_ (t_eta (get_tBC gam alpha n)) i (2 + 3 * lam) /\
    pB * a = 1 /\ -25/10 <= pB <= -1/15 /\ 0 < lam <= 2.
Proof.
  intros A N Ra Rk. exists (1/a), (k - 1). cbn [psi_B t_lam t_c t_eta get_tBC].
  split. { apply at_map. exists a. split; [assumption|]. unfold inv_of. rcase; [lra|reflexivity]. }
  split. { apply at_map. eauto. }
  split. { replace (k - 1 + 1) with k by ring. assumption. }
  split. { apply at_map. exists k. split; [assumption|ring]. }
  split; [field; lra|]. split; [|lra].
  assert (E : 1 / a * a = 1) by (field; lra).
  assert (0 < / (- a)) by (apply Rinv_0_lt_compat; lra). assert (1 / a = - / (- a)) by (field; lra).
  split; nra.
Qed.
Print Assumptions C73_brooks_corey.
(* The purpose of the conversion: the retention curve that the Richards component computes with these parameters is van
   Genuchten's curve, at every negative pressure head. *)
Theorem C73_same_retention gam alpha n i a k pB c lam qs qr p : at_ alpha i a -> at_ n i k -> a < 0 -> 1 < k ->
  at_ (psi_B (get_tBC gam alpha n)) i pB -> at_ (t_c (get_tBC gam alpha n)) i c -> at_ (t_lam (get_tBC gam alpha n)) i lam -> p < 0 ->
  theta_of_psi p qs qr pB 0 c lam = vanGenuchten a k qs qr p.
Proof.
  intros A N Ra Rk P C L V. cbn [psi_B t_lam t_c get_tBC] in P, C, L.
  apply at_map in P as (a' & P & ->). apply at_map in L as (k' & L & ->).
  assert (a' = a) by (unfold at_ in *; congruence). assert (k' = k) by (unfold at_ in *; congruence). assert (c = k) by (unfold at_ in *; congruence). subst.
  unfold inv_of. rewrite (proj2 (req_f a 0)) by lra. unfold theta_of_psi, vanGenuchten. cbv zeta.
  replace ((p + 0) / (1 / a)) with (a * p) by (field; lra).
  assert (0 < a * p) by nra. unfold powr at 2. destruct (Rle_dec (a*p) 0); [lra|].
  assert (0 < Rpower (a*p) k) by (apply exp_pos). unfold powr. destruct (Rle_dec (1 + Rpower (a*p) k) 0); [lra|].
  replace (- (k - 1) / k) with (- (1 - 1/k)) by (field; lra). ring.
Qed.
Print Assumptions C73_same_retention.

(* ---------- capillary length ---------- *)
(* Whatever the gamma function returns: between 0.08 m and 2.3 m, or NaN. *)
Theorem C73_capillary_range gam alpha n v : In v (t_G (get_tBC gam alpha n)) ->
  v = NaN \/ exists x, v = Fin x /\ 8/100 <= x <= 23/10.
Proof.
  cbn [t_G get_tBC]. rewrite G_force_local. intros I. apply in_map_iff in I as (u & <- & _). apply G_clip_range.
Qed.
Print Assumptions C73_capillary_range.
(* With n = 3, the value that every larger n is forced to, the formula is inf for every alpha (its limit is finite) and the
   capillary length is 2.3 m, the value for clay, although n is large for sand: the bound of twice the bubbling pressure
   head that the code quotes (1237) does not hold.  The gamma function has a pole at 0 and is positive at 1/3 and 5/3. *)
Theorem C73_capillary_n3 gam alpha n i a k1 k2 : gam 0 = PInf -> gam (1/3) = Fin k1 -> 0 < k1 -> gam (5/3) = Fin k2 -> 0 < k2 ->
  at_ alpha i a -> a < 0 -> at_ n i 3 -> at_ (t_G (get_tBC gam alpha n)) i (Fin (23/10)).
Proof.
  intros G0 G1 K1 G2 K2 A Ra N. cbn [t_G get_tBC]. rewrite G_force_local. apply at_map. exists PInf. split; [|reflexivity].
  rewrite <- (G_at_three gam (inv_of a) k1 k2); try assumption.
  - apply zipw_at; [assumption|]. apply at_map. eauto.
  - unfold inv_of. rewrite (proj2 (req_f a 0)) by lra. assert (0 < / (- a)) by (apply Rinv_0_lt_compat; lra).
    replace (1/a) with (- / (- a)) by (field; lra). lra.
Qed.
Print Assumptions C73_capillary_n3.
Theorem C73_capillary_bound_refuted gam k1 k2 : gam 0 = PInf -> gam (1/3) = Fin k1 -> 0 < k1 -> gam (5/3) = Fin k2 -> 0 < k2 ->
  ~ (forall alpha n i G pB, at_ (t_G (get_tBC gam alpha n)) i (Fin G) -> at_ (psi_B (get_tBC gam alpha n)) i pB -> G <= Rmax (8/100) (-2 * pB)).
Proof.
  intros G0 G1 K1 G2 K2 K.
  specialize (K [-15] [3] 0%nat (23/10) (1/-15)). revert K. unfold Rmax. destruct (Rle_dec _ _); intro K.
  - assert (23/10 <= -2 * (1/-15)); [|lra]. apply K; [eapply C73_capillary_n3; try eassumption; try reflexivity; lra|].
    cbn [psi_B get_tBC map]. unfold inv_of. rewrite (proj2 (req_f (-15) 0)) by lra. reflexivity.
  - assert (23/10 <= 8/100); [|lra]. apply K; [eapply C73_capillary_n3; try eassumption; try reflexivity; lra|].
    cbn [psi_B get_tBC map]. unfold inv_of. rewrite (proj2 (req_f (-15) 0)) by lra. reflexivity.
Qed.
Print Assumptions C73_capillary_bound_refuted.
(* the same for every cell of a layer whose formula for n exceeds 3 *)
Theorem C73_sandy_cells gam t g f k1 k2 i x : gam 0 = PInf -> gam (1/3) = Fin k1 -> 0 < k1 -> gam (5/3) = Fin k2 -> 0 < k2 ->
  layer_vars gam t g = Some f -> at_ g i x -> 3 < n_raw t x -> at_ (f_G f) i (Fin (23/10)).
Proof.
  intros G0 G1 K1 G2 K2 E A V. unfold layer_vars in E. destruct (wosten_theta_s g t true) as [q|]; [|discriminate].
  destruct (C73_alpha_range g t) as (al & Ea & La & Ra & _). rewrite Ea in E. injection E as <-. cbn [f_G].
  assert (exists a, at_ al i a) as [a Aa].
  { destruct (nth_error al i) as [a|] eqn:N; [exists a; exact N|]. apply nth_error_None in N. rewrite La in N. apply nth_error_None in N. unfold at_ in A. congruence. }
  eapply C73_capillary_n3; try eassumption.
  - specialize (Ra a (at_in _ _ _ Aa)). lra.
  - rewrite n_local. apply at_map. exists x. split; [assumption|]. unfold n_clip. rewrite (proj2 (rlt_t 3 _)) by assumption. reflexivity.
Qed.
Print Assumptions C73_sandy_cells.

(* ---------- the whole tool ---------- *)
(* All results of a cell except the water content depend on the contents of that cell only. *)
Theorem C73_local gam t g g' f f' i x : layer_vars gam t g = Some f -> layer_vars gam t g' = Some f' -> at_ g i x -> at_ g' i x ->
  nth_error (f_Ks f) i = nth_error (f_Ks f') i /\ nth_error (f_pB f) i = nth_error (f_pB f') i /\ nth_error (f_c f) i = nth_error (f_c f') i /\
  nth_error (f_lam f) i = nth_error (f_lam f') i /\ nth_error (f_G f) i = nth_error (f_G f') i /\ nth_error (f_alpha f) i = nth_error (f_alpha f') i /\
  nth_error (f_n f) i = nth_error (f_n f') i /\ nth_error (f_L f) i = nth_error (f_L f') i.
Proof.
  assert (K : forall h F, layer_vars gam t h = Some F -> at_ h i x ->
    at_ (f_Ks F) i (Ks_cell t x) /\ at_ (f_pB F) i (inv_of (alpha_clip (alpha_raw t x) * 100)) /\ at_ (f_c F) i (n_clip (n_raw t x)) /\
    at_ (f_lam F) i (n_clip (n_raw t x) - 1) /\ at_ (f_G F) i (G_clip (G_vG gam (n_clip (n_raw t x)) (inv_of (alpha_clip (alpha_raw t x) * 100)))) /\
    at_ (f_alpha F) i (alpha_clip (alpha_raw t x) * 100) /\ at_ (f_n F) i (n_clip (n_raw t x)) /\ at_ (f_L F) i (L_raw x)).
  { intros h F E A. unfold layer_vars in E. destruct (wosten_theta_s h t true) as [q|]; [|discriminate].
    rewrite alpha_local in E. injection E as <-. cbn [f_Ks f_pB f_c f_lam f_G f_alpha f_n f_L psi_B t_c t_lam t_G get_tBC].
    rewrite n_local, L_local, G_force_local. unfold wosten_K_s.
    assert (Nn : at_ (map (fun x => n_clip (n_raw t x)) h) i (n_clip (n_raw t x))) by (apply at_map; eauto).
    assert (Na : at_ (map (fun x => alpha_clip (alpha_raw t x) * 100) h) i (alpha_clip (alpha_raw t x) * 100)) by (apply at_map; eauto).
    assert (Ni : at_ (map inv_of (map (fun x => alpha_clip (alpha_raw t x) * 100) h)) i (inv_of (alpha_clip (alpha_raw t x) * 100))) by (apply at_map; eauto).
    repeat split; try assumption.
    - apply at_map. eauto.
    - apply at_map. eauto.
    - apply at_map. eexists. split; [apply zipw_at; eassumption|reflexivity].
    - apply at_map. eauto. }
  intros E E' A A'. destruct (K g f E A) as (K1 & K2 & K3 & K4 & K5 & K6 & K7 & K8). destruct (K g' f' E' A') as (L1 & L2 & L3 & L4 & L5 & L6 & L7 & L8).
  unfold at_ in *. repeat split; congruence.
Qed.
Print Assumptions C73_local.

(* Every layer that is written has values in range, with the topsoil formula for the first layer and the subsoil formula
   for the others; the layers are written in order up to the first that fails. *)
Definition good_layer (f : layer_files) : Prop :=
  (forall v, In v (f_Ks f) -> 0 < v) /\ (forall v, In v (f_qs f) -> 0 <= v <= 1) /\ (forall v, In v (f_pB f) -> -25/10 <= v <= -1/15) /\
  (forall v, In v (f_c f) -> 1 < v <= 3) /\ (forall v, In v (f_lam f) -> 0 < v <= 2) /\
  (forall v, In v (f_G f) -> v = NaN \/ exists x, v = Fin x /\ 8/100 <= x <= 23/10) /\
  (forall v, In v (f_alpha f) -> -15 <= v <= -4/10) /\ (forall v, In v (f_n f) -> 1 < v <= 3) /\ (forall v, In v (f_L f) -> -10 < v < 10).
Lemma layer_good gam t g f : layer_vars gam t g = Some f -> good_layer f.
Proof.
  intros E. unfold layer_vars in E. destruct (wosten_theta_s g t true) as [q|] eqn:Eq; [|discriminate].
  destruct (C73_alpha_range g t) as (al & Ea & La & Ra & _). rewrite Ea in E. injection E as <-.
  destruct (C73_n_range g t) as (_ & Rn & _). destruct (C73_L_range g true) as (_ & RL & _). apply C73_porosity_range in Eq as (_ & Rq & _).
  unfold good_layer. cbn [f_Ks f_qs f_pB f_c f_lam f_G f_alpha f_n f_L].
  split; [intros v I; eapply C73_conductivity_positive; eassumption|]. split; [assumption|]. split.
  { cbn [psi_B get_tBC]. intros v I. apply in_map_iff in I as (a & <- & I). specialize (Ra a I). unfold inv_of. rewrite (proj2 (req_f a 0)) by lra.
    assert (E : 1 / a * a = 1) by (field; lra). assert (0 < / (- a)) by (apply Rinv_0_lt_compat; lra). assert (1 / a = - / (- a)) by (field; lra). split; nra. }
  split; [assumption|]. split.
  { cbn [t_lam get_tBC]. intros v I. apply in_map_iff in I as (k & <- & I). specialize (Rn k I). lra. }
  split; [intros v I; exact (C73_capillary_range _ _ _ _ I)|]. auto.
Qed.
Theorem C73_layers gam layers fs ok : save_soil_hydraulic_vars gam layers = (fs, ok) ->
  (forall f, In f fs -> good_layer f) /\
  (forall k f, at_ fs k f -> exists i g, at_ layers k i /\ read_soil (in_C i) (in_S i) (in_OC i) (in_D i) = Some g /\
     layer_vars gam (if Nat.eqb k 0 then 1 else 0) g = Some f) /\
  (if ok then length fs = length layers
   else exists i, at_ layers (length fs) i /\ (read_soil (in_C i) (in_S i) (in_OC i) (in_D i) = None \/
     exists g, read_soil (in_C i) (in_S i) (in_OC i) (in_D i) = Some g /\ layer_vars gam (if Nat.eqb (length fs) 0 then 1 else 0) g = None)).
Proof.
  unfold save_soil_hydraulic_vars.
  assert (K : forall layers k fs ok, save_layers gam k layers = (fs, ok) ->
    (forall j f, at_ fs j f -> exists i g, at_ layers j i /\ read_soil (in_C i) (in_S i) (in_OC i) (in_D i) = Some g /\
       layer_vars gam (if Nat.eqb (k + j) 0 then 1 else 0) g = Some f) /\
    (if ok then length fs = length layers
     else exists i, at_ layers (length fs) i /\ (read_soil (in_C i) (in_S i) (in_OC i) (in_D i) = None \/
       exists g, read_soil (in_C i) (in_S i) (in_OC i) (in_D i) = Some g /\ layer_vars gam (if Nat.eqb (k + length fs) 0 then 1 else 0) g = None))).
  { clear. induction layers as [|i rest IH]; intros k fs ok E; cbn [save_layers] in E.
    - injection E as <- <-. split; [|reflexivity]. intros [|j] f X; discriminate X.
    - assert (TS : match k with 0%nat => 1 | _ => 0 end = (if Nat.eqb (k + 0) 0 then 1 else 0)) by (destruct k; reflexivity).
      rewrite TS in E. destruct (read_soil _ _ _ _) as [g|] eqn:Er.
      2:{ injection E as <- <-. split; [intros [|j] f X; discriminate X|]. exists i. split; [reflexivity|]. left. assumption. }
      destruct (layer_vars gam _ g) as [f|] eqn:El.
      2:{ injection E as <- <-. split; [intros [|j] f X; discriminate X|]. exists i. split; [reflexivity|]. right. exists g. split; assumption. }
      destruct (save_layers gam (Datatypes.S k) rest) as [fs' ok'] eqn:Es. injection E as <- <-. apply IH in Es as [I1 I2]. split.
      + intros [|j] f' X. * injection X as <-. exists i, g. split; [reflexivity|]. split; assumption.
        * apply I1 in X as (i' & g' & X1 & X2 & X3). exists i', g'. split; [exact X1|]. split; [assumption|]. replace (k + Datatypes.S j)%nat with (Datatypes.S k + j)%nat by lia. assumption.
      + cbn [length]. destruct ok'. * cbn. congruence.
        * destruct I2 as (i' & X1 & X2). exists i'. split; [exact X1|]. rewrite Nat.add_succ_r. exact X2. }
  intros E. apply K in E as [E1 E2]. split; [|split; assumption].
  intros f I. apply in_at in I as [k I]. apply E1 in I as (i & g & _ & _ & X). eapply layer_good; eassumption.
Qed.
Print Assumptions C73_layers.

(* a concrete case: a grid of two cells, one missing *)
Example C73_demo : exists g, read_soil [50; -9999] [1; 1] [10; 10] [1000; 1000] = Some g /\
  g = [mkCell 50 1 (1724/1000) 1; mkCell 50 1 (1724/1000) 1] /\ (forall x, In x g -> physical x) /\
  exists q, wosten_theta_s g 1 true = Some q.
Proof.
  assert (One : forall vmax v, 0 < v <= vmax -> repair vmax [v; v] = Some [v; v]).
  { intros vmax v V. unfold repair. cbn [filter]. rewrite (proj2 (rle_t 0 v)), (proj2 (rle_t v vmax)) by lra. cbn [map].
    rewrite (proj2 (req_f v 0)), (proj2 (rlt_f v 0)), (proj2 (rlt_f vmax v)) by lra. reflexivity. }
  assert (Z : repair 100 [50; -9999] = Some [50; 50]).
  { unfold repair. cbn [filter]. rewrite (proj2 (rle_t 0 50)), (proj2 (rle_f 0 (-9999))), (proj2 (rle_t 50 100)), (proj2 (rle_t (-9999) 100)) by lra.
    cbn [map minl maxl fold_right]. rewrite (proj2 (req_f 50 0)), (proj2 (req_f (-9999) 0)), (proj2 (rlt_f 50 0)), (proj2 (rlt_f 100 50)), (proj2 (rlt_t (-9999) 0)) by lra.
    cbn [orb]. rewrite (Rmax_right (-9999) 50) by lra. do 3 f_equal. lra. }
  exists [mkCell 50 1 (1724/1000) 1; mkCell 50 1 (1724/1000) 1].
  assert (P : physical (mkCell 50 1 (1724/1000) 1)) by (unfold physical; cbn; lra).
  split; [|split; [reflexivity|split]].
  - unfold read_soil. rewrite Z, !One by lra. cbn [map zip4]. unfold om_of_oc, d_of_d, nodata.
    rewrite (proj2 (req_f 10 _)), (proj2 (req_f 1000 _)) by lra. replace (10/10*(1724/1000)) with (1724/1000) by field. replace (1000/1000) with 1 by field. reflexivity.
  - intros x [<-|[<-|[]]]; exact P.
  - apply C73_porosity_total. eexists. split; [left; reflexivity|]. unfold theta_cell. cbn [clay silt om dens]. rewrite ln_1.
    rewrite (proj2 (req_f _ 101)), (proj2 (req_f 1 10)), (proj2 (req_f 50 101)), (proj2 (req_f 1 101)) by lra. cbn [orb]. replace (1/1) with 1 by field. lra.
Qed.
