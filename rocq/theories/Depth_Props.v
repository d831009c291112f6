(* C68: the initial depth of flow carries the baseflow. *)
From Coq Require Import Reals Lra Lia List Bool.
From Verif Require Import ChanR_Model ChanR_Proofs Prep_Model Prep_Spec Tca_Props Depth_Proofs.
Import ListNotations.
Local Open Scope R_scope.

(* ---------- slopes ---------- *)
Lemma goods_in Sg x : In x (good_values Sg) <-> In (Some x) Sg /\ 0 < x.
Proof.
  unfold good_values. rewrite in_flat_map. split.
  - intros (s & Hs & Hx). destruct s as [y|]; [|destruct Hx]. unfold bad in Hx. destruct (Rle_dec y 0); [destruct Hx|].
    destruct Hx as [<-|[]]. split; [exact Hs|lra].
  - intros [H P]. exists (Some x). split; [exact H|]. unfold bad. destruct (Rle_dec x 0); [lra|]. left. reflexivity.
Qed.
(* the smallest good slope *)
Definition smallest_good (Sg : list (option R)) (m : R) : Prop :=
  In (Some m) Sg /\ 0 < m /\ forall x, In (Some x) Sg -> 0 < x -> m <= x.
(* good slopes are kept, all others become the smallest good one *)
Theorem C68_slopes : forall Sg Sl, remove_bad_slopes Sg = Some Sl ->
  exists m, smallest_good Sg m /\ length Sl = length Sg /\
  forall i s, nth_error Sg i = Some s ->
    (forall x, s = Some x -> 0 < x -> nth_error Sl i = Some x) /\
    ((forall x, s = Some x -> x <= 0) -> nth_error Sl i = Some m).
Proof.
  intros Sg Sl E. unfold remove_bad_slopes in E. destruct (good_values Sg) as [|x l] eqn:G; [discriminate E|].
  destruct (existsb bad Sg); [|discriminate E]. injection E as <-. exists (minl x l).
  destruct (minl_spec x l) as [M1 M2]. rewrite <- G in M1, M2. apply goods_in in M2 as [M2 M3].
  split; [split; [exact M2|split; [exact M3|]]|split; [apply map_length|]].
  - intros y Hy Py. apply M1. apply goods_in. auto.
  - intros i s Hs. split.
    + intros y -> Py. rewrite nth_error_map, Hs. cbn [option_map]. unfold bad. destruct (Rle_dec y 0); [lra|reflexivity].
    + intros H. rewrite nth_error_map, Hs. cbn [option_map]. destruct s as [y|]; [|reflexivity]. unfold bad.
      destruct (Rle_dec y 0); [reflexivity|]. specialize (H y eq_refl). lra.
Qed.
Print Assumptions C68_slopes.

(* the tool fails on a grid in which every slope is good, and on one in which none is *)
Theorem C68_all_slopes_good_refuted : forall B tol sites Sg,
  (forall s, In s Sg -> exists x, s = Some x /\ 0 < x) -> compute_initial_depth B tol sites Sg = TypeError.
Proof.
  intros B tol sites Sg H. unfold compute_initial_depth, remove_bad_slopes. destruct (good_values Sg); [reflexivity|].
  replace (existsb bad Sg) with false; [reflexivity|]. symmetry. apply not_true_is_false. intros X.
  apply existsb_exists in X as (s & Hs & Hb). destruct (H s Hs) as (x & -> & Px). unfold bad in Hb.
  destruct (Rle_dec x 0); [lra|discriminate Hb].
Qed.
Print Assumptions C68_all_slopes_good_refuted.
Theorem C68_runs_iff : forall B tol sites Sg,
  (exists d v, compute_initial_depth B tol sites Sg = Depths d v) <->
  (exists x, In (Some x) Sg /\ 0 < x) /\ (exists s, In s Sg /\ forall x, s = Some x -> x <= 0).
Proof.
  intros B tol sites Sg. unfold compute_initial_depth, remove_bad_slopes.
  assert (EB : existsb bad Sg = true <-> exists s, In s Sg /\ forall x, s = Some x -> x <= 0).
  { rewrite existsb_exists. split; intros (s & Hs & H); exists s; (split; [exact Hs|]).
    - intros x ->. unfold bad in H. destruct (Rle_dec x 0); [assumption|discriminate H].
    - destruct s as [x|]; [|reflexivity]. unfold bad. destruct (Rle_dec x 0); [reflexivity|]. specialize (H x eq_refl). lra. }
  destruct (good_values Sg) as [|y l] eqn:G.
  - split; [intros (d & v & H); discriminate H|]. intros [(x & Hx & Px) _].
    assert (In x (good_values Sg)) as I by (apply goods_in; auto). rewrite G in I. destruct I.
  - assert (I : In y (good_values Sg)) by (rewrite G; left; reflexivity). apply goods_in in I as [I P].
    destruct (existsb bad Sg) eqn:EE.
    + split; [|intros _; destruct (iterate _ _ _ _); eexists _, _; reflexivity].
      intros _. split; [exists y; auto|]. apply EB. reflexivity.
    + split; [intros (d & v & H); discriminate H|]. intros [_ X]. apply EB in X. discriminate X.
Qed.
Print Assumptions C68_runs_iff.

(* ---------- the equation ---------- *)
Lemma area_eq w th d : section_area w th d = Ac w th d.
Proof. unfold section_area, Ac. field. Qed.
Lemma perimeter_eq w th d : wetted_perimeter w th d = Pw w th d.
Proof. unfold wetted_perimeter, Pw. unfold Rdiv. ring. Qed.
Lemma sqrt_half S : 0 < S -> Rpower S (1/2) = sqrt S.
Proof. intros H. replace (1/2) with (/ 2) by lra. apply Rpower_sqrt. exact H. Qed.

Lemma rooted_normal w th n S Q r : channel_ok w th n S -> 0 <= Q ->
  normal_depth w th n S Q r <-> rooted w th (Q * n / sqrt S) r.
Proof.
  intros (Hw & Hth & Hne & Hn & HS) HQ. pose proof (sqrt_lt_R0 S HS) as Hs. unfold normal_depth, rooted.
  assert (ZK : Q * n / sqrt S = 0 <-> Q = 0).
  { split; [|intros ->; field; lra]. intros E. apply (Rmult_eq_compat_r (sqrt S)) in E.
    replace (Q * n / sqrt S * sqrt S) with (Q * n) in E by (field; lra). rewrite Rmult_0_l in E.
    apply Rmult_integral in E as [E|E]; [exact E|lra]. }
  assert (NE : 0 < r -> section_area w th r * manning_velocity w th n S r = Q <-> ff w th (Q * n / sqrt S) r = 0).
  { intros Hr. unfold manning_velocity. rewrite area_eq, perimeter_eq, sqrt_half by exact HS.
    pose proof (Ac_pos w th Hw Hth Hne r Hr) as PA. pose proof (Pw_pos w th Hw Hth r Hr) as PP.
    rewrite Rpower_div by assumption. unfold ff, pp. rewrite (aa_split w th Hw Hth Hne r Hr).
    pose proof (Rpower_pos (Ac w th r) (2/3)). pose proof (Rpower_pos (Pw w th r) (2/3)).
    set (a := Rpower (Ac w th r) (2/3)) in *. set (p := Rpower (Pw w th r) (2/3)) in *. set (A := Ac w th r) in *.
    split; intros E.
    - rewrite <- E. field. lra.
    - assert (a * A = Q * n / sqrt S * p) as F by lra.
      replace (A * (a / p * sqrt S / n)) with (a * A * (sqrt S / (p * n))) by (field; lra). rewrite F. field. lra. }
  assert (KP : 0 <= Q * n / sqrt S).
  { apply Rmult_le_pos; [apply Rmult_le_pos; lra|]. left. apply Rinv_0_lt_compat. exact Hs. }
  split; intros [[E ->]|H].
  - left. split; [apply ZK; exact E|reflexivity].
  - right. destruct H as [Hr E]. split; [|split; [exact Hr|apply NE; assumption]].
    assert (Q <> 0).
    { intros Z. rewrite Z in E. unfold manning_velocity in E. rewrite area_eq, perimeter_eq, sqrt_half in E by exact HS.
      pose proof (Ac_pos w th Hw Hth Hne r Hr). pose proof (Rpower_pos (Ac w th r / Pw w th r) (2/3)).
      assert (0 < Ac w th r * (Rpower (Ac w th r / Pw w th r) (2/3) * sqrt S / n)).
      { apply Rmult_lt_0_compat; [assumption|]. apply quot_pos; [apply Rmult_lt_0_compat; lra|lra]. }
      lra. }
    assert (Q * n / sqrt S <> 0) by (intros Z; apply ZK in Z; contradiction). lra.
  - left. split; [apply ZK; exact E|reflexivity].
  - right. destruct H as (_ & Hr & E). split; [exact Hr|apply NE; assumption].
Qed.

(* The author's question "are multiple roots possible?": no.  Every channel has at most one normal depth, and it
   has one below any depth at which it carries at least the baseflow. *)
Theorem C68_normal_depth_unique : forall w th n S Q r s, channel_ok w th n S -> 0 <= Q ->
  normal_depth w th n S Q r -> normal_depth w th n S Q s -> r = s.
Proof.
  intros w th n S Q r s C HQ Hr Hs. apply rooted_normal in Hr; [|assumption..]. apply rooted_normal in Hs; [|assumption..].
  destruct C as (Hw & Hth & Hne & Hn & HS).
  destruct Hr as [[E ->]|(K1 & R1 & E1)], Hs as [[F ->]|(K2 & R2 & E2)]; try lra.
  apply (root_unique w th (Q * n / sqrt S) Hw Hth Hne ltac:(lra)); assumption.
Qed.
Print Assumptions C68_normal_depth_unique.
Theorem C68_normal_depth_exists : forall w th n S Q d, channel_ok w th n S -> 0 <= Q -> 0 < d ->
  Q <= section_area w th d * manning_velocity w th n S d ->
  exists r, 0 <= r <= d /\ normal_depth w th n S Q r.
Proof.
  intros w th n S Q d C HQ Hd HC. destruct (Req_dec Q 0) as [Z|NZ]; [exists 0; split; [lra|left; auto]|].
  pose proof C as (Hw & Hth & Hne & Hn & HS). pose proof (sqrt_lt_R0 S HS) as Hs.
  assert (KP : 0 < Q * n / sqrt S) by (apply quot_pos; [apply Rmult_lt_0_compat; lra|exact Hs]).
  destruct (root_exists w th (Q * n / sqrt S) Hw Hth Hne ltac:(lra) d KP Hd) as (r & Hr & E).
  - unfold manning_velocity in HC. rewrite area_eq, perimeter_eq, sqrt_half in HC by exact HS.
    pose proof (Ac_pos w th Hw Hth Hne d Hd) as PA. pose proof (Pw_pos w th Hw Hth d Hd) as PP.
    rewrite Rpower_div in HC by assumption. unfold ff, pp. rewrite (aa_split w th Hw Hth Hne d Hd).
    pose proof (Rpower_pos (Ac w th d) (2/3)). pose proof (Rpower_pos (Pw w th d) (2/3)).
    set (a := Rpower (Ac w th d) (2/3)) in *. set (p := Rpower (Pw w th d) (2/3)) in *. set (A := Ac w th d) in *.
    apply (Rmult_le_compat_r (n / sqrt S * p)) in HC; [|left; apply Rmult_lt_0_compat; [apply quot_pos; assumption|assumption]].
    replace (A * (a / p * sqrt S / n) * (n / sqrt S * p)) with (a * A) in HC by (field; lra).
    replace (Q * (n / sqrt S * p)) with (Q * n / sqrt S * p) in HC by (field; lra). lra.
  - exists r. split; [lra|]. apply rooted_normal; [exact C|exact HQ|]. right. split; [exact KP|]. split; [lra|exact E].
Qed.
Print Assumptions C68_normal_depth_exists.

(* ---------- Newton's method ---------- *)
(* the denominator of the step is the derivative of its numerator *)
Theorem C68_newton_derivative : forall w th K d, 0 <= w -> 0 <= th < PI/2 -> 0 < w \/ 0 < th -> 0 < d ->
  derivable_pt_lim (numer w th K) d (denom w th K d).
Proof.
  intros w th K d Hw Hth Hne Hd. rewrite (denom_eq w th K Hw Hth Hne d Hd).
  pose proof (ff_deriv w th K Hw Hth Hne d Hd) as D.
  intros eps He. destruct (D eps He) as [del HD]. assert (Hm : 0 < Rmin del (d / 2)) by (apply Rmin_glb_lt; [apply cond_pos|lra]).
  exists (mkposreal _ Hm). intros h Hh0 Hh. cbn [pos] in Hh.
  assert (L1 : Rabs h < del) by (eapply Rlt_le_trans; [exact Hh|apply Rmin_l]).
  assert (L2 : Rabs h < d / 2) by (eapply Rlt_le_trans; [exact Hh|apply Rmin_r]).
  assert (0 < d + h) by (apply Rabs_def2 in L2; lra).
  rewrite !(numer_eq w th K Hw Hth Hne) by assumption. exact (HD h Hh0 L1).
Qed.
Print Assumptions C68_newton_derivative.

Lemma step_nth cs : forall d i c x, nth_error cs i = Some c -> nth_error d i = Some x -> nth_error (step cs d) i = Some (step1 c x).
Proof.
  induction cs as [|c0 cs IH]; intros [|x0 d] [|i] c x Hc Hx; try discriminate; cbn in *.
  - injection Hc as <-. injection Hx as <-. reflexivity.
  - apply IH; assumption.
Qed.
Lemma settled_nth tol d : forall d' i x y, settled tol d d' = true -> nth_error d i = Some x -> nth_error d' i = Some y ->
  Rabs (y - x) <= tol.
Proof.
  induction d as [|x0 d IH]; intros [|y0 d'] [|i] x y H Hx Hy; try discriminate; cbn in *.
  - injection Hx as <-. injection Hy as <-. apply andb_true_iff in H as [H _]. destruct (Rlt_dec tol (Rabs (y0 - x0))); [discriminate H|lra].
  - apply andb_true_iff in H as [_ H]. eapply IH; eassumption.
Qed.
Lemma settled_all tol d : forall d', (forall i x y, nth_error d i = Some x -> nth_error d' i = Some y -> Rabs (y - x) <= tol) ->
  settled tol d d' = true.
Proof.
  induction d as [|x0 d IH]; intros [|y0 d'] H; try reflexivity. cbn. apply andb_true_iff. split.
  - specialize (H 0%nat x0 y0 eq_refl eq_refl). destruct (Rlt_dec tol (Rabs (y0 - x0))); [lra|reflexivity].
  - apply IH. intros i x y Hx Hy. exact (H (Datatypes.S i) x y Hx Hy).
Qed.
Definition cell_ok (c : cell) (r : R) : Prop :=
  0 <= c_w c /\ 0 <= c_th c < PI/2 /\ (0 < c_w c \/ 0 < c_th c) /\ 0 <= c_K c /\ rooted (c_w c) (c_th c) (c_K c) r.
Lemma step_cell c r d : cell_ok c r -> r <= d -> 0 < d ->
  r <= step1 c d <= d /\ step1 c d - r <= 7/10 * (d - r) /\ 0 < step1 c d.
Proof. intros (Hw & Hth & Hne & HK & HR) H1 H2. apply (round_any _ _ _ Hw Hth Hne HK r d HR H1 H2). Qed.

Lemma iterate_cell tol cs i c r : nth_error cs i = Some c -> cell_ok c r ->
  forall fuel d x l d', nth_error d i = Some x -> r <= x -> 0 < x -> iterate fuel tol cs d = (l, d') ->
  exists y z, nth_error l i = Some y /\ nth_error d' i = Some z /\ z = step1 c y /\ r <= z <= y /\ y <= x /\ 0 < z /\
    z - r <= 7/10 * (y - r) /\ (Rabs (z - y) <= tol \/ y - r <= (7/10) ^ fuel * (x - r)).
Proof.
  intros Hc Hok. induction fuel as [|f IH]; intros d x l d' Hx Hr Hp E; cbn [iterate] in E;
    destruct (step_cell c r x Hok Hr Hp) as (S1 & S2 & S3); pose proof (step_nth cs d i c x Hc Hx) as N.
  - injection E as <- <-. exists x, (step1 c x). repeat split; try assumption; try lra.
  - destruct (settled tol d (step cs d)) eqn:SE.
    + injection E as <- <-. exists x, (step1 c x). repeat split; try assumption; try lra.
      left. eapply settled_nth; eassumption.
    + destruct (IH _ _ _ _ N (proj1 S1) S3 E) as (y & z & H1 & H2 & H3 & H4 & H5 & H6 & H7 & H8).
      exists y, z. repeat split; try assumption; try lra. destruct H8 as [H8|H8]; [left; exact H8|right].
      eapply Rle_trans; [exact H8|]. cbn [pow]. pose proof (pow_le (7/10) f ltac:(lra)).
      replace (7/10 * (7/10) ^ f * (x - r)) with ((7/10) ^ f * (7/10 * (x - r))) by ring. apply Rmult_le_compat_l; lra.
Qed.
Lemma iterate_settled tol cs : (forall i c, nth_error cs i = Some c -> exists r, cell_ok c r /\ r <= 500) ->
  forall fuel d, length d = length cs ->
  (forall i c x r, nth_error cs i = Some c -> cell_ok c r -> r <= 500 -> nth_error d i = Some x ->
     r <= x /\ 0 < x /\ (7/10) ^ fuel * (x - r) <= tol) ->
  settled tol (fst (iterate fuel tol cs d)) (snd (iterate fuel tol cs d)) = true.
Proof.
  intros Hall. assert (SL : forall cs d, length d = length cs -> length (step cs d) = length cs).
  { clear. induction cs as [|c cs IH]; intros [|x d] H; try discriminate; [reflexivity|]. cbn. f_equal. apply IH. cbn in H. lia. }
  induction fuel as [|f IH]; intros d HL Hd; cbn [iterate].
  - cbn [fst snd]. apply settled_all. intros i x y Hx Hy.
    assert (exists c, nth_error cs i = Some c) as [c Hc].
    { destruct (nth_error cs i) eqn:E; [eauto|]. apply nth_error_None in E. assert (i < length d)%nat by (apply nth_error_Some; congruence). lia. }
    destruct (Hall i c Hc) as (r & Hok & Hr5). destruct (Hd i c x r Hc Hok Hr5 Hx) as (H1 & H2 & H3). cbn [pow] in H3.
    rewrite (step_nth cs d i c x Hc Hx) in Hy. injection Hy as <-. destruct (step_cell c r x Hok H1 H2) as (S1 & _).
    rewrite Rabs_left1 by lra. lra.
  - destruct (settled tol d (step cs d)) eqn:SE; [exact SE|]. apply IH; [apply SL; exact HL|].
    intros i c y r Hc Hok Hr5 Hy.
    assert (exists x, nth_error d i = Some x) as [x Hx].
    { destruct (nth_error d i) eqn:E; [eauto|]. apply nth_error_None in E. assert (i < length cs)%nat by (apply nth_error_Some; congruence). lia. }
    destruct (Hd i c x r Hc Hok Hr5 Hx) as (H1 & H2 & H3). rewrite (step_nth cs d i c x Hc Hx) in Hy. injection Hy as <-.
    destruct (step_cell c r x Hok H1 H2) as (S1 & S2 & S3). split; [lra|]. split; [lra|].
    eapply Rle_trans; [|exact H3]. cbn [pow]. pose proof (pow_le (7/10) f ltac:(lra)).
    replace (7/10 * (7/10) ^ f * (x - r)) with ((7/10) ^ f * (7/10 * (x - r))) by ring. apply Rmult_le_compat_l; lra.
Qed.

Lemma zip3_nth {X Y Z W : Type} (f : X -> Y -> Z -> W) : forall a b c i x y z,
  nth_error a i = Some x -> nth_error b i = Some y -> nth_error c i = Some z -> nth_error (zip3 f a b c) i = Some (f x y z).
Proof.
  induction a as [|a0 a IH]; intros [|b0 b] [|c0 c] [|i] x y z Ha Hb Hc; try discriminate; cbn in *.
  - congruence.
  - apply IH; assumption.
Qed.
Lemma combine_nth_error {X Y : Type} : forall (a : list X) (b : list Y) i x y,
  nth_error a i = Some x -> nth_error b i = Some y -> nth_error (combine a b) i = Some (x, y).
Proof.
  induction a as [|a0 a IH]; intros [|b0 b] [|i] x y Ha Hb; try discriminate; cbn in *; [congruence|apply IH; assumption].
Qed.

(* the slope along the winding channel; the bank angle in radians; the discharge at the cell [m3/s] *)
Definition channel_slope (s : site) (S : R) : R := S / (if Req_EM_T (s_sinu s) 0 then 1 else s_sinu s).
Definition radians (deg : R) : R := deg * PI / 180.
Definition baseflow (B A_km2 : R) : R := B * (A_km2 * 1000000).
Definition site_ok (s : site) (S : R) : Prop :=
  channel_ok (s_w s) (radians (s_ang s)) (s_n s) (channel_slope s S).

Lemma mk_ok B s S r : site_ok s S -> 0 <= baseflow B (s_A s) ->
  normal_depth (s_w s) (radians (s_ang s)) (s_n s) (channel_slope s S) (baseflow B (s_A s)) r -> cell_ok (mk_cell B s S) r.
Proof.
  intros C HQ H. apply rooted_normal in H; [|assumption..]. destruct C as (Hw & Hth & Hne & Hn & HS).
  pose proof (sqrt_lt_R0 _ HS). unfold mk_cell, cell_ok. cbn [c_w c_th c_K].
  replace (s_ang s * (PI / 180)) with (radians (s_ang s)) by (unfold radians; field).
  change (S / fix_sinu (s_sinu s)) with (channel_slope s S).
  repeat split; try assumption; try apply Hth.
  apply Rmult_le_pos; [apply Rmult_le_pos; [exact HQ|lra]|]. left. apply Rinv_0_lt_compat. assumption.
Qed.

(* In every cell with a possible channel and a normal depth r of at most 500 m, the depth that is written is not
   below r and at most 7/3 of the tolerance above it -- whatever the other cells are -- and the velocity that is
   written is Manning's velocity at a depth within the tolerance of the depth that is written. *)
Theorem C68_initial_depth : forall B tol sites Sg Sl d v, 4/10000 <= tol ->
  remove_bad_slopes Sg = Some Sl -> compute_initial_depth B tol sites Sg = Depths d v ->
  forall i s S r, nth_error sites i = Some s -> nth_error Sl i = Some S -> site_ok s S -> 0 <= baseflow B (s_A s) -> r <= 500 ->
  normal_depth (s_w s) (radians (s_ang s)) (s_n s) (channel_slope s S) (baseflow B (s_A s)) r ->
  exists x y, holds d i x /\ 0 < x /\ r <= x <= r + 7/3 * tol /\
    holds v i (manning_velocity (s_w s) (radians (s_ang s)) (s_n s) (channel_slope s S) y) /\ x <= y <= x + tol.
Proof.
  intros B tol sites Sg Sl d v Ht ES E i s S r Hs HS Hok HQ H5 Hr. unfold compute_initial_depth in E. rewrite ES in E.
  set (cs := map (fun x => mk_cell B (fst x) (snd x)) (combine sites Sl)) in E.
  destruct (iterate max_tries tol cs (map (fun _ => 500) cs)) as [l d'] eqn:EI. injection E as <- <-.
  assert (Hc : nth_error cs i = Some (mk_cell B s S)).
  { unfold cs. rewrite nth_error_map, (combine_nth_error _ _ _ _ _ Hs HS). reflexivity. }
  assert (Hx : nth_error (map (fun _ => 500) cs) i = Some 500) by (rewrite nth_error_map, Hc; reflexivity).
  pose proof (mk_ok B s S r Hok HQ Hr) as C.
  destruct (iterate_cell tol cs i _ r Hc C max_tries _ 500 l d' Hx H5 ltac:(lra) EI)
    as (y & z & H1 & H2 & H3 & H4 & H6 & H7 & H8 & H9).
  assert (NR : 0 <= r) by (destruct Hr as [[_ ->]|[Hr _]]; lra).
  assert (GAP : y - r <= 10/3 * tol /\ y - z <= tol).
  { destruct H9 as [H9|H9].
    - rewrite Rabs_left1 in H9 by lra. lra.
    - assert ((7/10) ^ max_tries * (500 - r) <= (7/10) ^ max_tries * 500) by (apply Rmult_le_compat_l; [apply pow_le; lra|lra]).
      assert ((7/10) ^ max_tries * 500 <= 4/10000) by (unfold max_tries; cbn [pow]; lra). lra. }
  exists z, y. split; [exact H2|]. split; [exact H7|]. split; [lra|]. split; [|lra].
  unfold holds. rewrite (zip3_nth v0_of sites Sl l i s S y Hs HS H1). f_equal. unfold v0_of.
  destruct Hok as (Hw & Hth & Hne & Hn & HSl).
  change (S / fix_sinu (s_sinu s)) with (channel_slope s S).
  replace (s_ang s * (PI / 180)) with (radians (s_ang s)) by (unfold radians; field).
  unfold manning_velocity. rewrite area_eq, perimeter_eq, sqrt_half by exact HSl. rewrite powr_Rpower; [reflexivity|].
  apply quot_pos; [apply Ac_pos|apply Pw_pos]; try assumption; lra.
Qed.
Print Assumptions C68_initial_depth.

(* When every cell has a normal depth of at most 500 m, the iteration settles: no round is cut off by the limit
   on the number of tries (the tolerance being at least 0.4 mm; the default is 1 mm). *)
Theorem C68_settles : forall B tol sites Sl, 4/10000 <= tol ->
  (forall i s S, nth_error sites i = Some s -> nth_error Sl i = Some S -> site_ok s S /\ 0 <= baseflow B (s_A s) /\
     exists r, r <= 500 /\
       normal_depth (s_w s) (radians (s_ang s)) (s_n s) (channel_slope s S) (baseflow B (s_A s)) r) ->
  let cs := map (fun x => mk_cell B (fst x) (snd x)) (combine sites Sl) in
  let (last_d, d) := iterate max_tries tol cs (map (fun _ => 500) cs) in settled tol last_d d = true.
Proof.
  intros B tol sites Sl Ht H cs. destruct (iterate max_tries tol cs (map (fun _ => 500) cs)) as [l d] eqn:E.
  replace l with (fst (iterate max_tries tol cs (map (fun _ => 500) cs))) by (rewrite E; reflexivity).
  replace d with (snd (iterate max_tries tol cs (map (fun _ => 500) cs))) by (rewrite E; reflexivity).
  assert (Hall : forall i c, nth_error cs i = Some c -> exists r, cell_ok c r /\ r <= 500).
  { intros i c Hc. unfold cs in Hc. rewrite nth_error_map in Hc. destruct (nth_error (combine sites Sl) i) as [[s S]|] eqn:EC; [|discriminate Hc].
    injection Hc as <-. assert (nth_error sites i = Some s /\ nth_error Sl i = Some S) as [A1 A2].
    { revert i EC. clear. revert Sl. induction sites as [|a l IH]; intros [|b m] [|i] EC; try discriminate; cbn in *; [|apply IH; exact EC].
      injection EC as <- <-. auto. }
    destruct (H i s S A1 A2) as (C & HQ & r & H5 & Hr). exists r. split; [apply mk_ok; assumption|exact H5]. }
  apply iterate_settled; [exact Hall|apply map_length|].
  intros i c x r Hc Hok H5 Hx. rewrite nth_error_map in Hx. rewrite Hc in Hx. injection Hx as <-.
  assert (NR : 0 <= r) by (destruct Hok as (_ & _ & _ & _ & [[_ ->]|(_ & Hr & _)]); lra).
  split; [exact H5|]. split; [lra|].
  assert ((7/10) ^ max_tries * (500 - r) <= (7/10) ^ max_tries * 500) by (apply Rmult_le_compat_l; [apply pow_le; lra|lra]).
  assert ((7/10) ^ max_tries * 500 <= 4/10000) by (unfold max_tries; cbn [pow]; lra). lra.
Qed.
Print Assumptions C68_settles.

(* the baseflow flux of an outlet gives back its discharge, in either unit *)
Theorem C68_baseflow_flux : forall A_km2 Q, 0 < A_km2 ->
  baseflow (baseflow_volume_flux A_km2 Q false) A_km2 = Q /\
  baseflow (baseflow_volume_flux A_km2 Q true / (1000 * 3600)) A_km2 = Q.
Proof. intros A Q H. unfold baseflow, baseflow_volume_flux. split; field; lra. Qed.
Print Assumptions C68_baseflow_flux.

(* Non-vacuity: a vertical-sided, 10 m wide channel and an edge cell without slope *)
Example C68_demo :
  exists d v x, compute_initial_depth (1/1000000) (1/1000)
     [{| s_A := 0; s_w := 1; s_n := 1; s_ang := 30; s_sinu := 0 |};
      {| s_A := 10; s_w := 10; s_n := 3/100; s_ang := 0; s_sinu := 1 |}] [Some 0; Some (1/100)] = Depths d v /\
  holds d 0 x /\ 0 < x <= 7/3 * (1/1000).
Proof.
  set (sites := [{| s_A := 0; s_w := 1; s_n := 1; s_ang := 30; s_sinu := 0 |};
                 {| s_A := 10; s_w := 10; s_n := 3/100; s_ang := 0; s_sinu := 1 |}]).
  destruct (proj2 (C68_runs_iff (1/1000000) (1/1000) sites [Some 0; Some (1/100)])) as (d & v & E).
  { split; [exists (1/100); split; [right; left; reflexivity|lra]|]. exists (Some 0). split; [left; reflexivity|]. intros x [= <-]. lra. }
  assert (RB : remove_bad_slopes [Some 0; Some (1/100)] = Some [1/100; 1/100]).
  { unfold remove_bad_slopes, good_values, bad. cbn [flat_map app existsb map]. destruct (Rle_dec 0 0); [|lra]. destruct (Rle_dec (1/100) 0); [lra|].
    reflexivity. }
  destruct (C68_initial_depth (1/1000000) (1/1000) sites [Some 0; Some (1/100)] [1/100; 1/100] d v ltac:(lra) RB E 0 _ _ 0 eq_refl eq_refl)
    as (x & y & H1 & H2 & H3 & _).
  - unfold site_ok, channel_ok, channel_slope, radians. cbn [s_w s_ang s_n s_sinu]. destruct (Req_EM_T 0 0); [|lra].
    pose proof PI_RGT_0. repeat split; lra.
  - unfold baseflow. cbn [s_A]. lra.
  - lra.
  - left. split; [unfold baseflow; cbn [s_A]; lra|reflexivity].
  - exists d, v, x. split; [exact E|]. split; [exact H1|]. lra.
Qed.
