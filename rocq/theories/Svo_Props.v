(** C102: the standard names of saved variables. *)

From Coq Require Import String Ascii List Bool Arith.
From Verif Require Import Time_Model Time_Proofs Io_Model Io_Proofs Rts_Proofs Svo_Model.
Import ListNotations.
Local Open Scope string_scope.

(** ** Specification *)

(** the saved variables without a standard name *)
Definition nameless : list string := ["mr"; "zi"; "code"; "area"; "S"].
(** the standard names that share their short name with a later one *)
Definition shadowed : list string :=
  ["atmosphere__von_karman_constant"; "atmosphere_water__geomorphic_precipitation_leq-volume_flux";
   "channel_bottom_surface__slope"; "channel_water_total-sediment__volume_flow_rate_law_coefficient";
   "channel_water_x-section__volume_flow_rate_law_area_exponent"; "land_surface__aspect_angle";
   "land_surface__temperature"; "model_soil_layer-0__porosity"; "model_soil_layer-0__saturated_thickness";
   "model_soil_layer-0__thickness"].

(** ** Tables *)

Lemma find_in d k v : find d k = Some v -> In (k, v) d.
Proof.
  induction d as [|[a w] r IH]; cbn [find]; [easy|]. destruct (find r k) as [x|] eqn:E.
  - intros H. right. now apply IH.
  - destruct (String.eqb_spec a k) as [->|]; [|easy]. intros H. injection H as ->. now left.
Qed.
Lemma find_some d k v : In (k, v) d -> find d k <> None.
Proof.
  induction d as [|[a w] r IH]; cbn [find]; [easy|]. intros [H|H].
  - injection H as -> ->. destruct (find r k); [discriminate|]. now rewrite String.eqb_refl.
  - specialize (IH H). destruct (find r k); [discriminate|contradiction].
Qed.
Definition svo_table : list (string * string) := match get_svo_name_map with Ok d => d | Err _ => [] end.
Lemma svo_table_eq : get_svo_name_map = Ok svo_table.
Proof. vm_compute. reflexivity. Qed.
Lemma get_svo s : get_svo_name s = item_of svo_table s.
Proof. unfold get_svo_name. now rewrite svo_table_eq. Qed.
Lemma item_in d k v : item_of d k = Ok v -> In (k, v) d.
Proof. unfold item_of. destruct (find d k) eqn:E; [|easy]. intros H. injection H as ->. now apply find_in. Qed.
Definition same (a : res string) (b : string) : bool := match a with Ok x => String.eqb x b | Err _ => false end.
Lemma same_iff a b : same a b = true <-> a = Ok b.
Proof.
  destruct a as [x|e]; cbn [same]; [|split; discriminate].
  destruct (String.eqb_spec x b) as [->|Hn]; split; try easy; intros H; injection H; contradiction.
Qed.
Lemma all_in {A} (f : A -> bool) l : forallb f l = true -> forall x, In x l -> f x = true.
Proof. apply forallb_forall. Qed.

Definition mem (s : string) (l : list string) : bool := existsb (String.eqb s) l.
Lemma mem_iff s l : mem s l = true <-> In s l.
Proof.
  unfold mem. rewrite existsb_exists. split; [intros (x & Hx & E); apply String.eqb_eq in E; now subst|].
  intros H. exists s. split; [exact H|apply String.eqb_refl].
Qed.

Lemma round_in (g : string -> res string) (syn d : list (string * string)) :
  forallb (fun p => existsb (fun t => same (g (snd p)) t) (fst p :: map snd (filter (fun q => String.eqb (fst q) (fst p)) syn))) d = true ->
  forall s n, In (s, n) d -> exists t, g n = Ok t /\ (t = s \/ In (s, t) syn).
Proof.
  intros C s n H. pose proof (all_in _ _ C (s, n) H) as H2. cbn [fst snd] in H2. apply existsb_exists in H2.
  destruct H2 as (t & Ht & E). apply same_iff in E. exists t. split; [exact E|].
  destruct Ht as [Ht|Ht]; [left; symmetry; exact Ht|right]. apply in_map_iff in Ht.
  destruct Ht as ([a b] & <- & Hq). apply filter_In in Hq. destruct Hq as [Hq Ea]. cbn [fst snd] in *.
  apply String.eqb_eq in Ea. subst a. exact Hq.
Qed.
Lemma standard_in (g : string -> res string) (sh : list string) (d : list (string * string)) :
  forallb (fun p => Bool.eqb (same (g (snd p)) (fst p)) (negb (mem (fst p) sh))) d = true ->
  forall n s, In (n, s) d -> (g s = Ok n <-> ~ In n sh).
Proof.
  intros C n s H. pose proof (all_in _ _ C (n, s) H) as H2. cbn [fst snd] in H2. apply Bool.eqb_prop in H2.
  rewrite <- same_iff, H2, negb_true_iff, <- (mem_iff n sh).
  destruct (mem n sh); split; intros A; [discriminate|exfalso; apply A; reflexivity|discriminate|reflexivity].
Qed.
Lemma saved_in (g : string -> res string) (nl l : list string) :
  forallb (fun v => match g v with Ok _ => negb (mem v nl) | Err KeyError => mem v nl | Err _ => false end) l = true ->
  forall v, In v l -> (In v nl -> g v = Err KeyError) /\ (~ In v nl -> exists n, g v = Ok n).
Proof.
  intros C v H. pose proof (all_in _ _ C v H) as H2. cbv beta in H2. destruct (g v) as [n|e].
  - split; [intros Hm; apply mem_iff in Hm; rewrite Hm in H2; discriminate|intros _; exists n; reflexivity].
  - destruct e; try discriminate. apply mem_iff in H2. split; [reflexivity|intros Hn; exfalso; exact (Hn H2)].
Qed.
Lemma round_table : forallb (fun p => existsb (fun t => same (get_short_name (snd p)) t)
  (fst p :: map snd (filter (fun q => String.eqb (fst q) (fst p)) synonyms))) svo_table = true.
Proof. vm_compute. reflexivity. Qed.
Lemma standard_table : forallb (fun p => Bool.eqb (same (get_svo_name (snd p)) (fst p)) (negb (mem (fst p) shadowed))) short_name_map = true.
Proof. vm_compute. reflexivity. Qed.
Lemma saved_table c : forallb (fun v => match get_svo_name v with
  Ok _ => negb (mem v nameless) | Err KeyError => mem v nameless | Err _ => false end) (saved c) = true.
Proof. destruct c; vm_compute; reflexivity. Qed.

(** ** C102 *)

(** [C102_round] The standard name found for a short name has that short name, or the one it is
    another form of. *)
Theorem C102_round : forall s n, get_svo_name s = Ok n -> exists t, get_short_name n = Ok t /\ (t = s \/ In (s, t) synonyms).
Proof. intros s n H. rewrite get_svo in H. apply item_in in H. exact (round_in _ _ _ round_table s n H). Qed.
Print Assumptions C102_round.

(** [C102_standard] A standard name is found again from its short name if and only if it is not
    one of the ten that share theirs with a later one. *)
Theorem C102_standard : forall n s, get_short_name n = Ok s -> (get_svo_name s = Ok n <-> ~ In n shadowed).
Proof. intros n s H. apply (item_in short_name_map) in H. exact (standard_in _ _ _ standard_table n s H). Qed.
Print Assumptions C102_standard.

(** [C102_meaning_refuted] "A saved variable carries its own standard name": the slope of the channel
    beds and the surface temperature of the meteorology get those of other variables. *)
Theorem C102_meaning_refuted :
  get_short_name "channel_bottom_surface__slope" = Ok "S_bed" /\ get_svo_name "S_bed" = Ok "land_surface__slope" /\
  get_short_name "land_surface__temperature" = Ok "T_surf" /\ In "tsurf" (saved Met) /\ get_svo_name "tsurf" = Ok "soil_surface__temperature" /\
  (* the elevations of the erosion model *)
  In "z" (saved Erode) /\ get_svo_name "z" = Ok "atmosphere_bottom_air_flow__speed_reference_height".
Proof.
  split; [vm_compute; reflexivity|]. split; [vm_compute; reflexivity|]. split; [vm_compute; reflexivity|].
  split; [right; right; right; right; right; left; reflexivity|]. split; [vm_compute; reflexivity|].
  split; [left; reflexivity|vm_compute; reflexivity].
Qed.
Print Assumptions C102_meaning_refuted.

(** [C102_pixel] The standard name of a variable at a pixel is that of the variable. *)
Theorem C102_pixel : forall v row col, nosep "_" row = true -> nosep "_" col = true ->
  pixel_svo_name (pixel_name v row col) = get_svo_name v.
Proof.
  intros v row col Hr Hc. unfold pixel_svo_name, pixel_name, before_last.
  change ("_" ++ row) with (String "_" row). change ("_" ++ col) with (String "_" col).
  rewrite <- app_assoc_s, (rfind_app "_" (v ++ String "_" row) col Hc), take_app by reflexivity.
  now rewrite (rfind_app "_" v row Hr), take_app by reflexivity.
Qed.
Print Assumptions C102_pixel.

(** [C102_saved] Of the variables the components can save, five have no standard name. *)
Theorem C102_saved : forall c v, In v (saved c) ->
  (In v nameless -> get_svo_name v = Err KeyError) /\ (~ In v nameless -> exists n, get_svo_name v = Ok n).
Proof. intros c. exact (saved_in _ _ _ (saved_table c)). Qed.
Print Assumptions C102_saved.

Lemma open_all_ok l : (forall a, In a l -> exists n, a = Ok n) -> exists ns, open_all l = Ok ns /\ map Ok ns = l.
Proof.
  induction l as [|a r IH]; intros H; [now exists []|]. destruct (H a (or_introl eq_refl)) as (n & ->).
  destruct IH as (ns & E & M); [intros b Hb; apply H; now right|]. cbn [open_all rbind]. rewrite E.
  exists (n :: ns). cbn [rbind map]. now rewrite M.
Qed.
Lemma open_all_err l : (forall a, In a l -> (exists n, a = Ok n) \/ a = Err KeyError) -> In (Err KeyError) l -> open_all l = Err KeyError.
Proof.
  induction l as [|a r IH]; intros H Hi; [destruct Hi|]. cbn [open_all].
  destruct (H a (or_introl eq_refl)) as [(n & ->)| ->]; [|reflexivity]. cbn [rbind].
  destruct Hi as [Hi|Hi]; [discriminate|]. rewrite IH; [reflexivity|intros b Hb; apply H; now right|exact Hi].
Qed.

(** [C102_open] A component that saves none of the five opens its files, each with the standard name
    of its variable, and [C102_melt_refuted] one that saves any of them stops with a KeyError. *)
Theorem C102_open : forall c grids pixels row col, incl grids (saved c) -> incl pixels (saved c) ->
  nosep "_" row = true -> nosep "_" col = true -> (forall v, In v (grids ++ pixels) -> ~ In v nameless) ->
  exists ns, open_output_files grids pixels row col = Ok ns /\ map Ok ns = map get_svo_name (grids ++ pixels).
Proof.
  intros c grids pixels row col Hg Hp Hr Hc Hn. unfold open_output_files.
  rewrite (map_ext _ get_svo_name (fun v => C102_pixel v row col Hr Hc)), <- map_app. apply open_all_ok.
  intros a Ha. apply in_map_iff in Ha. destruct Ha as (v & <- & Hv). apply (C102_saved c v); [|now apply Hn].
  apply in_app_or in Hv. destruct Hv as [Hv|Hv]; [exact (Hg v Hv)|exact (Hp v Hv)].
Qed.
Print Assumptions C102_open.

Theorem C102_melt_refuted : forall c grids pixels row col, incl grids (saved c) -> incl pixels (saved c) ->
  nosep "_" row = true -> nosep "_" col = true -> (exists v, In v (grids ++ pixels) /\ In v nameless) ->
  open_output_files grids pixels row col = Err KeyError.
Proof.
  intros c grids pixels row col Hg Hp Hr Hc (w & Hw & Hn). unfold open_output_files.
  rewrite (map_ext _ get_svo_name (fun v => C102_pixel v row col Hr Hc)), <- map_app.
  assert (Hs : forall v, In v (grids ++ pixels) -> In v (saved c)) by (intros v Hv; apply in_app_or in Hv; destruct Hv as [Hv|Hv]; [exact (Hg v Hv)|exact (Hp v Hv)]).
  apply open_all_err.
  - intros a Ha. apply in_map_iff in Ha. destruct Ha as (v & <- & Hv). destruct (C102_saved c v (Hs v Hv)) as [A B].
    destruct (in_dec string_dec v nameless); [right; exact (A i)|left; exact (B n)].
  - apply in_map_iff. exists w. split; [|exact Hw]. now apply (C102_saved c w (Hs w Hw)).
Qed.
Print Assumptions C102_melt_refuted.

Example C102_case : In "mr" (saved Snow) /\ open_output_files ["hs"; "sw"] ["cc"] "3" "14"
    = Ok ["snowpack__depth"; "snowpack__liquid-equivalent_depth"; "snowpack__energy-per-area_cold_content"] /\
  pixel_svo_name "d_flood_3_14" = Ok "land_surface_water__depth".
Proof. split; [left; reflexivity|]. split; vm_compute; reflexivity. Qed.
