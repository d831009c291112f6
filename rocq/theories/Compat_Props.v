(** C104: the components of the repository fit together. *)

From Coq Require Import String List Bool Arith Lia.
From Verif Require Import Time_Model Emeli_Model Emeli_Spec Emeli_Proofs Svo_Model Compat_Model.
Import ListNotations.
Local Open Scope string_scope.

(** ** Specification *)

(** the names of the components *)
Definition components : list string := map fst repository.

(** exactly one of the components [g] is in the set [X] *)
Definition one_of (g X : list string) : Prop := exists a, In a g /\ In a X /\ forall b, In b g -> In b X -> b = a.

(** Of each of these a model needs exactly one.  A glacier takes the place of both the snow and the ice; the
    elevations come from the saturated zone or the erosion model. *)
Definition needed : list (list string) :=
  [["tf_meteorology"];
   ["tf_channels_kin_wave"; "tf_channels_diff_wave"; "tf_channels_dynam_wave"];
   ["tf_infil_green_ampt"; "tf_infil_smith_parlange"; "tf_infil_beven"; "tf_infil_richards_1d"];
   ["tf_evap_energy_balance"; "tf_evap_priestley_taylor"; "tf_evap_read_file"];
   ["tf_satzone_darcy_layers"; "tf_satzone_attenuate"];
   ["tf_glacier_energy_balance"; "tf_snow_degree_day"; "tf_snow_energy_balance"];
   ["tf_ice_gc2d"; "tf_glacier_energy_balance"];
   ["tf_satzone_darcy_layers"; "tf_satzone_attenuate"; "erode_d8_global"]].

(** the variables without a short name, and those without units *)
Definition no_name : list (string * string) :=
  (map (fun c => (c, "channel_water_x-section_top__width")) ["tf_channels_kin_wave"; "tf_channels_diff_wave"; "tf_channels_dynam_wave"] ++
   [("tf_meteorology", "atmosphere_bottom_air__neutral_bulk_aerodynamic_conductance")] ++
   map (pair "tf_satzone_darcy_layers")
     ["model_soil_layer-0__porosity"; "model_soil_layer-0__saturated_thickness"; "model_soil_layer-0__thickness";
      "model_soil_layer-1__porosity"; "model_soil_layer-1__saturated_thickness"; "model_soil_layer-1__thickness";
      "model_soil_layer-2__porosity"; "model_soil_layer-2__saturated_thickness"; "model_soil_layer-2__thickness"] ++
   map (pair "topoflow_driver") ["ngen::mass_in"; "ngen::mass_out"; "ngen::mass_stored"; "ngen::mass_leaked"])%list.
Definition no_units : list (string * string) :=
  (map (fun c => (c, "channel_water_x-section_top__width")) ["tf_channels_kin_wave"; "tf_channels_diff_wave"; "tf_channels_dynam_wave"] ++
   [("tf_meteorology", "atmosphere_bottom_air__neutral_bulk_aerodynamic_conductance");
    ("tf_glacier_energy_balance", "cryosphere__domain_time_integral_of_melt_volume_flux")])%list.

(** ** Providers in a set of components *)

Lemma mem_In s l : mem s l = true <-> In s l.
Proof.
  unfold mem. rewrite existsb_exists. split; [intros (x & Hx & E); apply String.eqb_eq in E; now subst|].
  intros H. exists s. split; [exact H|apply String.eqb_refl].
Qed.
Lemma count_mem l x : NoDup l -> count_occ string_dec l x = if mem x l then 1 else 0.
Proof.
  intros N. destruct (mem x l) eqn:E.
  - apply mem_In in E. apply (NoDup_count_occ' string_dec l); assumption.
  - apply count_occ_not_In. intros Y. apply mem_In in Y. congruence.
Qed.
Definition provs (S : string -> names) (all : list string) (x : string) : list string := filter (fun a => mem x (n_out (S a))) all.
Definition inside (g X : list string) : nat := List.length (filter (fun a => mem a g) X).

Lemma times S all X x : (forall a, In a all -> NoDup (n_out (S a))) -> incl X all ->
  times_provided (map S X) x = inside (provs S all x) X.
Proof.
  intros N. unfold times_provided, inside. induction X as [|a X IH]; intros H; [reflexivity|].
  cbn [map flat_map filter]. rewrite count_occ_app, IH by (intros b Hb; apply H; now right).
  assert (Ha : In a all) by (apply H; now left). rewrite (count_mem _ _ (N a Ha)).
  assert (E : mem a (provs S all x) = mem x (n_out (S a))).
  { apply Bool.eq_iff_eq_true. rewrite mem_In. unfold provs. rewrite filter_In. tauto. }
  rewrite E. now destruct (mem x (n_out (S a))).
Qed.
Lemma inside_one g X : NoDup X -> inside g X = 1 <-> one_of g X.
Proof.
  intros N. unfold inside, one_of. pose proof (NoDup_filter (fun a => mem a g) N) as NF.
  assert (F : forall b, In b (filter (fun a => mem a g) X) <-> In b X /\ In b g) by (intros b; rewrite filter_In, mem_In; tauto).
  destruct (filter (fun a => mem a g) X) as [|a [|b r]]; cbn [length].
  - split; [discriminate|]. intros (a & Hg & HX & _). destruct (proj2 (F a) (conj HX Hg)).
  - split; [|reflexivity]. intros _. exists a. destruct (proj1 (F a) (or_introl eq_refl)) as [HX Hg].
    split; [exact Hg|]. split; [exact HX|]. intros b Hb Hx. destruct (proj2 (F b) (conj Hx Hb)) as [E|[]]. now symmetry.
  - split; [lia|]. intros (c & _ & _ & U). exfalso. inversion NF as [|? ? Hn _]; subst. apply Hn. left.
    destruct (proj1 (F a) (or_introl eq_refl)) as [Ha Ga]. destruct (proj1 (F b) (or_intror (or_introl eq_refl))) as [Hb Gb].
    rewrite (U a Ga Ha). now apply U.
Qed.
Lemma complete_iff S all X : (forall a, In a all -> NoDup (n_out (S a))) -> (forall a, In a all -> ~ In "" (n_in (S a))) ->
  incl X all -> NoDup X ->
  check_providers (map S X) = true <-> forall a x, In a X -> In x (n_in (S a)) -> one_of (provs S all x) X.
Proof.
  intros N NE H D. rewrite check_iff. unfold uniquely_provided. split.
  - intros U a x Ha Hx. apply inside_one; [exact D|]. rewrite <- (times S all X x N H). apply (U (S a)); [now apply in_map|exact Hx|].
    intros ->. exact (NE a (H a Ha) Hx).
  - intros U c x Hc Hx _. apply in_map_iff in Hc. destruct Hc as (a & <- & Ha). rewrite (times S all X x N H).
    apply inside_one; [exact D|]. exact (U a x Ha Hx).
Qed.

(** ** What the tables say *)

Fixpoint nodupb (l : list string) : bool := match l with [] => true | x :: r => negb (mem x r) && nodupb r end.
Lemma nodupb_ok l : nodupb l = true -> NoDup l.
Proof.
  induction l as [|x l IH]; cbn [nodupb]; intros H; constructor; apply andb_true_iff in H; destruct H as [A B].
  - apply negb_true_iff in A. intros Y. apply mem_In in Y. congruence.
  - now apply IH.
Qed.
Definition same_list (a b : list string) : bool := if list_eq_dec string_dec a b then true else false.
Lemma same_list_ok a b : same_list a b = true -> a = b.
Proof. unfold same_list. destruct (list_eq_dec string_dec a b); [trivial|discriminate]. Qed.

(** generic: the check of a table [S] over [all], against the groups *)
Definition outs_ok (S : string -> names) (all : list string) : bool := forallb (fun a => nodupb (n_out (S a)) && negb (mem "" (n_in (S a)))) all.
Definition ins_ok (S : string -> names) (all : list string) (gs : list (list string)) : bool :=
  forallb (fun a => forallb (fun x => existsb (same_list (provs S all x)) gs) (n_in (S a))) all.
(** each group is needed by every component of [l] *)
Definition uses (S : string -> names) (all l : list string) (g : list string) : bool :=
  forallb (fun a => existsb (fun x => same_list (provs S all x) g) (n_in (S a))) l.

Lemma by_tables S all gs g3 g8 rest drv X : outs_ok S all = true -> ins_ok S all gs = true ->
  forallb (uses S all [drv]) rest = true -> uses S all g3 g8 = true -> In g3 rest -> (forall g, In g gs -> g = g8 \/ In g rest) ->
  (forall g, In g rest -> In g gs) -> In g8 gs ->
  incl X all -> NoDup X -> In drv X -> check_providers (map S X) = true <-> forall g, In g gs -> one_of g X.
Proof.
  intros O I R U G3 G G' G8 H D Hd.
  assert (O1 : forall a, In a all -> NoDup (n_out (S a)) /\ ~ In "" (n_in (S a))).
  { intros a Ha. unfold outs_ok in O. rewrite forallb_forall in O. specialize (O a Ha). apply andb_true_iff in O. destruct O as [A B].
    split; [now apply nodupb_ok|]. apply negb_true_iff in B. intros Y. apply mem_In in Y. congruence. }
  rewrite (complete_iff S all X) by (try assumption; intros a Ha; apply (O1 a Ha)). split.
  - intros U1.
    assert (HR : forall g, In g rest -> one_of g X).
    { intros g Hg. rewrite forallb_forall in R. specialize (R g Hg). cbn [uses forallb] in R. unfold uses in R. cbn [forallb] in R.
      rewrite andb_true_r in R. apply existsb_exists in R. destruct R as (x & Hx & E). apply same_list_ok in E. subst g. exact (U1 drv x Hd Hx). }
    intros g Hg. destruct (G g Hg) as [->|Hr]; [|now apply HR].
    destruct (HR g3 G3) as (a & Ga & Xa & _). unfold uses in U. rewrite forallb_forall in U. specialize (U a Ga).
    apply existsb_exists in U. destruct U as (x & Hx & E). apply same_list_ok in E. subst g8. exact (U1 a x Xa Hx).
  - intros HG a x Ha Hx. unfold ins_ok in I. rewrite forallb_forall in I. specialize (I a (H a Ha)).
    rewrite forallb_forall in I. specialize (I x Hx). apply existsb_exists in I. destruct I as (g & Hg & E).
    apply same_list_ok in E. rewrite E. now apply HG.
Qed.

Lemma repository_outs : outs_ok seen components = true. Proof. vm_compute. reflexivity. Qed.
Lemma repository_ins : ins_ok seen components needed = true. Proof. vm_compute. reflexivity. Qed.
Lemma driver_uses : forallb (uses seen components ["topoflow_driver"]) (firstn 7 needed) = true. Proof. vm_compute. reflexivity. Qed.
Lemma infil_uses : uses seen components (nth 2 needed []) (nth 7 needed []) = true. Proof. vm_compute. reflexivity. Qed.

(** ** C104 *)

(** [C104_complete] A set of components of the repository with the driver is accepted (every input has exactly one
    provider) if and only if it has exactly one component of each of the eight groups; the diversions, the flow
    grid and the HIS component may be there or not. *)
Theorem C104_complete : forall X, incl X components -> NoDup X -> In "topoflow_driver" X ->
  check_providers (map seen X) = true <-> forall g, In g needed -> one_of g X.
Proof.
  intros X H D Hd.
  apply (by_tables seen components needed (nth 2 needed []) (nth 7 needed []) (firstn 7 needed) "topoflow_driver" X
           repository_outs repository_ins driver_uses infil_uses); try assumption.
  - right. right. left. reflexivity.
  - intros g Hg. unfold needed in *. cbn [In firstn nth] in *. intuition.
  - intros g Hg. unfold needed in *. cbn [In firstn nth] in *. intuition.
  - unfold needed. cbn [In nth]. intuition.
Qed.
Print Assumptions C104_complete.

(** [C104_no_ice_refuted] "A model without snow and ice, or with snow only, can leave out the ice component": the set is
    not accepted. *)
Theorem C104_no_ice_refuted : forall X, incl X components -> NoDup X -> In "topoflow_driver" X ->
  ~ In "tf_ice_gc2d" X -> ~ In "tf_glacier_energy_balance" X -> check_providers (map seen X) = false.
Proof.
  intros X H D Hd A B. destruct (check_providers (map seen X)) eqn:E; [|reflexivity]. exfalso.
  assert (G : In ["tf_ice_gc2d"; "tf_glacier_energy_balance"] needed) by (unfold needed; cbn [In]; tauto).
  destruct (proj1 (C104_complete X H D Hd) E _ G) as (a & [<-|[<-|[]]] & Ha & _); contradiction.
Qed.
Print Assumptions C104_no_ice_refuted.

(** [C104_glacier_refuted] "The glacier component can be run beside the snow or the ice component": no such set is accepted. *)
Theorem C104_glacier_refuted : forall X a, incl X components -> NoDup X -> In "topoflow_driver" X ->
  In "tf_glacier_energy_balance" X -> In a ["tf_ice_gc2d"; "tf_snow_degree_day"; "tf_snow_energy_balance"] -> In a X ->
  check_providers (map seen X) = false.
Proof.
  intros X a H D Hd A Ha B. destruct (check_providers (map seen X)) eqn:E; [|reflexivity]. exfalso.
  assert (K : exists g, In g needed /\ In a g /\ In "tf_glacier_energy_balance" g /\ a <> "tf_glacier_energy_balance").
  { destruct Ha as [<-|[<-|[<-|[]]]];
    [exists ["tf_ice_gc2d"; "tf_glacier_energy_balance"]
    |exists ["tf_glacier_energy_balance"; "tf_snow_degree_day"; "tf_snow_energy_balance"]
    |exists ["tf_glacier_energy_balance"; "tf_snow_degree_day"; "tf_snow_energy_balance"]];
    (split; [unfold needed; cbn [In]; tauto|]); (split; [cbn [In]; tauto|]); (split; [cbn [In]; tauto|discriminate]). }
  destruct K as (g & Hg & Ga & Gg & Hn). destruct (proj1 (C104_complete X H D Hd) E g Hg) as (b & _ & _ & U).
  apply Hn. rewrite (U a Ga B). symmetry. now apply U.
Qed.
Print Assumptions C104_glacier_refuted.

(** the sets that the provider files of the examples name, and that of cfg_templates/Test1 *)
Definition example (channels infil : string) : list string :=
  ["tf_meteorology"; "tf_diversions_fraction_method"; channels; "tf_snow_degree_day"; "tf_satzone_darcy_layers";
   "tf_evap_priestley_taylor"; infil; "tf_ice_gc2d"; "topoflow_driver"].
Definition template : list string :=
  ["tf_meteorology"; "tf_diversions_fraction_method"; "tf_channels_diff_wave"; "tf_snow_degree_day"; "tf_satzone_darcy_layers";
   "tf_evap_priestley_taylor"; "tf_infil_richards_1d"; "tf_ice_gc2d"; "tf_glacier_energy_balance"; "topoflow_driver"].

(** [C104_examples] The sets of the examples are accepted for every choice of channels and infiltration. *)
Theorem C104_examples : forall c i, In c (nth 1 needed []) -> In i (nth 2 needed []) -> check_providers (map seen (example c i)) = true.
Proof.
  assert (C : forallb (fun c => forallb (fun i => check_providers (map seen (example c i))) (nth 2 needed [])) (nth 1 needed []) = true)
    by (vm_compute; reflexivity).
  intros c i Hc Hi. rewrite forallb_forall in C. specialize (C c Hc). rewrite forallb_forall in C. exact (C i Hi).
Qed.
Print Assumptions C104_examples.

(** [C104_template_refuted] "The provider file of the templates describes a model": both ice and glacier provide the melt. *)
Theorem C104_template_refuted : check_providers (map seen template) = false.
Proof. vm_compute. reflexivity. Qed.
Print Assumptions C104_template_refuted.

(** [C104_diversions_refuted] "Sources, sinks and canals reach the channels": no component takes any variable of the
    diversions component. *)
Theorem C104_diversions_refuted : forall x, In x (n_out (seen "tf_diversions_fraction_method")) ->
  forall u, In u components -> ~ In x (n_in (seen u)).
Proof.
  assert (C : forallb (fun x => forallb (fun u => negb (mem x (n_in (seen u)))) components) (n_out (seen "tf_diversions_fraction_method")) = true)
    by (vm_compute; reflexivity).
  revert C. generalize (n_out (seen "tf_diversions_fraction_method")) components. intros l cs C x Hx u Hu Y.
  rewrite forallb_forall in C. specialize (C x Hx). rewrite forallb_forall in C. specialize (C u Hu).
  apply mem_In in Y. rewrite Y in C. discriminate.
Qed.
Print Assumptions C104_diversions_refuted.

Definition connects (p u x : string) : bool := match connect p u x with Ok (_, _, b) => b | Err _ => false end.

(** [C104_connect] Whatever the set, a connection between an output and an input of the same name finds the short names
    on both sides, and the units agree. *)
Theorem C104_connect : forall p u x, In p components -> In u components -> In x (n_out (seen p)) -> In x (n_in (seen u)) ->
  exists ps us un, get_var_name p x = Ok ps /\ get_var_name u x = Ok us /\ get_var_units p x = Ok un /\ get_var_units u x = Ok un /\
    connect p u x = Ok (ps, us, true).
Proof.
  assert (C : forallb (fun p => forallb (fun u => forallb (fun x => implb (mem x (n_out (seen p))) (connects p u x)) (n_in (seen u))) components) components = true)
    by (vm_compute; reflexivity).
  revert C. generalize components. intros cs C p u x Hp Hu Hx Hi.
  rewrite forallb_forall in C. specialize (C p Hp). rewrite forallb_forall in C. specialize (C u Hu).
  rewrite forallb_forall in C. specialize (C x Hi). apply mem_In in Hx. rewrite Hx in C. cbn [implb] in C.
  unfold connects, connect in *. destruct (get_var_name p x) as [ps|]; [|discriminate]. cbn [rbind] in *.
  destruct (get_var_units p x) as [pu|]; [|discriminate]. cbn [rbind] in *.
  destruct (get_var_units u x) as [uu|]; [|discriminate]. cbn [rbind] in *.
  destruct (get_var_name u x) as [us|]; [|discriminate]. cbn [rbind] in *.
  apply String.eqb_eq in C as C'. subst uu.
  exists ps, us, pu. refine (conj eq_refl (conj eq_refl (conj eq_refl (conj eq_refl _)))). now rewrite C.
Qed.
Print Assumptions C104_connect.

(** [C104_warning] For any two components and any variable they both have: different units are noticed. *)
Theorem C104_warning : forall p u x ps us pu uu b, get_var_name p x = Ok ps -> get_var_name u x = Ok us ->
  get_var_units p x = Ok pu -> get_var_units u x = Ok uu -> connect p u x = Ok (ps, us, b) -> b = true <-> pu = uu.
Proof.
  intros p u x ps us pu uu b A B C D. unfold connect. rewrite A, B, C, D. cbn [rbind]. intros E. injection E as <-.
  rewrite String.eqb_eq. split; intros ->; reflexivity.
Qed.
Print Assumptions C104_warning.

Definition pair_in (a b : string) (l : list (string * string)) : bool := existsb (fun p => String.eqb (fst p) a && String.eqb (snd p) b) l.
Lemma pair_in_iff a b l : pair_in a b l = true <-> In (a, b) l.
Proof.
  unfold pair_in. rewrite existsb_exists. split.
  - intros ([x y] & Hx & E). cbn [fst snd] in E. apply andb_true_iff in E. destruct E as [E1 E2].
    apply String.eqb_eq in E1. apply String.eqb_eq in E2. now subst.
  - intros H. exists (a, b). split; [exact H|]. cbn [fst snd]. now rewrite !String.eqb_refl.
Qed.
Lemma listed (g : string -> string -> res string) (V : string -> list string) l cs :
  forallb (fun p => forallb (fun x => match g p x with Ok _ => negb (pair_in p x l) | Err KeyError => pair_in p x l | Err _ => false end) (V p)) cs = true ->
  forall p x, In p cs -> In x (V p) -> (In (p, x) l -> g p x = Err KeyError) /\ (~ In (p, x) l -> exists s, g p x = Ok s).
Proof.
  intros C p x Hp Hx. rewrite forallb_forall in C. specialize (C p Hp). rewrite forallb_forall in C. specialize (C x Hx).
  destruct (g p x) as [s|e].
  - apply negb_true_iff in C. split; [intros Y; apply pair_in_iff in Y; congruence|intros _; now exists s].
  - destruct e; try discriminate. apply pair_in_iff in C. split; [reflexivity|intros Y; contradiction].
Qed.

(** [C104_names] A variable that a component lists has a short name, so that its value can be read, except for 17;
    [C104_units] it has units, except for 5. *)
Theorem C104_names : forall p x, In p components -> In x (n_in (seen p) ++ n_out (seen p)) ->
  (In (p, x) no_name -> get_var_name p x = Err KeyError) /\ (~ In (p, x) no_name -> exists s, get_var_name p x = Ok s).
Proof. apply listed. vm_compute. reflexivity. Qed.
Print Assumptions C104_names.
Theorem C104_units : forall p x, In p components -> In x (n_in (seen p) ++ n_out (seen p)) ->
  (In (p, x) no_units -> get_var_units p x = Err KeyError) /\ (~ In (p, x) no_units -> exists s, get_var_units p x = Ok s).
Proof. apply listed. vm_compute. reflexivity. Qed.
Print Assumptions C104_units.

Example C104_case :
  (let X := ["tf_meteorology"; "tf_channels_kin_wave"; "tf_infil_beven"; "tf_evap_energy_balance"; "tf_satzone_attenuate";
             "tf_glacier_energy_balance"; "d8_global"; "topoflow_driver"] in
   forallb (fun a => mem a components) X = true /\ nodupb X = true /\ check_providers (map seen X) = true) /\
  connect "tf_meteorology" "tf_channels_kin_wave" "atmosphere_water__rainfall_volume_flux" = Ok ("P_rain", "P_rain", true) /\
  connect "tf_meteorology" "erode_d8_global" "model__time_step" = Ok ("dt", "dt", false) /\
  forallb (fun p => mem (fst p) components && mem (snd p) (n_out (seen (fst p)))) (no_name ++ no_units) = true /\
  mem "canals_exit_water__volume_flow_rate" (n_out (seen "tf_diversions_fraction_method")) = true.
Proof. vm_compute. repeat split. Qed.
