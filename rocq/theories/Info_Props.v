(* C88: what every component reports about its grid, its edge cells, its directories, its variables and its run time. *)
From Coq Require Import String Ascii ZArith QArith List Bool Arith Lia Lqa.
From Verif Require Import Base Info_Model.
Import ListNotations.
Local Open Scope nat_scope.

(* ---------- edge cells ---------- *)
Definition on_edge (ny nx r c : nat) : Prop := r < ny /\ c < nx /\ (r = 0 \/ r = ny - 1 \/ c = 0 \/ c = nx - 1).

Lemma divmod_in : forall nx r c, c < nx -> ((r * nx + c) / nx = r /\ (r * nx + c) mod nx = c).
Proof.
  intros nx r c Hc. split.
  - rewrite Nat.add_comm, Nat.div_add by lia. rewrite Nat.div_small by lia. lia.
  - rewrite Nat.add_comm, Nat.mod_add by lia. now apply Nat.mod_small.
Qed.
Lemma edge_id_in : forall ny nx i, 1 <= ny -> 1 <= nx ->
  (In i (edge_ids ny nx) <-> exists r c, i = r * nx + c /\ on_edge ny nx r c).
Proof.
  intros ny nx i Hy Hx. unfold edge_ids. rewrite !in_app_iff, !in_map_iff.
  split.
  - intros [H|[H|[H|H]]].
    + apply in_seq in H. exists 0, i. unfold on_edge. lia.
    + destruct H as (c & E & H). apply in_seq in H. exists (ny - 1), c. unfold on_edge. lia.
    + destruct H as (k & E & H). apply in_seq in H. exists (1 + k), 0. unfold on_edge. lia.
    + destruct H as (j & E & H). apply in_map_iff in H. destruct H as (k & E' & H). apply in_seq in H. exists (1 + k), (nx - 1). unfold on_edge. lia.
  - intros (r & c & E & Hr & Hc & H).
    destruct (Nat.eq_dec r 0) as [->|Hr0].
    { left. apply in_seq. lia. }
    destruct (Nat.eq_dec r (ny - 1)) as [->|Hr1].
    { right. left. exists c. split; [lia|apply in_seq; lia]. }
    assert (c = 0 \/ c = nx - 1) as [->| ->] by lia.
    + right. right. left. exists (r - 1). split; [replace (1 + (r - 1)) with r by lia; lia|apply in_seq; lia].
    + right. right. right. exists (r * nx). split; [lia|]. apply in_map_iff. exists (r - 1). split; [replace (1 + (r - 1)) with r by lia; lia|apply in_seq; lia].
Qed.
Theorem C88_edges : forall ny nx r c, 1 <= ny -> 1 <= nx -> (In (r, c) (edge_cells ny nx) <-> on_edge ny nx r c).
Proof.
  intros ny nx r c Hy Hx. unfold edge_cells. rewrite in_map_iff. split.
  - intros (i & E & H). apply edge_id_in in H; auto. destruct H as (r' & c' & -> & H).
    destruct (divmod_in nx r' c' ltac:(unfold on_edge in H; lia)) as [D M]. rewrite D, M in E. now injection E as <- <-.
  - intros H. exists (r * nx + c). destruct (divmod_in nx r c ltac:(unfold on_edge in H; lia)) as [D M]. rewrite D, M. split; auto.
    apply edge_id_in; auto. eauto.
Qed.
Print Assumptions C88_edges.
Lemma nodup_app : forall {A} (l m : list A), NoDup l -> NoDup m -> (forall x, In x l -> In x m -> False) -> NoDup (l ++ m).
Proof.
  induction l as [|a l IH]; intros m Hl Hm H; [exact Hm|]. inversion Hl; subst. simpl. constructor.
  - rewrite in_app_iff. intros [?|?]; [auto|]. apply (H a); simpl; auto.
  - apply IH; auto. intros x ? ?. apply (H x); simpl; auto.
Qed.
Lemma nodup_map : forall {A B} (f : A -> B) l, (forall x y, In x l -> In y l -> f x = f y -> x = y) -> NoDup l -> NoDup (map f l).
Proof.
  induction l as [|a l IH]; intros H Hl; [constructor|]. inversion Hl; subst. simpl. constructor.
  - rewrite in_map_iff. intros (x & E & Hx). assert (x = a) by (apply H; simpl; auto). subst. auto.
  - apply IH; auto. intros; apply H; simpl; auto.
Qed.
(* each edge cell once, corners included, whenever the grid has at least two rows and two columns *)
Theorem C88_edges_once : forall ny nx, 2 <= ny -> 2 <= nx -> NoDup (edge_cells ny nx) /\ List.length (edge_cells ny nx) = 2 * nx + 2 * (ny - 2).
Proof.
  intros ny nx Hy Hx. split.
  2:{ unfold edge_cells, edge_ids. rewrite !map_length, !app_length, !map_length, !seq_length. lia. }
  unfold edge_cells. apply nodup_map.
  - intros x y Hxi Hyi E. injection E as E1 E2. rewrite (Nat.div_mod_eq x nx), (Nat.div_mod_eq y nx). lia.
  - unfold edge_ids. apply nodup_app; [apply seq_NoDup|apply nodup_app|].
    + apply nodup_map; [intros; lia|apply seq_NoDup].
    + apply nodup_app.
      * apply nodup_map; [intros; nia|apply seq_NoDup].
      * apply nodup_map; [intros; lia|]. apply nodup_map; [intros; nia|apply seq_NoDup].
      * intros x H1 H2. apply in_map_iff in H1. destruct H1 as (k & <- & H1). apply in_map_iff in H2. destruct H2 as (j & E & H2).
        apply in_map_iff in H2. destruct H2 as (k' & <- & H2). assert (Hm : ((1 + k') * nx + (nx - 1)) mod nx = ((1 + k) * nx) mod nx) by now rewrite E.
        destruct (divmod_in nx (1 + k') (nx - 1) ltac:(lia)) as [_ M]. rewrite M in Hm. rewrite Nat.mod_mul in Hm by lia. lia.
    + intros x H1 H2. apply in_map_iff in H1. destruct H1 as (c & <- & H1). apply in_seq in H1. apply in_app_iff in H2. destruct H2 as [H2|H2].
      * apply in_map_iff in H2. destruct H2 as (k & E & H2). apply in_seq in H2. nia.
      * apply in_map_iff in H2. destruct H2 as (j & E & H2). apply in_map_iff in H2. destruct H2 as (k & <- & H2). apply in_seq in H2. nia.
    + intros x H1 H2. apply in_seq in H1. rewrite !in_app_iff in H2. destruct H2 as [H2|[H2|H2]].
      * apply in_map_iff in H2. destruct H2 as (c & E & H2). nia.
      * apply in_map_iff in H2. destruct H2 as (k & E & H2). nia.
      * apply in_map_iff in H2. destruct H2 as (j & E & H2). apply in_map_iff in H2. destruct H2 as (k & <- & H2). nia.
Qed.
Print Assumptions C88_edges_once.
(* a grid of one row has every cell twice; one column of three or more has the inner cells twice *)
Theorem C88_edges_refuted : (forall nx, 1 <= nx -> ~ NoDup (edge_cells 1 nx)) /\ (forall ny, 3 <= ny -> ~ NoDup (edge_cells ny 1)).
Proof.
  assert (Dup : forall (l1 l2 : list (nat * nat)) x, In x l1 -> In x l2 -> ~ NoDup (l1 ++ l2)).
  { induction l1 as [|a l1 IH]; intros l2 x H1 H2 N; [contradiction|]. simpl in N. inversion N; subst. destruct H1 as [->|H1].
    - apply H3. apply in_app_iff. auto.
    - eapply IH; eauto. }
  split.
  - intros nx Hx. unfold edge_cells, edge_ids. rewrite map_app. apply Dup with (x := (0, 0)).
    + apply in_map_iff. exists 0. rewrite Nat.div_0_l, Nat.mod_0_l by lia. split; auto. apply in_seq. lia.
    + rewrite map_app. apply in_app_iff. left. apply in_map_iff. exists 0. rewrite Nat.div_0_l, Nat.mod_0_l by lia. split; auto.
      apply in_map_iff. exists 0. split; [lia|apply in_seq; lia].
  - intros ny Hy. unfold edge_cells, edge_ids. rewrite !app_assoc, map_app. apply Dup with (x := (1, 0)).
    + apply in_map_iff. exists 1. split; [reflexivity|]. apply in_app_iff. right. apply in_map_iff. exists 0. split; [lia|apply in_seq; lia].
    + apply in_map_iff. exists 1. split; [reflexivity|]. apply in_map_iff. exists 1. split; [lia|]. apply in_map_iff. exists 0. split; [lia|apply in_seq; lia].
Qed.
Print Assumptions C88_edges_refuted.
Example C88_edges_case : edge_cells 3 4 = [(0,0);(0,1);(0,2);(0,3);(2,0);(2,1);(2,2);(2,3);(1,0);(1,3)].
Proof. reflexivity. Qed.

(* ---------- grid information ---------- *)
Local Open Scope Q_scope.
Theorem C88_grid : forall I (s : list nat) (d o : list Q), List.length s = 2%nat -> List.length d = 2%nat -> List.length o = 2%nat ->
  exists s', get_grid_shape I 0 s = Ok s' /\ s' = [ny I; nx I] /\ List.length s' = get_grid_rank 0 /\ fold_right Nat.mul 1%nat s' = get_grid_size I 0 /\
  get_grid_spacing I 0 d = Ok [yres I; xres I] /\ get_grid_origin I 0 o = Ok [y_south I; x_west I].
Proof.
  intros I s d o Hs Hd Ho. exists [ny I; nx I]. unfold get_grid_shape, get_grid_spacing, get_grid_origin, assign2. rewrite Hs, Hd, Ho.
  repeat split; try reflexivity. unfold get_grid_size. simpl. lia.
Qed.
Print Assumptions C88_grid.
(* an array of another length is refused; asking about a scalar returns the caller's array as it was *)
Theorem C88_grid_bad_length : forall I (s : list nat), List.length s <> 2%nat -> get_grid_shape I 0 s = Raise ValueError.
Proof. intros I s H. unfold get_grid_shape, assign2. simpl. destruct (Nat.eqb_spec (List.length s) 2); [contradiction|reflexivity]. Qed.
Print Assumptions C88_grid_bad_length.
Theorem C88_grid_scalar : forall I g s d o, (g <> 0)%nat ->
  get_grid_rank g = 0%nat /\ get_grid_size I g = 1%nat /\ get_grid_type I g = scalar /\ get_grid_shape I g s = Ok s /\ get_grid_spacing I g d = Ok d /\ get_grid_origin I g o = Ok o.
Proof. intros I [|g] s d o H; [contradiction|]. repeat split. Qed.
Print Assumptions C88_grid_scalar.
Theorem C88_grid_type : forall I, get_grid_type I 0 = uniform_rectilinear <-> pixel_geom I = 1%nat.
Proof. intros I. unfold get_grid_type. simpl. destruct (Nat.eqb_spec (pixel_geom I) 1); split; intros; try assumption; try reflexivity; [discriminate|contradiction]. Qed.
Print Assumptions C88_grid_type.
(* all cells of a square-shaped answer: a caller asking a scalar's shape with [7; 7] is told 49 cells while the size is 1 *)
Theorem C88_grid_scalar_refuted : exists I g s, exists s', get_grid_shape I g s = Ok s' /\ fold_right Nat.mul 1%nat s' <> get_grid_size I g /\ List.length s' <> get_grid_rank g.
Proof. exists (mkInfo 3 4 1 30 30 0 0), 1%nat, [7; 7]%nat, [7; 7]%nat. repeat split; discriminate. Qed.
Print Assumptions C88_grid_scalar_refuted.
Example C88_grid_case : get_grid_shape (mkInfo 3 4 1 30 20 5 6) 0 [0; 0]%nat = Ok [3; 4]%nat /\ get_grid_spacing (mkInfo 3 4 1 30 20 5 6) 0 [0; 0] = Ok [20; 30].
Proof. split; reflexivity. Qed.

(* ---------- run time ---------- *)
(* what a reader of "d days, h hours, m minutes, s seconds" adds up *)
Definition reported (t : runtime) : Q := days t * 86400 + hours t * 3600 + minutes t * 60 + inject_Z (seconds t).
Lemma mod_mod_div : forall a b c, (0 < b)%Z -> (0 < c)%Z -> ((a mod (b * c)) mod b = a mod b)%Z.
Proof. intros a b c Hb Hc. rewrite Z.rem_mul_r by lia. rewrite (Z.mul_comm b), Z.mod_add by lia. now apply Z.mod_mod; lia. Qed.
Theorem C88_run_time : forall sec, reported (run_time sec) == inject_Z (sec + sec mod 86400 + sec mod 3600 + sec mod 60).
Proof.
  intros sec. unfold reported, run_time. simpl days. simpl hours. simpl minutes. simpl seconds.
  pose proof (mod_mod_div sec 3600 24 ltac:(lia) ltac:(lia)) as M1. change (3600 * 24)%Z with 86400%Z in M1.
  pose proof (mod_mod_div sec 60 60 ltac:(lia) ltac:(lia)) as M2. change (60 * 60)%Z with 3600%Z in M2.
  rewrite M1, M2. rewrite !inject_Z_plus. field.
Qed.
Print Assumptions C88_run_time.
(* so the report is right only for whole days, and every run of at least one second reports a number of days *)
Theorem C88_run_time_refuted : forall sec, (0 <= sec)%Z ->
  (reported (run_time sec) == inject_Z sec <-> (86400 | sec)%Z) /\ ((0 < sec)%Z -> 0 < days (run_time sec)).
Proof.
  intros sec Hs. split.
  - rewrite C88_run_time. rewrite <- Z.mod_divide by lia.
    pose proof (Z.mod_pos_bound sec 86400 ltac:(lia)). pose proof (Z.mod_pos_bound sec 3600 ltac:(lia)). pose proof (Z.mod_pos_bound sec 60 ltac:(lia)).
    split.
    + intros E. apply (proj1 (inject_Z_injective _ _)) in E. lia.
    + intros E. pose proof (mod_mod_div sec 3600 24 ltac:(lia) ltac:(lia)) as E1. change (3600 * 24)%Z with 86400%Z in E1.
      pose proof (mod_mod_div sec 60 1440 ltac:(lia) ltac:(lia)) as E2. change (60 * 1440)%Z with 86400%Z in E2.
      rewrite <- E1, <- E2, E. change (0 mod 3600)%Z with 0%Z. change (0 mod 60)%Z with 0%Z. now rewrite !Z.add_0_r.
  - intros H. unfold run_time. simpl. apply Qlt_shift_div_l; [lra|]. rewrite Qmult_0_l. change 0 with (inject_Z 0). now rewrite <- Zlt_Qlt.
Qed.
Print Assumptions C88_run_time_refuted.
Theorem C88_run_time_seconds : forall sec, (0 <= sec)%Z -> (0 <= seconds (run_time sec) < 60)%Z /\ 0 <= hours (run_time sec) < 24 /\ 0 <= minutes (run_time sec) < 60.
Proof.
  intros sec Hs. unfold run_time. simpl.
  pose proof (Z.mod_pos_bound sec 86400 ltac:(lia)) as [A B]. pose proof (Z.mod_pos_bound (sec mod 86400) 3600 ltac:(lia)) as [C D].
  pose proof (Z.mod_pos_bound ((sec mod 86400) mod 3600) 60 ltac:(lia)).
  rewrite Zle_Qle in A, C. rewrite Zlt_Qlt in B, D. change (inject_Z 0) with 0 in *. change (inject_Z 86400) with 86400 in B. change (inject_Z 3600) with 3600 in D.
  repeat split; try lia; first [apply Qle_shift_div_l|apply Qlt_shift_div_r]; lra.
Qed.
Print Assumptions C88_run_time_seconds.
Example C88_run_time_case : Qeq_bool (days (run_time 90000)) (25 # 24) = true /\ Qeq_bool (reported (run_time 90000)) 93600 = true.
Proof. split; reflexivity. Qed.

(* ---------- directories ---------- *)
Local Open Scope string_scope.
Lemma last_app : forall s c, last (s ++ String c "") = Some c.
Proof. induction s as [|a s IH]; intros c; [reflexivity|]. simpl. rewrite IH. destruct (s ++ String c "") eqn:E; [destruct s; discriminate|reflexivity]. Qed.
Lemma app_assoc_s : forall a b c : string, (a ++ b) ++ c = a ++ (b ++ c).
Proof. induction a; intros; simpl; [reflexivity|]. now rewrite IHa. Qed.
Lemma close_dir_end : forall d d', close_dir d = Ok d' -> last d' = Some sep /\ (d' = d \/ d' = d ++ "/").
Proof.
  intros d d' H. unfold close_dir in H. destruct (last d) as [c|] eqn:E; [|discriminate]. injection H as <-.
  destruct (Ascii.eqb_spec c sep) as [->|n]; [now split; [|left]|]. split; [apply last_app|now right].
Qed.
Lemma sub_end : forall E i n, last i = Some sep -> last (sub E i n) = Some sep.
Proof. intros E i n H. unfold sub. destruct (exists_dir E _); [|exact H]. rewrite <- app_assoc_s. apply last_app. Qed.

(* the directory of the configuration file, with its separator *)
Definition cfg_dir_of (E : os) (s : dirs) : option string :=
  match cfg_directory s, cfg_file s with
  | Some d, _ => Some d
  | None, Some f => Some ((if String.eqb (dirname E f) "" then getcwd E else dirname E f) ++ "/")
  | None, None => None
  end.
Definition starts (c : ascii) (s : string) : Prop := exists r, s = String c r.
(* a directory of the user: "~" expanded, one that starts with "." taken from the configuration directory, and closed with "/" *)
Definition placed (E : os) (c given got : string) : Prop :=
  let d := expanduser E given in
  let p := match d with String "."%char _ => abspath E (c ++ d) | _ => d end in
  (got = p \/ got = p ++ "/") /\ last got = Some sep.

Lemma resolve_placed : forall E c d r g, resolve E c (expanduser E d) = Ok r -> close_dir r = Ok g -> placed E c d g.
Proof.
  intros E c d r g H1 H2. unfold placed. apply close_dir_end in H2. destruct H2 as [L H2]. split; [|exact L].
  unfold resolve in H1. destruct (expanduser E d) as [|a x]; [discriminate|]. simpl in H1. injection H1 as <-.
  destruct (Ascii.eqb_spec a "."%char) as [->|n]; [exact H2|].
  destruct a as [[] [] [] [] [] [] [] []]; try exact H2. now contradiction n.
Qed.
Theorem C88_directories : forall E s s', set_directories E s = Ok s' -> exists c, cfg_dir_of E s = Some c /\ cfg_directory s' = Some c /\ cfg_file s' = cfg_file s /\
  placed E c (in_directory s) (in_directory s') /\ placed E c (out_directory s) (out_directory s') /\
  Forall (fun p => last (fst p) = Some sep /\ fst p = (let d := in_directory s' ++ snd p ++ "/" in if exists_dir E d then d else in_directory s'))
    [(topo_directory s', "__topo"); (soil_directory s', "__soil"); (met_directory s', "__met"); (misc_directory s', "__misc")].
Proof.
  intros E s s' H. unfold set_directories in H. unfold cfg_dir_of.
  destruct (match cfg_directory s with Some d => Some d | None => _ end) as [c|] eqn:Ec.
  2:{ destruct (first (expanduser E (in_directory s))); [|discriminate]. destruct (first (expanduser E (out_directory s))); [discriminate|]. destruct (Ascii.eqb _ _); discriminate. }
  exists c. split; [reflexivity|].
  destruct (resolve E c (expanduser E (in_directory s))) as [i|] eqn:E1; [|discriminate]. simpl in H.
  destruct (resolve E c (expanduser E (out_directory s))) as [o|] eqn:E2; [|discriminate]. simpl in H.
  destruct (close_dir i) as [i'|] eqn:E3; [|discriminate]. simpl in H.
  destruct (close_dir o) as [o'|] eqn:E4; [|discriminate]. simpl in H. injection H as <-. cbn [cfg_directory cfg_file in_directory out_directory topo_directory soil_directory met_directory misc_directory].
  split; [reflexivity|]. split; [reflexivity|]. split; [eapply resolve_placed; eauto|]. split; [eapply resolve_placed; eauto|].
  pose proof (proj1 (close_dir_end _ _ E3)). repeat (apply Forall_cons; [split; [apply sub_end; assumption|reflexivity]|]). apply Forall_nil.
Qed.
Print Assumptions C88_directories.
(* doing it again changes nothing: initialize and the path reader both do it *)
Theorem C88_directories_again : forall E s s', (forall p, starts sep (abspath E p)) -> (forall p, ~ starts "~"%char p -> expanduser E p = p) -> (forall p, ~ starts "~"%char (expanduser E p)) ->
  set_directories E s = Ok s' -> set_directories E s' = Ok s'.
Proof.
  intros E s s' Habs Hex Hnt H.
  pose proof (C88_directories E s s' H) as (c & Hc & Hc' & Hf & Pi & Po & Hsub).
  assert (Hp : forall d g, placed E c d g -> resolve E c (expanduser E g) = Ok g /\ close_dir g = Ok g).
  { intros d g [P L]. unfold close_dir. rewrite L. simpl. split; [|reflexivity].
    assert (Hg : exists a r, g = String a r /\ a <> "~"%char /\ a <> "."%char).
    { cbv zeta in P. specialize (Hnt d). destruct (expanduser E d) as [|a x] eqn:Ed.
      - simpl in P. destruct P as [-> | ->]; [discriminate L|]. exists "/"%char, "". split; [reflexivity|split; discriminate].
      - destruct (ascii_dec a "."%char) as [->|na].
        + destruct (Habs (c ++ String "." x)) as (r & Er). rewrite Er in P. destruct P as [-> | ->]; eexists _, _; (split; [reflexivity|split; discriminate]).
        + assert (P' : g = String a x \/ g = String a x ++ "/") by (destruct a as [[] [] [] [] [] [] [] []]; try exact P; now contradiction na).
          assert (a <> "~"%char) by (intros ->; apply Hnt; red; eauto).
          destruct P' as [-> | ->]; eexists _, _; (split; [reflexivity|split; assumption]). }
    destruct Hg as (a & r & -> & n1 & n2). rewrite Hex by (intros (q & Eq); injection Eq as -> _; congruence).
    unfold resolve. simpl. destruct (Ascii.eqb_spec a "."%char); [contradiction|reflexivity]. }
  destruct (Hp _ _ Pi) as [R1 K1]. destruct (Hp _ _ Po) as [R2 K2].
  unfold set_directories. rewrite Hc'. cbv zeta. rewrite R1, R2. simpl. rewrite K1, K2. simpl.
  inversion Hsub as [|? ? [_ H1] Hs1]; subst. inversion Hs1 as [|? ? [_ H2] Hs2]; subst. inversion Hs2 as [|? ? [_ H3] Hs3]; subst. inversion Hs3 as [|? ? [_ H4] _]; subst.
  simpl in H1, H2, H3, H4. unfold sub. destruct s' as [cd cf i o t so m mi]. simpl in *. rewrite Hc'. rewrite H1, H2, H3, H4. reflexivity.
Qed.
Print Assumptions C88_directories_again.
(* it fails exactly when a directory is empty or no configuration is known *)
Theorem C88_directories_fail : forall E s, (forall p, starts sep (abspath E p)) ->
  ((exists e, set_directories E s = Raise e) <-> expanduser E (in_directory s) = "" \/ expanduser E (out_directory s) = "" \/ (cfg_directory s = None /\ cfg_file s = None)).
Proof.
  intros E s Habs.
  assert (Hr : forall c d, d <> "" -> exists r, resolve E c d = Ok r /\ exists g, close_dir r = Ok g).
  { intros c d Hd. unfold resolve. destruct d as [|a x]; [contradiction|]. simpl. eexists. split; [reflexivity|]. unfold close_dir.
    assert (Hl : forall a x, exists b, last (String a x) = Some b) by (intros a0 x0; revert a0; induction x0 as [|b x0 IH]; intros a0; [simpl; eauto|simpl; apply IH]).
    destruct (Ascii.eqb a "."%char).
    - destruct (Habs (c ++ String a x)) as (r & ->). destruct (Hl sep r) as (b & ->). eauto.
    - destruct (Hl a x) as (b & ->). eauto. }
  split.
  - intros (e & H). destruct (string_dec (expanduser E (in_directory s)) "") as [|ni]; [auto|]. destruct (string_dec (expanduser E (out_directory s)) "") as [|no]; [auto|].
    right. right. unfold set_directories in H.
    destruct (match cfg_directory s with Some d => Some d | None => _ end) as [c|] eqn:Ec.
    + exfalso. destruct (Hr c _ ni) as (i & E1 & i' & E2). destruct (Hr c _ no) as (o & E3 & o' & E4). cbv zeta in H. rewrite E1, E3 in H. simpl in H. rewrite E2, E4 in H. discriminate.
    + destruct (cfg_directory s); [discriminate|]. destruct (cfg_file s); [discriminate|]. auto.
  - intros H. unfold set_directories. destruct (match cfg_directory s with Some d => Some d | None => _ end) as [c|] eqn:Ec.
    + cbv zeta. destruct H as [H|[H|[H1 H2]]].
      * rewrite H. simpl. eauto.
      * rewrite H. destruct (resolve E c (expanduser E (in_directory s))); simpl; eauto.
      * rewrite H1, H2 in Ec. discriminate.
    + destruct (first (expanduser E (in_directory s))); [|eauto]. destruct (first (expanduser E (out_directory s))); [eauto|]. destruct (Ascii.eqb _ _); eauto.
Qed.
Print Assumptions C88_directories_fail.
(* "input" is not taken from the configuration directory, although "./input" is: a relative name without "." depends on where the program is run *)
Theorem C88_directories_refuted : forall E c f a r, a <> "."%char -> expanduser E (String a r) = String a r ->
  forall s', set_directories E (mkDirs (Some c) f (String a r) (String a r) "" "" "" "") = Ok s' -> in_directory s' = String a r \/ in_directory s' = String a r ++ "/".
Proof.
  intros E c f a r Ha He s' H. apply C88_directories in H. destruct H as (c' & _ & _ & _ & [P _] & _). cbn [in_directory] in P. rewrite He in P.
  destruct a as [[] [] [] [] [] [] [] []]; try exact P. now contradiction Ha.
Qed.
Print Assumptions C88_directories_refuted.
Definition demo_os : os := mkOs (fun d => String.eqb d "/cfg/./in/__topo/") (fun p => p) (fun p => match p with String "/"%char _ => p | _ => "/" ++ p end) (fun _ => "/cfg") "/".
Example C88_directories_case : set_directories demo_os (mkDirs None (Some "/cfg/a_path_info.cfg") "./in" "out" "" "" "" "") =
  Ok (mkDirs (Some "/cfg/") (Some "/cfg/a_path_info.cfg") "/cfg/./in/" "out/" "/cfg/./in/__topo/" "/cfg/./in/" "/cfg/./in/" "/cfg/./in/") /\ (forall p, starts sep (abspath demo_os p)).
Proof. split; [reflexivity|]. intros [|c p]; [red; simpl; eauto|]. simpl. destruct c as [[] [] [] [] [] [] [] []]; red; eauto. Qed.

(* ---------- prepend_directory ---------- *)
Theorem C88_prepend : forall dir l atts atts', prepend_directory dir l atts = Ok atts' -> NoDup l ->
  (forall x, In x l -> exists f, atts x = Some f /\ atts' x = Some (if String.eqb f "" then "" else dir ++ f)) /\ (forall x, ~ In x l -> atts' x = atts x).
Proof.
  intros dir. induction l as [|y l IH]; intros atts atts' H N.
  - simpl in H. injection H as <-. split; [intros x []|reflexivity].
  - inversion N; subst. simpl in H. unfold prepend1 in H. destruct (atts y) as [f|] eqn:Ef; [|discriminate]. simpl in H.
    apply IH in H; [|assumption]. destruct H as [G1 G2]. split.
    + intros x [->|Hx].
      * exists f. split; [exact Ef|]. rewrite G2 by assumption. destruct (String.eqb_spec f "") as [->|]; [exact Ef|]. rewrite String.eqb_refl. reflexivity.
      * destruct (G1 x Hx) as (g & Hg & Hg'). exists g. split; [|exact Hg']. destruct (String.eqb f ""); [exact Hg|]. destruct (String.eqb_spec x y) as [->|]; [contradiction|exact Hg].
    + intros x Hx. rewrite G2 by (simpl in Hx; tauto). destruct (String.eqb f ""); [reflexivity|]. destruct (String.eqb_spec x y) as [->|]; [simpl in Hx; tauto|reflexivity].
Qed.
Print Assumptions C88_prepend.
Theorem C88_prepend_fails : forall dir l atts, (exists e, prepend_directory dir l atts = Raise e) <-> exists x, In x l /\ atts x = None.
Proof.
  intros dir. induction l as [|y l IH]; intros atts.
  - simpl. split; [intros (e & H); discriminate|intros (x & [] & _)].
  - simpl. unfold prepend1. destruct (atts y) as [f|] eqn:Ef; simpl.
    + rewrite IH. split; intros (x & Hx & H).
      * exists x. split; [auto|]. destruct (String.eqb f ""); [exact H|]. destruct (String.eqb_spec x y); [discriminate|exact H].
      * exists x. destruct Hx as [->|Hx]; [congruence|]. split; [exact Hx|]. destruct (String.eqb f ""); [exact H|]. destruct (String.eqb_spec x y); [congruence|exact H].
    + split; [intros _; eauto|eauto].
Qed.
Print Assumptions C88_prepend_fails.
(* calling it a second time puts the directory in front twice *)
Theorem C88_prepend_twice_refuted : forall dir x f atts, f <> "" -> dir ++ f <> "" -> atts x = Some f ->
  exists a1 a2, prepend_directory dir [x] atts = Ok a1 /\ prepend_directory dir [x] a1 = Ok a2 /\ a2 x = Some (dir ++ (dir ++ f)).
Proof.
  intros dir x f atts Hf Hd Hx.
  set (a1 := fun y => if String.eqb y x then Some (dir ++ f) else atts y).
  assert (H1 : prepend_directory dir [x] atts = Ok a1) by (simpl; unfold prepend1; rewrite Hx; apply String.eqb_neq in Hf; rewrite Hf; reflexivity).
  exists a1. eexists. split; [exact H1|]. split.
  - simpl. unfold prepend1. unfold a1 at 1. rewrite String.eqb_refl. apply String.eqb_neq in Hd. rewrite Hd. simpl. reflexivity.
  - simpl. now rewrite String.eqb_refl.
Qed.
Print Assumptions C88_prepend_twice_refuted.
Example C88_prepend_case : exists a, prepend_directory "in/" ["slope_file"; "width_file"] (fun n => if String.eqb n "slope_file" then Some "s.rtg" else if String.eqb n "width_file" then Some "" else None) = Ok a /\
  a "slope_file" = Some "in/s.rtg" /\ a "width_file" = Some "".
Proof. eexists. split; [reflexivity|]. split; reflexivity. Qed.

(* ---------- variables ---------- *)
Local Open Scope Q_scope.
Definition wf (a : arr) : Prop := List.length (dat a) = fold_right Nat.mul 1%nat (dims a).
Theorem C88_initialize : forall ny nx ts v, let a := initialize_var ny nx ts v in
  wf a /\ dims a = (if ts then [] else [ny; nx]) /\ Forall (fun x => x == v) (dat a).
Proof.
  intros ny nx ts v. destruct ts; simpl; repeat split.
  - constructor; [reflexivity|constructor].
  - unfold wf. simpl. rewrite repeat_length. lia.
  - apply Forall_forall. intros x H. apply repeat_spec in H. now rewrite H.
Qed.
Print Assumptions C88_initialize.
Lemma if_one : forall q f, (if Qeq_bool f 1 then q else q * f) == q * f.
Proof. intros q f. destruct (Qeq_bool f 1) eqn:E; [apply Qeq_bool_iff in E; rewrite E; ring|reflexivity]. Qed.
(* a number: never fails; every item becomes number * factor, shape and size stay, no other array changes *)
Theorem C88_update_number : forall (h : heap) v q f, wf (h v) -> exists h', update_var h v (VNum q) f = Ok h' /\
  dims (h' v) = dims (h v) /\ wf (h' v) /\ Forall (fun x => x == q * f) (dat (h' v)) /\ forall k, k <> v -> h' k = h k.
Proof.
  intros h v q f W. unfold update_var, fill_from. cbv zeta.
  destruct (dims (h v)) as [|n r] eqn:Ed; simpl; eexists; (split; [reflexivity|]); unfold put; rewrite Nat.eqb_refl; simpl; (split; [congruence|]); (split; [|split]).
  - reflexivity.
  - constructor; [apply if_one|constructor].
  - intros k Hk. apply Nat.eqb_neq in Hk. now rewrite Hk.
  - unfold wf in *. simpl. rewrite repeat_length, W, Ed. reflexivity.
  - apply Forall_forall. intros x H. apply repeat_spec in H. rewrite H. apply if_one.
  - intros k Hk. apply Nat.eqb_neq in Hk. now rewrite Hk.
Qed.
Print Assumptions C88_update_number.
Lemma scaled_data : forall f l, Forall2 (fun x y => x == y * f) (if Qeq_bool f 1 then l else map (fun y => y * f) l) l.
Proof.
  intros f l. destruct (Qeq_bool f 1) eqn:E; induction l; simpl; constructor; auto; [|reflexivity].
  apply Qeq_bool_iff in E. rewrite E. ring.
Qed.
(* an array of the variable's shape: the variable gets its items times the factor; the caller's array is multiplied too when the factor is not 1 *)
Theorem C88_update_array : forall (h : heap) v l f, dims (h l) = dims (h v) -> wf (h v) -> wf (h l) -> v <> l -> exists h', update_var h v (VArr l) f = Ok h' /\
  dims (h' v) = dims (h v) /\ Forall2 (fun x y => x == y * f) (dat (h' v)) (dat (h l)) /\ (forall k, k <> v -> k <> l -> h' k = h k) /\
  (f == 1 -> h' l = h l) /\ (~ f == 1 -> dims (h' l) = dims (h l) /\ dat (h' l) = map (fun y => y * f) (dat (h l))).
Proof.
  intros h v l f Hd Wv Wl Hn. unfold update_var. cbv zeta.
  set (h1 := (if Qeq_bool f 1 then h else put h l (mkArr (dims (h l)) (map (fun y => y * f) (dat (h l)))) : heap)).
  assert (Hv1 : h1 v = h v) by (unfold h1; destruct (Qeq_bool f 1); [reflexivity|unfold put; apply Nat.eqb_neq in Hn; now rewrite Hn]).
  assert (Hl1 : dims (h1 l) = dims (h l) /\ dat (h1 l) = (if Qeq_bool f 1 then dat (h l) else map (fun y => y * f) (dat (h l)))).
  { unfold h1. destruct (Qeq_bool f 1); [auto|]. unfold put. rewrite Nat.eqb_refl. auto. }
  destruct Hl1 as [Hl1 Hl2]. pose proof (scaled_data f (dat (h l))) as SD. rewrite <- Hl2 in SD.
  assert (Hother : forall k, k <> v -> k <> l -> h1 k = h k) by (intros k _ Hk; unfold h1; destruct (Qeq_bool f 1); [reflexivity|unfold put; apply Nat.eqb_neq in Hk; now rewrite Hk]).
  assert (Hlen : List.length (dat (h1 l)) = List.length (dat (h v))).
  { rewrite Hl2. unfold wf in *. destruct (Qeq_bool f 1); rewrite ?map_length; congruence. }
  assert (Hf : exists a, fill_from (h1 v) (dat (h1 l)) (dims (h1 l)) = Ok a /\ dims a = dims (h v) /\ dat a = dat (h1 l)).
  { rewrite Hv1. unfold fill_from. destruct (dims (h v)) as [|n r] eqn:Ed.
    - unfold wf in Wv. rewrite Ed in Wv. simpl in Wv. rewrite Wv in Hlen. destruct (dat (h1 l)) as [|q [|? ?]]; try discriminate Hlen. eexists. repeat split.
    - destruct (dat (h1 l)) as [|q [|q' t]] eqn:El.
      + rewrite Hl1, Hd. destruct (list_eq_dec Nat.eq_dec (n :: r) (n :: r)); [|contradiction]. eexists. repeat split.
      + simpl in Hlen. rewrite <- Hlen. eexists. repeat split.
      + rewrite Hl1, Hd. destruct (list_eq_dec Nat.eq_dec (n :: r) (n :: r)); [|contradiction]. eexists. repeat split. }
  destruct Hf as (a & -> & Ha1 & Ha2). simpl. eexists. split; [reflexivity|]. unfold put at 1 2. rewrite Nat.eqb_refl. split; [exact Ha1|]. split; [rewrite Ha2; exact SD|]. split.
  - intros k K1 K2. unfold put. pose proof K1 as K1'. apply Nat.eqb_neq in K1'. rewrite K1'. now apply Hother.
  - unfold put. assert (Hn' : (l =? v)%nat = false) by (apply Nat.eqb_neq; auto). rewrite Hn'. split.
    + intros E. unfold h1. apply Qeq_bool_iff in E. now rewrite E.
    + intros E. unfold h1. destruct (Qeq_bool f 1) eqn:Eb; [apply Qeq_bool_iff in Eb; contradiction|]. unfold put. rewrite Nat.eqb_refl. auto.
Qed.
Print Assumptions C88_update_array.
(* the variable may be given its own array: it is scaled once *)
Theorem C88_update_self : forall (h : heap) v f, wf (h v) -> exists h', update_var h v (VArr v) f = Ok h' /\ dims (h' v) = dims (h v) /\
  Forall2 (fun x y => x == y * f) (dat (h' v)) (dat (h v)) /\ forall k, k <> v -> h' k = h k.
Proof.
  intros h v f W. unfold update_var. cbv zeta. set (h1 := (if Qeq_bool f 1 then h else put h v (mkArr (dims (h v)) (map (fun y => y * f) (dat (h v)))) : heap)).
  assert (Hd : dims (h1 v) = dims (h v)) by (unfold h1; destruct (Qeq_bool f 1); [reflexivity|unfold put; now rewrite Nat.eqb_refl]).
  assert (Hx : dat (h1 v) = (if Qeq_bool f 1 then dat (h v) else map (fun y => y * f) (dat (h v)))) by (unfold h1; destruct (Qeq_bool f 1); [reflexivity|unfold put; now rewrite Nat.eqb_refl]).
  assert (Ho : forall k, k <> v -> h1 k = h k) by (intros k Hk; unfold h1; destruct (Qeq_bool f 1); [reflexivity|unfold put; apply Nat.eqb_neq in Hk; now rewrite Hk]).
  assert (Hlen : List.length (dat (h1 v)) = List.length (dat (h v))) by (rewrite Hx; destruct (Qeq_bool f 1); now rewrite ?map_length).
  pose proof (scaled_data f (dat (h v))) as SD. rewrite <- Hx in SD.
  assert (Hf : exists a, fill_from (h1 v) (dat (h1 v)) (dims (h1 v)) = Ok a /\ dims a = dims (h1 v) /\ dat a = dat (h1 v)).
  { unfold fill_from. destruct (dims (h1 v)) as [|n r] eqn:Ed.
    - unfold wf in W. rewrite <- Hd in W. simpl in W. rewrite W in Hlen. destruct (dat (h1 v)) as [|q [|? ?]]; try discriminate Hlen. eexists. repeat split.
    - destruct (dat (h1 v)) as [|q [|q' t]] eqn:El; try (destruct (list_eq_dec Nat.eq_dec (n :: r) (n :: r)); [|contradiction]); eexists; repeat split. }
  destruct Hf as (a & -> & Ha1 & Ha2). simpl. eexists. split; [reflexivity|]. unfold put. rewrite Nat.eqb_refl. split; [congruence|]. split; [rewrite Ha2; exact SD|].
  intros k Hk. pose proof Hk as Hk'. apply Nat.eqb_neq in Hk'. rewrite Hk'. now apply Ho.
Qed.
Print Assumptions C88_update_self.
Theorem C88_update_none : forall (h : heap) v f, update_var h v VNone f = Ok h.
Proof. reflexivity. Qed.
Print Assumptions C88_update_none.
(* an array of another shape and more than one item is refused, and then no array was stored in the variable *)
Theorem C88_update_bad_shape : forall (h : heap) v l, dims (h l) <> dims (h v) -> wf (h l) -> List.length (dat (h l)) <> 1%nat -> update_var h v (VArr l) 1 = Raise ValueError.
Proof.
  intros h v l Hd W Hl. unfold update_var. simpl. unfold fill_from. destruct (dims (h v)) as [|n r] eqn:Ed.
  - destruct (dat (h l)) as [|q [|? ?]]; try reflexivity. now contradiction Hl.
  - destruct (dat (h l)) as [|q [|q' t]]; try (destruct (list_eq_dec Nat.eq_dec (dims (h l)) (n :: r)); [contradiction|reflexivity]). now contradiction Hl.
Qed.
Print Assumptions C88_update_bad_shape.
(* "the caller's array is only read" is false: reading the same array twice with a factor scales it twice *)
Theorem C88_update_argument_refuted : exists h v l f, wf (h v) /\ wf (h l) /\ v <> l /\ exists h' h'', update_var h v (VArr l) f = Ok h' /\ dat (h' l) <> dat (h l) /\
  update_var h' v (VArr l) f = Ok h'' /\ Forall2 (fun x y => x == y * (f * f)) (dat (h'' v)) (dat (h l)).
Proof.
  exists (fun k => mkArr [2%nat] [1; 3]), 0%nat, 1%nat, 10. split; [reflexivity|]. split; [reflexivity|]. split; [discriminate|].
  eexists. eexists. split; [reflexivity|]. split; [intros E; discriminate E|]. split; [reflexivity|]. simpl. repeat constructor.
Qed.
Print Assumptions C88_update_argument_refuted.
Example C88_update_case : exists h', update_var (fun k => match k with O => mkArr [2; 2]%nat [0; 0; 0; 0] | _ => mkArr [2; 2]%nat [1; 2; 3; 4] end) 0 (VArr 1) (1 # 2) = Ok h' /\
  forallb (fun p => Qeq_bool (fst p) (snd p)) (combine (dat (h' 0%nat)) [1 # 2; 1; 3 # 2; 2]) = true.
Proof. eexists. split; reflexivity. Qed.
