(* C93: import of rasters as RTG files. *)
From Coq Require Import String Ascii List ZArith NArith QArith Qabs Bool Lia Lqa.
From Verif Require Import Time_Model Time_Proofs Io_Model Io_Spec Io_Proofs Io_Props Rti_Model Rti_Spec Rti_Proofs Rti_Props Rts_Model Rts_Spec Rts_Proofs Rts_Props Import_Model.
Import ListNotations.
Local Open Scope string_scope.

(* ---------- specification ---------- *)
Definition north_up (r : raster) : Prop := (0 < gxres r)%Q /\ (gyres r < 0)%Q.
Definition sized (r : raster) : Prop := (0 < rx r <= 2147483647)%Z /\ (0 < ry r <= 2147483647)%Z.
(* bytes per cell of GDAL's types *)
Definition gdal_bytes : list (Z * nat) := [(1, 1%nat); (2, 2%nat); (3, 2%nat); (4, 4%nat); (5, 4%nat); (6, 4%nat); (7, 8%nat)]%Z.
Definition well_formed (r : raster) (b : nat) : Prop := sized r /\ In (code r, b) gdal_bytes /\ Rts_Spec.proper (Z.to_nat (rx r * ry r)) b (cells r).
(* a header that says where the raster lies: numbers up to the 12 decimals of the file *)
Definition lies (r : raster) (j : info) : Prop :=
  ncols j = rx r /\ nrows j = ry r /\ close (x_west_edge j) (ulx r) /\ close (y_north_edge j) (uly r) /\
  close (x_east_edge j) (ulx r + inject_Z (rx r) * gxres r) /\ close (y_south_edge j) (uly r - inject_Z (ry r) * - gyres r).
(* fixed-length cells in metres, or fixed-angle cells in arc seconds *)
Definition says_projected (r : raster) (j : info) : Prop := pixel_geom j = 1%Z /\ box_units j = "METERS" /\ close (xres j) (gxres r) /\ close (yres j) (Qabs (gyres r)).
Definition says_geographic (r : raster) (j : info) : Prop := pixel_geom j = 0%Z /\ box_units j = "DEGREES" /\ close (xres j) (3600 * gxres r) /\ close (yres j) (3600 * Qabs (gyres r)).

(* ---------- corners ---------- *)
(* the box encloses exactly the cells *)
Theorem C93_bounds : forall r xmin ymin xmax ymax dx dy, north_up r -> sized r -> bounds r = (xmin, ymin, xmax, ymax) -> cellsize r = (dx, dy) ->
  (xmin == ulx r)%Q /\ (ymax == uly r)%Q /\ (xmax - xmin == inject_Z (rx r) * dx)%Q /\ (ymax - ymin == inject_Z (ry r) * dy)%Q /\ (xmin < xmax)%Q /\ (ymin < ymax)%Q.
Proof.
  intros r xmin ymin xmax ymax dx dy [Hx Hy] [[Sx _] [Sy _]] B C. unfold bounds in B. injection B as <- <- <- <-. unfold cellsize in C. injection C as <- <-.
  assert (Ix : (0 < inject_Z (rx r))%Q) by (unfold Qlt, inject_Z; simpl; lia). assert (Iy : (0 < inject_Z (ry r))%Q) by (unfold Qlt, inject_Z; simpl; lia).
  rewrite Qabs_neg by lra. repeat split; try reflexivity; try ring; nra.
Qed.
Print Assumptions C93_bounds.
(* false for rasters stored from south to north *)
Theorem C93_bounds_refuted : forall r xmin ymin xmax ymax, (0 < gyres r)%Q -> sized r -> bounds r = (xmin, ymin, xmax, ymax) -> (ymax < ymin)%Q.
Proof.
  intros r xmin ymin xmax ymax Hy [_ [Sy _]] B. unfold bounds in B. injection B as <- <- <- <-.
  assert (Iy : (0 < inject_Z (ry r))%Q) by (unfold Qlt, inject_Z; simpl; lia). nra.
Qed.
Print Assumptions C93_bounds_refuted.

(* ---------- the header of a GeoTIFF ---------- *)
Lemma close_eq : forall a b c, (b == c)%Q -> close a b -> close a c.
Proof. unfold close. intros a b c E H. eapply Qle_trans; [|exact H]. apply Qle_lteq. right. apply Qabs_wd. now rewrite E. Qed.
Definition known (c : Z) (t : string) (b : nat) : Prop := In (c, t, b) [(1, "BYTE", 1%nat); (3, "INTEGER", 2%nat); (5, "LONG", 4%nat); (6, "FLOAT", 4%nat); (7, "DOUBLE", 8%nat)]%Z.
Lemma known_type : forall c t b, known c t b -> rtg_type c = Ok t /\ get_bpe t = Ok b /\ upper t = t /\ Rti_Spec.one_line t /\ In t ["BYTE"; "INTEGER"; "LONG"; "LONG64"; "FLOAT"; "DOUBLE"] /\ (0 < b)%nat.
Proof.
  intros c t b H. unfold known in H. cbn in H.
  destruct H as [H|[H|[H|[H|[H|[]]]]]]; injection H as <- <- <-; (repeat split; try reflexivity; try (cbn; tauto); try lia; try (intros k; do 8 (destruct k as [|k]; [discriminate|]); destruct k; discriminate)).
Qed.
Definition tif_info (m : machine) (tif t : string) (r : raster) : info :=
  mkinfo tif "TopoFlow & GDAL" (rx r) (ry r) t (get_rti_byte_order m) 1 (gxres r) (Qabs (gyres r)) (1 # 100) "METERS" (uly r + inject_Z (ry r) * gyres r) (uly r) (ulx r + inject_Z (rx r) * gxres r) (ulx r) "METERS" (rmin r) (rmax r) "unknown".
Lemma make_rti_ok : forall m F tif r rti t b, known (code r) t b -> make_rti m F tif r rti = Ok (write_info F rti (tif_info m tif t r)).
Proof. intros m F tif r rti t b K. destruct (known_type _ _ _ K) as (T & B & _). unfold make_rti. rewrite T. cbn [rbind]. cbn [geographic is_projected_attribute negb]. rewrite B. reflexivity. Qed.
Lemma one_line_lit : forall s, nosep newline s = true -> strip s = s -> Rti_Spec.one_line s.
Proof. exact one_line_dec. Qed.
Lemma tif_writable : forall m tif r t b, known (code r) t b -> sized r -> Rti_Spec.one_line tif -> writable (tif_info m tif t r).
Proof.
  intros m tif r t b K [Sx Sy] L. destruct (known_type _ _ _ K) as (_ & _ & U & O & I & _).
  unfold writable, tif_info. cbn [grid_file data_source data_type byte_order z_units box_units UTM_zone ncols nrows pixel_geom].
  split; [exact L|]. split; [apply one_line_lit; reflexivity|]. split; [exact O|]. split; [destruct m; apply one_line_lit; reflexivity|].
  split; [apply one_line_lit; reflexivity|]. split; [apply one_line_lit; reflexivity|]. split; [apply one_line_lit; reflexivity|].
  split; [lia|]. split; [lia|]. split; [lia|]. rewrite U. cbn in *. tauto.
Qed.
(* the header that is made for a raster can be read, and says where the raster lies and what its cells are; but it always says
   that the raster is projected *)
Theorem C93_header : forall m F tif r rti t b, known (code r) t b -> sized r -> Rti_Spec.one_line tif ->
  exists F' j, make_rti m F tif r rti = Ok F' /\ read_info F' rti = Ok (Some j) /\ lies r j /\ data_type j = t /\ byte_order j = own_order m /\ says_projected r j /\ close (gmin j) (rmin r) /\ close (gmax j) (rmax r).
Proof.
  intros m F tif r rti t b K S L. rewrite (make_rti_ok m F tif r rti t b K). pose proof (tif_writable m tif r t b K S L) as W.
  destruct (C42_header_comes_back F rti _ W) as (j & R & D & _). eexists. exists j. split; [reflexivity|]. split; [exact R|].
  destruct (known_type _ _ _ K) as (_ & _ & U & _).
  unfold describes, tif_info in D. cbn [grid_file data_source ncols nrows data_type byte_order pixel_geom xres yres zres z_units y_south_edge y_north_edge x_east_edge x_west_edge box_units gmin gmax] in D.
  destruct D as (_ & _ & Dn & Dr & Dp & Dt & Db & _ & Dx & C1 & C2 & _ & C3 & C4 & C5 & C6 & C7 & C8).
  split; [unfold lies; repeat split; auto; unfold close in *; (eapply Qle_trans; [|exact C3]); apply Qle_lteq; right; apply Qabs_wd; ring|].
  split; [congruence|]. split; [rewrite Db; destruct m; reflexivity|]. split; [unfold says_projected; auto|]. auto.
Qed.
Print Assumptions C93_header.

(* the claim that geographic rasters get a geographic header is false of every one of them: degrees are given out as metres *)
Theorem C93_geographic_refuted : forall m F tif r rti t b, known (code r) t b -> sized r -> Rti_Spec.one_line tif -> projected r = false -> (1 # 1000 <= gxres r)%Q ->
  exists F' j, make_rti m F tif r rti = Ok F' /\ read_info F' rti = Ok (Some j) /\ box_units j = "METERS" /\ close (xres j) (gxres r) /\ ~ says_geographic r j.
Proof.
  intros m F tif r rti t b K S L P X. destruct (C93_header m F tif r rti t b K S L) as (F' & j & M & R & _ & _ & _ & (G & B & C & _) & _).
  exists F', j. repeat split; auto. intros (G' & _). rewrite G in G'. discriminate G'.
Qed.
Print Assumptions C93_geographic_refuted.
(* nor can a header be made for unsigned or unknown types *)
Theorem C93_types_refuted : forall m F tif r rti, In (code r) [0; 2; 4]%Z \/ (7 < code r)%Z -> make_rti m F tif r rti = Err KeyError.
Proof.
  intros m F tif r rti [H|H]; unfold make_rti.
  - cbn in H. destruct H as [H|[H|[H|[]]]]; rewrite <- H; reflexivity.
  - replace (rtg_type (code r)) with (@Err string KeyError); [reflexivity|]. destruct (code r) as [|p|p]; try lia. do 3 (destruct p as [p|p|]; try reflexivity; try lia).
Qed.
Print Assumptions C93_types_refuted.

(* ---------- reading ---------- *)
Lemma own_rti : forall m, get_rti_byte_order m = own_order m. Proof. intros []; reflexivity. Qed.
Lemma valid_own : forall m, valid_order (own_order m). Proof. intros []; [left|right]; reflexivity. Qed.
Lemma write_twin : forall F stem i, write_info F (stem ++ ".rti") i = write_info F (stem ++ ".rtg") i.
Proof.
  intros. unfold write_info. change ".rti" with ("." ++ "rti"). change ".rtg" with ("." ++ "rtg"). rewrite !header_name by (intros [|[|[|[|k]]]]; discriminate). reflexivity.
Qed.
Lemma rtg_ext : free_of "." "rtg". Proof. intros [|[|[|[|k]]]]; discriminate. Qed.
Lemma put_grid_info : forall F stem i c, writable i -> read_info (put (write_info F (stem ++ ".rtg") i) (stem ++ ".rtg") c) (stem ++ ".rtg") = Ok (Some (info_back i)).
Proof. intros F stem i c W. change ".rtg" with ("." ++ "rtg"). rewrite read_info_put by (exact rtg_ext || discriminate). now apply read_back. Qed.
Lemma read_rtg_at : forall m F name c j dt b, lookup F name = Some c -> read_info F name = Ok (Some j) -> get_numpy_data_type (data_type j) = Ok dt -> get_bpe (data_type j) = Ok b ->
  read_from_rtg m F name = let n := Z.to_nat (ncols j * nrows j) in let items := from_bytes n b c in
    if (List.length items =? n)%nat then Ok (Some (dt, map (number m) (if swap_needed m (byte_order j) then map srev items else items))) else Err ValueError.
Proof. intros m F name c j dt b L R D B. unfold read_from_rtg. rewrite L, R. cbn [rbind]. rewrite D. cbn [rbind]. rewrite B. reflexivity. Qed.
Lemma native_disk : forall m g, map (native m) g = map (disk (own_order m)) g.
Proof. intros m g. apply map_ext. intro v. destruct m; unfold disk; cbn; [apply srev_list|reflexivity]. Qed.
Lemma native_proper : forall m b l, Forall (fun v => String.length v = b) l -> Forall (fun v => String.length v = b) (map (native m) l).
Proof. intros m b l H. rewrite native_disk. now apply disk_forall. Qed.
(* a grid written by machine mw, described as of type t and order bo *)
Lemma read_rtg_good : forall mw mr F name j dt b g, (0 < b)%nat -> lookup F name = Some (sconcat (map (native mw) g)) -> read_info F name = Ok (Some j) ->
  get_numpy_data_type (data_type j) = Ok dt -> get_bpe (data_type j) = Ok b -> proper (Z.to_nat (ncols j * nrows j)) b g -> byte_order j = own_order mw ->
  read_from_rtg mr F name = Ok (Some (dt, g)).
Proof.
  intros mw mr F name j dt b g Hb L R D B [PL PF] O. rewrite (read_rtg_at mr F name _ j dt b L R D B). cbv zeta.
  assert (I : from_bytes (Z.to_nat (ncols j * nrows j)) b (sconcat (map (native mw) g)) = map (native mw) g).
  { rewrite <- PL, <- (map_length (native mw) g), <- (app_nil_s (sconcat (map (native mw) g))). apply from_bytes_sconcat; [exact Hb|now apply native_proper]. }
  rewrite I, map_length, PL, Nat.eqb_refl. rewrite (native_disk mw g), O. rewrite decode by apply valid_own. reflexivity.
Qed.
Lemma read_rtg_short : forall mw mr F name j dt b b' g, (0 < b)%nat -> (b' < b)%nat -> (0 < Z.to_nat (ncols j * nrows j))%nat -> lookup F name = Some (sconcat (map (native mw) g)) -> read_info F name = Ok (Some j) ->
  get_numpy_data_type (data_type j) = Ok dt -> get_bpe (data_type j) = Ok b -> proper (Z.to_nat (ncols j * nrows j)) b' g ->
  read_from_rtg mr F name = Err ValueError.
Proof.
  intros mw mr F name j dt b b' g Hb Hlt Hn L R D B [PL PF]. rewrite (read_rtg_at mr F name _ j dt b L R D B). cbv zeta.
  pose proof (sconcat_length b' (map (native mw) g) (native_proper mw b' g PF)) as LE. rewrite map_length, PL in LE.
  set (n := Z.to_nat (ncols j * nrows j)) in *.
  pose proof (from_bytes_short n b (sconcat (map (native mw) g)) Hb) as SH. destruct (Nat.eqb_spec (List.length (from_bytes n b (sconcat (map (native mw) g)))) n) as [E|E]; [|reflexivity].
  exfalso. apply SH; [|exact E]. rewrite LE. nia.
Qed.

(* ---------- saving a GeoTIFF as RTG, and reading that ---------- *)
Lemma save_ok : forall m conv F tif r stem t b, known (code r) t b -> sized r -> Rti_Spec.one_line tif ->
  exists F', save_geotiff_as_rtg m conv F tif r (stem ++ ".rtg") (stem ++ ".rti") = Ok F' /\ lookup F' (stem ++ ".rtg") = Some (sconcat (map (native m) (map conv (cells r)))) /\
    read_info F' (stem ++ ".rtg") = Ok (Some (info_back (tif_info m tif t r))).
Proof.
  intros m conv F tif r stem t b K S L. pose proof (tif_writable m tif r t b K S L) as W. unfold save_geotiff_as_rtg, read_from_geotiff.
  rewrite (make_rti_ok m F tif r _ t b K). cbn [rbind]. rewrite (read_back F (stem ++ ".rti") _ W). cbn [rbind].
  rewrite write_twin. unfold write_float. eexists. split; [reflexivity|]. split.
  - rewrite lookup_put_same. f_equal. unfold rtg_write_grid. replace (swap_needed m (byte_order (info_back (tif_info m tif t r)))) with false by (destruct m; reflexivity).
    cbn [fst]. now rewrite map_map.
  - now apply put_grid_info.
Qed.
Lemma grid_pos : forall r, sized r -> (0 < Z.to_nat (rx r * ry r))%nat. Proof. intros r [[A _] [B _]]. nia. Qed.
Lemma back_fields : forall m tif t r, upper t = t -> ncols (info_back (tif_info m tif t r)) = rx r /\ nrows (info_back (tif_info m tif t r)) = ry r /\ data_type (info_back (tif_info m tif t r)) = t /\ byte_order (info_back (tif_info m tif t r)) = own_order m.
Proof. intros m tif t r U. repeat split; [cbn; exact U|]. destruct m; reflexivity. Qed.
Lemma conv_proper : forall (conv : cell -> cell) n b b' g, (forall v, String.length (conv v) = b') -> proper n b g -> proper n b' (map conv g).
Proof. intros conv n b b' g C [PL PF]. split; [now rewrite map_length|]. apply Forall_forall. intros v I. apply in_map_iff in I. destruct I as (w & <- & _). apply C. Qed.
(* a raster of 32-bit floats comes back cell by cell, on any machine *)
Theorem C93_float_back : forall mw mr conv F tif r stem, code r = 6%Z -> well_formed r 4 -> Rti_Spec.one_line tif -> (forall v, In v (cells r) -> conv v = v) ->
  exists F', save_geotiff_as_rtg mw conv F tif r (stem ++ ".rtg") (stem ++ ".rti") = Ok F' /\ read_from_rtg mr F' (stem ++ ".rtg") = Ok (Some ("float32", cells r)) /\
    forall p, p <> stem ++ ".rtg" -> p <> stem ++ ".rti" -> lookup F' p = lookup F p.
Proof.
  intros mw mr conv F tif r stem E (S & _ & P) L C. assert (K : known (code r) "FLOAT" 4) by (rewrite E; cbn; tauto).
  assert (MC : map conv (cells r) = cells r) by (rewrite <- (map_id (cells r)) at 2; apply map_ext_in; exact C).
  destruct (save_ok mw conv F tif r stem _ _ K S L) as (F' & SV & LK & RI). rewrite MC in LK. exists F'. split; [exact SV|].
  destruct (back_fields mw tif "FLOAT" r eq_refl) as (B1 & B2 & B3 & B4). split.
  - eapply (read_rtg_good mw mr F' _ _ "float32" 4); eauto; rewrite ?B1, ?B2, ?B3, ?B4; auto; try reflexivity; try lia.
  - intros p N1 N2. unfold save_geotiff_as_rtg, read_from_geotiff in SV. rewrite (make_rti_ok mw F tif r _ _ _ K) in SV. cbn [rbind] in SV.
    rewrite (read_back F (stem ++ ".rti") _ (tif_writable mw tif r _ _ K S L)) in SV. cbn [rbind] in SV. injection SV as <-. unfold write_float.
    rewrite lookup_put_other by congruence. rewrite write_twin. unfold write_info. change ".rtg" with ("." ++ "rtg"). rewrite header_name by exact rtg_ext. rewrite lookup_put_other by congruence. reflexivity.
Qed.
Print Assumptions C93_float_back.
(* other types do not come back.  Doubles: the file is half as long as its header says, and cannot be read *)
Theorem C93_save_double_refuted : forall mw mr conv F tif r stem, code r = 7%Z -> well_formed r 8 -> Rti_Spec.one_line tif -> (forall v, String.length (conv v) = 4%nat) ->
  exists F', save_geotiff_as_rtg mw conv F tif r (stem ++ ".rtg") (stem ++ ".rti") = Ok F' /\ read_from_rtg mr F' (stem ++ ".rtg") = Err ValueError.
Proof.
  intros mw mr conv F tif r stem E (S & _ & P) L C. assert (K : known (code r) "DOUBLE" 8) by (rewrite E; cbn; tauto).
  destruct (save_ok mw conv F tif r stem _ _ K S L) as (F' & SV & LK & RI). exists F'. split; [exact SV|].
  destruct (back_fields mw tif "DOUBLE" r eq_refl) as (B1 & B2 & B3 & B4).
  eapply (read_rtg_short mw mr F' _ _ "float64" 8 4); eauto; rewrite ?B1, ?B2, ?B3; try reflexivity; try lia; [now apply grid_pos|]. eapply conv_proper; eauto.
Qed.
Print Assumptions C93_save_double_refuted.
(* 32-bit integers: the bytes of floats are read as integers *)
Theorem C93_save_long_refuted : forall mw mr conv F tif r stem, code r = 5%Z -> well_formed r 4 -> Rti_Spec.one_line tif -> (forall v, String.length (conv v) = 4%nat) ->
  exists F', save_geotiff_as_rtg mw conv F tif r (stem ++ ".rtg") (stem ++ ".rti") = Ok F' /\ read_from_rtg mr F' (stem ++ ".rtg") = Ok (Some ("int32", map conv (cells r))).
Proof.
  intros mw mr conv F tif r stem E (S & _ & P) L C. assert (K : known (code r) "LONG" 4) by (rewrite E; cbn; tauto).
  destruct (save_ok mw conv F tif r stem _ _ K S L) as (F' & SV & LK & RI). exists F'. split; [exact SV|].
  destruct (back_fields mw tif "LONG" r eq_refl) as (B1 & B2 & B3 & B4).
  eapply (read_rtg_good mw mr F' _ _ "int32" 4); eauto; rewrite ?B1, ?B2, ?B3, ?B4; try reflexivity; try lia. eapply conv_proper; eauto.
Qed.
Print Assumptions C93_save_long_refuted.
(* 16-bit integers and bytes: the file is two or four times as long as its header says *)
Theorem C93_save_length_refuted : forall m conv F tif r stem t b, known (code r) t b -> well_formed r b -> Rti_Spec.one_line tif -> (forall v, String.length (conv v) = 4%nat) ->
  exists F' c j, save_geotiff_as_rtg m conv F tif r (stem ++ ".rtg") (stem ++ ".rti") = Ok F' /\ lookup F' (stem ++ ".rtg") = Some c /\ read_info F' (stem ++ ".rtg") = Ok (Some j) /\
    get_bpe (data_type j) = Ok b /\ Z.of_nat (String.length c) = (4 * (ncols j * nrows j))%Z.
Proof.
  intros m conv F tif r stem t b K (S & _ & P) L C. destruct (save_ok m conv F tif r stem _ _ K S L) as (F' & SV & LK & RI).
  destruct (known_type _ _ _ K) as (_ & B & U & _). destruct (back_fields m tif t r U) as (B1 & B2 & B3 & B4).
  exists F', (sconcat (map (native m) (map conv (cells r)))), (info_back (tif_info m tif t r)). repeat (split; [assumption || (rewrite B3; exact B)|]).
  destruct (conv_proper conv _ b 4 (cells r) C P) as [CL CF]. rewrite (sconcat_length 4) by (apply native_proper; exact CF). rewrite map_length in CL. rewrite !map_length, CL, B1, B2.
  destruct S as [[A _] [A' _]]. nia.
Qed.
Print Assumptions C93_save_length_refuted.
(* the number 1 in a raster of 16-bit integers is 0 when it is read back *)
Definition byte_of (n : nat) (s : string) : string := String (ascii_of_nat n) s.
Definition int16_one : cell := byte_of 0 (byte_of 1 "").
Definition int16_zero : cell := byte_of 0 (byte_of 0 "").
Definition float_one : cell := byte_of 63 (byte_of 128 (byte_of 0 (byte_of 0 ""))).
Definition ones : raster := mkRaster 2 1 500000 30 4000000 (-30) 3 true [int16_one; int16_one] 1 1.
Theorem C93_save_integer_refuted : forall conv, conv int16_one = float_one -> projected ones = true /\ well_formed ones 2 /\
  exists F', save_geotiff_as_rtg Little conv [] "a.tif" ones "a.rtg" "a.rti" = Ok F' /\ read_from_rtg Little F' "a.rtg" = Ok (Some ("int16", [int16_zero; byte_of 63 (byte_of 128 "")])).
Proof.
  intros conv C. split; [reflexivity|]. split; [unfold well_formed, sized; cbn; repeat split; try lia; try tauto; repeat constructor|].
  destruct (save_ok Little conv [] "a.tif" ones "a" "INTEGER" 2) as (F' & SV & LK & RI); [cbn; tauto|unfold sized; cbn; lia|apply one_line_lit; reflexivity|].
  exists F'. split; [exact SV|]. change ("a" ++ ".rtg") with "a.rtg" in *. rewrite (read_rtg_at Little F' "a.rtg" _ _ "int16" 2 LK RI eq_refl eq_refl).
  cbv zeta. cbn [ones cells map]. rewrite C. vm_compute. reflexivity.
Qed.
Print Assumptions C93_save_integer_refuted.

(* ---------- import of a DEM ---------- *)
Definition dem_info (r : raster) (rtg : string) : info :=
  mkinfo rtg "TopoFlow 3.6" (rx r) (ry r) "FLOAT" "LSB" 0 (gxres r * 3600)%Q (Qabs (gyres r) * 3600)%Q (1 # 100) "METERS" (uly r + inject_Z (ry r) * gyres r) (uly r) (ulx r + inject_Z (rx r) * gxres r) (ulx r) "DEGREES" (rmin r) (rmax r) "UNKNOWN".
Lemma dem_name : forall p, p ++ "_DEM.rtg" = (p ++ "_DEM") ++ ".rtg". Proof. intros. now rewrite app_assoc_s. Qed.
Lemma dem_writable : forall r rtg, sized r -> Rti_Spec.one_line rtg -> writable (dem_info r rtg).
Proof.
  intros r rtg [Sx Sy] L. unfold writable, dem_info. cbn [grid_file data_source data_type byte_order z_units box_units UTM_zone ncols nrows pixel_geom].
  split; [exact L|]. repeat (split; [apply one_line_lit; reflexivity|]). split; [lia|]. split; [lia|]. split; [lia|]. cbn. tauto.
Qed.
Lemma import_ok : forall m F r p, (0 <= code r <= 7)%Z -> sized r -> Rti_Spec.one_line (p ++ "_DEM.rtg") ->
  exists F', import_dem_as_rtg m F r p = Ok F' /\ lookup F' (p ++ "_DEM.rtg") = Some (sconcat (map (native m) (cells r))) /\ read_info F' (p ++ "_DEM.rtg") = Ok (Some (info_back (dem_info r (p ++ "_DEM.rtg")))) /\
    forall q, q <> p ++ "_DEM.rtg" -> q <> p ++ "_DEM.rti" -> lookup F' q = lookup F q.
Proof.
  intros m F r p C S L. pose proof (dem_writable r _ S L) as W.
  assert (T : exists t, rtg_type (code r) = Ok t).
  { assert (H : (code r = 0 \/ code r = 1 \/ code r = 2 \/ code r = 3 \/ code r = 4 \/ code r = 5 \/ code r = 6 \/ code r = 7)%Z) by lia.
    destruct H as [H|[H|[H|[H|[H|[H|[H|H]]]]]]]; rewrite H; eexists; reflexivity. }
  destruct T as [t T].
  assert (E : import_dem_as_rtg m F r p = Ok (put (write_info F (get_file_prefix (p ++ "_DEM.rtg") ++ ".rti") (dem_info r (p ++ "_DEM.rtg"))) (p ++ "_DEM.rtg") (sconcat (map (native m) (cells r))))).
  { unfold import_dem_as_rtg, bounds, cellsize. rewrite T. cbn [rbind]. unfold rtg_write_grid. reflexivity. }
  assert (H : get_file_prefix (p ++ "_DEM.rtg") ++ ".rti" = (p ++ "_DEM") ++ ".rti").
  { rewrite dem_name. change (get_rti_file_name ((p ++ "_DEM") ++ "." ++ "rtg") = (p ++ "_DEM") ++ ".rti"). apply header_name. exact rtg_ext. }
  rewrite H, write_twin in E. rewrite dem_name in *. eexists. split; [exact E|]. split; [apply lookup_put_same|]. split; [now apply put_grid_info|].
  intros q N1 N2. rewrite lookup_put_other by congruence. unfold write_info. change ".rtg" with ("." ++ "rtg"). rewrite header_name by exact rtg_ext.
  rewrite lookup_put_other; [reflexivity|]. rewrite app_assoc_s. cbn. congruence.
Qed.
(* its header says where the raster lies, with fixed-angle cells in arc seconds *)
Theorem C93_import_header : forall m F r p, (0 <= code r <= 7)%Z -> sized r -> Rti_Spec.one_line (p ++ "_DEM.rtg") ->
  exists F' j, import_dem_as_rtg m F r p = Ok F' /\ read_info F' (p ++ "_DEM.rtg") = Ok (Some j) /\ lies r j /\ says_geographic r j /\ data_type j = "FLOAT" /\ byte_order j = "LSB" /\
    forall q, q <> p ++ "_DEM.rtg" -> q <> p ++ "_DEM.rti" -> lookup F' q = lookup F q.
Proof.
  intros m F r p C S L. destruct (import_ok m F r p C S L) as (F' & E & _ & R & O). exists F', (info_back (dem_info r (p ++ "_DEM.rtg"))). split; [exact E|]. split; [exact R|].
  pose proof (dem_writable r _ S L) as W. destruct (C42_header_comes_back F (p ++ "_DEM.rtg") _ W) as (j & R' & D & _). rewrite (read_back F _ _ W) in R'. injection R' as R'. rewrite R'. clear R'.
  unfold describes, dem_info in D. cbn [grid_file data_source ncols nrows data_type byte_order pixel_geom xres yres zres z_units y_south_edge y_north_edge x_east_edge x_west_edge box_units gmin gmax] in D.
  destruct D as (_ & _ & Dn & Dr & Dp & Dt & Db & _ & Dx & C1 & C2 & _ & C3 & C4 & C5 & C6 & C7 & C8).
  split; [unfold lies; repeat split; auto; unfold close in *; (eapply Qle_trans; [|exact C3]); apply Qle_lteq; right; apply Qabs_wd; ring|].
  split; [unfold says_geographic; split; [exact Dp|]; split; [exact Dx|]; split; [exact (close_eq _ _ _ (Qmult_comm _ _) C1)|exact (close_eq _ _ _ (Qmult_comm _ _) C2)]|].
  split; [exact Dt|]. split; [exact Db|]. exact O.
Qed.
Print Assumptions C93_import_header.
(* that is false of every projected raster: metres are given out as degrees *)
Theorem C93_import_projected_refuted : forall m F r p, (0 <= code r <= 7)%Z -> sized r -> Rti_Spec.one_line (p ++ "_DEM.rtg") -> projected r = true ->
  exists F' j, import_dem_as_rtg m F r p = Ok F' /\ read_info F' (p ++ "_DEM.rtg") = Ok (Some j) /\ box_units j = "DEGREES" /\ ~ says_projected r j.
Proof.
  intros m F r p C S L P. destruct (C93_import_header m F r p C S L) as (F' & j & E & R & _ & (G & B & _) & _). exists F', j. repeat split; auto.
  intros (G' & _). rewrite G in G'. discriminate G'.
Qed.
Print Assumptions C93_import_projected_refuted.
Lemma dem_fields : forall r rtg, ncols (info_back (dem_info r rtg)) = rx r /\ nrows (info_back (dem_info r rtg)) = ry r /\ data_type (info_back (dem_info r rtg)) = "FLOAT" /\ byte_order (info_back (dem_info r rtg)) = "LSB".
Proof. intros. repeat split. Qed.
(* the elevations of a 32-bit float DEM imported on a little-endian machine come back on any machine *)
Theorem C93_import_float : forall mr F r p, code r = 6%Z -> well_formed r 4 -> Rti_Spec.one_line (p ++ "_DEM.rtg") ->
  exists F', import_dem_as_rtg Little F r p = Ok F' /\ read_from_rtg mr F' (p ++ "_DEM.rtg") = Ok (Some ("float32", cells r)).
Proof.
  intros mr F r p E (S & _ & P) L. destruct (import_ok Little F r p ltac:(lia) S L) as (F' & I & LK & RI & _). exists F'. split; [exact I|].
  eapply (read_rtg_good Little mr F' _ _ "float32" 4); eauto; try reflexivity; lia.
Qed.
Print Assumptions C93_import_float.
(* on a big-endian machine the bytes of every cell come back in reverse, since the header says LSB *)
Theorem C93_import_big_refuted : forall mr F r p, code r = 6%Z -> well_formed r 4 -> Rti_Spec.one_line (p ++ "_DEM.rtg") ->
  exists F', import_dem_as_rtg Big F r p = Ok F' /\ read_from_rtg mr F' (p ++ "_DEM.rtg") = Ok (Some ("float32", map srev (cells r))).
Proof.
  intros mr F r p E (S & _ & P) L. destruct (import_ok Big F r p ltac:(lia) S L) as (F' & I & LK & RI & _). exists F'. split; [exact I|].
  assert (N : map (native Big) (cells r) = map (native Little) (map srev (cells r))).
  { rewrite map_map. apply map_ext. intro v. cbn. now rewrite srev_srev. }
  rewrite N in LK. eapply (read_rtg_good Little mr F' _ _ "float32" 4); eauto; try reflexivity; try lia.
  destruct P as [PL PF]. split; [now rewrite map_length|]. apply Forall_forall. intros v Iv. apply in_map_iff in Iv. destruct Iv as (w & <- & Iw). rewrite srev_length. now apply (proj1 (Forall_forall _ _) PF).
Qed.
Print Assumptions C93_import_big_refuted.
(* a DEM of bytes or 16-bit integers gives a file too short for its header *)
Theorem C93_import_integer_refuted : forall mw mr F r p b, In (code r, b) [(1, 1%nat); (2, 2%nat); (3, 2%nat)]%Z -> well_formed r b -> Rti_Spec.one_line (p ++ "_DEM.rtg") ->
  exists F', import_dem_as_rtg mw F r p = Ok F' /\ read_from_rtg mr F' (p ++ "_DEM.rtg") = Err ValueError.
Proof.
  intros mw mr F r p b T (S & _ & P) L.
  assert (C : (0 <= code r <= 7)%Z /\ (b < 4)%nat) by (cbn in T; destruct T as [T|[T|[T|[]]]]; injection T as T1 T2; lia).
  destruct C as [C Hb]. destruct (import_ok mw F r p C S L) as (F' & I & LK & RI & _). exists F'. split; [exact I|].
  eapply (read_rtg_short mw mr F' _ _ "float32" 4 b); eauto; try reflexivity; try lia. now apply grid_pos.
Qed.
Print Assumptions C93_import_integer_refuted.
(* the whole numbers of a 32-bit integer DEM are read as the floats that have the same bits *)
Theorem C93_import_long_refuted : forall mr F r p, In (code r) [4; 5]%Z -> well_formed r 4 -> Rti_Spec.one_line (p ++ "_DEM.rtg") ->
  exists F', import_dem_as_rtg Little F r p = Ok F' /\ read_from_rtg mr F' (p ++ "_DEM.rtg") = Ok (Some ("float32", cells r)).
Proof.
  intros mr F r p E (S & _ & P) L. assert (C : (0 <= code r <= 7)%Z) by (cbn in E; destruct E as [E|[E|[]]]; lia).
  destruct (import_ok Little F r p C S L) as (F' & I & LK & RI & _). exists F'. split; [exact I|].
  eapply (read_rtg_good Little mr F' _ _ "float32" 4); eauto; try reflexivity; lia.
Qed.
Print Assumptions C93_import_long_refuted.

(* ---------- a case ---------- *)
Definition dem : raster := mkRaster 2 2 (-106) (1 # 1200) 38 (-1 # 1200) 6 false [float_one; float_one; byte_of 64 (byte_of 0 (byte_of 0 (byte_of 0 ""))); float_one] 1 2.
Example C93_case : well_formed dem 4 /\ north_up dem /\ known (code dem) "FLOAT" 4 /\ Rti_Spec.one_line "Basin.tif" /\ Rti_Spec.one_line "Basin_DEM.rtg" /\ projected dem = false /\
  (exists F j, save_geotiff_as_rtg Little (fun v => v) [] "Basin.tif" dem "Basin.rtg" "Basin.rti" = Ok F /\ read_info F "Basin.rtg" = Ok (Some j) /\ box_units j = "METERS" /\ read_from_rtg Big F "Basin.rtg" = Ok (Some ("float32", cells dem))) /\
  (exists F j, import_dem_as_rtg Little [] dem "Basin" = Ok F /\ read_info F "Basin_DEM.rti" = Ok (Some j) /\ box_units j = "DEGREES" /\ (xres j == 3)%Q).
Proof.
  split; [unfold well_formed, sized; cbn; repeat split; try lia; try tauto; repeat constructor|]. split; [split; reflexivity|]. split; [cbn; tauto|].
  split; [apply one_line_lit; reflexivity|]. split; [apply one_line_lit; reflexivity|]. split; [reflexivity|]. split.
  - eexists. eexists. repeat split; vm_compute; reflexivity.
  - eexists. eexists. repeat split; vm_compute; reflexivity.
Qed.
