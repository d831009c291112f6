(* Model of /repo/topoflow/utils/import_grid.py: import of a raster that GDAL has opened (65-259, 264-295, 334-358, 399-508),
   with rtg_files.py 311-373 (open_new_file and write_grid of an rtg_file object), 478-532 (read_grid) and 536-568 (write_grid).
   A raster has its size, its geotransform without rotation, GDAL's code of its data type, whether its coordinate system is
   projected, its cells as bytes (Rts_Model) and the smallest and largest value.  NaN, several bands and printing are left out;
   the number of cells fits 32 bits. *)
From Coq Require Import String Ascii List ZArith QArith Qabs Qround Bool.
From Verif Require Import Time_Model Io_Model Rti_Model Rts_Model.
Import ListNotations.
Local Open Scope string_scope.

Record raster := mkRaster { rx : Z; ry : Z; ulx : Q; gxres : Q; uly : Q; gyres : Q; code : Z; projected : bool; cells : list cell; rmin : Q; rmax : Q }.

(* 165-176 get_raster_cellsize *)
Definition cellsize (r : raster) : Q * Q := (gxres r, Qabs (gyres r)).
(* 180-220 get_raster_bounds: [xmin, ymin, xmax, ymax] *)
Definition bounds (r : raster) : Q * Q * Q * Q :=
  let lrx := (ulx r + inject_Z (rx r) * gxres r)%Q in
  let lry := (uly r + inject_Z (ry r) * gyres r)%Q in
  (ulx r, lry, lrx, uly r).
(* 231-259 get_rtg_type_from_gdal_type *)
Definition rtg_type (c : Z) : res string :=
  match c with
  | 0 => Ok "UNKNOWN" | 1 => Ok "BYTE" | 2 => Ok "UINT" | 3 => Ok "INTEGER" | 4 => Ok "ULONG" | 5 => Ok "LONG" | 6 => Ok "FLOAT" | 7 => Ok "DOUBLE"
  | _ => Err KeyError
  end%Z.

(* 440-442: srs.IsProjected is a bound method, which counts as true whatever the coordinate system is *)
Definition is_projected_attribute (r : raster) : bool := true.
Definition geographic (r : raster) : bool := negb (is_projected_attribute r).
(* rti_files.py 181-188 get_utm_zone: str of a float *)
Definition utm_zone (mid_lon : Q) : string := py_str (Qceiling ((mid_lon + 180) / 6)) ++ ".0".

(* 399-488 make_rti_for_gdal_grid; the bytes per cell are looked up in make_info (rti_files.py 483) *)
Definition make_rti (m : machine) (F : fs) (grid_file : string) (r : raster) (rti_file : string) : res fs :=
  let! t := rtg_type (code r) in
  let bo := get_rti_byte_order m in
  let lrx := (ulx r + inject_Z (rx r) * gxres r)%Q in
  let lry := (uly r + inject_Z (ry r) * gyres r)%Q in
  let '(pg, xr, yr, bu, utm) :=
    if geographic r then (0%Z, (gxres r * 3600)%Q, (Qabs (gyres r) * 3600)%Q, "DEGREES", utm_zone ((ulx r + lrx) / 2))
    else (1%Z, gxres r, Qabs (gyres r), "METERS", "unknown") in
  let! _ := get_bpe t in
  Ok (write_info F rti_file (mkinfo grid_file "TopoFlow & GDAL" (rx r) (ry r) t bo pg xr yr (1 # 100) "METERS" lry (uly r) lrx (ulx r) bu (rmin r) (rmax r) utm)).

(* 264-295 read_from_geotiff with a name for the header *)
Definition read_from_geotiff (m : machine) (F : fs) (tif_file : string) (r : raster) (rti_file : string) : res (fs * list cell) :=
  let! F := make_rti m F tif_file r rti_file in Ok (F, cells r).

(* rtg_files.py 536-568 write_grid with RTG_type 'FLOAT': conv is np.float32 on the raster's cells *)
Definition write_float (m : machine) (conv : cell -> cell) (F : fs) (rtg_file : string) (i : info) (g : list cell) : fs :=
  put F rtg_file (fst (rtg_write_grid (swap_needed m (byte_order i)) (map (fun c => native m (conv c)) g))).
(* 496-508 save_geotiff_as_rtg *)
Definition save_geotiff_as_rtg (m : machine) (conv : cell -> cell) (F : fs) (tif_file : string) (r : raster) (rtg_file rti_file : string) : res fs :=
  let! (F, g) := read_from_geotiff m F tif_file r rti_file in
  let! i := read_info F rti_file in
  match i with None => Err AttributeError | Some i => Ok (write_float m conv F rtg_file i g) end.

(* 334-358 read_from_rtg, rtg_files.py 478-532 read_grid: the numpy type and the cells; None: no such file *)
Definition read_from_rtg (m : machine) (F : fs) (rtg_file : string) : res (option (string * list cell)) :=
  match lookup F rtg_file with
  | None => Ok None
  | Some c =>
      let! i := read_info F rtg_file in
      match i with
      | None => Err AttributeError
      | Some i =>
          let! dt := get_numpy_data_type (data_type i) in
          let! b := get_bpe (data_type i) in
          let n := Z.to_nat (ncols i * nrows i) in
          let items := from_bytes n b c in
          if (List.length items =? n)%nat
          then Ok (Some (dt, map (number m) (if swap_needed m (byte_order i) then map srev items else items)))
          else Err ValueError
      end
  end.

(* 65-153 import_dem_as_rtg.  open_new_file (rtg_files.py 311-341, 192-288) sets the type of the header from its argument dtype,
   which is 'float32' here, and writes the header beside the grid; SWAP_ENDIAN was set by make_info for the machine's own order *)
Definition import_dem_as_rtg (m : machine) (F : fs) (r : raster) (new_prefix : string) : res fs :=
  let '(xmin, ymin, xmax, ymax) := bounds r in
  let '(dx, dy) := cellsize r in
  let! _ := rtg_type (code r) in
  let rtg_file := new_prefix ++ "_DEM.rtg" in
  let! t := get_rti_data_type "float32" in
  let i := mkinfo rtg_file "TopoFlow 3.6" (rx r) (ry r) t "LSB" 0 (dx * 3600)%Q (dy * 3600)%Q (1 # 100) "METERS" ymin ymax xmax xmin "DEGREES" (rmin r) (rmax r) "UNKNOWN" in
  let F := write_info F (get_file_prefix rtg_file ++ ".rti") i in
  Ok (put F rtg_file (fst (rtg_write_grid false (map (native m) (cells r))))).
