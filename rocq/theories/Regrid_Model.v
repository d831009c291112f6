(* Model of /repo/topoflow/utils/regrid.py: boxes of rasters, the rotation of GPM files and the making of a stack of
   rainfall (or other weather) grids on the grid of the DEM from GPM, GLDAS or CHIRPS/RFE files.
   Numbers are rationals (rounding is not modelled).  GDAL is a parameter: [warp] stands for gdal.Warp as called in
   gdal_regrid_to_dem_grid, 1102-1110, an arbitrary function of the opened raster.  Grids are lists in C order. *)
From Coq Require Import QArith List Bool Arith Lia.
From Verif Require Import Base.
Import ListNotations.
Local Open Scope Q_scope.

(* what gdal.Open gives: the geotransform, the size, the cells, the nodata value *)
Record raster := { ulx : Q; xres : Q; xrtn : Q; uly : Q; yrtn : Q; yres : Q; ncols : nat; nrows : nat; cells : list Q; nodata : option Q }.
Record box := { xmin : Q; ymin : Q; xmax : Q; ymax : Q }.
Definition Qn (n : nat) : Q := inject_Z (Z.of_nat n).

(* get_raster_bounds, 101-117 *)
Definition get_raster_bounds (d : raster) : box :=
  let lrx := ulx d + Qn (ncols d) * xres d in
  let lry := uly d + Qn (nrows d) * yres d in
  {| xmin := ulx d; ymin := lry; xmax := lrx; ymax := uly d |}.
(* bounds_disjoint, 137-157 *)
Definition bounds_disjoint (b1 b2 : box) : bool :=
  Qltb (xmax b1) (xmin b2) || Qltb (xmax b2) (xmin b1) || Qltb (ymax b2) (ymin b1) || Qltb (ymax b1) (ymin b2).
(* get_raster_cellsize, 163-172 *)
Definition get_raster_cellsize (d : raster) : Q * Q := (xres d, if Qltb (yres d) 0 then - yres d else yres d).

(* np.rot90 of an array with nr rows and nc columns: row i of the result is column nc-1-i *)
Definition rot90 (nr nc : nat) (a : list Q) : list Q :=
  tab (nr * nc) (fun k => let i := (k / nr)%nat in let j := (k mod nr)%nat in get 0 a (j * nc + (nc - 1 - i))).
(* fix_gpm_file_as_geotiff, 982-1069, the file written; the nodata value of the band is not set *)
Definition fix_gpm (d : raster) (out_nodata : option Q) : raster :=
  let array2 := rot90 (nrows d) (ncols d) (cells d) in
  let array2 := match out_nodata, nodata d with
                | Some o, Some n => map (fun v => if Qle_bool v n then o else v) array2      (* 1031 *)
                | _, _ => array2
                end in
  let b := get_raster_bounds d in
  {| ulx := ymin b; xres := - yres d; xrtn := yrtn d; uly := xmax b; yrtn := xrtn d; yres := - xres d;
     ncols := nrows d; nrows := ncols d; cells := array2; nodata := None |}.

(* ---------- stacks ---------- *)
Section Stack.
Variable dem : box.                     (* DEM_bounds *)
Variables dem_ncols dem_nrows : nat.
Variable warp : raster -> list Q.       (* 1102-1110, with these bounds and this cell size *)
(* names of files, and their order *)
Context {N : Type}.
Variable leb : N -> N -> bool.
Variable open : N -> raster.            (* gdal.Open of the netCDF variable, or of the raw CHIRPS grid *)

Definition zeros : list Q := repeat 0 (dem_nrows * dem_ncols).
Fixpoint insert (x : N) (l : list N) : list N :=
  match l with [] => [x] | y :: r => if leb x y then x :: l else y :: insert x r end.
(* sorted(), 1220 and 1561 *)
Definition sorted (l : list N) : list N := fold_right insert [] l.

(* GLDAS variables that are converted, 1349-1375 *)
Inductive var := Rain | Temperature | Albedo | Pressure | Other.
Definition keep (nd : option Q) (f : Q -> Q) (v : Q) : Q :=
  match nd with Some n => if Qeq_bool v n then v else f v | None => f v end.
Definition convert (x : var) (nd : option Q) (g : list Q) : list Q :=
  match x with
  | Rain => map (keep nd (fun v => v * 3600)) g
  | Temperature => map (keep nd (fun v => v - (27315 # 100))) g
  | Albedo | Pressure => map (keep nd (fun v => v / 100)) g
  | Other => g
  end.
(* the loop over the files; BAD_FILE is set at 1239, before the loop *)
Record acc := { frames : list (list Q); bad_count : nat; BAD_FILE : bool }.
(* one pass, 1243-1384, of GLDAS ([Some] variable) or GPM ([None]); the RTS file gets one frame *)
Definition nc_pass (x : option var) (a : acc) (f : N) : acc :=
  let ds := match x with None => fix_gpm (open f) None | Some _ => open f end in
  let bad := bounds_disjoint (get_raster_bounds ds) dem in
  let B := BAD_FILE a || bad in
  let grid2 := if B then zeros else warp ds in
  let grid2 := match x with None => grid2 | Some x => convert x (nodata ds) grid2 end in
  {| frames := frames a ++ [grid2]; bad_count := if bad then S (bad_count a) else bad_count a; BAD_FILE := B |}.
(* create_rts_from_nc_files, 1206-1390: the frames of the RTS file and bad_count, given what glob lists *)
Definition create_rts_from_nc_files (x : option var) (listing : list N) : list (list Q) * nat :=
  let a := fold_left (nc_pass x) (sorted listing) {| frames := []; bad_count := 0; BAD_FILE := false |} in
  (frames a, bad_count a).

(* ---------- CHIRPS / RFE, 1507-1747 ---------- *)
(* np.flipud *)
Definition flipud (nr nc : nat) (a : list Q) : list Q :=
  tab (nr * nc) (fun k => let i := (k / nc)%nat in let j := (k mod nc)%nat in get 0 a ((nr - 1 - i) * nc + j)).
(* 1590-1597; the cells are those of the file, first row in the south (the swapping of bytes is taken as done) *)
Definition chirps_raster (hours : Q) (a : list Q) : raster :=
  {| ulx := -(2005 # 100); xres := 1 # 10; xrtn := 0; uly := 4005 # 100; yrtn := 0; yres := -(1 # 10);
     ncols := 751; nrows := 801; cells := map (fun v => v / hours) (flipud 801 751 a); nodata := Some (-(1)) |}.
(* 1724-1737 *)
Definition chirps_convert (NON_NEGATIVE : bool) (g : list Q) : list Q :=
  let g := map (keep (Some (-(1))) (fun v => v * 3600)) g in
  if NON_NEGATIVE then map (fun v => if Qltb v 0 then 0 else v) g else g.
(* the loop, 1600-1742: a file away from the DEM ends the program (1693) with the frames written so far *)
Fixpoint chirps_loop (NON_NEGATIVE : bool) (hours : Q) (files : list N) (out : list (list Q)) : list (list Q) * bool :=
  match files with
  | [] => (out, true)
  | f :: r => let ds := chirps_raster hours (cells (open f)) in
              if bounds_disjoint (get_raster_bounds ds) dem then (out, false)
              else chirps_loop NON_NEGATIVE hours r (out ++ [chirps_convert NON_NEGATIVE (warp ds)])
  end.
Definition create_rts_from_chirps_files (NON_NEGATIVE : bool) (hours : Q) (listing : list N) : list (list Q) * bool :=
  chirps_loop NON_NEGATIVE hours (sorted listing) [].
End Stack.

(* Python numbers, as far as regrid_rts_file needs them: / between integers is a float, and range() takes no float *)
Inductive pynum := PInt (z : Z) | PFloat (q : Q).
Definition truediv (a b : Z) : option pynum := if (b =? 0)%Z then None else Some (PFloat (inject_Z a / inject_Z b)).
Definition pyrange (n : pynum) : option (list nat) := match n with PInt z => Some (seq 0 (Z.to_nat z)) | PFloat _ => None end.
(* regrid_rts_file, 768-789, with the rest of the loop, 790-865, as [body]: what the output file holds at the end
   (it is opened, and so emptied, at 773) and whether the call returned *)
Definition regrid_rts_file (body : nat -> list Q) (file_size nx ny : nat) (old : list (list Q)) : list (list Q) * bool :=
  match truediv (Z.of_nat file_size) (Z.of_nat (nx * ny * 4)) with
  | None => ([], false)
  | Some n_grids => match pyrange n_grids with
                    | None => ([], false)
                    | Some ks => (map body ks, true)
                    end
  end.
