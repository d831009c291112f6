(* Model of geographic helpers of /repo/topoflow/utils/ngen: great-circle distance and closest site (usgs_utils.py 1876-1937),
   bounding boxes (shape_utils.py 636-710, hlr_utils.py 1756-1804, collate_basins.py 722-733), degrees-minutes-seconds
   (data_utils.py 1317-1342), lowest cell of a basin (hlr_utils.py 668-700, 1177-1222).
   Distances are real numbers, the rest is rational; rounding errors and nan are not modelled. *)
From Coq Require Import Reals Ratan ZArith QArith Qround List Bool Arith.
From Verif Require Import Base.
Import ListNotations.

(* ---------- usgs_utils.haversine 1876-1884, distance_on_sphere 1888-1898 ---------- *)
Section Sphere.
Local Open Scope R_scope.
Definition haversine (lon1 lat1 lon2 lat2 : R) : R :=
  let p := PI / 180 in
  let term1 := cos ((lat2 - lat1) * p) / 2 in
  let term2 := cos (lat1 * p) * cos (lat2 * p) in
  let term3 := (1 - cos ((lon2 - lon1) * p)) / 2 in
  1 / 2 - term1 + term2 * term3.
(* kilometres *)
Definition distance (lon1 lat1 lon2 lat2 : R) : R := 12742 * asin (sqrt (haversine lon1 lat1 lon2 lat2)).
(* ---------- get_closest_site, 1902-1937; a site is (id, lon, lat) ---------- *)
Inductive closest := Unknown | ValueError | Closest (id : nat) (lon lat dmin : R).
(* np.argmin: the first of the least *)
Fixpoint argmin (d : nat * R * R -> R) (best : nat * R * R) (l : list (nat * R * R)) : nat * R * R :=
  match l with [] => best | s :: r => argmin d (if Rlt_dec (d s) (d best) then s else best) r end.
Definition get_closest_site (sites : list (nat * R * R)) (lon lat : R) : closest :=
  if Rle_dec lon (-999) then Unknown else if Rlt_dec lat (-90) then Unknown else if Rlt_dec 90 lat then Unknown else
  let d := fun '(_, x, y) => distance x y lon lat in
  match sites with
  | [] => ValueError                      (* min of an empty array *)
  | s :: r => let '(id, x, y) := argmin d s r in Closest id x y (distance x y lon lat)
  end.
End Sphere.

(* ---------- np.around: half to even ---------- *)
Local Open Scope Q_scope.
Definition around (decimals : nat) (x : Q) : Q :=
  let p := inject_Z (10 ^ Z.of_nat decimals) in
  let y := x * p in
  let f := Qfloor y in
  let r := y - inject_Z f in
  let z := if Qltb r (1 # 2) then f else if Qltb (1 # 2) r then (f + 1)%Z else if Z.even f then f else (f + 1)%Z in
  inject_Z z / p.
(* ---------- shape_utils.get_bounding_box, 636-667 ---------- *)
Definition lmin (x : Q) (l : list Q) : Q := fold_left (fun m y => if Qltb y m then y else m) l x.
Definition lmax (x : Q) (l : list Q) : Q := fold_left (fun m y => if Qltb m y then y else m) l x.
Record box := mkBox { minlon : Q; maxlon : Q; minlat : Q; maxlat : Q }.
(* the vertices (x :: xs, y :: ys); a single point gives float arguments and the same values *)
Definition bounding_box (x : Q) (xs : list Q) (y : Q) (ys : list Q) (buffer : Q) (decimals : nat) : box :=
  mkBox (around decimals (lmin x xs - buffer)) (around decimals (lmax x xs + buffer)) (around decimals (lmin y ys - buffer)) (around decimals (lmax y ys + buffer)).
(* ---------- check_bounding_box, 672-705 (gages2_utils.py 583-592 is the same) ---------- *)
Definition check_bounding_box (b : box) (lon lat : Q) : bool :=
  let IN_RANGE := true in
  let IN_RANGE := if Qltb lon (minlon b) || Qltb (maxlon b) lon then false else IN_RANGE in
  let IN_RANGE := if Qltb lat (minlat b) || Qltb (maxlat b) lat then false else IN_RANGE in
  IN_RANGE.
(* ---------- hlr_utils.point_in_rectangle, 1756-1804: A is the upper left, C the lower right corner ---------- *)
Definition point_in_rectangle (xP yP xA yA xC yC : Q) : bool :=
  (Qle_bool xA xP && Qle_bool xP xC) && (Qle_bool yC yP && Qle_bool yP yA).
(* ---------- collate_basins.get_box_center_lon_lat, 722-731 (float32 is not modelled) ---------- *)
Definition box_center (b : box) : Q * Q := ((maxlon b + minlon b) / 2, (maxlat b + minlat b) / 2).
(* ---------- hlr_utils.basin_in_dem, 677-683 ---------- *)
Definition basin_in_dem (poly : list (Q * Q)) (b : box) : bool :=
  (0 <? length (filter (fun '(x, y) => (Qle_bool (minlon b) x && Qltb x (maxlon b)) && (Qle_bool (minlat b) y && Qltb y (maxlat b))) poly))%nat.

(* ---------- data_utils.convert_dms_to_dec_deg, 1333-1342 ---------- *)
(* the text of the degrees is a sign and digits; float of "-0" is -0.0, and -0.0 < 0 is False *)
Definition convert_dms (minus : bool) (D M S : Q) : Q :=
  let D := if minus then - D else D in
  if Qltb D 0 then D - M / 60 - S / 3600 else D + M / 60 + S / 3600.

(* ---------- hlr_utils.get_zmin_lon_and_lat, 1177-1222 ---------- *)
Definition mask (nodata z : Z) : Z := if Z.eqb z nodata then 32767%Z else z.
Fixpoint zmin_of (z : Z) (l : list Z) : Z := match l with [] => z | y :: r => zmin_of (Z.min z y) r end.
Fixpoint where_from (k : nat) (z : Z) (l : list Z) : list nat := match l with [] => [] | y :: r => if Z.eqb y z then k :: where_from (S k) z r else where_from (S k) z r end.
(* (zmin, zmin_arg, outlon, outlat, one_zmin) of cells (z :: zs); None for an index past the ends of lons or lats *)
Definition get_zmin_lon_and_lat (z : Z) (zs : list Z) (lons lats : list Q) (nodata : Z) : option (Z * nat * Q * Q * bool) :=
  let zv := map (mask nodata) (z :: zs) in
  let zmin := zmin_of (mask nodata z) (map (mask nodata) zs) in
  let args := where_from 0 zmin zv in
  let arg := hd 0%nat args in
  match nth_error lons arg, nth_error lats arg with
  | Some x, Some y => Some (zmin, arg, around 4 x, around 4 y, Nat.eqb (length args) 1)
  | _, _ => None
  end.
