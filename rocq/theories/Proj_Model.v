(* Model of the map projections (/repo/topoflow/utils/projections.py) and of the look-up of hydrologic landscape regions by
   longitude and latitude (/repo/topoflow/utils/ngen/hlr_utils.py 1524-1751).  Real numbers, rounding is not modelled.
   None stands for nan or +-inf: root of a negative number, division by zero, logarithm of a number that is not positive.
   Decimal constants of the code are fractions.  Lambert_Azimuthal_Equal_Area_XY is the same in both files. *)
From Coq Require Import Reals ZArith List.
Import ListNotations.
Local Open Scope R_scope.

Definition bind {A B} (x : option A) (f : A -> option B) : option B := match x with Some a => f a | None => None end.
Definition nsqrt (x : R) : option R := if Rle_dec 0 x then Some (sqrt x) else None.
Definition ndiv (x y : R) : option R := if Req_EM_T y 0 then None else Some (x / y).
Definition nlog (x : R) : option R := if Rlt_dec 0 x then Some (ln x) else None.
Definition ntan (x : R) : option R := ndiv (sin x) (cos x).
(* np.pi / 180. *)
Definition d2r : R := PI / 180.

(* ---------- Albers_XY_Sphere, 34-80 ---------- *)
Definition albers_sphere (lon_deg lat_deg : R) : option (R * R) :=
  let lat := lat_deg * d2r in
  let lon := lon_deg * d2r in
  let Rad := 6378137 in
  let lat1 := (295/10) * d2r in
  let lat2 := (455/10) * d2r in
  let lon0 := -96 * d2r in
  let lat0 := 23 * d2r in
  let n := (sin lat1 + sin lat2) / 2 in
  let C := cos lat1 ^ 2 + 2 * n * sin lat1 in
  bind (nsqrt (C - 2 * n * sin lat)) (fun r =>
  bind (nsqrt (C - 2 * n * sin lat0)) (fun r0 =>
  bind (ndiv Rad n) (fun Rn =>
  let rho := Rn * r in
  let rho0 := Rn * r0 in
  let theta := n * (lon - lon0) in
  Some (rho * sin theta, rho0 - rho * cos theta)))).

(* ---------- Albers_q_for_Ellipsoid, 84-92 ---------- *)
Definition albers_q (lat e : R) : option R :=
  bind (ndiv (sin lat) (1 - (e * sin lat) ^ 2)) (fun term1 =>
  bind (ndiv (1 - e * sin lat) (1 + e * sin lat)) (fun f =>
  bind (nlog f) (fun l =>
  bind (ndiv l (2 * e)) (fun term2 =>
  Some ((1 - e ^ 2) * (term1 - term2)))))).
(* 134-135 *)
Definition flat : R := 1 / (298257222101004 / 1000000000000).
Definition ecc : R := sqrt (flat * (2 - flat)).
(* ---------- Albers_XY_Ellipsoid, 96-161 ---------- *)
Definition albers_m (lat e : R) : option R := bind (nsqrt (1 - (e * sin lat) ^ 2)) (fun r => ndiv (cos lat) r).
Definition albers_ellipsoid (lon_deg lat_deg : R) : option (R * R) :=
  let lat := lat_deg * d2r in
  let lon := lon_deg * d2r in
  let a := 6378137 in
  let e := ecc in
  let lat1 := (295/10) * d2r in
  let lat2 := (455/10) * d2r in
  let lon0 := -96 * d2r in
  let lat0 := 23 * d2r in
  bind (albers_m lat1 e) (fun m1 =>
  bind (albers_m lat2 e) (fun m2 =>
  bind (albers_q lat e) (fun q =>
  bind (albers_q lat0 e) (fun q0 =>
  bind (albers_q lat1 e) (fun q1 =>
  bind (albers_q lat2 e) (fun q2 =>
  bind (ndiv (m1 ^ 2 - m2 ^ 2) (q2 - q1)) (fun n =>
  let C := m1 ^ 2 + n * q1 in
  bind (nsqrt (C - n * q)) (fun r =>
  bind (nsqrt (C - n * q0)) (fun r0 =>
  bind (ndiv a n) (fun an =>
  let rho := an * r in
  let rho0 := an * r0 in
  let theta := n * (lon - lon0) in
  Some (rho * sin theta, rho0 - rho * cos theta))))))))))).

(* ---------- Lambert_Azimuthal_Equal_Area_XY, 165-226 ---------- *)
Definition lambert (lon0 lat1 lon lat : R) : option (R * R) :=
  let Rad := 6370997 in
  let lon_rad := lon * d2r in
  let lon0_rad := lon0 * d2r in
  let lon_diff_rad := lon_rad - lon0_rad in
  let lat_rad := lat * d2r in
  let lat1_rad := lat1 * d2r in
  let kterm1 := sin lat1_rad * sin lat_rad in
  let kterm2 := cos lat1_rad * cos lat_rad * cos lon_diff_rad in
  bind (bind (ndiv 2 (1 + kterm1 + kterm2)) nsqrt) (fun kp =>
  let x := Rad * kp * cos lat_rad * sin lon_diff_rad in
  let yterm1 := cos lat1_rad * sin lat_rad in
  let yterm2 := sin lat1_rad * cos lat_rad * cos lon_diff_rad in
  Some (x, Rad * kp * (yterm1 - yterm2))).

(* ---------- Mercator_XY, 230-277 ---------- *)
Definition merc_e : R := sqrt (1 - ((6356752314245 / 1000000) / 6378137) ^ 2).
Definition mercator (lon0 : R) (SPHERE : bool) (lon lat : R) : option (R * R) :=
  let lon_diff_rad := lon * d2r - lon0 * d2r in
  let lat_rad := lat * d2r in
  bind (ntan (PI / 4 + lat_rad / 2)) (fun t =>
  if SPHERE then
    bind (nlog t) (fun l => Some (6370997 * lon_diff_rad, 6370997 * l))
  else
    let a := 6378137 in
    let e := merc_e in
    bind (ndiv (1 - e * sin lat_rad) (1 + e * sin lat_rad)) (fun factor =>
    (* factor ** (e/2), of a positive number *)
    let factor := Rpower factor (e / 2) in
    bind (nlog (t * factor)) (fun l => Some (a * lon_diff_rad, a * l)))).

(* ---------- get_hlr_grid_info 1524-1550 and get_hlr_code_for_point 1608-1751 ---------- *)
Definition ncols : Z := 9106.
Definition nrows : Z := 6855.
Definition xmin : R := - (61750166 / 10).
Definition xmax : R := 29309834 / 10.
Definition ymin : R := - (25308096 / 10).
Definition ymax : R := 43241904 / 10.
(* row and column of a point, None when '0' is returned; np.int32 of a positive number is its integer part *)
Definition hlr_index (lon lat : R) : option (Z * Z) :=
  match lambert (-100) 45 lon lat with
  | None => None
  | Some (x, y) =>
      if Rlt_dec xmin x then if Rlt_dec x xmax then if Rlt_dec ymin y then if Rlt_dec y ymax then
        Some (Int_part ((ymax - y) / 1000), Int_part ((x - xmin) / 1000))
      else None else None else None else None
  end.
(* missing coordinates are the text -9999 (1622) *)
Definition hlr_code (grid : Z -> Z -> Z) (lon lat : R) : Z := match hlr_index lon lat with Some (row, col) => grid row col | None => 0 end.
