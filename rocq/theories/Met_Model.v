(* Model of /repo/topoflow/utils/met_utils.py (whole file) and of Courant_Condition_OK, Stable_Timestep in utils/tf_utils.py 502-543.
   Real arithmetic; float32 rounding, GDAL and the binary format of the output are left out. *)
From Coq Require Import Reals List Bool.
Import ListNotations.
Local Open Scope R_scope.

Inductive err := UnboundLocalError | TypeError.
Inductive out (A : Type) := Ok (a : A) | Raise (e : err).
Arguments Ok {A}. Arguments Raise {A}.

(* the method argument: None means BRUTSAERT (32-33); Other is any string that is not tested *)
Inductive method := NoMethod | BRUTSAERT | SATTERLUND | BOLTON | Other.
(* saturation_vapor_pressure, 22-65; 10 ** x is exp (x ln 10) *)
Definition saturation_vapor_pressure (T : R) (m : method) (MBAR : bool) : out R :=
  let scale e := Ok (if MBAR then e * 10 else e) in
  match m with
  | NoMethod | BRUTSAERT => scale ((611/1000) * exp (((173/10) * T) / (T + 2373/10)))
  | SATTERLUND => scale (Rpower 10 (114/10 - 2353 / (T + 27315/100)) / 1000)
  | BOLTON => scale ((6112/10000) * exp (((1767/100) * T) / (T + 2435/10)))
  | Other => Raise UnboundLocalError
  end.
(* relative_humidity, 69-100: q_air [kg/kg], T_air [C], P_surf [mbar] *)
Definition relative_humidity (q T P : R) (m : method) : out R :=
  match saturation_vapor_pressure T m true with
  | Raise e => Raise e
  | Ok e_sat => let e_air := q * P / ((378/1000) * q + 622/1000) in Ok (Rmax (Rmin (e_air / e_sat) 1) 0)
  end.
(* lapse_air_temperature, 119-150: frames of the .rts file; np.loadtxt of one number is 0-dimensional and has no len();
   the output file has then been opened already (130), so it is left empty *)
Definition lapse_frame (grid : list R) (ref_elev LR t : R) : list R := map (fun z => t - (z - ref_elev) * LR) grid.
Definition lapse_air_temperature (grid : list R) (ref_elev : R) (ts : list R) (LR : R) : list (list R) * out unit :=
  match ts with
  | [_] => ([], Raise TypeError)
  | _ => (map (lapse_frame grid ref_elev LR) ts, Ok tt)
  end.
(* Courant_Condition_OK and Stable_Timestep with factor 1 *)
Definition Courant_Condition_OK (dx dt vmax : R) : bool := if Rle_dec (vmax * dt * 1) dx then true else false.
Definition Stable_Timestep (dx vmax : R) : R := dx / (vmax * 1).
