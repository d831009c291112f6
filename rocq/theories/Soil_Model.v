(* Model of /repo/topoflow/components/soil_base.py (class soil_base) and soil_funcs.py: properties of the eleven standard soils.
   Real arithmetic; float32 rounding of the table and all printing (REPORT) are left out. *)
From Coq Require Import String Ascii Reals List Bool.
Import ListNotations.
Local Open Scope R_scope.

Inductive err := NameError.
Inductive out (A : Type) := Ok (a : A) | Raise (e : err).
Arguments Ok {A}. Arguments Raise {A}.

(* numpy's x ** y for the exponents used here, which are not integers: NaN (None) for a negative base *)
Definition pw (x y : R) : option R := if Rlt_dec x 0 then None else if Req_EM_T x 0 then Some 0 else Some (Rpower x y).
(* the same when the base is positive *)
Definition pp (x y : R) : R := Rpower x y.

(* str.lower for ASCII *)
Definition lower1 (c : ascii) : ascii := let n := nat_of_ascii c in if (Nat.leb 65 n && Nat.leb n 90)%bool then ascii_of_nat (n + 32) else c.
Fixpoint lower (s : string) : string := match s with EmptyString => EmptyString | String c r => String (lower1 c) (lower r) end.

(* soil_type_list(FORM2=False), soil_base.py 50-54, and Soil_Types, soil_funcs.py 243-246 *)
Definition display_names : list string := ["Sand"; "Loamy sand"; "Sandy loam"; "Silt loam"; "Loam"; "Sandy clay loam"; "Silty clay loam"; "Clay loam"; "Sandy clay"; "Silty clay"; "Clay"]%string.
(* soil_type_list(FORM2=True), 56-59 *)
Definition base_names : list string := ["sand"; "loamy_sand"; "sandy_loam"; "silt_loam"; "loam"; "sandy_clay_loam"; "silty_clay_loam"; "clay_loam"; "sandy_clay"; "silty_clay"; "clay"]%string.
(* Soil_Types(FORM2=True), soil_funcs.py 248-251 *)
Definition funcs_names : list string := ["sand"; "loamy_sand"; "sandy_loam"; "silty_loam"; "loam"; "sandy_clay_loam"; "silty_clay_loam"; "clay_loam"; "sandy_clay"; "silty_clay"; "clay"]%string.

(* soil_base.py 303-313, soil_funcs.py 272-282: porosity, K_s [cm/s], psi_B [cm], b, G [mm] *)
Record row := mkRow { t_por : R; t_Ks : R; t_psiB : R; t_b : R; t_G : R }.
Definition table : list row := [
  mkRow (395/1000) (176/10000) (121/10) (405/100) 82;
  mkRow (410/1000) (156/10000) 9 (438/100) 97;
  mkRow (435/1000) (347/100000) (218/10) (490/100) 165;
  mkRow (485/1000) (720/1000000) (786/10) (530/100) 724;
  mkRow (451/1000) (695/1000000) (478/10) (539/100) 385;
  mkRow (420/1000) (630/1000000) (299/10) (712/100) 240;
  mkRow (477/1000) (170/1000000) (356/10) (775/100) 1590;
  mkRow (476/1000) (245/1000000) 63 (852/100) 804;
  mkRow (426/1000) (217/1000000) (153/10) (104/10) 589;
  mkRow (492/1000) (103/1000000) 49 (104/10) 3570;
  mkRow (482/1000) (128/1000000) (405/10) (114/10) 2230].
(* np.where( types == soil_type.lower() ), first match; 333-345 *)
Fixpoint find_row (names : list string) (rows : list row) (s : string) : option row :=
  match names, rows with n :: ns, r :: rs => if String.eqb n s then Some r else find_row ns rs s | _, _ => None end.

(* the parameters set by initialize, 346-379 *)
Record soil := mkSoil { porosity : R; K_s : R; psi_B : R; b : R; G : R; Lambda : R; eta : R; c : R; psi_A : R; theta_s : R }.
Definition soil_of (r : row) : soil :=
  let K_s := t_Ks r / 100 in
  let psi_B := - 1 * (t_psiB r / 100) in
  let G := t_G r / 1000 in
  let Lambda := 1 / t_b r in
  mkSoil (t_por r) K_s psi_B (t_b r) G Lambda (2 + 3 * Lambda) 1 0 (t_por r).

(* theta_residual, 128-134: water content at -10000 m *)
Definition theta_residual (s : soil) : R := let psi_r := - 1000000 / 100 in theta_s s * pp (psi_B s / psi_r) (Lambda s).
(* theta_min, theta_wilting, theta_field, 170-176, 199-205, 228-234, which differ in the pressure head only [cm] *)
Definition theta_at (s : soil) (theta_r psi_cm : R) : R :=
  let psi := psi_cm / 100 in
  let ratio := (psi + psi_A s) / psi_B s in
  pp (1 + pp ratio (c s)) (- Lambda s / c s) * (theta_s s - theta_r) + theta_r.
Definition theta_min (s : soil) (theta_r : R) : R := theta_at s theta_r (-31000).
Definition theta_wilting (s : soil) (theta_r : R) : R := theta_at s theta_r (-15000).
Definition theta_field (s : soil) (theta_r : R) : R := theta_at s theta_r (-340).
(* theta_max, 264-269: theta_s is an undefined name in the second branch *)
Definition theta_max (s : soil) (theta_r r0 : R) : out (option R) :=
  if Rlt_dec r0 (K_s s) then
    let eps := eta s / Lambda s in
    Ok (option_map (fun arg => theta_r + (theta_s s - theta_r) * arg) (pw (r0 / K_s s) (1 / eps)))
  else Raise NameError.
(* Theta_Max, soil_funcs.py 172-177 *)
Definition theta_max_func (s : soil) (theta_r r0 : R) : option R :=
  if Rlt_dec r0 (K_s s) then option_map (fun arg => theta_r + (theta_s s - theta_r) * arg) (pw (r0 / K_s s) (1 / (eta s / Lambda s))) else Some (theta_s s).
(* K_of_theta, 87-99: minimum and maximum pass NaN on *)
Definition K_of_theta (s : soil) (theta_r theta : R) : option R :=
  let eta := 2 + 3 * Lambda s in
  let eps := eta / Lambda s in
  match pw ((theta - theta_r) / (theta_s s - theta_r)) eps with
  | None => None
  | Some K_r => Some (K_s s * Rmax (Rmin K_r 1) 0)
  end.

(* initialize, 286-410: the attributes it leaves, None when the type is not found (339-340 returns early) *)
Record result := mkRes { r_soil : soil; r_theta_r : R; r_theta_i : R; r_theta_H : R; r_theta_w : R; r_theta_f : R; r_theta_u : out (option R); r_K_i : option R }.
Definition initialize (soil_type : string) : option result :=
  match find_row base_names table (lower soil_type) with
  | None => None
  | Some r =>
      let s := soil_of r in
      let q := theta_residual s in
      Some (mkRes s q (theta_field s q) (theta_min s q) (theta_wilting s q) (theta_field s q) (theta_max s q (K_s s * (95/100))) (K_of_theta s q (theta_field s q)))
  end.
(* Get_Soil_Params, soil_funcs.py 298-372: porosity ... K_i, theta_r; theta_i at field capacity *)
Definition Get_Soil_Params (soil_type : string) : option (soil * R * R * option R) :=
  match find_row funcs_names table (lower soil_type) with
  | None => None
  | Some r => let s := soil_of r in let q := theta_residual s in Some (s, q, theta_field s q, K_of_theta s q (theta_field s q))
  end.
