(* Model of the Richards 1D infiltration component (/repo/topoflow/components/infil_richards_1D.py) for one soil
   column, and of the soil characteristic functions it uses (/repo/topoflow/utils/soil_trans_BC.py).
   With SINGLE_PROFILE the component holds one column; otherwise it holds one column per grid cell and every
   operation acts on the columns independently, which is why one column is enough here.
   Numbers are real numbers.  A power with a base that is not positive is 0 (numpy: 0 for base 0 and positive
   exponent, NaN for a negative base; the arguments below are never negative once enforce_theta_range has run).
   np.roll wraps around: index k+1 of the last node is node 0 and index k-1 of node 0 is the last one. *)
From Coq Require Import Reals List.
From Verif Require Import Base ChanR_Model.
Import ListNotations.
Local Open Scope R_scope.

(* ---------------------------------------------------------------- soil_trans_BC.py *)
(* soil_trans_BC.py psi_of_sat 62-86 (MIN_VALUE=None) *)
Definition psi_of_sat (Se lam c pB pA : R) : R := pB * powr (powr Se (- c / lam) - 1) (1 / c) - pA.
(* soil_trans_BC.py K_of_sat 90-123 *)
Definition K_of_sat (Se Ks lam eta : R) : R := Ks * powr Se (eta / lam).
(* soil_trans_BC.py theta_of_psi 127-194 (CM_TO_M=False) *)
Definition theta_of_psi (p qs qr pB pA c lam : R) : R :=
  let ratio := (p + pA) / pB in
  let Se := powr (1 + powr ratio c) (- lam / c) in
  Se * (qs - qr) + qr.
(* soil_trans_BC.py K_of_psi 198-240 *)
Definition K_of_psi (p pB pA Ks eta c : R) : R :=
  let ratio := (p + pA) / pB in
  let Kr := powr (1 + powr ratio c) (- eta / c) in
  Ks * Rmax (Rmin Kr 1) 0.
(* soil_trans_BC.py psi_of_theta 244-282 (MIN_VALUE=None) *)
Definition psi_of_theta (q qs qr lam c pB pA : R) : R :=
  let Se := (q - qr) / (qs - qr) in
  pB * powr (powr Se (- c / lam) - 1) (1 / c) - pA.
(* soil_trans_BC.py K_of_theta 286-end *)
Definition K_of_theta (q Ks qs qr lam : R) : R :=
  let eta := 2 + 3 * lam in
  let Kr := powr ((q - qr) / (qs - qr)) (eta / lam) in
  Ks * Rmax (Rmin Kr 1) 0.

(* ---------------------------------------------------------------- infil_richards_1D.py *)
(* soil parameters at a node (build_layered_var, infil_base.py 435-520: constant within a layer) *)
Record soilp := mkSoil { Ks : R; Ki : R; qs : R; qi : R; qr : R; pB : R; pA : R; lam : R; cc : R }.
Definition sp0 : soilp := mkSoil 0 0 0 0 0 0 0 0 0.
Definition eta (s : soilp) : R := 2 + 3 * lam s.                                  (* 482 *)

Section Column.
Variable sps : list soilp.    (* one per node, nz of them *)
Variable dzs : list R.        (* node spacings (infil_base.py 411-426; a scalar when all are equal) *)
Variable dt : R.
Notation nz := (length sps).
Notation sp k := (get sp0 sps k).
Notation dz k := (get 0 dzs k).
(* infil_base.py 431: z = cumsum(dz) *)
Definition zpos (k : nat) : R := fold_right Rplus 0 (firstn (S k) dzs).
Definition below (k : nat) : nat := if Nat.eqb (S k) nz then 0%nat else S k.       (* np.roll(.., -1) *)
Definition above (k : nat) : nat := if Nat.eqb k 0 then (nz - 1)%nat else (k - 1)%nat.  (* np.roll(.., 1) *)

Record column := mkCol { q : list R; p : list R; K : list R; v : list R; IN : R; v0 : R; Rg : R }.

(* initialize_computed_vars 637-661: theta = qi, psi = 0, K = Ki, v = 0 *)
Definition col_init : column :=
  mkCol (tab nz (fun k => qi (sp k))) (tab nz (fun _ => 0)) (tab nz (fun k => Ki (sp k))) (tab nz (fun _ => 0)) 0 0 0.

Notation gt l k := (get 0 l k).
(* 2613-2634 Z_Derivative_1D, 2691-2722 averages *)
Definition deriv_fwd (l : list R) (k : nat) : R := (gt l (below k) - gt l k) / dz k.
Definition deriv_bwd (l : list R) (k : nat) : R := (gt l k - gt l (above k)) / dz k.
Definition avg_fwd (l : list R) (k : nat) : R := (gt l (below k) + gt l k) / 2.
Definition avg_bwd (l : list R) (k : nat) : R := (gt l k + gt l (above k)) / 2.

(* 1071-1193 update_theta *)
Definition update_theta (s : column) : list R :=
  tab nz (fun k =>
    let z_diff := zpos (below k) - zpos (above k) in
    let term1 := avg_fwd (K s) k * (deriv_fwd (p s) k - 1) in
    let term2 := avg_bwd (K s) k * (deriv_bwd (p s) k - 1) in
    let d_theta := if Nat.eqb k 0 then 0 else if Nat.eqb k (nz - 1) then 0
                   else 2 * dt / z_diff * (term1 - term2) in
    gt (q s) k + d_theta).
(* 1256-1305 update_surface_BC_for_theta; r = P_total = P_rain + SM - ET (1066) *)
Definition surface_BC (r : R) (s : column) (q1 : list R) : list R :=
  set q1 0 (gt q1 0 + (r - gt (v s) 0) * dt / dz 0).
(* 1309-1321 update_bottom_BC_for_theta *)
Definition bottom_BC (q1 : list R) : list R := set q1 (nz - 1) (gt q1 (nz - 1 - 1)).
(* 1325-1349 enforce_theta_range *)
Definition enforce_theta_range (q1 : list R) : list R :=
  tab nz (fun k => Rmax (Rmin (gt q1 k) (qs (sp k))) (qr (sp k) + 1 / 1000)).
(* 970-973 *)
Definition theta_with_BCs (r : R) (s : column) : list R := bottom_BC (surface_BC r s (update_theta s)).

(* 1394 update_saturation *)
Definition saturation (q1 : list R) (k : nat) : R := (gt q1 k - qr (sp k)) / (qs (sp k) - qr (sp k)).
(* 1505 update_psi, 1879 update_K *)
Definition update_psi (q1 : list R) : list R :=
  tab nz (fun k => psi_of_sat (saturation q1 k) (lam (sp k)) (cc (sp k)) (pB (sp k)) (pA (sp k))).
Definition update_K (q1 : list R) : list R :=
  tab nz (fun k => K_of_sat (saturation q1 k) (Ks (sp k)) (lam (sp k)) (eta (sp k))).
(* 1927 update_Kbar, 2155 update_v, 2173 update_bottom_BC_for_v *)
Definition update_v (p1 K1 : list R) : list R :=
  let w := tab nz (fun k => avg_fwd K1 k * (1 - deriv_fwd p1 k)) in
  set w (nz - 1) (gt w (nz - 1 - 1)).

(* 959-1013 update *)
Definition col_update (s : column) (r : R) : column :=
  let q1 := enforce_theta_range (theta_with_BCs r s) in
  let p1 := update_psi q1 in
  let K1 := update_K q1 in
  let v1 := update_v p1 K1 in
  let vmax := gt v1 0 + (qs (sp 0) - gt q1 0) * (dz 0 / dt) in                     (* 2236-2240 *)
  mkCol q1 p1 K1 v1 (Rmin r vmax) (gt v1 0) (gt v1 (nz - 1)).                      (* 2241-2251; update_Rg 2340 *)

Definition col_run (s : column) (rs : list R) : column := fold_left col_update rs s.
End Column.
