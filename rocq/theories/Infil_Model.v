(* Model of the infiltration components: the base class (/repo/topoflow/components/infil_base.py) with the
   Green-Ampt rate (infil_green_ampt.py), over grids and scalars, and the rate formulas of the Smith-Parlange
   (infil_smith_parlange.py) and Beven (infil_beven.py) components for one cell.
   Numbers: exact rationals for the first part, real numbers for the second; rounding, NaN and infinities are
   not modelled (check_infiltration, which aborts on a NaN, is therefore left out).  The soil parameters are
   those of the top layer, the only one these three methods use. *)
From Coq Require Import ZArith QArith Qminmax Reals List Bool.
From Verif Require Import Base Field Snow_Model.
Import ListNotations.
Local Open Scope Q_scope.

Section Grid.
Variable n nx : nat.         (* n = nx*ny pixels *)
Variable da : field.
Variable dt : Q.

Record infil := mkInfil {
  fc : field; IN : field; v0 : field; Rg : field; Icum : field;
  vol_IN : Q; vol_v0 : Q; vol_Rg : Q }.
(* inputs of one update: rain, snowmelt, water table, land surface; soil parameters (read from file or fixed) *)
Record infil_in := mkInfilIn {
  iP : field; iSM : field; ih : field; iz : field;
  iKs : field; iKi : field; iqs : field; iqi : field; iG : field }.

(* infil_green_ampt.py 341-367 initialize_computed_vars; [scalars] is ALL_SCALARS, 310-323 *)
Definition infil_init (scalars : bool) : infil :=
  let mk q := if scalars then Scalar q else Grid (tab n (fun _ => q)) in
  mkInfil (mk 0) (mk 0) (mk 0) (mk 0) (mk (1 # 1000000)) 0 0 0.
Definition all_scalars (x : infil_in) : bool :=
  is_scalar (iP x) && is_scalar (iSM x) && is_scalar (ih x) && is_scalar (iKs x) && is_scalar (iKi x) &&
  is_scalar (iqs x) && is_scalar (iqi x) && is_scalar (iG x).

(* infil_base.py 571 update_surface_influx *)
Definition P_total (x : infil_in) : field := lift2 n Qplus (iP x) (iSM x).

(* infil_green_ampt.py 540-542 *)
Definition ga_capacity (x : infil_in) (I : field) : field :=
  let dK := lift2 n Qminus (iKs x) (iKi x) in
  let dq := lift2 n Qminus (iqs x) (iqi x) in
  lift2 n Qplus (lift2 n Qdiv (lift2 n Qmult (lift2 n Qmult (iG x) dK) dq) I) (iKs x).

(* np.size(f) == 1: a 0D array, or a grid with a single pixel *)
Definition size1 (f : field) : bool := is_scalar f || Nat.eqb n 1.

(* infil_base.py 970-992 check_low_rainrate: the two-scalar case rebinds IN to P_total *)
Definition check_low_rainrate (Pt Ks I_N : field) : field :=
  if size1 Pt && size1 Ks then
    if Qltb (fat Pt 0) (fat Ks 0) then Pt else I_N
  else Grid (tab n (fun i => if Qltb (fat Pt i) (fat Ks i) then fat Pt i else fat I_N i)).

(* infil_base.py 663-701 adjust_infil_rate.  np.where on a 0D comparison that is true returns the index array
   [0] of a 1D array, so that IN[w] = 0 then sets the first row of the grid (numpy before 2.1; later versions
   raise) *)
Definition water_table_stop (I_N h z : field) : field :=
  if size1 I_N then I_N
  else if is_scalar h && is_scalar z
       then Grid (tab n (fun i => if Qle_bool (fat z 0) (fat h 0) && Nat.ltb i nx then 0 else fat I_N i))
       else Grid (tab n (fun i => if Qle_bool (fat z i) (fat h i) then 0 else fat I_N i)).
Definition adjust_infil_rate (x : infil_in) (I_N : field) : field :=
  water_table_stop (check_low_rainrate (P_total x) (iKs x) I_N) (ih x) (iz x).

(* infil_base.py 328-335 update, from any capacity [c] (Green-Ampt: 564-566 IN = v0 = min(fc, P_total));
   None: I += IN*dt with a 0D I and a grid IN raises *)
Definition infil_step (c : field) (s : infil) (x : infil_in) : option infil :=
  let m := lift2 n Qmin c (P_total x) in
  let i_n := adjust_infil_rate x m in                                              (* 663-701 *)
  do I' <- store n (Icum s) (lift2 n (fun a r => a + r * dt) (Icum s) i_n) ;;      (* update_I 797 *)
  Some (mkInfil c i_n m i_n I'
          (vol_IN s + volume n da dt i_n) (vol_v0 s + volume n da dt m)            (* update_v0_integral 719-736 *)
          (vol_Rg s + volume n da dt i_n)).                                        (* update_Rg, update_Rg_integral 758-778 *)
Definition ga_update (s : infil) (x : infil_in) : option infil := infil_step (ga_capacity x (Icum s)) s x.

Fixpoint ga_trace (s : infil) (xs : list infil_in) : option (list infil) :=
  match xs with
  | [] => Some []
  | x :: t => do s' <- ga_update s x ;; do l <- ga_trace s' t ;; Some (s' :: l)
  end.
End Grid.

(* ---------------------------------------------------------------- rate formulas with exp, one cell *)
Local Open Scope R_scope.
(* infil_smith_parlange.py 562-566 *)
Definition sp_capacity (Ks Ki qs qi G gam I : R) : R :=
  let dK := Ks - Ki in let dq := qs - qi in
  let t2 := exp (gam * I / (G * dq)) - 1 in
  gam * dK / t2 + Ks.
(* infil_green_ampt.py 540-542, on reals *)
Definition ga_capacityR (Ks Ki qs qi G I : R) : R := G * (Ks - Ki) * (qs - qi) / I + Ks.
(* infil_beven.py 541-546 *)
Definition beven_capacity (K0 qs qi f C I : R) : R :=
  let dq := qs - qi in
  let t1 := K0 * f / dq in let t2 := C + I in let t3 := 1 - exp (- 1 * f * I / dq) in
  t1 * t2 / t3.

(* one update at one cell of a domain where none of the shapes is 0D: IN = min(capacity, P_total)
   (infil_smith_parlange.py 574, infil_beven.py 554), then check_low_rainrate, the water table, update_I *)
Definition cell_rate (cap : R) (P Ks h z : R) : R :=
  let a := Rmin cap P in
  let b := if Rlt_dec P Ks then P else a in
  if Rle_dec z h then 0 else b.
Record cell_in := mkCI { cP : R; ch : R; cz : R }.
Fixpoint cell_trace (cap : R -> R) (Ks dt I : R) (xs : list cell_in) : list (R * R) :=
  match xs with
  | [] => []
  | x :: t => let r := cell_rate (cap I) (cP x) Ks (ch x) (cz x) in
              let I' := I + r * dt in (r, I') :: cell_trace cap Ks dt I' t
  end.
