(* Model of the soil property tool /repo/topoflow/utils/pedotransfer.py: check and unit conversion of the soil grids
   (clay C, silt S, organic carbon OC, bulk density D), the Wosten pedotransfer functions, the conversion to the
   transitional Brooks-Corey parameters and the capillary length.  Grids are lists in C order; the four grids of a layer
   have the same shape.  Numbers are the reals of the standard library: rounding and overflow are not modelled.
   Logarithms and quotients are meant for positive arguments only (numpy gives NaN or an infinity elsewhere): the
   theorems state that the contents are positive where they use them.  Infinities and NaN are modelled for the capillary
   length, where the code meets them ([xr]).  scipy's gamma function is a parameter.  Not modelled: regridding of the
   GeoTIFF files, reading and writing of the files, printing. *)
From Coq Require Import Reals List Bool.
From Verif Require Import Prep_Model.
Import ListNotations.
Local Open Scope R_scope.

Definition rlt (x y : R) : bool := if Rlt_dec x y then true else false.
Definition rle (x y : R) : bool := if Rle_dec x y then true else false.
Definition req (x y : R) : bool := if Req_EM_T x y then true else false.

(* ---------- reading ---------- *)
(* check_soil_grid_values, 276-301, for one of the four grids.  min and max of an empty selection raise ValueError
   ([None]); the minima and maxima are taken before any value is replaced. *)
Definition repair (vmax : R) (l : list R) : option (list R) :=
  match filter (fun v => rle 0 v) l, filter (fun v => rle v vmax) l with
  | x :: a, y :: b =>
      let mid := (minl x a + maxl y b) / 2 in                                        (* 276-284 *)
      let l1 := map (fun v => if req v 0 then 1 else v) l in                           (* 290-293 *)
      Some (map (fun v => if rlt v 0 || rlt vmax v then mid else v) l1)               (* 298-301 *)
  | _, _ => None
  end.

(* convert_soil_grid_values, 389-421 *)
Definition nodata : R := -9999.
Definition om_of_oc (v : R) : R := if req v nodata then nodata else v / 10 * (1724/1000).
Definition d_of_d (v : R) : R := if req v nodata then nodata else v / 1000.

(* the contents of one cell: clay [%], silt [%], organic matter [%], bulk density [g/cm3] *)
Record cell := mkCell { clay : R; silt : R; om : R; dens : R }.
Fixpoint zip4 (c s o d : list R) : list cell :=
  match c, s, o, d with
  | c0 :: c', s0 :: s', o0 :: o', d0 :: d' => mkCell c0 s0 o0 d0 :: zip4 c' s' o' d'
  | _, _, _, _ => []
  end.

(* read_soil_grid_files, 202-250, from the contents of the four files *)
Definition read_soil (C S OC D : list R) : option (list cell) :=
  match repair 100 C, repair 100 S, repair 1000 OC, repair 2650 D with
  | Some C1, Some S1, Some OC1, Some D1 => Some (zip4 C1 S1 (map om_of_oc OC1) (map d_of_d D1))
  | _, _, _, _ => None
  end.

(* ---------- Wosten functions ---------- *)
(* wosten_theta_s, 785-805: one cell.  The nodata values are those of get_nodata_values, 128-135. *)
Definition theta_cell (topsoil : R) (x : cell) : R :=
  let C := clay x in let S := silt x in let OM := om x in let D := dens x in
  let p1 := 7919/10000 + 1691/1000000 * C - 29619/100000 * D in
  let p2 := - (1491/1000000000) * S^2 + 821/10000000 * OM^2 in
  let p3 := 2427/100000 * (1/C) + 1113/100000 * (1/S) + 1472/100000 * ln S in
  let p4 := (- (733/10000000) * OM * C) - (619/1000000 * D * C) in
  let p5 := (- (1183/1000000) * D * OM) - (1664/10000000 * topsoil * S) in
  if (req OM 101 || req D 10) || (req C 101 || req S 101) then nodata
  else p1 + p2 + p3 + p4 + p5.

(* 810-839 *)
Definition theta_force (FORCE_RANGE : bool) (l : list R) : option (list R) :=
  if existsb (fun v => rlt v 0 || rlt 1 v) l && FORCE_RANGE then
    match filter (fun v => rlt 0 v) l with                                             (* 832-833 *)
    | [] => None
    | x :: a =>
        let l1 := map (fun v => if rlt v 0 then minl x a else v) l in
        match filter (fun v => rlt v 1) l1 with                                       (* 835-836 *)
        | [] => None
        | y :: b => Some (map (fun v => if rlt 1 v then maxl y b else v) l1)
        end
    end
  else Some l.
Definition wosten_theta_s (g : list cell) (topsoil : R) (FORCE_RANGE : bool) : option (list R) :=
  theta_force FORCE_RANGE (map (theta_cell topsoil) g).

(* wosten_K_s, 857-903: [cm/day] turned into [m/s] *)
Definition Ks_cell (topsoil : R) (x : cell) : R :=
  let C := clay x in let S := silt x in let OM := om x in let D := dens x in
  let p1 := 7755/1000 + 352/10000 * S + 93/100 * topsoil in
  let p2 := - (967/1000) * D^2 - 484/1000000 * C^2 - 322/1000000 * S^2 in
  let p3 := (1/1000) / S - (748/10000) / OM - 643/1000 * ln S in
  let p4 := (- (1398/100000) * D * C) - (1673/10000 * D * OM) in
  let p5 := (2986/100000 * topsoil * C) - 3305/100000 * topsoil * S in
  exp (p1 + p2 + p3 + p4 + p5) / (100 * 24 * 3600).
Definition wosten_K_s (g : list cell) (topsoil : R) : list R := map (Ks_cell topsoil) g.

(* wosten_alpha, 916-938: one cell, [1/cm] *)
Definition alpha_raw (topsoil : R) (x : cell) : R :=
  let C := clay x in let S := silt x in let OM := om x in let D := dens x in
  let p1 := - (1496/100) + 3135/100000 * C + 351/10000 * S + 646/1000 * OM + 1529/100 * D in
  let p2 := - (192/1000) * topsoil - 4671/1000 * D^2 - 781/1000000 * C^2 - 687/100000 * OM^2 in
  let p3 := (449/10000) / OM + 663/10000 * ln S + 1482/10000 * ln OM in
  let p4 := (- (4546/100000) * D * S) - (4852/10000 * D * OM) in
  let p5 := 673/100000 * topsoil * C in
  - 1 * exp (p1 + p2 + p3 + p4 + p5).
(* 960-1026; 967: the maximum of the values that are not zero *)
Definition alpha_min : R := -15/100.
Definition alpha_max : R := -4/1000.
Definition wosten_alpha (g : list cell) (topsoil : R) (FORCE_RANGE : bool) : option (list R) :=
  let a := map (alpha_raw topsoil) g in
  let fin l := Some (map (fun v => v * 100) l) in
  if existsb (fun v => rlt v alpha_min || rlt alpha_max v) a then
    match filter (fun v => negb (req v 0)) a with
    | [] => None
    | _ => if FORCE_RANGE
           then let a1 := map (fun v => if rlt v alpha_min then alpha_min else v) a in
                fin (map (fun v => if rlt alpha_max v then alpha_max else v) a1)
           else fin a
    end
  else fin a.

(* wosten_n, 1043-1090 *)
Definition n_raw (topsoil : R) (x : cell) : R :=
  let C := clay x in let S := silt x in let OM := om x in let D := dens x in
  let p1 := - (2523/100) - 2195/100000 * C + 74/10000 * S - 1940/10000 * OM + 455/10 * D in
  let p2 := - (724/100) * D^2 + 3658/10000000 * C^2 + 2885/1000000 * OM^2 - (1281/100) / D in
  let p3 := (- (1524/10000)) / S - (1958/100000) / OM - 2876/10000 * ln S in
  let p4 := (- (709/10000) * ln OM) - (446/10 * ln D) in
  let p5 := (- (2264/100000) * D * C) + (896/10000 * D * OM) + (718/100000 * topsoil * C) in
  exp (p1 + p2 + p3 + p4 + p5) + 1.
Definition wosten_n (g : list cell) (topsoil : R) (FORCE_RANGE : bool) : list R :=
  let n := map (n_raw topsoil) g in
  if existsb (fun v => rle v 1 || rlt 3 v) n && FORCE_RANGE then
    let n1 := map (fun v => if rlt v 1 then 101/100 else v) n in
    map (fun v => if rlt 3 v then 3 else v) n1
  else n.

(* wosten_L, 1105-1144 *)
Definition L_raw (x : cell) : R :=
  let C := clay x in let S := silt x in let OM := om x in let D := dens x in
  let p1 := 202/10000 + 6193/10000000 * C^2 - 1136/1000000 * OM^2 in
  let p2 := - (2316/10000) * ln OM - (3544/100000 * D * C) in
  let p3 := (283/100000 * D * S) + (488/10000 * D * OM) in
  let s1 := p1 + p2 + p3 in
  10 * (exp s1 - 1) / (exp s1 + 1).
Definition wosten_L (g : list cell) (FORCE_RANGE : bool) : list R :=
  let l := map L_raw g in
  if existsb (fun v => rlt v (-10) || rlt 10 v) l && FORCE_RANGE then
    let l1 := map (fun v => if rlt v (-10) then -10 else v) l in
    map (fun v => if rlt 10 v then 10 else v) l1
  else l.

(* ---------- capillary length ---------- *)
(* floating point numbers without signed zeros *)
Inductive xr := Fin (x : R) | PInf | NInf | NaN.
Definition sgn_inf (x : R) : xr := if rlt 0 x then PInf else if rlt x 0 then NInf else NaN.   (* x times +inf, x over +0 *)
Definition xneg (a : xr) : xr := match a with Fin x => Fin (- x) | PInf => NInf | NInf => PInf | NaN => NaN end.
Definition xadd (a b : xr) : xr :=
  match a, b with
  | Fin x, Fin y => Fin (x + y)
  | NaN, _ | _, NaN | PInf, NInf | NInf, PInf => NaN
  | PInf, _ | _, PInf => PInf
  | NInf, _ | _, NInf => NInf
  end.
Definition xmul (a b : xr) : xr :=
  match a, b with
  | Fin x, Fin y => Fin (x * y)
  | NaN, _ | _, NaN => NaN
  | Fin x, PInf | PInf, Fin x => sgn_inf x
  | Fin x, NInf | NInf, Fin x => xneg (sgn_inf x)
  | PInf, PInf | NInf, NInf => PInf
  | PInf, NInf | NInf, PInf => NInf
  end.
Definition xdiv (a b : xr) : xr :=
  match a, b with
  | Fin x, Fin y => if req y 0 then sgn_inf x else Fin (x / y)
  | NaN, _ | _, NaN => NaN
  | Fin x, _ => Fin 0
  | PInf, Fin y => if rlt y 0 then NInf else PInf
  | NInf, Fin y => if rlt y 0 then PInf else NInf
  | _, _ => NaN
  end.

Section Gamma.
Variable gam : R -> xr.     (* scipy.special.gamma *)

(* capillary_length_G, 1181-1183, for one cell *)
Definition G_tBC (c eta psi_B : R) : xr :=
  xdiv (xmul (xmul (Fin (- psi_B)) (gam (1 + 1/c))) (gam ((eta - 1) / c))) (gam (eta / c)).
(* 1199-1225, for one cell *)
Definition G_vG (n inv_alpha : R) : xr :=
  let m := 1 - 1/n in
  if req m 0 then Fin 0
  else if req m 1 then Fin (- inv_alpha)
  else
    let coeff := Fin (- inv_alpha * (1 - m)) in
    let term1 := xdiv (Fin 4) (Fin (2 - 3*m)) in
    let term2 := xadd (xdiv (gam (1 - m)) (gam (m/2))) (xdiv (gam (1 + m)) (gam (5*m/2))) in
    let term3 := gam ((3*m/2) - 1) in
    xmul coeff (xadd term1 (xmul term2 term3)).
(* 1242-1275: comparisons with NaN are false *)
Definition G_min : R := 8/100.
Definition G_max : R := 23/10.
Definition x_below (v : xr) (b : R) : bool := match v with Fin x => rlt x b | NInf => true | _ => false end.
Definition x_above (v : xr) (b : R) : bool := match v with Fin x => rlt b x | PInf => true | _ => false end.
Definition G_force (FORCE_RANGE : bool) (l : list xr) : list xr :=
  if existsb (fun v => x_below v G_min || x_above v G_max) l && FORCE_RANGE then
    let l1 := map (fun v => if x_below v G_min then Fin G_min else v) l in
    map (fun v => if x_above v G_max then Fin G_max else v) l1
  else l.

(* get_tBC_from_vG_vars, 1336-1351: psi_B, c, lam, eta, G; TBC is False (1347) *)
Record tbc := mkTbc { psi_B : list R; t_c : list R; t_lam : list R; t_eta : list R; t_G : list xr }.
Definition inv_of (a : R) : R := if req a 0 then -9999 else 1 / a.
Fixpoint zipw (f : R -> R -> xr) (a b : list R) : list xr :=
  match a, b with x :: a', y :: b' => f x y :: zipw f a' b' | _, _ => [] end.
Definition get_tBC (alpha n : list R) : tbc :=
  let inv := map inv_of alpha in
  mkTbc inv n (map (fun x => x - 1) n) (map (fun x => 3*x - 1) n) (G_force true (zipw G_vG n inv)).

(* ---------- the whole tool ---------- *)
(* what save_soil_hydraulic_vars writes for one layer, 1464-1512 (as 4-byte numbers: not modelled) *)
Record layer_files := mkFiles {
  f_Ks : list R; f_qs : list R; f_pB : list R; f_c : list R; f_lam : list R; f_G : list xr;
  f_alpha : list R; f_n : list R; f_L : list R }.
(* 1393-1413 and get_wosten_vars, 1155-1161 (theta_s comes first) *)
Definition layer_vars (topsoil : R) (g : list cell) : option layer_files :=
  match wosten_theta_s g topsoil true with
  | None => None
  | Some q =>
    match wosten_alpha g topsoil true with
    | None => None
    | Some al =>
      let n := wosten_n g topsoil true in
      let t := get_tBC al n in
      Some (mkFiles (wosten_K_s g topsoil) q (psi_B t) (t_c t) (t_lam t) (t_G t) al n (wosten_L g true))
    end
  end.
Record soil_in := mkIn { in_C : list R; in_S : list R; in_OC : list R; in_D : list R }.
(* 1385-1512: [k] is the loop counter; the first error ends the loop.  Result: what has been written, layer by layer,
   and whether the loop came to its end *)
Fixpoint save_layers (k : nat) (layers : list soil_in) : list layer_files * bool :=
  match layers with
  | [] => ([], true)
  | i :: rest =>
      let topsoil := match k with 0%nat => 1 | _ => 0 end in                           (* 1398-1401 *)
      match read_soil (in_C i) (in_S i) (in_OC i) (in_D i) with
      | None => ([], false)
      | Some g =>
          match layer_vars topsoil g with
          | None => ([], false)
          | Some f => let '(fs, ok) := save_layers (Datatypes.S k) rest in (f :: fs, ok)
          end
      end
  end.
Definition save_soil_hydraulic_vars (layers : list soil_in) : list layer_files * bool := save_layers 0 layers.
End Gamma.
