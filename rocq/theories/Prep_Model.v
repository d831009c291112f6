(* Model of two input-preparation tools: /repo/topoflow/utils/parameterize.py (a grid of channel widths,
   roughness values... from the grid of contributing areas) and /repo/topoflow/utils/init_depth.py (the initial
   depth of flow that carries the baseflow).  Grids are lists in C order.  Numbers are the reals of the standard
   library: rounding is not modelled.  NaN and infinities appear only where stated ([None] among the slopes,
   [Undefined] for the parameters of a power law).  Reading and writing of the files is not modelled here (see
   Rts/Rti models). *)
From Coq Require Import Reals List Bool.
From Verif Require Import ChanR_Model.
Import ListNotations.
Local Open Scope R_scope.

(* ---------- parameterize.py ---------- *)
(* A.max(), A[w].min() of a non-empty list *)
Definition maxl (x : R) (l : list R) : R := fold_right Rmax x l.
Definition minl (x : R) (l : list R) : R := fold_right Rmin x l.
Definition pos (x : R) : bool := if Rlt_dec 0 x then true else false.

Inductive tca_result :=
| NotEnough                       (* 156-158: a message, nothing is written *)
| ValueError                      (* minimum or maximum of an empty array *)
| Undefined                       (* the exponent or the factor is NaN or infinite *)
| Written (g : list R).           (* 211: the grid that is written *)

(* get_grid_from_TCA, 168-195: cells without area get 1, others the power law.  The temporary value 1 of lines
   182-184 is overwritten at 195 and has no effect. *)
Definition power_grid (c p : R) (A : list R) : list R :=
  map (fun a => if Rle_dec a 0 then 1 else c * Rpower a p) A.
(* 138-139 and 154-155: through (A1,g1) and (A2,g2).  np.log of a number <= 0 is NaN or -inf, and the quotient
   is NaN or infinite when A1 = A2. *)
Definition two_points (A1 g1 A2 g2 : R) (A : list R) : tca_result :=
  if Rlt_dec 0 (g1 / g2) then
    if Rlt_dec 0 A1 then
      if Rlt_dec 0 A2 then
        if Req_EM_T A1 A2 then Undefined
        else let p := ln (g1 / g2) / ln (A1 / A2) in
             let c := g1 / Rpower A1 p in Written (power_grid c p A)
      else Undefined
    else Undefined
  else Undefined.
(* get_grid_from_TCA, 93-215: the three ways of 133-158.  In the second one, when no area is positive, the
   factor of line 145 is not used by any cell. *)
Definition get_grid_from_TCA (A : list R) (A1 g1 A2 g2 p : option R) : tca_result :=
  match g1, g2, A1, A2, p with
  | Some g1, Some g2, Some A1, Some A2, _ => two_points A1 g1 A2 g2 A
  | Some g1, _, _, _, Some p =>
      match A with
      | [] => ValueError
      | a :: l => let A1 := maxl a l in let c := g1 / Rpower A1 p in Written (power_grid c p A)
      end
  | Some g1, Some g2, _, _, None =>
      match A with
      | [] => ValueError
      | a :: l => match filter pos A with
                  | [] => ValueError
                  | b :: m => two_points (maxl a l) g1 (minl b m) g2 A
                  end
      end
  | _, _, _, _, _ => NotEnough
  end.

(* ---------- init_depth.py ---------- *)
(* a slope of the grid: [None] is NaN or an infinity *)
Definition bad (s : option R) : bool :=
  match s with None => true | Some x => if Rle_dec x 0 then true else false end.
Definition good_values (Sg : list (option R)) : list R :=
  flat_map (fun s => match s with Some x => if bad s then [] else [x] | None => [] end) Sg.
(* remove_bad_slopes, 86-153; [None] is Python's None, returned by the bare return of line 126.  The
   replacement in place of the caller's grid is not modelled (the only caller rebinds the name, 328). *)
Definition remove_bad_slopes (Sg : list (option R)) : option (list R) :=
  match good_values Sg with
  | [] => None
  | x :: l => if existsb bad Sg
              then let S_min := minl x l in
                   Some (map (fun s => match s with Some y => if bad s then S_min else y | None => S_min end) Sg)
              else None
  end.

(* get_baseflow_volume_flux, 157-189 *)
Definition baseflow_volume_flux (A_out_km2 Qb_out : R) (MMPH : bool) : R :=
  let B_mps := Qb_out / (A_out_km2 * 1000000) in
  if MMPH then B_mps * 1000 * 3600 else B_mps.

(* compute_initial_depth, 377-385: one Newton step in one cell.  Ac**pow1 and Ac**pow2 of a dry section are 0;
   pow3 = 1/-3.  (A negative section would give NaN; C68_newton shows that it does not occur.) *)
Definition Ac (w th d : R) : R := d * (w + d * tan th).
Definition Pw (w th d : R) : R := w + 2 * d / cos th.
Definition numer (w th K d : R) : R := powr (Ac w th d) (5/3) - K * powr (Pw w th d) (2/3).
Definition denom (w th K d : R) : R :=
  5/3 * powr (Ac w th d) (2/3) * (w + 2 * d * tan th) - 2/3 * K * Rpower (Pw w th d) (-(1/3)) * (2 / cos th).
Definition newton (w th K d : R) : R := d - numer w th K d / denom w th K d.

Record cell := { c_w : R; c_th : R; c_K : R }.
Definition step1 (c : cell) (d : R) : R := newton (c_w c) (c_th c) (c_K c) d.
Fixpoint step (cs : list cell) (d : list R) : list R :=
  match cs, d with c :: cs, x :: d => step1 c x :: step cs d | _, _ => [] end.
(* 396-409: does no cell have gap > tol? *)
Fixpoint settled (tol : R) (d d' : list R) : bool :=
  match d, d' with
  | x :: d, y :: d' => (if Rlt_dec tol (Rabs (y - x)) then false else true) && settled tol d d'
  | _, _ => true
  end.
(* 368-409: at most max_tries + 1 = 41 rounds; returns (last_d, d) *)
Fixpoint iterate (fuel : nat) (tol : R) (cs : list cell) (d : list R) : list R * list R :=
  let d' := step cs d in
  match fuel with
  | 0 => (d, d')
  | S f => if settled tol d d' then (d, d') else iterate f tol cs d'
  end.
Definition max_tries : nat := 40.

Inductive depth_result :=
| TypeError                                 (* None / sinu, 333 *)
| Depths (d0 v0 : list R).
(* the fields of one cell: area [km2], width, roughness, bank angle [degrees], sinuosity as read *)
Record site := { s_A : R; s_w : R; s_n : R; s_ang : R; s_sinu : R }.
(* 307: zero sinuosity becomes 1 *)
Definition fix_sinu (x : R) : R := if Req_EM_T x 0 then 1 else x.
(* 314, 319, 333, 359 *)
Definition mk_cell (B : R) (s : site) (sl : R) : cell :=
  let sl := sl / fix_sinu (s_sinu s) in
  {| c_w := s_w s; c_th := s_ang s * (PI / 180); c_K := B * (s_A s * 1000000) * s_n s / sqrt sl |}.
(* 465: from the section of the last round *)
Definition v0_of (s : site) (sl : R) (last_d : R) : R :=
  let sl := sl / fix_sinu (s_sinu s) in let th := s_ang s * (PI / 180) in
  powr (Ac (s_w s) th last_d / Pw (s_w s) th last_d) (2/3) * sqrt sl / s_n s.
Fixpoint zip3 {X Y Z W : Type} (f : X -> Y -> Z -> W) (a : list X) (b : list Y) (c : list Z) : list W :=
  match a, b, c with x :: a, y :: b, z :: c => f x y z :: zip3 f a b c | _, _, _ => [] end.
(* compute_initial_depth, 193-480 *)
Definition compute_initial_depth (B tol : R) (sites : list site) (Sg : list (option R)) : depth_result :=
  match remove_bad_slopes Sg with
  | None => TypeError
  | Some Sl =>
      let cs := map (fun x => mk_cell B (fst x) (snd x)) (combine sites Sl) in
      let '(last_d, d) := iterate max_tries tol cs (map (fun _ => 500) cs) in
      Depths d (zip3 v0_of sites Sl last_d)
  end.
