(* Model of the water-volume bookkeeping of /repo/topoflow/components/channels_base.py.
   Grids are lists in C order (flat ID = row*nx + col).  Numbers are exact rationals: rounding, overflow and
   (except where an [ev] is used) NaN and infinities are not modelled.  The D8 flow grid, its parent IDs and
   the lists w1..w8, p1..p8 are those of D8_Model. *)
From Coq Require Import ZArith QArith Qminmax List Bool.
From Verif Require Import Base.
From Verif Require Export Field.
From Verif Require D8_Model.
Import ListNotations.
Local Open Scope Q_scope.

(* numpy  a[ps] += xs  with an index list: a[ps] is read before anything is written, so that for repeated
   indices only the last addition survives. *)
Definition fancy_add (a : list Q) (ps : list nat) (xs : list Q) : list Q :=
  fold_left (fun acc px => set acc (fst px) (get 0 a (fst px) + snd px)) (combine ps xs) a.
(* numpy  a[ps] = v *)
Definition fancy_set (a : list Q) (ps : list nat) (v : Q) : list Q :=
  fold_left (fun acc p => set acc p v) ps a.

Section Grid.
Variable G : D8_Model.geom.
Notation n := (D8_Model.ncells G).
Variable d8 : list Z.             (* d8.d8_grid *)
Variable pid : list Z.            (* d8.parent_ID_grid *)
Variable da : nat -> Q.           (* d8.da, scalar or grid *)
Variable ds : nat -> Q.           (* d8.ds *)
Variable width : nat -> Q.
Variable vol_bankfull : list Q.
Variable dt : Q.

(* update_R, 1604-1649.  ET has the same ndim as vol iff it is a grid (1626); a scalar ET is replaced by 0.0.
   ET[w] = 0.0 (1627) writes into the ET component's own array: the second component is that array afterwards. *)
Definition update_R (vol : list Q) (P SM GW MR ET IN : field) : field * field :=
  let ET' := match ET with
             | Grid l => Grid (tab n (fun i => if Qltb (get 0 vol i) (get 0 l i * da i * dt) then 0 else get 0 l i))
             | Scalar _ => Scalar 0
             end in
  let ET_after := match ET with Grid _ => ET' | Scalar _ => ET end in
  (lift2 n Qminus (lift2 n Qplus (lift2 n Qplus (lift2 n Qplus P SM) GW) MR) (lift2 n Qplus ET' IN), ET_after).

(* update_R_integral, 1666-1670; [scalar_da] says that d8.da is a scalar, so that R*da is one when R is *)
Definition update_R_integral (scalar_da : bool) (R : field) (vol_R : Q) : Q :=
  match R, scalar_da with
  | Scalar r, true => vol_R + (r * da 0 * dt) * inject_Z (Z.of_nat n)
  | _, _ => vol_R + qsum n (fun i => fat R i * da i * dt)
  end.

(* d8_global.py 853: noflow_IDs = where(d8_grid <= 0) *)
Definition noflow_IDs : list nat := filter (fun i => Z.leb (get 0%Z d8 i) 0) (seq 0 n).

(* 2116-2131: the eight grouped additions, in order.  p_k is None when w_k is empty; fancy_add with empty
   lists changes nothing either. *)
Definition route_inflow (Qg : list Q) (vol : list Q) : list Q :=
  fold_left (fun v k => fancy_add v (D8_Model.flow_to G d8 pid k)
                          (map (fun i => dt * get 0 Qg i) (D8_Model.flow_from G d8 k)))
            D8_Model.dirs vol.

(* update_flow_volume, 1951-2145.  ATTENUATE = Some n_days. *)
Definition update_flow_volume (ATTENUATE : option Q) (R : field) (Qg vol stored : list Q) : list Q * list Q :=
  let '(vol, stored) :=
    match ATTENUATE with
    | Some n_days =>
        let stored := tab n (fun i => get 0 stored i + fat R i * da i * dt) in            (* 2078 *)
        let t_drain := 3600 * 24 * n_days in                                              (* 2079 *)
        let sides i := Qmin (get 0 stored i / t_drain * dt) (get 0 stored i) in           (* 2080-2081 *)
        (tab n (fun i => get 0 vol i + sides i),                                          (* 2082 *)
         tab n (fun i => Qmax (get 0 stored i - sides i) 0))                              (* 2083-2084 *)
    | None => (tab n (fun i => get 0 vol i + fat R i * da i * dt), stored)                (* 2086 *)
    end in
  let vol := route_inflow Qg vol in
  let vol := tab n (fun i => get 0 vol i - get 0 Qg i * dt) in                            (* 2138 *)
  (tab n (fun i => Qmax (get 0 vol i) 0), stored).                                        (* 2145 *)

(* update_channel_volume, 2154 *)
Definition update_channel_volume (vol : list Q) : list Q :=
  tab n (fun i => Qmin (get 0 vol i) (get 0 vol_bankfull i)).
(* update_flood_volume, 2174-2175 *)
Definition update_flood_volume (vol : list Q) : list Q :=
  tab n (fun i => Qmax (get 0 vol i - get 0 vol_bankfull i) 0).
(* update_flood_depth, 2423-2431; width_ratio = 5.0 (1368) *)
Definition update_flood_depth (vol_flood : list Q) : list Q :=
  tab n (fun i => Qmax (get 0 vol_flood i / (5 * width i * ds i)) 0).

(* The part of the component state that takes part in the water balance. *)
Record state := mkSt {
  vol : list Q; vol_stored : list Q; vol_chan : list Q;
  vol_flood : list Q; d_flood : list Q;
  u : list Q; A_wet : list Q;
  vol_R : Q; vol_edge : Q
}.

(* What one update() obtains from elsewhere: the runoff R, and the velocities and wetted areas that the
   hydraulic formulas (ChanR_Model) return; they are arbitrary here. *)
Record inputs := mkIn { iR : field; iuf : list Q; iA : list Q; iu : list Q }.

(* update_channel_discharge 1697; update_flood_discharge 1743-1745; update_discharge 1827; without
   FLOOD_OPTION Q is the same array as Qc (1370) *)
Definition discharge (FLOOD : bool) (s : state) (x : inputs) : list Q :=
  tab n (fun i => get 0 (u s) i * get 0 (A_wet s) i +
                  (if FLOOD then get 0 (iuf x) i * (5 * width i * get 0 (d_flood s) i) else 0)).

(* update, 803-960, restricted to the state above: R integral, discharge, flow volume, flood volume and depth,
   wetted area (update_trapezoid_Rh), velocity and its reset on the edges (2862), edge values (2960-2982).
   update_diversions returns at 1904 and changes nothing. *)
Definition update (FLOOD scalar_da : bool) (ATTENUATE : option Q) (s : state) (x : inputs) : state :=
  let volR := update_R_integral scalar_da (iR x) (vol_R s) in
  let Qg := discharge FLOOD s x in
  let '(v, st) := update_flow_volume ATTENUATE (iR x) Qg (vol s) (vol_stored s) in
  let vc := if FLOOD then update_channel_volume v else v in     (* 1371: without FLOOD the same array as vol *)
  let vf := if FLOOD then update_flood_volume v else vol_flood s in
  let df := if FLOOD then update_flood_depth vf else d_flood s in
  let u' := fancy_set (iu x) noflow_IDs 0 in
  let e := vol_edge s + qsuml (get 0 v) noflow_IDs in
  {| vol := fancy_set v noflow_IDs 0; vol_stored := st;
     vol_chan := if FLOOD then vc else fancy_set v noflow_IDs 0;     (* 2965 resets vol, 2981 vol_flood; vol_chan is not reset *)
     vol_flood := if FLOOD then fancy_set vf noflow_IDs 0 else vf;
     d_flood := if FLOOD then fancy_set df noflow_IDs 0 else df;
     u := u'; A_wet := iA x; vol_R := volR; vol_edge := e |}.

(* any number of updates *)
Definition run (FLOOD scalar_da : bool) (ATTENUATE : option Q) (s : state) (xs : list inputs) : state :=
  fold_left (update FLOOD scalar_da ATTENUATE) xs s.
End Grid.

(* ---------------------------------------------------------------- outlet and peak values *)

(* update_peak_values, 2914-2924, for one of Q, u, d: (peak, time of peak) *)
Definition update_peak (p : Q * Q) (outlet time_min : Q) : Q * Q :=
  if Qltb (fst p) outlet then (outlet, time_min) else p.
Record peaks := mkPeaks { Q_peak : Q * Q; u_peak : Q * Q; d_peak : Q * Q }.
Definition peaks0 : peaks := mkPeaks (0, 0) (0, 0) (0, 0).    (* initialize_peak_values, 1475-1480 *)
Record sample := mkSample { s_Q : Q; s_u : Q; s_d : Q; s_t : Q }.
Definition update_peak_values (p : peaks) (s : sample) : peaks :=
  mkPeaks (update_peak (Q_peak p) (s_Q s) (s_t s)) (update_peak (u_peak p) (s_u s) (s_t s))
          (update_peak (d_peak p) (s_d s) (s_t s)).
(* update_Q_out_integral, 2934 *)
Definition update_Q_out_integral (dt vol_Q Q_outlet : Q) : Q := vol_Q + Q_outlet * dt.

(* ---------------------------------------------------------------- values with NaN and infinities *)

Inductive ev := Fin (q : Q) | PInf | NInf | NaN.
Definition is_nan (x : ev) : bool := match x with NaN => true | _ => false end.
Definition is_inf (x : ev) : bool := match x with PInf | NInf => true | _ => false end.
Definition ev_neg (x : ev) : bool := match x with Fin q => Qltb q 0 | NInf => true | _ => false end.   (* x < 0.0 *)
Definition ev_zero (x : ev) : bool := match x with Fin q => Qeq_bool q 0 | _ => false end.            (* x == 0.0 *)

(* check_flow_depth, 3203-3275: true = returns OK, false = raises RuntimeError *)
Definition check_flow_depth (d : list ev) : bool :=
  negb (existsb ev_neg d) && negb (existsb is_inf d).
(* check_flow_velocity with its default arguments, 3365-3429 *)
Definition check_flow_velocity (u : list ev) : bool :=
  negb (existsb ev_neg u) && negb (existsb is_nan u) && negb (existsb is_inf u).

(* min of a list of floats without NaN *)
Definition ev_lt (x y : ev) : bool :=
  match x, y with
  | Fin a, Fin b => Qltb a b
  | NInf, NInf => false | NInf, Fin _ => true | NInf, PInf => true
  | Fin _, PInf => true
  | _, _ => false
  end.
Definition ev_min (l : list ev) : option ev :=       (* None: np.min of an empty array, ValueError *)
  match l with
  | [] => None
  | x :: t => Some (fold_left (fun m y => if ev_lt y m then y else m) t x)
  end.

(* remove_bad_slopes, 4193-4232; None = ValueError from .min() *)
Definition bad_slope (x : ev) : bool := is_nan x || ev_zero x || ev_neg x || is_inf x.
Definition remove_bad_slopes (slope : list ev) : option (list ev) :=
  if negb (existsb bad_slope slope) then Some slope                    (* 4211-4213 *)
  else match ev_min (filter (fun x => negb (bad_slope x)) slope) with
       | None => None
       | Some m => Some (map (fun x => if bad_slope x then m else x) slope)
       end.
