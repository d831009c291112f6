(* Model of one complete update of the channel components channels_kinematic_wave.py and channels_diffusive_wave.py
   (/repo/topoflow/components; the base class is channels_base.py): the volumes of Chan_Model.v together with the
   hydraulic formulas of ChanR_Model.v, so that the loop volume -> depth -> velocity -> discharge -> volume is closed.
   Grids are lists in C order.  Numbers are the reals of the standard library: rounding, overflow and NaN are not
   modelled.  Left out: flood attenuation (Chan_Model), friction factor, shear stress and Froude number (ChanR_Model:
   they are computed from the state and do not enter it), outlet values, output.  Line numbers are those of
   channels_base.py unless another file is named. *)
From Coq Require Import ZArith Reals List Bool.
From Verif Require Import Base ChanR_Model.
From Verif Require D8_Model.
Import ListNotations.
Local Open Scope R_scope.

(* numpy  a[ps] += xs  and  a[ps] = v  with index lists (see Chan_Model.v) *)
Definition radd (a : list R) (ps : list nat) (xs : list R) : list R :=
  fold_left (fun acc px => set acc (fst px) (get 0 a (fst px) + snd px)) (combine ps xs) a.
Definition rset (a : list R) (ps : list nat) (v : R) : list R := fold_left (fun acc p => set acc p v) ps a.

(* which formula gives the velocity: MANNING or LAW_OF_WALL *)
Inductive formula := Manning | LawOfWall.
(* the settings of a run and its constant grids; [rough] is nval or z0val, [S_bed] and [ds] are those of 1242-1248 *)
Record chan := mkChan {
  KINEMATIC : bool; FLOOD : bool; form : formula;
  da : nat -> R; ds : nat -> R; width : nat -> R; angle : nat -> R; rough : nat -> R; S_bed : nat -> R;
  vol_bankfull : nat -> R; dt : R
}.

(* w_vol, w_chan, w_flood: vol, vol_chan, vol_flood; w_d, w_df: d, d_flood; w_A: A_wet; w_S: S_free *)
Record wave := mkWave {
  w_vol : list R; w_chan : list R; w_flood : list R; w_d : list R; w_df : list R;
  w_u : list R; w_A : list R; w_S : list R; w_edge : R
}.

Section Wave.
Variable G : D8_Model.geom.
Notation n := (D8_Model.ncells G).
Variable d8 : list Z.             (* d8.d8_grid *)
Variable pid : list Z.            (* d8.parent_ID_grid *)
Variable c : chan.

(* d8_global.py 853 *)
Definition no_flow (i : nat) : bool := Z.leb (get 0%Z d8 i) 0.
Definition noflow : list nat := filter no_flow (seq 0 n).
(* d8_global.py: parent_IDs; cell 0 for cells without a flow direction *)
Definition parent (i : nat) : nat := Z.to_nat (get 0%Z pid i).

(* 2116-2131: the eight grouped additions *)
Definition route (Qg : list R) (vol : list R) : list R :=
  fold_left (fun v k => radd v (D8_Model.flow_to G d8 pid k)
                          (map (fun i => dt c * get 0 Qg i) (D8_Model.flow_from G d8 k)))
            D8_Model.dirs vol.

(* the slope used by the velocity and flood formulas: 1720-1723, 3977-3980, 4033-4036 *)
Definition slope_of (s : wave) (i : nat) : R := if KINEMATIC c then S_bed c i else get 0 (w_S s) i.

(* update_channel_discharge 1697, update_flood_discharge 1720-1745, update_discharge 1803-1827; without FLOOD_OPTION
   Q is the same array as Qc (1370) *)
Definition discharge (s : wave) : list R :=
  tab n (fun i => get 0 (w_u s) i * get 0 (w_A s) i +
                  (if FLOOD c then flood_discharge (get 0 (w_df s) i) (slope_of s i) (width c i) else 0)).

(* update_flow_volume, 2086-2145, without ATTENUATE; [r] is the runoff grid R *)
Definition flow_volume (r : nat -> R) (Qg vol : list R) : list R :=
  let vol := tab n (fun i => get 0 vol i + r i * da c i * dt c) in
  let vol := route Qg vol in
  let vol := tab n (fun i => get 0 vol i - get 0 Qg i * dt c) in
  tab n (fun i => Rmax (get 0 vol i) 0).

(* update_free_surface_slope, 2583-2605 *)
Definition free_surface_slope (d df : list R) : list R :=
  let total_d i := if FLOOD c then get 0 d i + get 0 df i else get 0 d i in
  tab n (fun i => S_bed c i + (total_d i - total_d (parent i)) / ds c i).

(* channels_kinematic_wave.py / channels_diffusive_wave.py update_velocity (85-137), with manning_formula and
   law_of_the_wall *)
Definition velocity (rh d S z : R) : R :=
  match form c with Manning => manning rh S z | LawOfWall => law_of_wall rh d S z end.

(* update, 803-921 *)
Definition update (s : wave) (r : nat -> R) : wave :=
  let Qg := discharge s in
  let vol := flow_volume r Qg (w_vol s) in
  let vc := if FLOOD c then tab n (fun i => Rmin (get 0 vol i) (vol_bankfull c i)) else vol in                 (* 2154 *)
  let vf := if FLOOD c then tab n (fun i => Rmax (get 0 vol i - vol_bankfull c i) 0) else w_flood s in         (* 2174-2175 *)
  let d := tab n (fun i => channel_depth (get 0 vc i) (width c i) (ds c i) (angle c i)) in                    (* 2288-2379 *)
  let df := if FLOOD c then tab n (fun i => flood_depth (get 0 vf i) (width c i) (ds c i)) else w_df s in     (* 2423-2431 *)
  let A := tab n (fun i => ChanR_Model.A_wet (get 0 d i) (width c i) (angle c i)) in                          (* 2671 *)
  let rh := tab n (fun i => ChanR_Model.Rh (no_flow i) (get 0 d i) (width c i) (angle c i)) in                (* 2672-2696 *)
  let sf := if KINEMATIC c then w_S s else free_surface_slope d df in                                         (* 888-890 *)
  let S i := if KINEMATIC c then S_bed c i else get 0 sf i in
  let u := rset (tab n (fun i => velocity (get 0 rh i) (get 0 d i) (S i) (rough c i))) noflow 0 in            (* 902-903, 2862 *)
  let e := w_edge s + fold_right Rplus 0 (map (get 0 vol) noflow) in                                          (* 2962-2963 *)
  {| w_vol := rset vol noflow 0;                                                                              (* 2965 *)
     w_chan := if FLOOD c then vc else rset vol noflow 0;                   (* 1371: without FLOOD_OPTION the array vol itself *)
     w_flood := if FLOOD c then rset vf noflow 0 else vf;                                                     (* 2981 *)
     w_d := rset d noflow 0;                                                                                  (* 2966 *)
     w_df := if FLOOD c then rset df noflow 0 else df;                                                        (* 2982 *)
     w_u := u; w_A := A; w_S := sf; w_edge := e |}.

(* initialize_computed_vars, 1248-1388, from the initial depths d0 *)
Definition initialize (d0 : nat -> R) : wave :=
  let A := tab n (fun i => ChanR_Model.A_wet (d0 i) (width c i) (angle c i)) in
  let v := tab n (fun i => get 0 A i * ds c i) in
  {| w_vol := v; w_chan := v; w_flood := repeat 0 n; w_d := tab n d0; w_df := repeat 0 n;
     w_u := repeat 0 n; w_A := A; w_S := tab n (S_bed c); w_edge := 0 |}.

(* any number of updates *)
Definition run (s : wave) (rs : list (nat -> R)) : wave := fold_left update rs s.
End Wave.
