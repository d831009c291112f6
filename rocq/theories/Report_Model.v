(* Model of the end of a run and of its final report.
   framework/emeli.py 846-886 (finalize_all), components/channels_base.py 964-990 (finalize), 1308-1310, 1484-1497 (initial
   values), 2986-3036 (update_mins_and_maxes), 3107-3108, 3136-3137 (total volumes); components/topoflow_driver.py 549-580
   (finalize), 1036-1057, 1142-1146, 1238-1261, 1288, 1329-1353 (report).
   The driver reads the values the other components hold at its own turn (time_interpolation.py 619-637: pointers, no
   interpolation between steps).  Closing of files, printing, formats of numbers and NaN are left out. *)
From Coq Require Import List ZArith QArith Qabs Bool String.
Import ListNotations.
Local Open Scope Q_scope.

(* a grid of ny rows and nx columns *)
Definition grid := nat -> nat -> Q.
(* self.Q[1:ny-1, 1:nx-1], row by row (3008-3017) *)
Definition inner (ny nx : nat) (g : grid) : list Q := flat_map (fun i => map (fun j => g i j) (seq 1 (nx - 2))) (seq 1 (ny - 2)).
(* .min() and .max(); None: ValueError on an empty slice *)
Definition qmin (a b : Q) : Q := if Qlt_le_dec b a then b else a.
Definition qmax (a b : Q) : Q := if Qlt_le_dec a b then b else a.
Definition amin (l : list Q) : option Q := match l with [] => None | x :: r => Some (fold_left qmin r x) end.
Definition amax (l : list Q) : option Q := match l with [] => None | x :: r => Some (fold_left qmax r x) end.
Definition qsum_list (l : list Q) : Q := fold_right Qplus 0 l.

(* the channels component at the end of the last step, with the attributes finalize sets *)
Record chan := mkChan { cQ : grid; cu : grid; cd : grid; vol_chan : list Q; vol_flood : list Q;
  Q_min : Q; Q_max : Q; u_min : Q; u_max : Q; d_min : Q; d_max : Q; vol_chan_sum : Q; vol_flood_sum : Q }.

(* initialize_min_and_max_values 1490-1497; the sum of the channel volumes is computed at the start (1335), that of the
   flood volumes is 0 (1310); neither changes before finalize *)
Definition unfinished (gQ u d : grid) (vc vf : list Q) (sum0 : Q) : chan :=
  mkChan gQ u d vc vf 1000000 (-1000000) 1000000 (-1000000) 1000000 (-1000000) sum0 0.

(* 3023-3036, one variable *)
Definition lower_min (old : Q) (l : list Q) : option Q := option_map (fun m => if Qlt_le_dec m old then m else old) (amin l).
Definition raise_max (old : Q) (l : list Q) : option Q := option_map (fun m => if Qlt_le_dec old m then m else old) (amax l).

(* channels_base.py finalize 983-985; None: ValueError *)
Definition finalize_channels (ny nx : nat) (c : chan) : option chan :=
  let sumc := qsum_list (vol_chan c) in
  let sumf := qsum_list (vol_flood c) in
  match lower_min (Q_min c) (inner ny nx (cQ c)), raise_max (Q_max c) (inner ny nx (cQ c)),
        lower_min (u_min c) (inner ny nx (cu c)), raise_max (u_max c) (inner ny nx (cu c)),
        lower_min (d_min c) (inner ny nx (cd c)), raise_max (d_max c) (inner ny nx (cd c)) with
  | Some a, Some b, Some e, Some f, Some g, Some h => Some (mkChan (cQ c) (cu c) (cd c) (vol_chan c) (vol_flood c) a b e f g h sumc sumf)
  | _, _, _, _, _, _ => None
  end.

(* what the driver gets from the other components and from its own clock *)
Record others := mkOthers { vol_chan_sum0 : Q; vol_soil_start : Q; vol_soil : Q; vol_swe_start : Q; vol_swe : Q;
  vol_P : Q; vol_ET : Q; vol_edge : Q; time_min : Q; T_stop : option Q (* the stop time when the stop method is Until_model_time *) }.

Record report := mkReport { rQ : Q * Q; ru : Q * Q; rd : Q * Q; vol_start : Q; vol_final : Q; vol_change : Q; vol_error : Q; error_label : string; T_final : Q }.
(* topoflow_driver.py 1357-1369 *)
Definition final_report (c : chan) (o : others) : report :=
  let start := vol_chan_sum0 o + vol_soil_start o + vol_swe_start o + 0 in
  let final := vol_chan_sum c + vol_soil o + vol_swe o + vol_flood_sum c in
  let change := final - start in
  let error := (vol_P o - (vol_ET o + vol_edge o)) - change in
  mkReport (Q_min c, Q_max c) (u_min c, u_max c) (d_min c, d_max c) start final change error
    (if Qlt_le_dec 0 error then "volume gain error = " else "volume loss error = ")%string
    (match T_stop o with Some t => t | None => time_min o end).

(* 1036-1042 vol_str: the number shown and the factor of its unit *)
Definition vol_str (v : Q) : Q * Q := if Qlt_le_dec (Qabs v) 1000000 then (v, 1) else (v / 1000000, 1000000).

Inductive comp := Channels | Driver | Other (k : nat).
Definition comp_eqb (a b : comp) : bool :=
  match a, b with Channels, Channels => true | Driver, Driver => true | Other i, Other j => Nat.eqb i j | _, _ => false end.
(* one round of finalize_all 863-886; a disabled component does nothing (969-971, 554-556).  None: an exception ends the run *)
Definition finalize1 (ny nx : nat) (on : comp -> bool) (o : others) (k : comp) (s : chan * list report) : option (chan * list report) :=
  if negb (on k) then Some s else
  match k with
  | Channels => option_map (fun c => (c, snd s)) (finalize_channels ny nx (fst s))
  | Driver => Some (fst s, snd s ++ [final_report (fst s) o])
  | Other _ => Some s
  end.
Fixpoint finalize_all (ny nx : nat) (on : comp -> bool) (o : others) (ks : list comp) (s : chan * list report) : option (chan * list report) :=
  match ks with [] => Some s | k :: r => match finalize1 ny nx on o k s with None => None | Some s => finalize_all ny nx on o r s end end.
