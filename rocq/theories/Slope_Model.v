(* Model of the slope and profile tools in /repo/topoflow/utils/new_slopes.py.  They work on the D8 object of d8_global
   (models D8_Model, Geo_Model): here its results are given as functions of the calendar-style cell ID (row * nx + col).
   Numbers are rational: rounding is not modelled, nor is NaN.  A result of an error is the exception's name.  Reading and
   writing of the files and printing are not modelled. *)
From Coq Require Import ZArith QArith Qminmax List Bool Arith.
From Verif Require Import Base.
Import ListNotations.
Local Open Scope Q_scope.

Record topo := mkTopo {
  nx : nat; ny : nat;
  par : nat -> nat;        (* parent_ID_grid: ID of the cell that a cell flows to; 0 for cells without flow *)
  noflow : nat -> bool;    (* d8_grid == 0 *)
  z : nat -> Q;            (* DEM *)
  ds : nat -> Q;           (* distance to the parent *)
  nodata : Q;              (* DEM_nodata *)
  head : nat -> bool       (* contributing area equals the area of one cell (472) *)
}.
Inductive outcome (A : Type) := Ok (a : A) | NotWritten | ValueError | IndexError | UnboundLocalError.
Arguments Ok {A}. Arguments NotWritten {A}. Arguments ValueError {A}. Arguments IndexError {A}. Arguments UnboundLocalError {A}.

Section Topo.
Variable T : topo.
Definition ncell : nat := (nx T * ny T)%nat.
Definition lt_b (x y : Q) : bool := negb (Qle_bool y x).

(* ---------- get_d8_slope_grid, 124-152 ---------- *)
(* the cells without flow (noflow_IDs) are NaN ([None]); 144: the smallest positive slope must exist *)
Definition get_d8_slope_grid : outcome (list (option Q)) :=
  let slope := tab ncell (fun i => if noflow T i then None
     else let dz := z T i - z T (par T i) in Some (if lt_b 0 dz then dz / ds T i else 0)) in
  if existsb (fun s => match s with Some s => lt_b 0 s | None => false end) slope then Ok slope else ValueError.

(* ---------- get_new_slope_grid, 204-282 ---------- *)
Record cellst := mkCs { c_pid : nat; c_dist : Q; c_slope : Q }.
Definition cs0 : cellst := mkCs 0 0 0.
(* 217-227: the drop from cell [i] to the cell looked at *)
Definition drop (i pid : nat) : Q := if Qle_bool (z T pid) (nodata T) || noflow T i then 0 else z T i - z T pid.
(* 233 *)
Definition good (i : nat) (c : cellst) : bool := Qeq_bool (c_slope c) 0 && lt_b 0 (drop i (c_pid c)).
(* 233-260: one pass for one cell *)
Definition pass (i : nat) (c : cellst) : cellst :=
  mkCs (par T (c_pid c)) (c_dist c + ds T (c_pid c)) (if good i c then drop i (c_pid c) / c_dist c else c_slope c).
(* the loop of 216-268; [left] is 4*nx - (n_reps before the pass); [start] is START *)
Fixpoint slope_loop (left : nat) (start : bool) (l : list cellst) : outcome (list cellst) :=
  let l' := tab ncell (fun i => pass i (get cs0 l i)) in
  if start && negb (existsb (fun c => lt_b 0 (c_slope c)) l') then ValueError            (* 244 *)
  else
    let all_good := forallb (fun i => good i (get cs0 l i)) (seq 0 ncell) in          (* nb == 0 *)
    let pv_max0 := forallb (fun c => Nat.eqb (c_pid c) 0) l' in                       (* pv_max == 0 *)
    match left with
    | O => Ok l'
    | S left' => if all_good || pv_max0 then Ok l' else slope_loop left' false l'
    end.
Definition get_new_slope_grid : outcome (list Q) :=
  match slope_loop (4 * nx T) true (tab ncell (fun i => mkCs (par T i) (ds T i) 0)) with   (* 205-210 *)
  | Ok l => Ok (map c_slope l)
  | NotWritten => NotWritten | ValueError => ValueError | IndexError => IndexError | UnboundLocalError => UnboundLocalError
  end.

(* ---------- get_new_slope_grid2, 355-944 ---------- *)
(* 367-410: D8 slope, 0 where the drop is not positive or the elevation of the cell or of its parent is missing; -999 for
   cells without flow *)
Definition d8_drop (i : nat) : Q :=
  if Qle_bool (z T i) (nodata T) || Qle_bool (z T (par T i)) (nodata T) || noflow T i then 0 else z T i - z T (par T i).
Definition d8_slope (i : nat) : Q :=
  if noflow T i then -(999) else if lt_b 0 (d8_drop i) then d8_drop i / ds T i else 0.
(* 432-434, 914-916: the three smallest positive values must exist *)
Definition min_of (l : list Q) : option Q := match l with [] => None | x :: l' => Some (fold_right Qmin x l') end.
Definition three_positive (l : list Q) : bool :=
  match min_of (filter (fun s => lt_b 0 s) l) with
  | None => false
  | Some m1 => match min_of (filter (fun s => lt_b m1 s) l) with
    | None => false
    | Some m2 => match min_of (filter (fun s => lt_b m2 s) l) with None => false | Some _ => true end
    end
  end.
(* 455-480: first cells of the zero-slope chains *)
Definition normal (i : nat) : bool := lt_b 0 (d8_slope i) && Qeq_bool (d8_slope (par T i)) 0.
Definition special (i : nat) : bool := head T i && Qeq_bool (d8_slope i) 0.
Definition starts : list nat := filter (fun i => normal i || special i) (seq 0 ncell).
(* a chain: start cell, current cell (pIDs), distances, resolved, the row of chan_IDs up to path_index.  The rows and
   distances of resolved chains are written on by the code but never read again: here they stay as they are. *)
Record chain := mkChain { ch_start : nat; ch_cur : nat; ch_dist : Q; ch_done : bool; ch_path : list nat }.
Definition new_chain (i : nat) : chain := mkChain i (par T i) (ds T i) false [i; par T i].      (* 545-580 *)
(* 815-818: slope[ready_IDs] = minimum(new_slope, positive slopes) *)
Definition lowered (new s : Q) : Q :=
  let nz := Qmax 0 s in Qmin new (if Qle_bool nz 0 then 99999 else nz).
Definition put_slope (new : Q) (ready : list nat) (slope : list Q) : list Q :=
  let old := slope in fold_left (fun sl j => set sl j (lowered new (get 0 old j))) ready slope.
(* 668-710, 722-745, 789-828, 850, 858: one chain in one pass *)
Definition chain_pass (path_index : nat) (c : chain) (slope : list Q) : chain * list Q :=
  let cur := par T (ch_cur c) in
  let s := d8_slope cur in
  let dist := ch_dist c + ds T (ch_cur c) in
  if ch_done c then (mkChain (ch_start c) cur (ch_dist c) true (ch_path c), slope)
  else if lt_b 0 s then
    let dist2 := dist + ds T cur in
    let new := (z T (ch_start c) - z T (par T cur)) / dist2 in
    let row := ch_path c ++ [cur] in
    (mkChain (ch_start c) cur dist2 true row, put_slope new (firstn (path_index + 1) row) slope)
  else if lt_b s 0 then (mkChain (ch_start c) cur dist true (ch_path c), slope)
  else (mkChain (ch_start c) cur dist false (ch_path c ++ [cur]), slope).
Fixpoint chains_pass (path_index : nat) (cs : list chain) (slope : list Q) : list chain * list Q :=
  match cs with
  | [] => ([], slope)
  | c :: rest =>
      let '(c', s1) := chain_pass path_index c slope in
      let '(rest', s2) := chains_pass path_index rest s1 in (c' :: rest', s2)
  end.
Definition maxlen : nat := (Nat.max (nx T) (ny T) * 2)%nat.                          (* 562 *)
(* 661-870; [left] is maxlen - (n_reps before the pass) *)
Fixpoint chain_loop (left path_index : nat) (cs : list chain) (slope : list Q) : outcome (list Q) :=
  let ng := existsb (fun c => lt_b 0 (d8_slope (par T (ch_cur c)))) cs in
  let nb := existsb (fun c => Qeq_bool (d8_slope (par T (ch_cur c))) 0) cs in
  if (maxlen <=? path_index - 1)%nat then IndexError                                  (* 710 *)
  else if ng && (maxlen <=? path_index + 1)%nat then IndexError                       (* 731, 742 *)
  else if nb && (maxlen <=? path_index)%nat then IndexError                           (* 858 *)
  else
    let '(cs', slope') := chains_pass path_index cs slope in
    let path_index' := if nb then (path_index + 1)%nat else path_index in
    let all_done := forallb ch_done cs' in                                            (* n_unresolved == 0 *)
    let pv_max0 := forallb (fun c => Nat.eqb (ch_cur c) 0) cs' in
    match left with
    | O => Ok slope'
    | S left' => if all_done || pv_max0 then Ok slope' else chain_loop left' path_index' cs' slope'
    end.
Definition get_new_slope_grid2 : outcome (list Q) :=
  let slope := tab ncell d8_slope in
  if forallb (fun i => lt_b 0 (d8_drop i)) (seq 0 ncell) then NotWritten              (* 424-426 *)
  else if negb (three_positive slope) then ValueError                                 (* 431-434 *)
  else
    match starts with
    | [] => UnboundLocalError                                                         (* 657, 878: n_unresolved *)
    | _ =>
      match chain_loop maxlen 2 (map new_chain starts) slope with
      | Ok sl =>
          let fin := tab ncell (fun i => if noflow T i then 0 else get 0 sl i) in   (* 899-901 *)
          if three_positive fin then Ok fin else ValueError                           (* 914-916 *)
      | e => e
      end
    end.

(* ---------- smooth_dem, 1150-1187 ---------- *)
Definition gpar (i : nat) : nat := par T (par T i).
(* 1180: the right side is computed first; where several cells have the same parent the last one counts *)
Definition smooth_step (zz : list Q) : list Q :=
  let new := fold_left (fun acc i => set acc (par T i) ((get 0 zz i + get 0 zz (gpar i)) / 2)) (seq 0 ncell) zz in
  tab ncell (fun i => if Nat.eqb (par T i) 0 || Nat.eqb (gpar i) 0 then z T i else get 0 new i).   (* 1184-1187 *)
Definition smooth_dem (nsteps : nat) : list Q := Nat.iter nsteps smooth_step (tab ncell (z T)).
End Topo.
