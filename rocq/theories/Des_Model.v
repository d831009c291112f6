(* Model of the event-driven erosion model (/repo/topoflow/components/erode_d8_local.py): a heap of (time, cell) events, the
   zone of cells touched by an event, rates of change of the elevation and the next event times.
   Numbers are rational; grids are functions of the cell number (row by row).  The flow grids that d8.update computes at a
   step (codes, parents, areas, lengths) are inputs of the step, see D8Local_Model for that code.  The pixel area is a number.
   heapq is Python's: heappop removes the least pair (time, then cell number).  Printing, minima and maxima are left out.
   The call d8.update(..., SILENT=...) (3719) raises TypeError because no d8 class takes SILENT; the model goes on after it. *)
From Coq Require Import ZArith QArith Qabs List Bool Arith.
From Verif Require Import Base.
Import ListNotations.
Local Open Scope Q_scope.

(* SystemExit: sys.exit(); Infinite: the clock would become inf (not followed); OutOfFuel: never, see C83_terminates *)
Inductive err := SystemExit | IndexError | Infinite | OutOfFuel.
Inductive out (A : Type) := Ok (a : A) | Raise (e : err).
Arguments Ok {A}. Arguments Raise {A}.
Definition bind {A B} (x : out A) (f : A -> out B) : out B := match x with Ok a => f a | Raise e => Raise e end.

(* a time or time step: a number or inf (0.01 / 0.0, 1085) *)
Inductive xt := At (t : Q) | Never.
Definition xltb (a b : xt) : bool := match a, b with At x, At y => Qltb x y | At _, Never => true | Never, _ => false end.
Definition xeqb (a b : xt) : bool := match a, b with At x, At y => Qeq_bool x y | Never, Never => true | _, _ => false end.
Definition xadd (t : Q) (d : xt) : xt := match d with At x => At (t + x) | Never => Never end.
(* a predicted change of elevation: a number, +-inf or nan *)
Inductive xq := Fin (x : Q) | Inf (positive : bool) | NaN.

Record par := mkPar {
  nx : nat; ny : nat; base_IDs : list nat; da : Q; U : Q; BLR : Q; CFL : Q;
  zone_size : nat;                (* nmax = 100, 1571 *)
  max_dz_for_pits : Q;            (* 0.01, 1225 *)
  dt_limit : Q;                   (* 1e20, 1224 *)
  disch : Q -> Q;                 (* discharge of an area: R A^p, 3806-3821 *)
  law : Q -> Q -> Q               (* sediment discharge of discharge and slope, 3887-3899 *) }.
Definition ncells (K : par) : nat := (ny K * nx K)%nat.
Definition row (K : par) (i : nat) : nat := i / nx K.
Definition col (K : par) (i : nat) : nat := i mod nx K.
Definition mem (i : nat) (l : list nat) : bool := existsb (Nat.eqb i) l.
(* X.flat[IDs] = new *)
Definition upd {A} (IDs : list nat) (new old : nat -> A) : nat -> A := fun i => if mem i IDs then new i else old i.
(* initialize_not_edge_grid, 497-512 *)
Definition not_edge (K : par) (i : nat) : bool :=
  negb (Nat.eqb (row K i) 0 || Nat.eqb (row K i) (ny K - 1) || Nat.eqb (col K i) 0 || Nat.eqb (col K i) (nx K - 1)).

(* the flow grids of a step *)
Record net := mkNet { code : nat -> Z; parent : nat -> nat; area : nat -> Q; ds : nat -> Q }.

Record state := mk {
  DEM : nat -> Q; T_last : nat -> Q; dz_dt : nat -> Q; Qs : nat -> Q; flux_cap : nat -> Q;
  dt_grid : nat -> xt; dz_target : nat -> xq; T_next : nat -> xt;
  codes : nat -> Z;               (* d8.d8_grid *)
  heap : list (xt * nat); n_heap : Z; T_clock : Q;
  last_active : nat; active_count : nat; update_count : nat -> Z }.

(* ---------- heapq: the least pair ---------- *)
Definition before (a b : xt * nat) : bool :=
  xltb (fst a) (fst b) || (xeqb (fst a) (fst b) && (snd a <=? snd b)%nat).
Fixpoint pop (h : list (xt * nat)) : option ((xt * nat) * list (xt * nat)) :=
  match h with
  | [] => None
  | e :: r => match pop r with
              | None => Some (e, [])
              | Some (m, r') => if before e m then Some (e, r) else Some (m, e :: r')
              end
  end.

(* ---------- update_active_ID, 2269-2291 ---------- *)
Fixpoint next_event (fuel : nat) (T_next : nat -> xt) (h : list (xt * nat)) (n : Z) : out ((xt * nat) * list (xt * nat) * Z) :=
  match fuel with
  | 0%nat => Raise OutOfFuel
  | S fuel =>
    match pop h with
    | None => Raise IndexError
    | Some ((T, i), h) => if xltb T (T_next i) then next_event fuel T_next h (n - 1) else Ok ((T, i), h, (n - 1)%Z)
    end
  end.

(* ---------- update_DEM 2518-2557, update_flux_cap_grid 3560-3575, update_T_last_grid 3581 ---------- *)
Definition change (s : state) (i : nat) : Q := dz_dt s i * (T_clock s - T_last s i).
Definition update_DEM (s : state) (IDs : list nat) : state :=
  mk (upd IDs (fun i => DEM s i + change s i) (DEM s)) (T_last s) (dz_dt s) (Qs s) (flux_cap s) (dt_grid s) (dz_target s) (T_next s) (codes s)
     (heap s) (n_heap s) (T_clock s) (last_active s) (active_count s) (upd IDs (fun i => update_count s i + 1)%Z (update_count s)).
Definition set_cap (s : state) (f : nat -> Q) : state :=
  mk (DEM s) (T_last s) (dz_dt s) (Qs s) f (dt_grid s) (dz_target s) (T_next s) (codes s) (heap s) (n_heap s) (T_clock s) (last_active s) (active_count s) (update_count s).
Definition update_flux_cap (s : state) (IDs : list nat) : state := set_cap s (upd IDs (fun i => flux_cap s i + change s i) (flux_cap s)).
Definition reset_cap (s : state) (IDs : list nat) : state := set_cap s (upd IDs (fun _ => 0) (flux_cap s)).
Definition update_T_last (s : state) (IDs : list nat) : state :=
  mk (DEM s) (upd IDs (fun _ => T_clock s) (T_last s)) (dz_dt s) (Qs s) (flux_cap s) (dt_grid s) (dz_target s) (T_next s) (codes s)
     (heap s) (n_heap s) (T_clock s) (last_active s) (active_count s) (update_count s).

(* ---------- update_neighbors, 2838-3236 ---------- *)
(* d8_local.get_neighbors 234-340 without the IDs, and np.setdiff1d(.., zone_IDs) 2890: sorted, without repeats *)
Definition near (K : par) (i j : nat) : bool :=
  (row K i <=? row K j + 1)%nat && (row K j <=? row K i + 1)%nat && (col K i <=? col K j + 1)%nat && (col K j <=? col K i + 1)%nat.
Definition new_nbrs (K : par) (IDs zone : list nat) : list nat :=
  filter (fun j => negb (mem j zone) && existsb (fun i => near K i j) IDs) (seq 0 (ncells K)).
(* np.sign *)
Definition sgn (x : Q) : Z := if Qltb 0 x then 1 else if Qltb x 0 then -1 else 0.
(* 3040: |dz_cap| >= |dz_targ|; comparisons with nan are False, |inf| is never reached *)
Definition too_large (c : Q) (t : xq) : bool := match t with Fin x => Qle_bool (Qabs x) (Qabs c) | Inf _ => false | NaN => false end.
(* 3056: sgn(dz_cap) != sgn(dz_targ); nan differs from everything *)
Definition wrong_sign (c : Q) (t : xq) : bool :=
  match t with Fin x => negb (Z.eqb (sgn c) (sgn x)) | Inf p => negb (Z.eqb (sgn c) (if p then 1 else -1)) | NaN => true end.
(* 3026-3128 *)
Definition NOW (K : par) (s : state) (i : nat) : bool :=
  let c := flux_cap s i in let t := dz_target s i in
  ((Z.eqb (codes s i) 0 && not_edge K i) || too_large c t || wrong_sign c t) && negb (Qeq_bool c 0).
(* zone and all_now_IDs: the entries other than -1 *)
Fixpoint update_neighbors (fuel : nat) (K : par) (s : state) (IDs zone now : list nat) : out (state * list nat * list nat) :=
  match fuel with
  | 0%nat => Raise OutOfFuel
  | S fuel =>
    let nbr := new_nbrs K IDs zone in
    if Nat.eqb (length nbr) 0 then Ok (s, zone, now) else
    if (zone_size K <? length zone + length nbr)%nat then Raise SystemExit else
    let zone := zone ++ nbr in
    let s1 := update_T_last (update_flux_cap (update_DEM s nbr) nbr) nbr in
    let now_IDs := filter (NOW K s1) nbr in
    if Nat.eqb (length now_IDs) 0 then Ok (s1, zone, now) else
    if (zone_size K <? length now + length now_IDs)%nat then Raise SystemExit else
    update_neighbors fuel K (reset_cap s1 now_IDs) now_IDs zone (now ++ now_IDs)
  end.

(* ---------- update_fluxes4, 3535-3547 ---------- *)
(* update_slope_grid 3763-3775: cells whose parent is 0 get slope 0 *)
Definition slope (N : net) (s : state) (i : nat) : Q :=
  if Nat.eqb (parent N i) 0 then 0 else (DEM s i - DEM s (parent N i)) / ds N i.
Definition update_fluxes (K : par) (N : net) (s : state) (IDs : list nat) : state :=
  mk (DEM s) (T_last s) (dz_dt s) (upd IDs (fun i => law K (disch K (area N i)) (slope N s i)) (Qs s)) (flux_cap s) (dt_grid s) (dz_target s) (T_next s)
     (code N) (heap s) (n_heap s) (T_clock s) (last_active s) (active_count s) (update_count s).

(* ---------- update_dz_dt_grid, 4023-4175 ---------- *)
(* the eight neighbours clockwise from the upper right, with wrap-around, and the code that flows from there to the cell *)
Definition opps : list Z := [16; 32; 64; 128; 1; 2; 4; 8]%Z.
Definition nbr (K : par) (i k : nat) : nat :=
  let R := ((col K i + 1) mod nx K)%nat in let L := ((col K i + nx K - 1) mod nx K)%nat in
  let u := ((row K i + ny K - 1) mod ny K)%nat in let d := ((row K i + 1) mod ny K)%nat in
  let rc := nth k [(u, R); (row K i, R); (d, R); (d, col K i); (d, L); (row K i, L); (u, L); (u, col K i)] (0%nat, 0%nat) in
  (fst rc * nx K + snd rc)%nat.
Definition inflow (K : par) (codes : nat -> Z) (Qs : nat -> Q) (i : nat) : Q :=
  qsum 8 (fun k => if Z.eqb (codes (nbr K i k)) (nth k opps 0%Z) then Qs (nbr K i k) / da K else 0).
Definition rate (K : par) (codes : nat -> Z) (Qs : nat -> Q) (i : nat) : Q := - (Qs i / da K) + U K + inflow K codes Qs i.
Definition update_dz_dt (K : par) (s : state) (IDs : list nat) : state :=
  mk (DEM s) (T_last s) (upd (base_IDs K) (fun _ => - BLR K) (upd IDs (rate K (codes s) (Qs s)) (dz_dt s))) (Qs s) (flux_cap s) (dt_grid s) (dz_target s) (T_next s) (codes s)
     (heap s) (n_heap s) (T_clock s) (last_active s) (active_count s) (update_count s).

(* ---------- update_dt_grid6, 5041-5165 ---------- *)
(* (da/2) * del_z / Qs * CFL *)
Definition dt_equal (K : par) (N : net) (s : state) (i : nat) : Q := CFL K * ((da K / 2) * (DEM s i - DEM s (parent N i)) / Qs s i).
Definition dt_pit (K : par) (s : state) (i : nat) : xt := if Qeq_bool (dz_dt s i) 0 then Never else At (max_dz_for_pits K / Qabs (dz_dt s i)).
Definition new_dt (K : par) (N : net) (s : state) (i : nat) : xt :=
  if Z.eqb (codes s i) 0 && not_edge K i then dt_pit K s i else if Qltb 0 (Qs s i) then At (dt_equal K N s i) else dt_grid s i.
Definition xpos (d : xt) : bool := match d with At x => Qltb 0 x | Never => true end.
Definition update_dt (K : par) (N : net) (s : state) (active : nat) (IDs : list nat) : out state :=
  let d := upd IDs (new_dt K N s) (dt_grid s) in
  let d := if (10 <? active_count s)%nat then upd [active] (fun _ => At (dt_limit K)) d else d in
  if negb (forallb (fun i => xpos (d i)) IDs) then Raise SystemExit else
  Ok (mk (DEM s) (T_last s) (dz_dt s) (Qs s) (flux_cap s) d (dz_target s) (T_next s) (codes s)
         (heap s) (n_heap s) (T_clock s) (last_active s) (active_count s) (update_count s)).

(* ---------- update_dz_target_grid2, 5212-5215 ---------- *)
Definition target (d : xt) (rate : Q) : xq :=
  match d with At t => Fin (t * rate) | Never => if Qltb 0 rate then Inf true else if Qltb rate 0 then Inf false else NaN end.
Definition update_target (s : state) (IDs : list nat) : state :=
  mk (DEM s) (T_last s) (dz_dt s) (Qs s) (flux_cap s) (dt_grid s) (upd IDs (fun i => target (dt_grid s i) (dz_dt s i)) (dz_target s)) (T_next s) (codes s)
     (heap s) (n_heap s) (T_clock s) (last_active s) (active_count s) (update_count s).

(* ---------- update_T_next_grid, 5328-5401 ---------- *)
Definition update_T_next (K : par) (s : state) (IDs : list nat) : state :=
  let new_IDs := filter (not_edge K) IDs in
  let T_new := fun i => xadd (T_clock s) (dt_grid s i) in
  mk (DEM s) (T_last s) (dz_dt s) (Qs s) (flux_cap s) (dt_grid s) (dz_target s) (upd new_IDs T_new (T_next s)) (codes s)
     (map (fun i => (T_new i, i)) new_IDs ++ heap s) (n_heap s + Z.of_nat (length new_IDs)) (T_clock s) (last_active s) (active_count s) (update_count s).

(* ---------- update, 1858-2013 ---------- *)
(* the counters of update_active_ID, 2361-2367, and the clock, 2402-2441 *)
Definition activate (s : state) (T : Q) (i : nat) (h : list (xt * nat)) (n : Z) : state :=
  let same := Nat.eqb i (last_active s) in
  mk (DEM s) (T_last s) (dz_dt s) (Qs s) (flux_cap s) (dt_grid s) (dz_target s) (T_next s) (codes s) h n T
     (if same then last_active s else i) (if same then S (active_count s) else 0%nat) (update_count s).
Record result := mkRes { new : state; active : nat; zone : list nat; all_now : list nat }.
Definition update (K : par) (N : net) (s : state) : out result :=
  bind (next_event (S (length (heap s))) (T_next s) (heap s) (n_heap s)) (fun '((T, i), h, n) =>
  match T with
  | Never => Raise Infinite
  | At T =>
    if Qltb T (T_clock s) then Raise SystemExit else      (* "Time is going backwards!" *)
    let s := activate s T i h n in
    let s := update_T_last (reset_cap (update_DEM s [i]) [i]) [i] in
    bind (update_neighbors (S (ncells K)) K s [i] [i] [i]) (fun '(s, zone, now) =>
    let s := update_dz_dt K (update_fluxes K N s zone) zone in
    bind (update_dt K N s i now) (fun s =>
    Ok (mkRes (update_T_next K (update_target s now) now) i zone now)))
  end).
(* run: one list of flow grids per step *)
Fixpoint run (K : par) (Ns : list net) (s : state) : out state :=
  match Ns with [] => Ok s | N :: r => bind (update K N s) (fun x => run K r (new x)) end.

(* ---------- initialize_computed_vars, 390-486 ---------- *)
(* slopes 533-571 (0 where the code is 0, negative ones stop), discharges, rates 804-849 (the sums over the parents of the
   eight directions are written as inflow), dt 1257-1395, targets 1428-1443, times and heap 1464-1481 *)
Definition slope0 (N : net) (dem : nat -> Q) (i : nat) : Q := if Z.eqb (code N i) 0 then 0 else (dem i - dem (parent N i)) / ds N i.
Definition start (K : par) (N : net) (dem : nat -> Q) : out state :=
  if existsb (fun i => Qltb (slope0 N dem i) 0) (seq 0 (ncells K)) then Raise SystemExit else
  let Qs := fun i => law K (disch K (area N i)) (slope0 N dem i) in
  let dzdt := upd (base_IDs K) (fun _ => - BLR K) (rate K (code N) Qs) in
  let dt := upd (base_IDs K) (fun _ => At (dt_limit K))
              (fun i => if Z.eqb (code N i) 0 then (if Qeq_bool (dzdt i) 0 then Never else At (max_dz_for_pits K / Qabs (dzdt i)))
                        else if Qltb 0 (Qs i) then At (CFL K * ((da K / 2) * (dem i - dem (parent N i)) / Qs i)) else At 0) in
  if negb (forallb (fun i => xpos (dt i)) (seq 0 (ncells K))) then Raise SystemExit else
  let targ := fun i => if Z.eqb (code N i) 0 && not_edge K i then Fin 0 else target (dt i) (dzdt i) in
  let h := map (fun i => (dt i, i)) (seq 0 (ncells K)) in
  Ok (mk dem (fun _ => 0) dzdt Qs (fun _ => 0) dt targ dt (code N) h (Z.of_nat (ncells K)) 0 0 0 (fun _ => 0%Z)).

(* update_entire_DEM, 2781-2787 *)
Definition final_DEM (s : state) : nat -> Q := fun i => DEM s i + change s i.

(* ---------- write_output_files without FIXED_STEPS, 2128-2137: is a grid saved, and the new last_grid_time ---------- *)
Definition save_grid (save_dt last time : Q) : bool * Q := if Qltb save_dt (time - last) then (true, time) else (false, last).
