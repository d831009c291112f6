(* Model of /repo/topoflow/components/d8_local.py: D8 codes and parent cells updated only near the cells that changed.
   The tables, the geometry and the slopes are those of D8_Model (the two components inherit them from d8_base.py or
   repeat them line by line); grids are lists in C order.  Printing, RT3_TEST and PERTURB_TEST are left out. *)
From Coq Require Import ZArith QArith List Bool Arith.
From Verif Require Import Base D8_Model.
Import ListNotations.
Local Open Scope Z_scope.

Inductive err := ValueError | IndexError | TypeError | UnboundLocalError | OutOfFuel.
Inductive out (A : Type) := Ok (a : A) | Raise (e : err).
Arguments Ok {A}. Arguments Raise {A}.
Definition bind {A B} (x : out A) (f : A -> out B) : out B := match x with Ok a => f a | Raise e => Raise e end.

(* ---------- neighbours ---------- *)
(* 174-175 *)
Definition incs9 : list (Z * Z) := [(-1, -1); (-1, 0); (-1, 1); (0, -1); (0, 0); (0, 1); (1, -1); (1, 0); (1, 1)].
(* "w = where(...); if (w[0].size > 0): x = x[w]": nothing is removed when nothing would be left *)
Definition keep {A} (p : A -> bool) (l : list A) : list A := match filter p l with [] => l | f => f end.
Definition row_ok (G : geom) (p : Z * Z) : bool := (-1 <? fst p) && (fst p <? ny G).
Definition col_ok (G : geom) (p : Z * Z) : bool := (-1 <? snd p) && (snd p <? nx G).
(* 251-329 *)
Definition near_IDs (G : geom) (IDs : list nat) : list nat :=
  let rc := flat_map (fun inc => map (fun i => (row G i + fst inc, col G i + snd inc)) IDs) incs9 in
  map (fun p => flat G (fst p) (snd p)) (keep (col_ok G) (keep (row_ok G) rc)).
Definition memb (i : nat) (l : list nat) : bool := existsb (Nat.eqb i) l.
(* np.unique of cell IDs, in increasing order *)
Definition unique (G : geom) (l : list nat) : list nat := filter (fun j => memb j l) (seq 0 (ncells G)).
(* get_neighbors, 234-369 (np.setdiff1d also sorts) *)
Definition get_neighbors (G : geom) (IDs : list nat) (INCLUDE_IDS : bool) : list nat :=
  let u := unique G (near_IDs G IDs) in
  if INCLUDE_IDS then u else filter (fun j => negb (memb j IDs)) u.

(* is_a_pit, 373-380, and is_an_interior_pit, 384-397; comparisons with nan are False *)
Definition ole (a b : option Q) : bool := match a, b with Some x, Some y => Qle_bool x y | _, _ => false end.
Definition is_a_pit (G : geom) (dem : list (option Q)) (ID : nat) : bool :=
  match filter (fun j => ole (elev dem j) (elev dem ID)) (get_neighbors G [ID] false) with [] => true | _ => false end.
Definition is_an_interior_pit (G : geom) (dem : list (option Q)) (ID : nat) : bool :=
  if (row G ID =? 0) || (row G ID =? ny G - 1) || (col G ID =? 0) || (col G ID =? nx G - 1) then false
  else is_a_pit G dem ID.

(* get_kid_IDs, 548-599, and update_kid_IDs, 501-544 *)
Definition kid_IDs (G : geom) (d : list Z) (ID : nat) : list nat :=
  let rch := map (fun k => (row G ID + drow k, col G ID + dcol k, h k)) dirs in
  let rch := keep (fun t => row_ok G (fst t)) rch in
  let rch := keep (fun t => col_ok G (fst t)) rch in
  map (fun t => flat G (fst (fst t)) (snd (fst t)))
      (filter (fun t => get 0 d (flat G (fst (fst t)) (snd (fst t))) =? snd t) rch).

(* ---------- flow codes ---------- *)
(* a[IDs] = values, in order *)
Definition puts (a : list Z) (ps : list (nat * Z)) : list Z := fold_left (fun a p => set a (fst p) (snd p)) ps a.
(* start_new_d8_codes, 770-1071, one of the IDs *)
Definition local_code (G : geom) (O : opts) (dem : list (option Q)) (i : nat) : Z :=
  let c := raw_code G dem i in
  let m := max_slope G dem i in
  let c := if negb (LINK_FLATS O)
           then (let c := if oltb m 0 then 0 else c in                     (* 982-986 *)
                 if oeqb m (Some 0%Q) then 0 else c)                       (* 994-998 *)
           else (let c := if oeqb m (Some 0%Q) then - c else c in          (* 1015-1018 *)
                 if oltb m 0 then -300 else c) in                          (* 1030-1033 *)
  let c := match elev dem i with None => 0 | Some z => if Qle_bool z (DEM_nodata O) then 0 else c end in
  let c := if negb (LR_PERIODIC O) && (left_edge G i || right_edge G i) then 0 else c in
  if negb (TB_PERIODIC O) && (top_edge G i || bottom_edge G i) then 0 else c.

(* The state between calls: self.IDs, d8_grid, d8_codes, D8_CODES_CHANGED, parent_ID_grid *)
Record state := mk { IDs : list nat; d8_grid : list Z; d8_codes : list Z; CHANGED : bool; parent_ID_grid : list Z }.
(* initialize_computed_vars, 164-165 *)
Definition initial (G : geom) : state := mk [] (repeat 0 (ncells G)) [] false (repeat 0 (ncells G)).

(* break_flow_grid_ties, 1093-1115: the pair of d8_codes and d8_grid *)
Definition break_ties (IDs : list nat) (st : list Z * list Z) : list Z * list Z :=
  let '(codes, grid) := st in
  let new := map (fun c => if 0 <? c then resolve_at c else c) codes in
  let w := filter (fun p => 0 <? snd (fst p)) (combine (combine IDs codes) new) in
  (new, puts grid (map (fun p => (fst (fst p), snd p)) w)).

(* link_flats, 1119-1478 *)
Definition local_flat (G : geom) (p : nat * Z) : bool := (snd p <? 0) && negb (snd p =? -300) && not_edge G (fst p).
(* ready_code, 1267-1298, with the code of the flat cell in d8_codes and those around it in d8_grid *)
Definition local_ready (G : geom) (grid : list Z) (p : nat * Z) : Z :=
  let al := allowed (-1 * snd p) in
  sumZ (map (fun k => if valid G grid (fst p) k && nth k al false then g k else 0) dirs).
Fixpoint local_link (fuel : nat) (G : geom) (IDs : list nat) (codes grid : list Z) : option (list Z * list Z) :=
  let ps := combine IDs codes in
  let flats := filter (local_flat G) ps in
  if Nat.eqb (length flats) 0 then Some (codes, grid) else
  let fix_ := filter (fun p => 0 <? local_ready G grid p) flats in
  let codes' := map (fun p => if local_flat G p && (0 <? local_ready G grid p) then resolve_at (local_ready G grid p) else snd p) ps in
  let grid' := puts grid (map (fun p => (fst p, resolve_at (local_ready G grid p))) fix_) in
  if Nat.eqb (length fix_) (length flats) then Some (codes', grid')
  else if Nat.eqb (length fix_) 0 then                                     (* not FINISHED, 1455-1458 *)
    let bad := filter (fun p => snd p <? 0) (combine IDs codes') in
    Some (map (fun c => if c <? 0 then 0 else c) codes', puts grid' (map (fun p => (fst p, 0)) bad))
  else match fuel with O => None | S fuel' => local_link fuel' G IDs codes' grid' end.

(* update_flow_grid, 693-722: the cells ids are computed anew *)
Definition update_codes (G : geom) (O : opts) (dem : list (option Q)) (s : state) (ids : list nat) : out state :=
  let start := map (get 0 (d8_grid s)) ids in
  let codes := map (local_code G O dem) ids in
  let grid := puts (d8_grid s) (combine ids codes) in
  let '(codes, grid) := if BREAK_TIES O then break_ties ids (codes, grid) else (codes, grid) in
  match (if LINK_FLATS O then local_link (length ids) G ids codes grid else Some (codes, grid)) with
  | None => Raise OutOfFuel
  | Some (codes, grid) =>
      let ch := existsb (fun p => negb (fst p =? snd p)) (combine codes start) in
      Ok (mk ids grid codes ch (parent_ID_grid s))
  end.
(* update_flow_grid, 631-766, with the DEM that the component holds.  The caller gives the IDs (None: all cells).
   "self.IDs == None" compares an array element by element: with current numpy (legacy = false) the truth value of
   more than one element raises ValueError; old versions gave False. *)
Definition update_flow_grid (legacy : bool) (G : geom) (O : opts) (dem : list (option Q)) (given : option (list nat)) (s : state)
  : out state :=
  bind (match given with
        | None => Ok (seq 0 (ncells G))
        | Some l => if legacy || (length l <=? 1)%nat then Ok (get_neighbors G l true) else Raise ValueError
        end) (update_codes G O dem s).

(* ---------- parents ---------- *)
(* update_parent_ID_grid, 1485-1576, one of the IDs, for closed sides *)
Definition local_parent (G : geom) (O : opts) (p : nat * Z) : Z :=
  let '(i, c) := p in
  let v := Z.of_nat i + get 0 (inc_map G) (Z.to_nat c) in
  let v := if c <=? 0 then 0 else v in                                     (* 1521-1524 *)
  let v := if negb (LR_PERIODIC O) && (right_edge G i || left_edge G i) then 0 else v in
  if negb (TB_PERIODIC O) && (top_edge G i || bottom_edge G i) then 0 else v.
(* inc_map has 129 entries; a negative index counts from its end *)
Definition inc_ok (c : Z) : bool := (-129 <=? c) && (c <=? 128).
(* a periodic side with a cell that flows over it: "R[w]" indexes a tuple, 1543-1568 *)
Definition wraps (G : geom) (O : opts) (p : nat * Z) : bool :=
  let '(i, c) := p in
  LR_PERIODIC O && (right_edge G i && mem c [1; 2; 4] || left_edge G i && mem c [16; 32; 64])
  || TB_PERIODIC O && (top_edge G i && mem c [1; 64; 128] || bottom_edge G i && mem c [4; 8; 16]).
Definition update_parents (G : geom) (O : opts) (s : state) : out state :=
  if negb (CHANGED s) then Ok s else
  let ps := combine (IDs s) (d8_codes s) in
  if negb (forallb inc_ok (d8_codes s)) then Raise IndexError else
  if existsb (wraps G O) ps then Raise TypeError else
  Ok (mk (IDs s) (d8_grid s) (d8_codes s) (CHANGED s) (puts (parent_ID_grid s) (map (fun p => (fst p, local_parent G O p)) ps))).

(* ---------- the whole update ---------- *)
(* update_flow_width_grid, 1763-1846, and update_flow_length_grid, 1858-1925: "rows = (IDs / self.nx)" is an array of
   floats, which current numpy does not accept as an index.  Their grids are not followed further. *)
Definition update_width_length (legacy : bool) (s : state) : out state :=
  if negb (CHANGED s) then Ok s else
  if negb legacy && existsb (fun c => mem c (0 :: code_list)) (d8_codes s) then Raise IndexError else Ok s.
(* update_area_grid, 1937-2470: "np = pIDs.size" (2019) makes np a local variable of the method, and both the loops
   before and after use np.int32 before that line *)
Definition update_area (s : state) : out state := if negb (CHANGED s) then Ok s else Raise UnboundLocalError.
(* d8_base.py update, 358-414 (update_parent_IDs, update_flow_from_IDs and update_flow_to_IDs do not change the state) *)
Definition update (legacy : bool) (G : geom) (O : opts) (dem : list (option Q)) (given : option (list nat)) (s : state) : out state :=
  bind (update_flow_grid legacy G O dem given s) (fun s =>
  bind (update_parents G O s) (fun s =>
  bind (update_width_length legacy s) update_area)).

(* update_noflow_IDs, 1743-1759 *)
Definition noflow_IDs (G : geom) (s : state) (old : list nat) : list nat :=
  let new := map fst (filter (fun p => snd p <=? 0) (combine (IDs s) (d8_codes s))) in
  match new with [] => old | _ => unique G (old ++ new) end.

(* the calls that the caller makes: codes and parents brought up to date after each change of the DEM *)
Definition refresh (G : geom) (O : opts) (dem : list (option Q)) (given : option (list nat)) (s : state) : out state :=
  bind (update_flow_grid true G O dem given s) (update_parents G O).
Fixpoint refreshes (G : geom) (O : opts) (hist : list (list nat * list (option Q))) (s : state) : out state :=
  match hist with [] => Ok s | (ids, dem) :: r => bind (refresh G O dem (Some ids) s) (refreshes G O r) end.
