(* Model of the D8 flow-direction component:
   /repo/topoflow/components/d8_base.py and /repo/topoflow/components/d8_global.py.
   Grids are lists in C order; cell (row, col) has flat index row*nx + col.
   Elevations are [option Q]: None is NaN.  (Infinities and rounding are not modelled.) *)
From Coq Require Import ZArith QArith Qminmax List Bool.
From Verif Require Import Base.
Import ListNotations.
Local Open Scope Z_scope.

(* ---------------------------------------------------------------- tables (d8_base.py) *)

(* d8_base.py 576: code_list (non-ARC), order NE E SE S SW W NW N *)
Definition code_list : list Z := [1; 2; 4; 8; 16; 32; 64; 128].
(* d8_base.py 589: code_opps *)
Definition code_opps : list Z := [16; 32; 64; 128; 1; 2; 4; 8].
Definition g (k : nat) : Z := nth k code_list 0.
Definition h (k : nat) : Z := nth k code_opps 0.
Definition dirs : list nat := [0; 1; 2; 3; 4; 5; 6; 7]%nat.

(* d8_base.py 604-605: valid_code_map = zeros(256); valid_code_map[code_list] = code_list *)
Definition valid_code_map : list Z :=
  fold_left (fun a c => set a (Z.to_nat c) c) code_list (repeat 0 256).

(* d8_base.py 689-707 resolve_array_cycle, one element: t rotations of an 8-bit value *)
Fixpoint resolve_cycle (t : nat) (v : Z) : Z :=
  match t with
  | O => v
  | S t' =>
      let v := v * 2 in
      let v := v + (if 255 <? v then 1 else 0) in
      resolve_cycle t' (Z.land v 255)
  end.

Definition assign (idx : list Z) (v : Z) (a : list Z) : list Z :=
  fold_left (fun a i => set a (Z.to_nat i) v) idx a.

(* d8_base.py 747-751 *)
Definition resolve_w : list Z :=
  [2; 3; 6; 7; 10; 11; 14; 15; 18; 19; 22; 23;
   27; 31; 35; 38; 39; 43; 47; 54; 55; 66; 67; 70;
   71; 74; 75; 78; 79; 82; 83; 86; 87; 91; 95; 103;
   107; 111; 134; 135; 138; 139; 142; 143; 150; 151; 155;
   159; 166; 167; 171; 175; 183; 191; 206; 207; 223].

(* d8_base.py 711-761 get_resolve_array: the assignments in program order *)
Definition resolve : list Z :=
  let a := repeat 0 256 in
  let a := assign [17; 85] 1 a in
  let a := assign [34; 102; 119; 238; 170] 2 a in
  let a := assign [136; 153; 187; 221; 255] 8 a in
  let a := assign [68] 4 a in
  let a := assign [51] 32 a in
  let a := assign [204] 128 a in
  let a := assign [1; 5; 69] 1 a in
  let a := assign [4; 20; 21] 4 a in
  let a := assign [16; 80; 84] 16 a in
  let a := assign [64; 65; 81] 64 a in
  let a := assign resolve_w 2 a in
  let a := assign (map (resolve_cycle 2) resolve_w) 8 a in
  let a := assign (map (resolve_cycle 4) resolve_w) 32 a in
  assign (map (resolve_cycle 6) resolve_w) 128 a.

(* array lookup resolve[c], valid for 0 <= c < 256 *)
Definition resolve_at (c : Z) : Z := get 0 resolve (Z.to_nat c).

(* ---------------------------------------------------------------- geometry *)

Record geom := mkGeom {
  nx : Z; ny : Z;              (* columns, rows *)
  dx : Q; dy : Q; dd : Q       (* self.dx[0], self.dy[0], self.dd[0]; d8_global.py 210-212 *)
}.
Definition ncells (G : geom) : nat := Z.to_nat (nx G * ny G).

Record opts := mkOpts {
  BREAK_TIES : bool; LINK_FLATS : bool;
  LR_PERIODIC : bool; TB_PERIODIC : bool;
  DEM_nodata : Q
}.

Definition row (G : geom) (i : nat) : Z := Z.of_nat i / nx G.
Definition col (G : geom) (i : nat) : Z := Z.of_nat i mod nx G.
Definition flat (G : geom) (r c : Z) : nat := Z.to_nat (r * nx G + c).

(* Row/column increments of the 8 neighbours in code order; these are the np.roll calls of
   d8_global.py 226-233 and the rows_U/rows_D/cols_L/cols_R of 448-468 and 1119-1148
   (both wrap modulo the grid shape; Python's % is Z.modulo). *)
Definition drow (k : nat) : Z := nth k [-1; 0; 1; 1; 1; 0; -1; -1] 0.
Definition dcol (k : nat) : Z := nth k [1; 1; 1; 0; -1; -1; -1; 0] 0.
Definition nbr (G : geom) (k i : nat) : nat :=
  flat G ((row G i + drow k) mod ny G) ((col G i + dcol k) mod nx G).

(* divisor of slope s_{k+1}: d8_global.py 226-233 *)
Definition dist (G : geom) (k : nat) : Q :=
  nth k [dd G; dx G; dd G; dy G; dd G; dx G; dd G; dy G] 1%Q.

Definition left_edge   (G : geom) (i : nat) : bool := col G i =? 0.
Definition right_edge  (G : geom) (i : nat) : bool := col G i =? nx G - 1.
Definition top_edge    (G : geom) (i : nat) : bool := row G i =? 0.
Definition bottom_edge (G : geom) (i : nat) : bool := row G i =? ny G - 1.
(* d8_base.py 642-680: not_edge_grid is 0 on edge_IDs (the four sides) and 1 elsewhere *)
Definition not_edge (G : geom) (i : nat) : bool :=
  negb (left_edge G i || right_edge G i || top_edge G i || bottom_edge G i).

(* ---------------------------------------------------------------- start_new_d8_codes *)

Definition elev (dem : list (option Q)) (i : nat) : option Q := get None dem i.

(* d8_global.py 226-233: NaN propagates through subtraction and division *)
Definition slope (G : geom) (dem : list (option Q)) (i k : nat) : option Q :=
  match elev dem i, elev dem (nbr G k i) with
  | Some a, Some b => Some ((a - b) / dist G k)%Q
  | _, _ => None
  end.

(* np.maximum propagates NaN *)
Definition omax (a b : option Q) : option Q :=
  match a, b with Some x, Some y => Some (Qmax x y) | _, _ => None end.

(* d8_global.py 251-257 *)
Definition max_slope (G : geom) (dem : list (option Q)) (i : nat) : option Q :=
  let s := slope G dem i in
  omax (omax (omax (omax (omax (omax (omax (s 0%nat) (s 1%nat)) (s 2%nat)) (s 3%nat))
       (s 4%nat)) (s 5%nat)) (s 6%nat)) (s 7%nat).

(* float comparisons: false as soon as an operand is NaN *)
Definition oeqb (a b : option Q) : bool :=
  match a, b with Some x, Some y => Qeq_bool x y | _, _ => false end.
Definition oleb (a : option Q) (b : Q) : bool :=
  match a with Some x => Qle_bool x b | None => false end.
Definition oltb (a : option Q) (b : Q) : bool :=
  match a with Some x => Qltb x b | None => false end.

Definition sumZ (l : list Z) : Z := fold_right Z.add 0 l.

(* d8_global.py 268-275 *)
Definition raw_code (G : geom) (dem : list (option Q)) (i : nat) : Z :=
  sumZ (map (fun k => if oeqb (slope G dem i k) (max_slope G dem i) then g k else 0) dirs).

(* d8_global.py 181-335 start_new_d8_codes, one cell *)
Definition start_code (G : geom) (O : opts) (dem : list (option Q)) (i : nat) : Z :=
  let c := raw_code G dem i in
  let m := max_slope G dem i in
  let c := if LINK_FLATS O
           then (let c := if oeqb m (Some 0%Q) then -1 * c else c in      (* 291-294 *)
                 if oltb m 0 then -300 else c)                           (* 300-303 *)
           else (if oleb m 0 then 0 else c) in                           (* 282-286 *)
  let bad := match elev dem i with None => true | Some z => Qle_bool z (DEM_nodata O) end in
  let c := if bad then 0 else c in                                       (* 313-316 *)
  let c := if negb (LR_PERIODIC O) && (left_edge G i || right_edge G i) then 0 else c in
  if negb (TB_PERIODIC O) && (top_edge G i || bottom_edge G i) then 0 else c.

Definition start_new_d8_codes (G : geom) (O : opts) (dem : list (option Q)) : list Z :=
  tab (ncells G) (start_code G O dem).

(* d8_global.py 355-370 break_flow_grid_ties *)
Definition break_flow_grid_ties (d : list Z) : list Z :=
  map (fun c => if 0 <? c then resolve_at c else c) d.

(* ---------------------------------------------------------------- link_flats *)

(* d8_global.py 429-431 *)
Definition is_flat (G : geom) (d : list Z) (i : nat) : bool :=
  (get 0 d i <? 0) && negb (get 0 d i =? -300) && not_edge G i.

(* d8_global.py 494-501: VALIDk *)
Definition valid (G : geom) (d : list Z) (i k : nat) : bool :=
  let dk := get 0 d (nbr G k i) in (0 <? dk) && negb (dk =? h k).

(* d8_global.py 510-524: greedy subtraction of 128, 64, ..., giving ALLOWED7 .. ALLOWED0;
   returned in the order ALLOWED0 .. ALLOWED7 *)
Definition allowed (codes : Z) : list bool :=
  let stp (st : Z * list bool) (k : nat) :=
    let '(c, acc) := st in
    let a := g k <=? c in
    (c - g k * (if a then 1 else 0), a :: acc) in
  snd (fold_left stp [7; 6; 5; 4; 3; 2; 1; 0]%nat (codes, [])).

(* d8_global.py 532-539 *)
Definition ready_code (G : geom) (d : list Z) (i : nat) : Z :=
  let al := allowed (-1 * get 0 d i) in
  sumZ (map (fun k => if valid G d i k && nth k al false then g k else 0) dirs).

(* d8_global.py 541-552: one pass; all right-hand sides use the grid at the start of the pass *)
Definition fixable (G : geom) (d : list Z) (i : nat) : bool :=
  is_flat G d i && (0 <? ready_code G d i).
Definition link_pass (G : geom) (d : list Z) : list Z :=
  tab (ncells G) (fun i => if fixable G d i then resolve_at (ready_code G d i) else get 0 d i).

Definition count (n : nat) (p : nat -> bool) : nat := length (filter p (seq 0 n)).

(* d8_global.py 374-570; None = out of fuel *)
Fixpoint link_flats (fuel : nat) (G : geom) (d : list Z) : option (list Z) :=
  let n_flats := count (ncells G) (is_flat G d) in
  if Nat.eqb n_flats 0 then Some d else
  let n_fixable := count (ncells G) (fixable G d) in
  let d' := if Nat.eqb n_fixable 0 then d else link_pass G d in
  if Nat.eqb n_fixable n_flats || Nat.eqb n_fixable 0 then Some d'
  else match fuel with
       | O => None
       | S fuel' => link_flats fuel' G d'
       end.

(* d8_global.py 143-146: zero codes outside 0..128, then keep only valid codes *)
Definition final_code (c : Z) : Z :=
  let c := if (c <? 0) || (128 <? c) then 0 else c in
  get 0 valid_code_map (Z.to_nat c).

(* d8_global.py 99-146 update_flow_grid *)
Definition update_flow_grid (G : geom) (O : opts) (dem : list (option Q)) : option (list Z) :=
  let d := start_new_d8_codes G O dem in
  let d := if BREAK_TIES O then break_flow_grid_ties d else d in
  let r := if LINK_FLATS O then link_flats (ncells G) G d else Some d in
  option_map (map final_code) r.

(* ---------------------------------------------------------------- parents *)

(* d8_base.py 624-638: inc_map, indexed by code *)
Definition inc_map (G : geom) : list Z :=
  let incs := [- nx G + 1; 1; nx G + 1; nx G; nx G - 1; -1; - nx G - 1; - nx G] in
  fold_left (fun a kv => set a (Z.to_nat (fst kv)) (snd kv)) (combine code_list incs) (repeat 0 129).

Definition mem (c : Z) (l : list Z) : bool := existsb (Z.eqb c) l.

(* d8_global.py 578-648 update_parent_ID_grid, one cell (the edits at R, L, T, B and wbad are applied
   in program order; each touches only its own cell). *)
Definition parent_ID (G : geom) (O : opts) (d : list Z) (i : nat) : Z :=
  let c := get 0 d i in
  let p := Z.of_nat i + get 0 (inc_map G) (Z.to_nat c) in
  let p := if LR_PERIODIC O
           then (let p := if right_edge G i && mem c [1; 2; 4] then p - nx G else p in
                 if left_edge G i && mem c [16; 32; 64] then p + nx G else p)
           else (if right_edge G i || left_edge G i then 0 else p) in
  let p := if TB_PERIODIC O
           then (let p := if top_edge G i && mem c [1; 64; 128] then p + nx G * ny G else p in
                 if bottom_edge G i && mem c [4; 8; 16] then p - nx G * ny G else p)
           else (if top_edge G i || bottom_edge G i then 0 else p) in
  if c <=? 0 then 0 else p.

Definition update_parent_ID_grid (G : geom) (O : opts) (d : list Z) : list Z :=
  tab (ncells G) (parent_ID G O d).

(* d8_global.py 723-758: w_{k+1} = where(d8_grid == g[k]) as flat IDs in scan order *)
Definition flow_from (G : geom) (d : list Z) (k : nat) : list nat :=
  filter (fun i => get 0 d i =? g k) (seq 0 (ncells G)).
(* d8_global.py 766-839: p_{k+1} = parent IDs of w_{k+1} *)
Definition flow_to (G : geom) (d : list Z) (pid : list Z) (k : nat) : list nat :=
  map (fun i => Z.to_nat (get 0 pid i)) (flow_from G d k).

(* ---------------------------------------------------------------- area grid *)

Local Open Scope Q_scope.

(* d8_global.py 1097: unknown *)
Definition unknown (d : list Z) (A : list Q) (i : nat) : bool :=
  Qeq_bool (get 0 A i) 0 && negb (Z.eqb (get 0%Z d i) 0).

(* d8_global.py 1175-1205: READY unless some neighbour that flows here has area 0 *)
Definition ready (G : geom) (d : list Z) (A : list Q) (i : nat) : bool :=
  forallb (fun k => negb (Z.eqb (get 0%Z d (nbr G k i)) (h k) && Qeq_bool (get 0 A (nbr G k i)) 0)) dirs.

(* d8_global.py 1223-1258: own pixel area plus the areas of the neighbours flowing here *)
Definition new_area (G : geom) (d : list Z) (pa : nat -> Q) (A : list Q) (i : nat) : Q :=
  fold_left (fun a k => if Z.eqb (get 0%Z d (nbr G k i)) (h k) then a + get 0 A (nbr G k i) else a)
            dirs (pa i).

(* d8_global.py 1083-1272; [pa] is pixel_area (a scalar da is a constant function).
   None = out of fuel.  The boolean is UNFINISHED. *)
Fixpoint area_loop (fuel : nat) (G : geom) (d : list Z) (pa : nat -> Q) (A : list Q)
  : option (list Q * bool) :=
  let n_unknown := count (ncells G) (unknown d A) in
  if Nat.eqb n_unknown 0 then Some (A, false) else
  let rdy i := unknown d A i && ready G d A i in
  let n_ready := count (ncells G) rdy in
  let A' := tab (ncells G) (fun i => if rdy i then new_area G d pa A i else get 0 A i) in
  let UNFINISHED := negb (Nat.eqb n_ready n_unknown) in
  if negb UNFINISHED || Nat.eqb n_ready 0 then Some (A', UNFINISHED)
  else match fuel with
       | O => None
       | S fuel' => area_loop fuel' G d pa A'
       end.

(* d8_global.py 1029-1274 update_area_grid; 1060 resets A to np.minimum(A, 0) *)
Definition update_area_grid (G : geom) (d : list Z) (pa : nat -> Q) (A0 : list Q)
  : option (list Q * bool) :=
  area_loop (ncells G) G d pa (map (fun a => Qmin a 0) A0).
