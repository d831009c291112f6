(* Model of /repo/topoflow/utils/fill_pits.py: get_start_pixels (178-354) and fill_pits (358-604).
   The DEM is a list in C order.  Input elevations are [option Q]: None is any non-finite value.
   heapq is modelled as a multiset of (z, ID) pairs whose heappop returns the least pair in tuple order
   (standard library, trusted).  USE_MY_HEAP is False at 383, so that branch is not modelled.
   Printing, time.sleep and 32-bit overflow of IDs are not modelled. *)
From Coq Require Import ZArith QArith Qminmax List Bool.
From Verif Require Import Base.
Import ListNotations.
Local Open Scope Q_scope.

Definition START_NODATA : Q := -(9999#1).      (* default of get_start_pixels, 181: fill_pits passes no other *)
Definition CLOSED_BASIN : Q := -(32000#1).     (* 182 *)

(* 237-240: DEM[bad] = nodata *)
Definition clean (dem : list (option Q)) : list Q :=
  map (fun o => match o with Some z => z | None => START_NODATA end) dem.

Section Grid.
Variables nx ny : nat.          (* columns, rows; both >= 1 *)
Definition npix : nat := (nx * ny)%nat.

Definition at_rc (dem : list Q) (r c : nat) : Q := get 0 dem (r * nx + c).
Definition above (z : Q) : bool := Qltb START_NODATA z.

(* 246-250: top row *)
Definition top_IDs (dem : list Q) : list nat :=
  filter (fun c => above (at_rc dem 0 c)) (seq 0 nx).
(* 255-259: w2 are indices into DEM[1:ny-1, 0]; the stored ID is w2*nx, not (w2+1)*nx *)
Definition left_IDs (dem : list Q) : list nat :=
  map (fun r => (r * nx)%nat) (filter (fun r => above (at_rc dem (r + 1) 0)) (seq 0 (ny - 2))).
(* 264-268: same for DEM[1:ny-1, nx-1] *)
Definition right_IDs (dem : list Q) : list nat :=
  map (fun r => (r * nx + (nx - 1))%nat)
      (filter (fun r => above (at_rc dem (r + 1) (nx - 1))) (seq 0 (ny - 2))).
(* 273-277: bottom row *)
Definition bottom_IDs (dem : list Q) : list nat :=
  map (fun c => (c + nx * (ny - 1))%nat) (filter (fun c => above (at_rc dem (ny - 1) c)) (seq 0 nx)).

(* 294-313: zc is the interior window; np.roll wraps inside that window *)
Definition win (dem : list Q) (r c : Z) : Q :=
  at_rc dem (Z.to_nat (r mod Z.of_nat (ny - 2)) + 1) (Z.to_nat (c mod Z.of_nat (nx - 2)) + 1).
Definition zs (dem : list Q) (r c : Z) : Q :=
  fold_left Qmin
    [win dem r (c + 1); win dem (r + 1) (c + 1); win dem (r + 1) c; win dem (r + 1) (c - 1);
     win dem r (c - 1); win dem (r - 1) (c - 1); win dem (r - 1) c]%Z
    (win dem (r - 1) (c + 1)).
(* 315-324 *)
Definition interior_IDs (dem : list Q) : list nat :=
  flat_map (fun r => flat_map (fun c =>
     let zc := at_rc dem (r + 1) (c + 1) in
     if Qeq_bool zc CLOSED_BASIN ||
        (above zc && Qle_bool (zs dem (Z.of_nat r) (Z.of_nat c)) START_NODATA)
     then [((r + 1) * nx + (c + 1))%nat] else []) (seq 0 (nx - 2))) (seq 0 (ny - 2)).

(* 220-354; None: more IDs than the preallocated 500*(nx+ny) entries (ValueError) *)
Definition get_start_pixels (dem : list Q) : option (list nat) :=
  let IDs := top_IDs dem ++ left_IDs dem ++ right_IDs dem ++ bottom_IDs dem ++ interior_IDs dem in
  if Nat.leb (length IDs) (500 * (nx + ny)) then Some IDs else None.

(* status codes 417-419 *)
Inductive status := OPEN | CLOSED | ON_HEAP.
Definition is_OPEN (s : status) : bool := match s with OPEN => true | _ => false end.

(* 424-428: w[0] holds ROW numbers of the nodata cells; they are then used as flat IDs.
   (After 237-240 no entry is non-finite.) *)
Definition closed_init (nodata : Q) (dem : list Q) : list status :=
  fold_left (fun C r => if existsb (fun c => Qle_bool (at_rc dem r c) nodata) (seq 0 nx)
                        then set C r CLOSED else C)
            (seq 0 ny) (repeat OPEN npix).

(* least pair in tuple order; the first of equal pairs *)
Definition pair_lt (a b : Q * nat) : bool :=
  Qltb (fst a) (fst b) || (Qeq_bool (fst a) (fst b) && Nat.ltb (snd a) (snd b)).
Fixpoint heappop (h : list (Q * nat)) : option ((Q * nat) * list (Q * nat)) :=
  match h with
  | [] => None
  | p :: t => match heappop t with
              | None => Some (p, [])
              | Some (m, t') => if pair_lt m p then Some (m, p :: t') else Some (p, t)
              end
  end.

(* 491 *)
Definition incs : list Z :=
  let n := Z.of_nat nx in [- n - 1; - n; - n + 1; -1; 1; n - 1; n; n + 1]%Z.
(* 536-541: neighbours with a valid flat ID *)
Definition near (ID : nat) : list nat :=
  map Z.to_nat (filter (fun v => (0 <=? v)%Z && (v <? Z.of_nat npix)%Z)
                       (map (fun inc => Z.of_nat ID + inc)%Z incs)).

(* 560-576: one neighbour *)
Definition visit (zmin : Q) (st : list Q * list status * list (Q * nat)) (ID : nat) :=
  let '(dem, C, h) := st in
  let dem := if Qltb (get 0 dem ID) zmin then set dem ID zmin else dem in
  (dem, set C ID ON_HEAP, (get 0 dem ID, ID) :: h).

Inductive result := Done (dem : list Q) | BadIndex | OutOfFuel.

(* 501-585.  BadIndex: no neighbour has a valid ID, so that 538-541 would index C with invalid IDs. *)
Fixpoint fill_loop (fuel : nat) (dem : list Q) (C : list status) (h : list (Q * nat)) : result :=
  match heappop h with
  | None => Done dem
  | Some ((zmin, ID), h') =>
      match fuel with
      | O => OutOfFuel
      | S fuel' =>
          let C := set C ID CLOSED in
          match near ID with
          | [] => BadIndex
          | ids =>
              let open_ids := filter (fun j => is_OPEN (get OPEN C j)) ids in
              let '(dem, C, h) := fold_left (visit zmin) open_ids (dem, C, h') in
              fill_loop fuel' dem C h
          end
      end
  end.

(* 358-604; None: get_start_pixels raised ValueError *)
Definition fill_pits (nodata : Q) (dem0 : list (option Q)) : option result :=
  let dem := clean dem0 in
  match get_start_pixels dem with
  | None => None
  | Some IDs =>
      let C := closed_init nodata dem in
      let h := map (fun ID => (get 0 dem ID, ID)) IDs in       (* 457-458 *)
      let C := fold_left (fun C ID => set C ID ON_HEAP) IDs C in  (* 467 *)
      Some (fill_loop (length IDs + 8 * npix) dem C h)
  end.
End Grid.
