(* Model of /repo/topoflow/utils/heap_base.py (class heap_base).
   Keys: the code compares float32 keys only with < and >.  Finite floats are
   order-isomorphic to a subset of the integers, so keys are modelled by Z and a
   non-finite argument by the separate constructor NonFin. *)
From Coq Require Import ZArith List Bool.
Import ListNotations.
Local Open Scope Z_scope.

(* Argument x of insert(): finite key, or NaN/Inf. *)
Inductive key := Fin (x : Z) | NonFin.

(* /repo/topoflow/utils/heap_base.py 165-174: self.size, self.heap, self.IDs, self.n, self.nmax.
   The numpy arrays are total functions of the index; [size] bounds the legal indices. *)
Record heap := mkHeap {
  size : Z;
  hp   : Z -> Z;
  ids  : Z -> Z;
  n    : Z;
  nmax : Z
}.

Definition upd {A} (f : Z -> A) (i : Z) (v : A) : Z -> A :=
  fun j => if j =? i then v else f j.

(* heap_base.py 152-174 initialize *)
Definition initialize (nx ny : Z) : heap :=
  mkHeap (500 * (nx + ny) + 1) (fun _ => 0) (fun _ => 0) 0 0.

(* The two readings of the expression "i / 2" at heap_base.py 250-253. *)
Inductive division :=
| TrueDiv    (* Python 3 semantics, as shipped: the result is a float *)
| FloorDiv.  (* Python 2 / integer semantics, as the comments intend *)

(* numpy indexing heap[i/2]: a float index raises IndexError (None), whatever its value. *)
Definition half (d : division) (i : Z) : option Z :=
  match d with TrueDiv => None | FloorDiv => Some (i / 2) end.

(* heap_base.py 250-253:
     while ((self.heap[i / 2] > x) and (i > 1)):
         self.heap[i] = self.heap[i / 2]
         self.IDs[i]  = self.IDs[i / 2]
         i = i / 2
   None = IndexError or out of fuel; returns the arrays and the final i. *)
Fixpoint sift_up (fuel : nat) (d : division) (h id : Z -> Z) (x i : Z)
  : option ((Z -> Z) * (Z -> Z) * Z) :=
  match half d i with
  | None => None
  | Some p =>
      if (x <? h p) && (1 <? i) then
        match fuel with
        | O => None
        | S fuel' => sift_up fuel' d (upd h i (h p)) (upd id i (id p)) x p
        end
      else Some (h, id, i)
  end.

Inductive outcome A := Ok (a : A) | IndexError.
Arguments Ok {A}. Arguments IndexError {A}.

(* heap_base.py 178-275 insert.  The first component of the result is False when the value
   was rejected (return -1).  After self.n += 1 the slot heap[n] is always written (either in the
   loop or at line 274), so n+1 >= size raises IndexError.  On IndexError the counter has
   already been incremented (line 226): the heap returned with the error shows that. *)
Definition insert (d : division) (s : heap) (x : key) (ID : Z) : outcome bool * heap :=
  match x with
  | NonFin => (Ok false, s)
  | Fin v =>
      let n' := n s + 1 in
      let s1 := mkHeap (size s) (hp s) (ids s) n' (Z.max (nmax s) n') in
      if size s <=? n' then (IndexError, s1) else
      match sift_up (Z.to_nat n') d (hp s) (ids s) v n' with
      | None => (IndexError, s1)
      | Some (h, id, i) =>
          (Ok true, mkHeap (size s) (upd h i v) (upd id i ID) n' (Z.max (nmax s) n'))
      end
  end.

(* heap_base.py 279-285 get_min_ID *)
Definition get_min_ID (s : heap) : Z := ids s 1.

(* heap_base.py 336-358: the percolation loop of get_min.  [m] is the decremented self.n. *)
Fixpoint sift_down (fuel : nat) (h id : Z -> Z) (m last i : Z)
  : option ((Z -> Z) * (Z -> Z) * Z) :=
  if i * 2 <=? m then
    let child := i * 2 in
    let child := if negb (child =? m)
                 then (if h (child + 1) <? h child then child + 1 else child)
                 else child in
    if h child <? last then
      match fuel with
      | O => None
      | S fuel' => sift_down fuel' (upd h i (h child)) (upd id i (id child)) m last child
      end
    else Some (h, id, i)
  else Some (h, id, i).

(* heap_base.py 290-363 get_min.  There is no test for an empty heap. *)
Definition get_min (s : heap) : option (Z * heap) :=
  let heap_min := hp s 1 in
  let last     := hp s (n s) in
  let last_ID  := ids s (n s) in
  let m        := n s - 1 in
  match sift_down (Z.to_nat m) (hp s) (ids s) m last 1 with
  | None => None
  | Some (h, id, i) =>
      Some (heap_min, mkHeap (size s) (upd h i last) (upd id i last_ID) m (nmax s))
  end.

(* A client history: fill_pits.py 461, 518-519, 578 call insert, and get_min_ID followed by get_min. *)
Inductive op := OIns (x : key) (ID : Z) | OPop.
Inductive out := RIns (accepted : bool) | RPop (value ID : Z).

Definition step (d : division) (s : heap) (o : op) : option (heap * out) :=
  match o with
  | OIns x ID => match insert d s x ID with
                 | (Ok b, s') => Some (s', RIns b)
                 | (IndexError, _) => None
                 end
  | OPop => let ID := get_min_ID s in
            match get_min s with
            | Some (v, s') => Some (s', RPop v ID)
            | None => None
            end
  end.

Fixpoint run (d : division) (s : heap) (os : list op) : option (heap * list out) :=
  match os with
  | [] => Some (s, [])
  | o :: os' =>
      match step d s o with
      | None => None
      | Some (s1, r) => match run d s1 os' with
                        | None => None
                        | Some (s2, rs) => Some (s2, r :: rs)
                        end
      end
  end.
