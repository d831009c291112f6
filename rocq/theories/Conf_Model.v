(* Model of the conflict model (/repo/topoflow/utils/conflict.py, class conflict): cells with a state, emergence, resolution and
   spreading driven by Bernoulli random numbers.  The random numbers are inputs of the model (drawn 0 when their probability is 0).
   Probabilities are rational; float32 rounding is not modelled.  Cells are numbered row by row. *)
From Coq Require Import ZArith QArith Qminmax List Bool Arith.
From Verif Require Import Base.
Import ListNotations.
Local Open Scope Q_scope.

Inductive err := ValueError | IndexError.
Inductive out (A : Type) := Ok (a : A) | Raise (e : err).
Arguments Ok {A}. Arguments Raise {A}.
Definition bind {A B} (x : out A) (f : A -> out B) : out B := match x with Ok a => f a | Raise e => Raise e end.

Record conf := mkConf { nx : nat; ny : nat; c_emerge : Q; c_spread : Q; p_resolve : Q; spread : bool;
                        ran_IDs : list Z  (* a permutation of 0 .. 9999999, 239 *) }.
Definition ncells (K : conf) : nat := (ny K * nx K)%nat.
Definition row (K : conf) (i : nat) : nat := i / nx K.
Definition col (K : conf) (i : nat) : nat := i mod nx K.

(* ---------- initialize_U, 246-268 ---------- *)
Definition border (K : conf) (i : nat) : bool :=
  Nat.eqb (row K i) 0 || Nat.eqb (row K i) (ny K - 1) || Nat.eqb (col K i) 0 || Nat.eqb (col K i) (nx K - 1).
(* f: the values of the file, or ones *)
Definition initialize_U (K : conf) (f : option (list Q)) : list Q :=
  tab (ncells K) (fun i => if border K i then 0 else match f with Some l => Qmax (get 0 l i) 0 | None => 1 end).

Definition lmax (l : list Q) : Q := match l with [] => 0 | x :: r => fold_left Qmax r x end.
(* binomial(1, p) raises when p is not in [0, 1] *)
Definition okp (p : Q) : bool := Qle_bool 0 p && Qle_bool p 1.

(* ---------- update_p, 330-338: None when U.max() is 0 (nan) ---------- *)
Definition p_emerge (K : conf) (U : list Q) : option (list Q) :=
  if Qeq_bool (lmax U) 0 then None else Some (map (fun u => (c_emerge K / lmax U) * u) U).

(* S, IDs, n_conflict_cells, start_index *)
Record state := mk { S_ : list bool; IDs : list Z; n_conflict : Z; start_index : nat }.
Definition initial (K : conf) : state := mk (repeat false (ncells K)) (repeat 0%Z (ncells K)) 0 0.   (* 195-199, 232-234 *)
(* the random numbers of one step: B1 and B2 per cell, B per conflict cell and direction *)
Record draws := mkDraws { B1 : nat -> bool; B2 : nat -> bool; B3 : nat -> nat -> bool }.
Definition count (l : list bool) : nat := length (filter (fun b => b) l).
(* cells where w holds, in order *)
Definition where_ (n : nat) (w : nat -> bool) : list nat := filter w (seq 0 n).
Definition puts {A} (l : list A) (ps : list (nat * A)) : list A := fold_left (fun l p => set l (fst p) (snd p)) ps l.

(* ---------- update_S, 368-396 ---------- *)
Definition emerge (K : conf) (U : list Q) (d : draws) (s : state) : out state :=
  match p_emerge K U with
  | None => Raise ValueError
  | Some p =>
    if negb (forallb okp p && okp (p_resolve K)) then Raise ValueError else
    let n := ncells K in
    let w2 := where_ n (fun i => negb (get false (S_ s) i) && B1 d i) in
    let w3 := where_ n (fun i => get false (S_ s) i && B2 d i) in
    let n2 := length w2 in
    let ids := firstn n2 (skipn (start_index s) (ran_IDs K)) in
    (* IDs[w2] = ran_IDs[i:i+n2]: lengths must agree, or the slice has one element *)
    bind (if Nat.eqb (length ids) n2 then Ok ids else if Nat.eqb (length ids) 1 then Ok (repeat (hd 0%Z ids) n2) else Raise ValueError) (fun ids =>
    let S1 := puts (S_ s) (map (fun i => (i, true)) w2) in
    let I1 := puts (IDs s) (combine w2 ids) in
    Ok (mk (puts S1 (map (fun i => (i, false)) w3)) (puts I1 (map (fun i => (i, 0%Z)) w3))
           (n_conflict s + Z.of_nat n2 - Z.of_nat (length w3)) (start_index s + n2)))
  end.

(* ---------- get_neighbor_cols_and_rows, 761-787 ---------- *)
Definition dr (k : nat) : Z := nth k [-1; -1; -1; 0; 0; 1; 1; 1]%Z 0%Z.
Definition dc (k : nat) : Z := nth k [-1; 0; 1; -1; 1; -1; 0; 1]%Z 0%Z.
(* numpy's index: negative numbers count from the end *)
Definition index (z : Z) (n : nat) : out nat :=
  let z := (if z <? 0 then z + Z.of_nat n else z)%Z in
  if (z <? 0)%Z || (Z.of_nat n <=? z)%Z then Raise IndexError else Ok (Z.to_nat z).
Definition neighbor (K : conf) (i k : nat) : out nat :=
  bind (index (Z.of_nat (row K i) + dr k) (ny K)) (fun r => bind (index (Z.of_nat (col K i) + dc k) (nx K)) (fun c => Ok (r * nx K + c)%nat)).
Fixpoint mapM {A B} (f : A -> out B) (l : list A) : out (list B) :=
  match l with [] => Ok [] | x :: r => bind (f x) (fun y => bind (mapM f r) (fun ys => Ok (y :: ys))) end.
Definition dirs : list nat := seq 0 8.

(* ---------- spread_conflicts1, 818-932 (USE_LOOP is False) ---------- *)
(* the probabilities of one conflict cell, 867-870 *)
Definition pn (K : conf) (Un : list Q) : list Q :=
  if Qltb 0 (lmax Un) then map (fun u => c_spread K * u / lmax Un) Un else map (fun _ => 0) Un.
Definition spread_conflicts (K : conf) (U : list Q) (d : draws) (s : state) : out state :=
  let w1 := where_ (ncells K) (get false (S_ s)) in
  if Nat.eqb (length w1) 0 then Ok s else
  bind (mapM (fun i => mapM (neighbor K i) dirs) w1) (fun nb =>
  let p := map (fun js => pn K (map (get 0 U) js)) nb in
  if negb (forallb (forallb okp) p) then Raise ValueError else
  (* (target, ID) where the target has S = 0 and B = 1, in the order of the array *)
  let w2 := concat (map (fun t => let '(i, js) := t in
              map (fun q => (snd q, get 0%Z (IDs s) i))
                  (filter (fun q => negb (get false (S_ s) (snd q)) && B3 d i (fst q)) (combine dirs js))) (combine w1 nb)) in
  let S' := puts (S_ s) (map (fun q => (fst q, true)) w2) in
  Ok (mk S' (puts (IDs s) w2) (n_conflict s + Z.of_nat (count S') - Z.of_nat (length w1)) (start_index s))).

(* ---------- update, 298-308, and run_model, 977-982 ---------- *)
Definition update (K : conf) (U : list Q) (d : draws) (s : state) : out state :=
  bind (emerge K U d s) (fun s => if spread K then spread_conflicts K U d s else Ok s).
Fixpoint run (K : conf) (U : list Q) (ds : list draws) (s : state) : out state :=
  match ds with [] => Ok s | d :: r => bind (update K U d s) (run K U r) end.
(* finalize, 970-971 *)
Definition fraction (K : conf) (s : state) : Q := inject_Z (n_conflict s) / inject_Z (Z.of_nat ((nx K - 1) * (ny K - 1))).
