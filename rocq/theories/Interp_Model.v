(* Model of time_interp_data and of time_interpolator.get_values (method 'Linear'),
   with the sharing of arrays between provider and interpolator made explicit.
   Source: topoflow/framework/time_interpolation.py. *)
From Coq Require Import ZArith QArith Qabs Qminmax List Bool.
From Verif Require Import Base.
Import ListNotations.
Local Open Scope Q_scope.

(* A numpy array object: 0D (a one-element list, slicing with [:] raises) or a grid in C order. *)
Record arr := { a_0d : bool; a_vals : list Q }.
Definition arr0 : arr := {| a_0d := true; a_vals := [] |}.

(* The objects in memory; a reference is a position. *)
Definition heap := list arr.
Definition alloc (h : heap) (a : arr) : heap * nat := (h ++ [a], length h).
Definition load (h : heap) (l : nat) : arr := get arr0 h l.

(* time_interp_data: v1, v2 references; a is None for the scalar 0; b a reference *)
Record tid := { v1 : nat; v2 : nat; t1 : Q; t2 : Q; ca : option (list Q); cb : nat }.

(* __init__, lines 36-52: v2 IS the provider's array, v1 a copy of it.  (a and b do not exist yet;
   initialize() always calls update() before any get_values, lines 254-289.) *)
Definition tid_init (h : heap) (p : nat) (t : Q) : heap * tid :=
  let '(h1, l) := alloc h (load h p) in
  (h1, {| v1 := l; v2 := p; t1 := t; t2 := t; ca := None; cb := p |}).

(* numpy broadcasting to a grid of n cells: 0D and one-cell arrays are repeated, other sizes must
   agree (two-dimensional shapes are compared by size only) *)
Definition spread (n : nat) (a : arr) : option (list Q) :=
  if a_0d a || (length (a_vals a) =? 1)%nat then Some (repeat (get 0 (a_vals a) 0) n)
  else if (length (a_vals a) =? n)%nat then Some (a_vals a) else None.

(* lines 82-85 and 98-101:  try: x[:] = y.copy()  except: x = y.copy() *)
Definition overwrite (h : heap) (x y : nat) : heap * nat :=
  let ax := load h x in
  if a_0d ax then alloc h (load h y)
  else match spread (length (a_vals ax)) (load h y) with
       | Some vs => (set h x {| a_0d := false; a_vals := vs |}, x)
       | None => alloc h (load h y)
       end.

(* elementwise binary operation with broadcasting; ValueError: None *)
Definition bin (op : Q -> Q -> Q) (a b : arr) : option arr :=
  let n := if a_0d a || (length (a_vals a) =? 1)%nat then length (a_vals b) else length (a_vals a) in
  match spread n a, spread n b with
  | Some x, Some y => Some {| a_0d := a_0d a && a_0d b; a_vals := tab n (fun i => op (get 0 x i) (get 0 y i)) |}
  | _, _ => None
  end.

(* dv.min() != 0 for dv = |v2 - v1| *)
Definition min_nonzero (l : list Q) : bool := forallb (fun x => negb (Qeq_bool x 0)) l.

(* update(v2, t2), lines 63-133; p is the provider's current array.  An empty array has no
   minimum and raises ValueError: None *)
Definition tid_update (h : heap) (d : tid) (p : nat) (t : Q) : option (heap * tid) :=
  let '(h1, nv1) := overwrite h (v1 d) (v2 d) in
  let '(h2, nv2) := overwrite h1 (v2 d) p in
  let told := t2 d in
  match bin (fun x y => Qabs (x - y)) (load h2 p) (load h2 nv1) with
  | None => None
  | Some dv =>
      if (length (a_vals dv) =? 0)%nat then None
      else if min_nonzero (a_vals dv) && negb (Qeq_bool t told) then
        match bin (fun x y => (x - y) / (t - told)) (load h2 p) (load h2 nv1) with
        | None => None
        | Some a =>
            match bin (fun x y => x - y * t) (load h2 p) a with
            | None => None
            | Some b =>
                let '(h3, lb) := alloc h2 b in
                Some (h3, {| v1 := nv1; v2 := nv2; t1 := told; t2 := t; ca := Some (a_vals a); cb := lb |})
            end
        end
      else Some (h2, {| v1 := nv1; v2 := nv2; t1 := told; t2 := t; ca := None; cb := p |})
  end.

(* get_values, line 670: value = a*time + b (a new array) *)
Definition get_values (h : heap) (d : tid) (time : Q) : list Q :=
  let b := a_vals (load h (cb d)) in
  match ca d with
  | None => map (fun x => 0 * time + x) b
  | Some a => tab (length b) (fun i => get 0 a i * time + get 0 b i)
  end.

(* How a provider changes its variable in one of its updates: writing into the same array object,
   or binding the attribute to a new array. *)
Inductive style := InPlace | Rebind.

Definition provider_set (h : heap) (p : nat) (s : style) (vs : list Q) : heap * nat :=
  let a := {| a_0d := a_0d (load h p); a_vals := vs |} in
  match s with
  | InPlace => (set h p a, p)
  | Rebind => alloc h a
  end.

(* state: memory, the provider's reference, the interpolator's data *)
Definition sys := (heap * nat * tid)%type.

(* lines 254-257: registration of a variable with value vs at time t; zd: 0D or grid *)
Definition sys_init (zd : bool) (vs : list Q) (t : Q) : sys :=
  let '(h, d) := tid_init [ {| a_0d := zd; a_vals := vs |} ] 0 t in (h, 0%nat, d).

(* one provider update followed by time_interp_data.update (lines 265-289, 540-566) *)
Definition sys_step (s : sys) (st : style) (vs : list Q) (t : Q) : option sys :=
  let '(h, p, d) := s in
  let '(h1, p1) := provider_set h p st vs in
  match tid_update h1 d p1 t with
  | Some (h2, d2) => Some (h2, p1, d2)
  | None => None
  end.

Fixpoint sys_run (s : sys) (hist : list (style * list Q * Q)) : option sys :=
  match hist with
  | [] => Some s
  | (st, vs, t) :: l =>
      match sys_step s st vs t with Some s' => sys_run s' l | None => None end
  end.

Definition sys_values (s : sys) (time : Q) : list Q := let '(h, _, d) := s in get_values h d time.
Definition sys_provider (s : sys) : list Q := let '(h, p, _) := s in a_vals (load h p).
