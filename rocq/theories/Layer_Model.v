(* Model of the soil layers of the infiltration components: building of layered variables and depths, water stored in
   the soil, wetting front and checks of input grids (/repo/topoflow/components/infil_base.py 385-500, 827-904;
   infil_richards_1D.py 530-660, 2346-2446, 2486-2590).  Numbers are rational, grids are lists of rows, cubes lists of levels. *)
From Coq Require Import QArith Qminmax List Bool Arith.
From Verif Require Import Base.
Import ListNotations.
Local Open Scope Q_scope.

Inductive err := ValueError | AttributeError | TypeError.
Inductive out (A : Type) := Ok (a : A) | Raise (e : err).
Arguments Ok {A}. Arguments Raise {A}.
Definition bind {A B} (x : out A) (f : A -> out B) : out B := match x with Ok a => f a | Raise e => Raise e end.

Notation grid := (list (list Q)).
(* a parameter of one layer: a number or a grid *)
Inductive val := Sc (x : Q) | Gr (g : grid).
Definition cells (g : grid) : nat := list_sum (map (@length Q) g).
Definition vsize (v : val) : nat := match v with Sc _ => 1 | Gr g => cells g end.
(* self.dz: a number when all spacings are equal, otherwise a vector; self.da: a number or a grid (pixels.py 185-207) *)
Inductive dzv := DzS (x : Q) | DzV (l : list Q).
Inductive area := DaS (x : Q) | DaG (g : grid).
(* a variable of the profile: 1D (the same for all cells) or 3D *)
Inductive profile := P1 (l : list Q) | P3 (l : list grid).

(* ---------- infil_base.py build_layer_z_vector, 385-431 ---------- *)
Fixpoint dz_vector (dz_val : list Q) (nz_val : list nat) : list Q :=
  match dz_val, nz_val with d :: ds, n :: ns => repeat d n ++ dz_vector ds ns | _, _ => [] end.
Definition lmin (l : list Q) : Q := fold_right Qmin (hd 0 l) l.
Definition lmax (l : list Q) : Q := fold_right Qmax (hd 0 l) l.
Definition layer_dz (dz_val : list Q) (nz_val : list nat) : dzv :=
  if Qeq_bool (lmin dz_val) (lmax dz_val) then DzS (hd 0 dz_val) else DzV (dz_vector dz_val nz_val).
(* np.cumsum *)
Fixpoint cumsum_from (s : Q) (l : list Q) : list Q := match l with [] => [] | x :: r => (s + x) :: cumsum_from (s + x) r end.
Definition layer_z (dz_val : list Q) (nz_val : list nat) : list Q := cumsum_from 0 (dz_vector dz_val nz_val).
Fixpoint ncumsum_from (s : nat) (l : list nat) : list nat := match l with [] => [] | x :: r => (s + x)%nat :: ncumsum_from (s + x) r end.

(* ---------- infil_base.py build_layered_var, 435-500 ---------- *)
Section Layered.
Variables ny nx : nat.
Variable nz_val : list nat.
Definition nz : nat := list_sum nz_val.
Definition starts : list nat := 0%nat :: ncumsum_from 0 nz_val.
(* var[a:b] = x *)
Definition put {A} (var : list A) (a b : nat) (x : A) : list A :=
  firstn a var ++ repeat x (min b (length var) - a) ++ skipn (Nat.max a b) var.
Definition scalar_of (v : val) : Q := match v with Sc x => x | Gr g => hd 0 (concat g) end.
Definition grid_of (v : val) : grid := match v with Sc x => repeat (repeat x nx) ny | Gr g => g end.
Definition all_scalars (vals : list val) : bool := forallb (fun v => (vsize v <=? 1)%nat) vals.
Definition fill {A} (zero : A) (conv : val -> A) (vals : list val) : list A :=
  fold_left (fun var j => put var (get 0%nat starts j) (get 0%nat starts (S j)) (conv (get (Sc 0) vals j)))
            (seq 0 (length nz_val)) (repeat zero nz).
Definition build_layered_var (vals : list val) : profile :=
  if all_scalars vals then P1 (fill 0 scalar_of vals) else P3 (fill (repeat (repeat 0 nx) ny) grid_of vals).
End Layered.

(* ---------- infil_richards_1D.py check_input_types, 530-557, and the start of q, 630-680 ---------- *)
(* np.ndim(...) == 0 of the first layer *)
Definition is_scalar (v : val) : bool := match v with Sc _ => true | Gr _ => false end.
(* ALL_SCALARS from the inputs P, SM, ET (flag) and the parameters of layer 0 *)
Definition check_input_types (met_scalar : bool) (params : list (list val)) : bool :=
  met_scalar && forallb (fun vals => is_scalar (hd (Sc 0) vals)) params.
(* numpy broadcasting of two 1D arrays *)
Definition bc (f : Q -> Q -> Q) (a b : list Q) : out (list Q) :=
  if Nat.eqb (length a) (length b) then Ok (map (fun p => f (fst p) (snd p)) (combine a b))
  else match a, b with
       | [x], _ => Ok (map (f x) b)
       | _, [y] => Ok (map (fun x => f x y) a)
       | _, _ => Raise ValueError
       end.
Fixpoint mapM {A B} (f : A -> out B) (l : list A) : out (list B) :=
  match l with [] => Ok [] | x :: r => bind (f x) (fun y => bind (mapM f r) (fun ys => Ok (y :: ys))) end.
(* q = zeros(nz) + qi, 640, or q[:,:,:] = qi[:,None,None] / q += qi, 674-680 *)
Definition initial_q (ny nx nz : nat) (ALL_SCALARS : bool) (qi : profile) : out profile :=
  if ALL_SCALARS then
    match qi with
    | P1 l => Ok (P1 l)
    | P3 c => bind (mapM (mapM (bc Qplus (repeat 0 nz))) c) (fun c => Ok (P3 c))
    end
  else match qi with
       | P1 l => Ok (P3 (map (fun x => repeat (repeat x nx) ny) l))
       | P3 c => Ok (P3 c)
       end.

(* ---------- infil_base.py update_total_storage, 827-885 ---------- *)
Definition gsum (g : grid) : Q := total (map total g).
(* Green-Ampt, Smith-Parlange and Beven have neither self.dz nor self.q: build_layer_z_vector returns early (391-397) *)
Definition total_storage (RICHARDS SINGLE_PROFILE : bool) (n_pixels nz : nat) (da : area) (dz : dzv) (q : profile) : out Q :=
  if negb RICHARDS then Raise AttributeError else
  if SINGLE_PROFILE then
    match q with
    | P1 q =>
        match da with
        | DaS a =>
            let Vc := match dz with DzS d => [a * d] | DzV l => map (fun d => a * d) l end in
            bind (bc Qmult q Vc) (fun Vw => Ok (total Vw * (Z.of_nat n_pixels # 1)))
        | DaG g =>
            bind (match dz with DzS d => Ok (map (map (fun a => a * d)) g) | DzV l => mapM (fun row => bc Qmult row l) g end) (fun Vc =>
            bind (mapM (bc Qmult q) Vc) (fun Vw => Ok (gsum Vw * (Z.of_nat n_pixels # 1))))
        end
    | P3 c => Raise ValueError     (* not followed: q is 3D although SINGLE_PROFILE is set *)
    end
  else
    match q with
    | P3 c =>
        match da with
        | DaS a =>
            match dz with
            | DzS d => Ok (total (map (fun g => gsum (map (map (fun x => x * (a * d))) g)) c))
            | DzV l => Ok (total (map (fun p => gsum (map (map (fun x => x * (a * snd p))) (fst p))) (combine c l)))
            end
        | DaG g =>
            let dzl := match dz with DzS d => repeat d nz | DzV l => l end in
            Ok (total (map (fun p => gsum (map (fun r => map (fun t => fst t * (snd t * snd p)) (combine (fst r) (snd r))) (combine (fst p) g)))
                      (combine c dzl)))
        end
    | P1 q => Raise ValueError     (* cannot happen: q is a cube when SINGLE_PROFILE is not set *)
    end.

(* ---------- infil_richards_1D.py update_Zw, 2346-2443 ---------- *)
(* diff: the last one is set to 0 *)
Definition zdiff (q : list Q) (k : nat) : Q := if Nat.eqb (S k) (length q) then 0 else get 0 q k - get 0 q (S k).
Definition nmul (k : nat) (x : Q) : Q := (Z.of_nat k # 1) * x.
(* SINGLE_PROFILE *)
Definition Zw_index (q : list Q) : nat :=
  let idx := filter (fun k => Qltb 0 (zdiff q k)) (seq 0 (length q)) in
  match idx with
  | [] => 0
  | _ => let imax := last idx 0%nat in
         let tmax := lmax (map (get 0 q) idx) in
         let tmin := lmin (map (get 0 q) idx) in
         let tmid := tmin + (2 # 10) * (tmax - tmin) in
         last (filter (fun k => Qltb tmid (get 0 q k)) (seq 0 (imax + 1))) 0%nat
  end.
Definition Zw_single (q : list Q) (dz : Q) : Q := nmul (Zw_index q) dz.
(* one cell of the 3D case; dz[j] or the number dz *)
Definition dz_at (dz : dzv) (j : nat) : Q := match dz with DzS d => d | DzV l => get 0 l j end.
Definition Zw_cell (q : list Q) (dz : dzv) : Q :=
  fold_left (fun zw j => if Qltb 0 (zdiff q j) && Qle_bool (zdiff q (S j)) 0 then nmul j (dz_at dz j) else zw)
            (seq 0 (length q - 1)) 0.

(* ---------- infil_richards_1D.py read_input_files, 2497-2570 ---------- *)
(* what read_next returns: nothing ('Scalar' or the end of the file), a number ('Time_Series') or a grid *)
Inductive item := Nothing | Number (x : Q) | Grid (g : grid).
(* w1 = (Ks <= 0); Ks[w1] = Ks[~w1].min(): a number does not support item assignment; the minimum of nothing fails *)
Definition read_Ks (i : item) (old : val) : out val :=
  match i with
  | Nothing => Ok old
  | Number _ => Raise TypeError
  | Grid g => match filter (fun x => Qltb 0 x) (concat g) with
              | [] => Raise ValueError
              | l => Ok (Gr (map (map (fun x => if Qle_bool x 0 then lmin l else x)) g))
              end
  end.
Definition read_pB (i : item) (old : val) : out val :=
  match i with
  | Nothing => Ok old | Number _ => Raise TypeError
  | Grid g => Ok (Gr (map (map (fun x => if Qltb x (-(3)) then -(3) else x)) g))
  end.
Definition read_lam (i : item) (old : val) : out val :=
  match i with
  | Nothing => Ok old | Number _ => Raise TypeError
  | Grid g => Ok (Gr (map (map (fun x => if Qltb x (1 # 10) then 1 # 10 else x)) g))
  end.
Definition vmap (f : Q -> Q) (v : val) : val := match v with Sc x => Sc (f x) | Gr g => Gr (map (map f) g) end.
(* set_computed_input_vars, 482: eta = 2 + 3 lambda *)
Definition eta_of (lam : val) : val := vmap (fun x => 2 + 3 * x) lam.

(* the lists are read again at every update (957-958), the layered arrays are built once (591-607) *)
Record soil := mkSoil { Ks_list : list val; Ks_used : profile }.
Fixpoint read_all (is : list item) (olds : list val) : out (list val) :=
  match is, olds with
  | i :: is, o :: olds => bind (read_Ks i o) (fun v => bind (read_all is olds) (fun vs => Ok (v :: vs)))
  | _, _ => Ok olds
  end.
Definition soil_init (ny nx : nat) (nz_val : list nat) (cfg : list val) (first : list item) : out soil :=
  bind (read_all first cfg) (fun vs => Ok (mkSoil vs (build_layered_var ny nx nz_val vs))).
Definition soil_update (s : soil) (is : list item) : out soil := bind (read_all is (Ks_list s)) (fun vs => Ok (mkSoil vs (Ks_used s))).
Fixpoint soil_run (s : soil) (steps : list (list item)) : out soil :=
  match steps with [] => Ok s | i :: r => bind (soil_update s i) (fun s => soil_run s r) end.
