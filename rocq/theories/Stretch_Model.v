(* Model of /repo/topoflow/utils/visualize.py 87-207 (grid stretches) and of the preparation of the grid in show_grid_as_image, 376-391.
   Grids are lists of their values; real arithmetic; a value that is not a finite number (NaN, -inf) is None. *)
From Coq Require Import Reals List Bool ZArith.
Import ListNotations.
Local Open Scope R_scope.

Definition gmin (g : list R) : R := fold_right Rmin (hd 0 g) g.
Definition gmax (g : list R) : R := fold_right Rmax (hd 0 g) g.
Definition rlt (x y : R) : bool := if Rlt_dec x y then true else false.
Definition rle (x y : R) : bool := if Rle_dec x y then true else false.
Definition req (x y : R) : bool := if Req_EM_T x y then true else false.

(* normalize_grid, 87-97 *)
Definition normalize_grid (g : list R) : list R :=
  let lo := gmin g in let hi := gmax g in
  if req lo hi then map (fun _ => 0) g else map (fun x => (x - lo) / (hi - lo)) g.

(* numpy's x ** p for p > 0 that is not an integer: NaN below 0 *)
Definition npow (x p : R) : option R := if rlt x 0 then None else if req x 0 then Some 0 else Some (Rpower x p).
Definition nbind (x : option R) (f : R -> option R) : option R := match x with Some y => f y | None => None end.

(* np.histogram( grid, bins=256 ), 104, as documented: 256 equal bins between min and max (min - 0.5, max + 0.5 when they are equal), the last one closed *)
Definition hist_lo (g : list R) : R := if req (gmin g) (gmax g) then gmin g - 1/2 else gmin g.
Definition hist_hi (g : list R) : R := if req (gmin g) (gmax g) then gmax g + 1/2 else gmax g.
Definition bin_edge (g : list R) (k : nat) : R := hist_lo g + INR k * ((hist_hi g - hist_lo g) / 256).
Definition in_bin (g : list R) (k : nat) (x : R) : bool := rle (bin_edge g k) x && (rlt x (bin_edge g (S k)) || Nat.eqb k 255).
Definition hist (g : list R) (k : nat) : nat := length (filter (in_bin g k) g).
Fixpoint cs (g : list R) (k : nat) : nat := match k with O => hist g 0 | S j => (cs g j + hist g k)%nat end.
(* (cs - cs.min()) / (cs.max() - cs.min()), 109; cs never decreases, so its least item is the first and its largest the last *)
Definition ncs (g : list R) (k : nat) : R := (INR (cs g k) - INR (cs g 0)) / (INR (cs g 255) - INR (cs g 0)).
(* np.uint8 cuts the fraction off, 117 *)
Definition flat2 (g : list R) (x : R) : nat := Z.to_nat (Int_part (255 * (x - gmin g) / (gmax g - gmin g))).
Definition histogram_equalize (g : list R) : list R := if req (gmax g) (gmin g) then map (fun _ => ncs g 0) g else map (fun x => ncs g (flat2 g x)) g.

Definition power_stretch0 (g : list R) (p : R) : list (option R) := map (fun x => npow x p) (normalize_grid g).
Definition power_stretch1 (g : list R) (p : R) : list (option R) := map (fun x => npow x p) g.
Definition power_stretch2 (g : list R) (a b : R) : list (option R) := map (fun x => nbind (npow (1 + a * x) (- b)) (fun y => Some (1 - y))) (normalize_grid g).
Definition power_stretch3 (g : list R) (a b : R) : list (option R) :=
  map (fun x => nbind (npow x a) (fun y => nbind (npow (1 - y) b) (fun z => npow (1 - z) (1 / b)))) (normalize_grid g).
(* log of a number that is not positive is NaN or -inf *)
Definition log_stretch (g : list R) (a : R) : list (option R) := map (fun x => if rle (a * x + 1) 0 then None else Some (ln (a * x + 1))) g.
Definition linear_stretch (g : list R) : list (option R) := map Some (normalize_grid g).
Definition tanh_stretch (g : list R) (a : R) : list (option R) := map (fun x => Some (tanh (a * x) / tanh a)) (normalize_grid g).

Inductive stretch := hist_equal | linear | log | power | power1 | power2 | power3 | tanh_ | unknown.
(* stretch_grid, 181-207 *)
Definition stretch_grid (g : list R) (s : stretch) (a b p : R) : list (option R) :=
  match s with
  | hist_equal => map Some (histogram_equalize g)
  | linear => linear_stretch g
  | log => log_stretch g a
  | power => power_stretch0 g p
  | power1 => power_stretch1 g p
  | power2 => power_stretch2 g a b
  | power3 => power_stretch3 g a b
  | tanh_ => tanh_stretch g a
  | unknown => map Some g
  end.
(* show_grid_as_image, 376-391, for a float grid: (the caller's grid afterwards, the picture), None when min() fails on no data *)
Definition prepare (g : list R) (nodata : R) (s : stretch) (a b p : R) : option (list R * list (option R)) :=
  let good := filter (fun x => rlt nodata x) g in
  match good with
  | [] => None
  | _ => let emin := gmin good in
         let g1 := map (fun x => if rle x nodata then emin else x) g in
         Some (g1, map (fun xy => if rle (fst xy) nodata then None else snd xy) (combine g (stretch_grid g1 s a b p)))
  end.
