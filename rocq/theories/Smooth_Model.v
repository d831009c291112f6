(* Model of the DEM profile smoother (/repo/topoflow/components/smooth_DEM.py): elevations rebuilt upstream from a slope-area
   law, and the functions that fit the law to a channel profile.
   Elevations and flow lengths are rational numbers, grids are functions of the cell number; the flow grids that d8.update
   computes at a step are inputs.  The law and its fit are over the reals.  float32 is not modelled.
   The names where and zeros (568, 571, 661, 664, 676, 694, 988) are not defined in the module, which stops update() with
   NameError, and d8.update takes no argument SILENT (525); the model goes on with np.where and np.zeros.
   scipy.optimize.fmin (1137) is not modelled. *)
From Coq Require Import Reals ZArith QArith List Bool Arith.
From Verif Require Import Base.
Import ListNotations.
Local Open Scope Q_scope.

(* set_constants, 249-251 *)
Definition nodata : Q := -9999.
Definition known (z : Q) : bool := negb (Qeq_bool z nodata).
(* n cells; flow codes and parent_ID_grid of d8, S of update_slopes, ds of d8 *)
Record grids := mkG { n : nat; code : nat -> Z; pid : nat -> nat; slope : nat -> Q; ds : nat -> Q; z0 : nat -> Q }.
(* cells whose parent has flow code 0, 636-638 *)
Definition start (G : grids) (i : nat) : bool := Z.eqb (code G (pid G i)) 0.

(* ---------- update_DEM, 586-773 ---------- *)
Record state := mk { DEM : nat -> Q; dist : nat -> Q }.
(* 661-665 *)
Definition init (G : grids) : state := mk (fun i => if start G i then z0 G i else nodata) (fun i => if start G i then 0 else nodata).
(* 676: the cells without elevation *)
Definition IDs (G : grids) (s : state) : list nat := filter (fun i => negb (known (DEM s i))) (seq 0 (n G)).
(* 686-704: those whose parent has one *)
Definition ready (G : grids) (s : state) : list nat := filter (fun i => known (DEM s (pid G i))) (IDs G s).
Definition mem (i : nat) (l : list nat) : bool := existsb (Nat.eqb i) l.
(* 752-760 *)
Definition pass (G : grids) (s : state) : state := let r := ready G s in
  mk (fun i => if mem i r then DEM s (pid G i) + slope G i * ds G i else DEM s i) (fun i => if mem i r then dist s (pid G i) + ds G i else dist s i).
(* the loop 673-767 with its number of passes; None: not finished within the fuel *)
Fixpoint sweep (fuel : nat) (G : grids) (s : state) (reps : nat) : option (state * nat) :=
  match fuel with
  | 0%nat => None
  | S fuel =>
      let w := IDs G s in let r := ready G s in let reps := S reps in
      if Nat.eqb (length w) 0 then Some (s, reps)
      else if Nat.eqb (length r) 0 then Some (s, reps)
      else let s := pass G s in if Nat.eqb (length r) (length w) then Some (s, reps) else sweep fuel G s reps
  end.
(* 650-654: without start cells the old DEM stays *)
Inductive result := Unchanged | Swept (r : option (state * nat)).
Definition update_DEM (fuel : nat) (G : grids) : result :=
  if Nat.eqb (length (filter (start G) (seq 0 (n G)))) 0 then Unchanged else Swept (sweep fuel G (init G) 0).

(* ---------- read_profile_data, 887-917 (dist in km, from the source down; reversed: from the outlet up) ---------- *)
(* np.diff and the last value; IndexError for fewer than three points *)
Definition diff (l : list Q) : list Q := map (fun k => nth (S k) l 0 - nth k l 0) (seq 0 (length l - 1)).
Definition ds_profile (d : list Q) : option (list Q) :=
  let diffs := diff d in
  match nth_error diffs (length diffs - 2), length diffs with
  | Some x, S (S _) => Some (rev (map (fun v => v * 1000) (diffs ++ [x])))
  | _, _ => None
  end.

(* ---------- update_slopes 540-573 and find_best_fit_c_and_p 921-1106, over the reals ---------- *)
Section Fit.
Local Open Scope R_scope.
(* A ** p of a positive area; other areas have slope 0 *)
Definition slope_law (c p A : R) : R := if Rlt_dec 0 A then c * Rpower A p else 0.
Fixpoint rsum (m : nat) (f : nat -> R) : R := match m with 0%nat => 0 | S m => rsum m f + f m end.
(* a profile of nz points from the outlet up: elevations, areas and lengths *)
Record profile := mkP { nz : nat; z : nat -> R; A : nat -> R; dl : nat -> R }.
(* weights = A is the same array, so areas of 0 become 1 in A itself, 955-991; every function below sees the changed areas *)
Definition prepare (P : profile) : profile := mkP (nz P) (z P) (fun k => if Req_EM_T (A P k) 0 then 1 else A P k) (dl P).
(* initial guess, 1006-1007 *)
Definition c_guess (P : profile) : R := (z P (nz P - 1) - z P 0) / rsum (nz P) (fun j => dl P j * Rpower (A P j) (- (1 / 2))).
(* fit_function, 1022-1025: dz shifted by one, then np.cumsum *)
Definition fit (P : profile) (c p : R) (k : nat) : R := z P 0 + rsum k (fun j => c * (dl P j * Rpower (A P j) p)).
(* L2_error, 1030-1043, weighted by area *)
Definition L2_error (P : profile) (c p : R) : R := sqrt (rsum (nz P) (fun k => A P k * (z P k - fit P c p k) ^ 2) / INR (nz P)).
(* Fk_function and Fkd_function, 1052-1065 *)
Definition Fk (P : profile) (p : R) (k : nat) : R := rsum k (fun j => Rpower (A P (S j)) p * dl P (S j)).
Definition Fkd (P : profile) (p : R) (k : nat) : R := rsum k (fun j => Rpower (A P (S j)) p * ln (A P (S j)) * dl P (S j)).
(* c1_function and c2_function, 1070-1093 *)
Definition c1 (P : profile) (p : R) : R := rsum (nz P) (fun k => (z P k - z P 0) * Fkd P p k) / rsum (nz P) (fun k => Fk P p k * Fkd P p k).
Definition c2 (P : profile) (p : R) : R := rsum (nz P) (fun k => (z P k - z P 0) * Fk P p k) / rsum (nz P) (fun k => Fk P p k ^ 2).
End Fit.
