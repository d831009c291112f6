(** Model of the landscape equation tools: topoflow/utils/hamiltonian.py (class hamiltonian: gradients,
    slopes, divergence, curvatures, smoothing, masks; class profile: long profiles).

    Numbers are reals; NaN is [None].  Grids are functions of row and column.  [x ** y] is
    [Rpower x y], which is the power only for x > 0 (simplified).  Reading of files, histograms
    and plots are not modelled; fit_curvature_eqn names a function that does not exist (602), as does
    get_narrowest_histogram (865). *)

From Coq Require Import Reals String List Arith ZArith Bool.
From Verif Require Import Time_Model.
Import ListNotations.
Local Open Scope string_scope.
Local Open Scope R_scope.

Definition num := option R.
Definition grid := nat -> nat -> num.
Definition lift2 (f : R -> R -> R) (a b : num) : num :=
  match a, b with Some x, Some y => Some (f x y) | _, _ => None end.
Definition lift1 (f : R -> R) (a : num) : num := match a with Some x => Some (f x) | None => None end.

Record geom := { nx : nat; ny : nat; dx : R; dy : R }.

Section Grid.
Variable G : geom.

(** 308-321 *)
Definition d_dx_R (f : grid) : grid := fun i j =>
  let f_R := if Nat.eqb j (nx G - 1) then None else f i ((j + 1) mod nx G)%nat in
  lift2 (fun a b => (a - b) / dx G) f_R (f i j).
(** 325-333 *)
Definition d_dx_L (f : grid) : grid := fun i j =>
  let f_L := if Nat.eqb j 0 then None else f i ((j + nx G - 1) mod nx G)%nat in
  lift2 (fun a b => -1 * (a - b) / dx G) f_L (f i j).
(** 337-345 *)
Definition d_dy_T (f : grid) : grid := fun i j =>
  let f_T := if Nat.eqb i 0 then None else f ((i + ny G - 1) mod ny G)%nat j in
  lift2 (fun a b => (a - b) / dy G) f_T (f i j).
(** 349-357 *)
Definition d_dy_B (f : grid) : grid := fun i j =>
  let f_B := if Nat.eqb i (ny G - 1) then None else f ((i + 1) mod ny G)%nat j in
  lift2 (fun a b => -1 * (a - b) / dy G) f_B (f i j).

Inductive xside := SideR | SideL.
Inductive yside := SideT | SideB.
Definition ddx (X : xside) : grid -> grid := match X with SideR => d_dx_R | SideL => d_dx_L end.
Definition ddy (Y : yside) : grid -> grid := match Y with SideT => d_dy_T | SideB => d_dy_B end.

(** 374-377, 401-408; S_bad is NaN (165) *)
Definition slope (X : xside) (Y : yside) (dem : grid) : grid := fun i j =>
  match lift2 (fun p q => sqrt (p ^ 2 + q ^ 2)) (ddx X dem i j) (ddy Y dem i j) with
  | Some s => if Req_EM_T s 0 then None else Some s
  | None => None
  end.
(** 415-418 *)
Definition slope_power (gamma : R) (X : xside) (Y : yside) (dem : grid) : grid := fun i j =>
  lift1 (fun s => Rpower s (gamma - 1)) (slope X Y dem i j).
(** 424-434 *)
Definition div_arg1 (gamma : R) X Y (dem : grid) : grid := fun i j => lift2 Rmult (slope_power gamma X Y dem i j) (ddx X dem i j).
Definition div_arg2 (gamma : R) X Y (dem : grid) : grid := fun i j => lift2 Rmult (slope_power gamma X Y dem i j) (ddy Y dem i j).
(** 444-467 *)
Definition divergence (gamma : R) X Y (dem : grid) : grid := fun i j =>
  lift2 Rplus (ddx X (div_arg1 gamma X Y dem) i j) (ddy Y (div_arg2 gamma X Y dem) i j).

(** 520-522 *)
Definition z_xx (dem : grid) : grid := d_dx_R (d_dx_R dem).
Definition z_xy (dem : grid) : grid := d_dy_T (d_dx_R dem).
Definition z_yy (dem : grid) : grid := d_dy_T (d_dy_T dem).
(** 515-536: plan and profile curvature *)
Definition curvature (f : R -> R -> R -> R -> R -> R -> R) (dem : grid) : grid := fun i j =>
  match d_dx_R dem i j, d_dy_T dem i j, slope SideR SideT dem i j, z_xx dem i j, z_xy dem i j, z_yy dem i j with
  | Some zx, Some zy, Some s, Some xx, Some xy, Some yy => Some (f zx zy s xx xy yy)
  | _, _, _, _, _, _ => None
  end.
Definition kappa_c : grid -> grid :=
  curvature (fun zx zy s xx xy yy => (zy ^ 2 * xx - 2 * zx * zy * xy + zx ^ 2 * yy) * (-1 / s ^ 3)).
Definition kappa_p : grid -> grid :=
  curvature (fun zx zy s xx xy yy => (zx ^ 2 * xx + 2 * zx * zy * xy + zy ^ 2 * yy) * (-1 / s ^ 2)).

(** 612-664 get_mask: the cells, in the order of the flattened grids, with -1 before and after;
    [bad kc kp] is the test of 632-649, [None] where the name is unknown (wc is then not assigned) *)
Definition cells : list nat := seq 0 (nx G * ny G).
Definition at_cell (f : grid) (k : nat) : num := f (k / nx G)%nat (k mod nx G)%nat.
Definition get_mask (bad : option (R -> R -> bool)) (dem : grid) : res (list Z) :=
  match bad with
  | None => Err UnboundLocalError
  | Some bad =>
      let ind := filter (fun k => match at_cell (slope SideR SideT dem) k, at_cell (kappa_c dem) k, at_cell (kappa_p dem) k with
                                  | Some _, Some kc, Some kp => bad kc kp
                                  | _, _, _ => false
                                  end) cells in
      Ok ((-1)%Z :: map Z.of_nat ind ++ [(-1)%Z])%list
  end.
End Grid.

(** 632-649 *)
Definition below (x y : R) : bool := if Rlt_dec x y then true else false.
Definition mask_test (name : string) : option (R -> R -> bool) :=
  if String.eqb name "kc_kp_bad1" then
    Some (fun kc kp => (below kc (-3/10) || below 0 kc) || (below kp (-3/10) || below 0 kp))
  else if String.eqb name "kc_big_neg" then Some (fun kc kp => below kc (-3/10))
  else if String.eqb name "kp_big_neg" then Some (fun kc kp => below kp (-3/10))
  else if String.eqb name "kc_big_pos" then Some (fun kc kp => below (3/10) kc)
  else if String.eqb name "kp_big_pos" then Some (fun kc kp => below (3/10) kp)
  else if String.eqb name "kp_pos" then Some (fun kc kp => below 0 kp)
  else if String.eqb name "kc_neg" then Some (fun kc kp => below kc 0)
  else None.

(** ** Smoothing, 236-259; a DEM without NaN *)

(** 241-243 *)
Definition kernel : list (list R) :=
  map (map (fun k => IZR k / 256)) [[1; 4; 6; 4; 1]; [4; 16; 24; 16; 4]; [6; 24; 36; 24; 6]; [4; 16; 24; 16; 4]; [1; 4; 6; 4; 1]]%Z.
Definition rsum (l : list R) : R := fold_right Rplus 0 l.
(** one pass, 249-252: sps.convolve2d, mode 'full', the grid being 0 outside, without the two outer rows and
    columns on each side; cells have integer coordinates *)
Definition smooth_once (ncols nrows : Z) (z : Z -> Z -> R) : Z -> Z -> R := fun i j =>
  rsum (map (fun a => rsum (map (fun b =>
    let i' := (i + 2 - Z.of_nat a)%Z in let j' := (j + 2 - Z.of_nat b)%Z in
    nth b (nth a kernel []) 0 * (if ((0 <=? i') && (i' <? nrows) && (0 <=? j') && (j' <? ncols))%Z then z i' j' else 0))
    (seq 0 5))) (seq 0 5)).
Fixpoint smooth_dem (n_passes : nat) (ncols nrows : Z) (z : Z -> Z -> R) : Z -> Z -> R :=
  match n_passes with O => z | S n => smooth_dem n ncols nrows (smooth_once ncols nrows z) end.

(** ** The solution of the equation used as a test, 263-291 *)

(** np.linspace(a, b, n)[k] *)
Definition linspace (a b : R) (n k : nat) : R := a + INR k * ((b - a) / INR (n - 1)).
(** 268-290 *)
Definition radial_log (Rs a b : R) (x y : R) : R := -1 / Rs * ln (a + (x ^ 2 + y ^ 2) / b).
Definition radial_geom : geom := {| nx := 200; ny := 200; dx := (5 - -5) / 200; dy := (5 - -5) / 200 |}.
Definition radial_dem : grid := fun i j => Some (radial_log (35/10000) 0 1 (linspace (-5) 5 200 j) (linspace (-5) 5 200 i)).

(** ** Profiles *)

(** 1055-1082 get_peckham_profile *)
Definition peckham_z (x0 z0 S0 gamma Rs x : R) : R :=
  if Req_EM_T gamma (-1) then z0 - 1 / Rs * ln (1 + S0 * Rs * (x - x0))
  else let p := (gamma + 1) / gamma in
       let term1 := Rpower S0 (gamma + 1) in
       let term2 := Rpower (Rpower S0 gamma + Rs * (x - x0)) p in
       z0 + (term1 - term2) / (p * Rs).
Definition peckham_S (x0 S0 gamma Rs x : R) : R := Rpower (Rpower S0 gamma + Rs * (x - x0)) (1 / gamma).
Definition peckham_kp (x0 S0 gamma Rs x : R) : R :=
  let p2 := 1 / gamma in p2 * Rs * Rpower (Rpower S0 gamma + Rs * (x - x0)) (p2 - 1).
(** 1086-1091 get_whipple_profile *)
Definition whipple_z (x0 z0 c p x : R) : R := z0 - c / p * (Rpower x p - Rpower x0 p).
(** 1266-1285 *)
Definition kp_from_curvature_eqn (S kc gamma Rs : R) : R := S / gamma * (Rs / Rpower S gamma - kc).
Definition kc_from_curvature_eqn (S kp gamma Rs : R) : R := Rs / Rpower S gamma - kp * gamma / S.

(** np.roll(l, -1) *)
Definition roll_left {A} (l : list A) : list A := match l with [] => [] | a :: r => (r ++ [a])%list end.
(** l[-1] = v *)
Definition set_last {A} (l : list A) (v : A) : list A := match l with [] => [] | _ => (removelast l ++ [v])%list end.
(** division of two numbers; NaN or infinite where the divisor is 0 *)
Definition ndiv (a b : R) : num := if Req_EM_T b 0 then None else Some (a / b).
Definition map2 {A B C} (f : A -> B -> C) (l : list A) (m : list B) : list C := map (fun p => f (fst p) (snd p)) (combine l m).

(** the first index of the largest number *)
Definition first_max (l : list R) : nat :=
  let m := fold_right Rmax (nth 0 l 0) l in
  List.length ((fix go l := match l with [] => [] | a :: r => if Req_EM_T a m then [] else a :: go r end) l).

Record prof := { px : list R; pz : list R; pS : list R; p0x : R; p0z : R; p0S : R }.
(** 982-1022 of read_profile, on the columns read from the file [m]; x increasing (simplified: no division by 0) *)
Definition read_profile (head_clip tail_clip : nat) (clip_hilltop : bool) (x z : list R) : res prof :=
  let x := skipn head_clip x in let z := skipn head_clip z in
  let x := if Nat.eqb tail_clip 0 then x else firstn (List.length x - tail_clip) x in
  let z := if Nat.eqb tail_clip 0 then z else firstn (List.length z - tail_clip) z in
  let S := map2 Rdiv (map2 Rminus z (roll_left z)) (map2 Rminus (roll_left x) x) in
  match S with
  | [] => Err IndexError
  | _ =>
      let S := set_last S 0 in
      let w0 := if clip_hilltop then first_max S else O in
      let x := skipn w0 x in let z := skipn w0 z in let S := skipn w0 S in
      match x, z with
      | a :: b :: _, u :: v :: _ => Ok {| px := x; pz := z; pS := S; p0x := a; p0z := u; p0S := (u - v) / (b - a) |}
      | _, _ => Err IndexError
      end
  end.

(** x1 = np.roll(x2, -1); x1[-1] = x1[-2] *)
Definition next_values {A} (d : A) (l : list A) : list A := set_last (roll_left l) (nth (List.length l - 2) (roll_left l) d).
(** 1095-1106 *)
Definition get_slope_profile (x z : list R) : res (list num) :=
  if Nat.ltb (List.length x) 2 then Err IndexError
  else Ok (map2 (fun a b => ndiv a b) (map2 Rminus z (next_values 0 z)) (map2 Rminus (next_values 0 x) x)).
(** 1110-1122 *)
Definition get_kappa_p_profile (x : list R) (S : list num) : res (list num) :=
  if Nat.ltb (List.length x) 2 then Err IndexError
  else Ok (map2 (fun a b => match a with Some s => ndiv s b | None => None end)
                (map2 (lift2 Rminus) S (next_values None S)) (map2 Rminus x (next_values 0 x))).

(** 1033-1051 smooth_profile: the Gaussian window of ten points with standard deviation 1, and
    sps.convolve with mode 'same' (the profile is 0 outside) *)
Definition gauss (m : nat) : R := exp (- ((INR m - 9/2) ^ 2) / 2).
Definition smooth_profile_once (n : nat) (z : nat -> R) (k : nat) : R :=
  rsum (map (fun m => gauss m * (if (Nat.leb m (k + 4) && Nat.ltb (k + 4 - m) n)%bool then z (k + 4 - m)%nat else 0)) (seq 0 10)).
