(* Model of /repo/topoflow/components/gc2d.py (motion, snowfall and melt of glacier ice) and of the update of the ice
   component /repo/topoflow/components/ice_base.py that calls it.  Line numbers are those of gc2d.py unless ice_base.py
   is named.  A grid of ny rows and nx columns is a function of row and column; the grids with a halo (x_ext in the code)
   have rows 0 .. ny+1 and columns 0 .. nx+1.  Numbers are the reals of the standard library: rounding, overflow and NaN
   are not modelled (a quotient by zero stands only where the code does not use it).  Not modelled: temperature-dependent
   flow (THERMAL_TOGGLE is 0, 283), avalanches and calving (never called), compression (COMPRESS_TOGGLE is 0, 274),
   reading of MatLab files, output. *)
From Coq Require Import Reals Arith Bool.
From Verif Require Import Wave_Spec.
Local Open Scope R_scope.

Definition grid := nat -> nat -> R.

(* Parameters, 169-191, as they are when gc2d.py is imported.  The defaults of the arguments of set_bc,
   basal_shear_stress, iceflow, ice_sliding and mass_conservation are these values: Python evaluates defaults once. *)
Definition g : R := 981/100.
Definition rhoI : R := 917.
Definition rhoW : R := 1000.
Definition sec_per_year : R := 3600 * 24 * 365.
Definition MinGlacThick : R := 1.
Definition glensA : R := (68/10) / 10^15 * (315 * 10^5) / 10^9.
Definition UsChar : R := 10.
Definition taubChar : R := 100000.

(* BoundaryCond, 155-162; SURF_ELEV_BOUND is left out (395: Hbound is not defined, NameError) *)
Inductive bound := IceFree | ZeroFlux | ConstFlux | SurfSlope.
Record bounds := mkBounds { West : bound; East : bound; South : bound; North : bound }.
(* 295-298: the values bound at import *)
Definition default_bounds : bounds := mkBounds IceFree IceFree IceFree IceFree.

Section Grid.
Variables ny nx : nat.
Variables dx dy : R.

(* add_halo, 359-364: the edge cells are repeated *)
Definition inner (m k : nat) : nat := (Nat.min (Nat.max k 1) m - 1)%nat.
Definition add_halo (x : grid) : grid := fun r c => x (inner ny r) (inner nx c).

(* set_bc, 384-445: one side after the other, on (H_ext, Zi_ext) *)
Definition set_where (p : nat -> nat -> bool) (v x : grid) : grid := fun r c => if p r c then v r c else x r c.
Definition side (b : bound) (here : nat -> nat -> bool) (in1 in2 : grid -> grid) (Zb_ext : grid) (s : grid * grid) : grid * grid :=
  let '(H, Zi) := s in
  match b with
  | ZeroFlux | ConstFlux => (H, Zi)
  | IceFree => (set_where here (fun _ _ => 0) H, Zi)
  | SurfSlope =>
      let Zi := set_where here (fun r c => 2 * in1 Zi r c - in2 Zi r c) Zi in
      (set_where here (fun r c => Rmax (Zi r c - Zb_ext r c) 0) H, Zi)
  end.
Definition set_bc (B : bounds) (H Zb Zi : grid) : grid * grid :=
  let Zb_ext := add_halo Zb in
  let s := (add_halo H, add_halo Zi) in
  let s := side (West B) (fun _ c => Nat.eqb c 0) (fun x r _ => x r 1%nat) (fun x r _ => x r 2%nat) Zb_ext s in
  let s := side (East B) (fun _ c => Nat.eqb c (nx + 1)) (fun x r _ => x r nx) (fun x r _ => x r (nx - 1)%nat) Zb_ext s in
  let s := side (South B) (fun r _ => Nat.eqb r 0) (fun x _ c => x 1%nat c) (fun x _ c => x 2%nat c) Zb_ext s in
  let s := side (North B) (fun r _ => Nat.eqb r (ny + 1)) (fun x _ c => x ny c) (fun x _ c => x (ny - 1)%nat c) Zb_ext s in
  let H_ext := fst s in
  (H_ext, fun r c => Zb_ext r c + H_ext r c).                                                            (* 445 *)

(* basal_shear_stress, 463-503.  Faces between the cells (r,c) and (r,c+1) of the extended grid: index (r,c) of the x
   grids; between (r,c) and (r+1,c): index (r,c) of the y grids.  The code's grids taubxX, HX... without _ext start at
   row 1 (x) and column 1 (y); here all keep the extended indices. *)
Section Flow.
Variables H_ext Zi_ext : grid.
Definition dZidx : grid := fun r c => (Zi_ext r (c + 1)%nat - Zi_ext r c) / dx.
Definition dZidy : grid := fun r c => (Zi_ext (r + 1)%nat c - Zi_ext r c) / dy.
Definition HX : grid := fun r c => (H_ext r (c + 1)%nat + H_ext r c) / 2.
Definition HY : grid := fun r c => (H_ext (r + 1)%nat c + H_ext r c) / 2.
Definition taubxX : grid := fun r c => - rhoI * g * HX r c * dZidx r c.
Definition taubyY : grid := fun r c => - rhoI * g * HY r c * dZidy r c.
(* 487-491: the mean of four faces; taubxY belongs to the y face (r,c), taubyX to the x face (r,c) *)
Definition taubxY : grid := fun r c => (taubxX r (c - 1)%nat + taubxX r c + taubxX (r + 1)%nat (c - 1)%nat + taubxX (r + 1)%nat c) / 4.
Definition taubyX : grid := fun r c => (taubyY (r - 1)%nat c + taubyY (r - 1)%nat (c + 1)%nat + taubyY r c + taubyY r (c + 1)%nat) / 4.
Definition taubX : grid := fun r c => if Rlt_dec 0 (HX r c) then sqrt (taubxX r c ^ 2 + taubyX r c ^ 2) else 0.
Definition taubY : grid := fun r c => if Rlt_dec 0 (HY r c) then sqrt (taubxY r c ^ 2 + taubyY r c ^ 2) else 0.
Definition tiny : R := 1 / 10^5.
Definition xcmpnt : grid := fun r c => if Rlt_dec (Rabs (taubX r c)) tiny then 0 else taubxX r c / taubX r c.
Definition ycmpnt : grid := fun r c => if Rlt_dec (Rabs (taubY r c)) tiny then 0 else taubyY r c / taubY r c.

(* iceflow, 550-551 *)
Definition deform (tau h cmp : R) : R := Rabs (4/10 * glensA * tau * tau * tau * h) * cmp.
(* ice_sliding, 570-573 *)
Definition slide (tau cmp : R) : R :=
  if Rlt_dec (Rabs tau) tiny then UsChar * exp (1 - taubChar) * cmp else UsChar * exp (1 - taubChar / tau) * cmp.
(* 1210-1228: the motions that are switched on, added *)
Definition UxX (FLOW SLIDE : bool) : grid := fun r c =>
  (if FLOW then deform (taubX r c) (HX r c) (xcmpnt r c) else 0) + (if SLIDE then slide (taubX r c) (xcmpnt r c) else 0).
Definition UyY (FLOW SLIDE : bool) : grid := fun r c =>
  (if FLOW then deform (taubY r c) (HY r c) (ycmpnt r c) else 0) + (if SLIDE then slide (taubY r c) (ycmpnt r c) else 0).

(* mass_conservation, 887-911 *)
Definition sign (x : R) : R := if Rlt_dec x 0 then -1 else if Rlt_dec 0 x then 1 else 0.
Definition CLASS : grid := fun r c => if Rle_dec MinGlacThick (H_ext r c) then 1 else 0.
Definition DCLASSx : grid := fun r c => (CLASS r (c + 1)%nat - CLASS r c) * sign (dZidx r c).
Definition DCLASSy : grid := fun r c => (CLASS (r + 1)%nat c - CLASS r c) * sign (dZidy r c).
(* 892-906; the default of BoundaryFlux is 0 *)
Definition qx0 (F S : bool) : grid := fun r c => (if Rlt_dec (Rabs (DCLASSx r c + 1)) tiny then 0 else UxX F S r c) * HX r c.
Definition qy0 (F S : bool) : grid := fun r c => (if Rlt_dec (Rabs (DCLASSy r c + 1)) tiny then 0 else UyY F S r c) * HY r c.
Definition is_const (b : bound) : bool := match b with ConstFlux => true | _ => false end.
Definition qxX (B : bounds) (F S : bool) : grid := fun r c =>
  if (is_const (West B) && Nat.eqb c 0) || (is_const (East B) && Nat.eqb c nx) then 0 else qx0 F S r c.
Definition qyY (B : bounds) (F S : bool) : grid := fun r c =>
  if (is_const (South B) && Nat.eqb r 0) || (is_const (North B) && Nat.eqb r ny) then 0 else qy0 F S r c.
End Flow.

(* 909-911: of the cell (r,c) of the grid without halo; qx starts at row 1 of the extended grid, qy at column 1 *)
Definition dHdt (qx qy : grid) : grid := fun r c =>
  - ((qx (r + 1)%nat (c + 1)%nat - qx (r + 1)%nat c) / dx) - (qy (r + 1)%nat (c + 1)%nat - qy r (c + 1)%nat) / dy.

(* mass_balance, 791-864.  [Broken]: ZERO_BALANCE, EXTERNAL_FUNC, ELA_TIME_SERIES, D18O_TIME_SERIES and BALANCE_FILE
   use names that are not defined (NameError); BAD_VAL returns -1, which the caller cannot unpack (TypeError). *)
Inductive balance := ConstantELA | ElaLowering | ElaLowering2 | Broken.
(* the settings that are read at run time *)
Record climate := mkClimate { mbt : balance; initELA : R; ELAStepSize : R; ELAStepInterval : R; tmin : R; gradBz : R; maxBz : R }.
Definition ela (C : climate) (t : R) : option R :=
  match mbt C with
  | ConstantELA => Some (initELA C)
  | ElaLowering => Some (initELA C + ELAStepSize C * Rmax 0 ((t - tmin C) / ELAStepInterval C))
  | ElaLowering2 => Some (4200 + (-10) * Rmax 0 (IZR (Int_part ((t - 0) / (8 * 25)))))
  | Broken => None
  end.
Definition mass_balance (C : climate) (Zi : grid) (t : R) : option grid :=
  match ela C t with
  | None => None
  | Some E => Some (fun r c => let b := gradBz C * (Zi r c - E) in if Rlt_dec (maxBz C) b then maxBz C else b)
  end.

(* update_vars, 1061-1147: new thickness, surface, melt rate [m/s of water], ice account.  ([H] is overwritten in place:
   the caller's array is the new one.) *)
Definition update_vars (H Zb Bxy qx qy : grid) (dt conserveIce : R) : grid * grid * grid * R :=
  let moved : grid := fun r c => H r c + Rmax 0 (Bxy r c) * dt + dHdt qx qy r c * dt in
  let Bxy_neg : grid := fun r c => Rmax (- moved r c / dt) (Rmin 0 (Bxy r c)) in
  let dH_melt : grid := fun r c => Bxy_neg r c * dt in
  let H' : grid := fun r c => moved r c + dH_melt r c in
  let meltrate : grid := fun r c => Rmax (- (dH_melt r c / dt) * (rhoI / rhoW) / sec_per_year) 0 in
  let snowFall : grid := fun r c => (- Bxy_neg r c + Rmax 0 (Bxy r c)) * dt in
  let qbound := rsumn nx (fun c => qy 0%nat (c + 1)%nat) - rsumn nx (fun c => qy ny (c + 1)%nat)
              + rsumn ny (fun r => qx (r + 1)%nat 0%nat) - rsumn ny (fun r => qx (r + 1)%nat nx) in
  (H', fun r c => Zb r c + Rmax (H' r c) 0, meltrate,
   conserveIce + rsumn ny (fun r => rsumn nx (snowFall r)) + dt * qbound / dx).

(* the fluxes of one update, 1194-1234, with the boundary conditions [B] *)
Definition fluxes (B : bounds) (FLOW SLIDE : bool) (H Zb : grid) : grid * grid :=
  let Zi : grid := fun r c => Zb r c + Rmax (H r c) 0 in                                                 (* 345 *)
  let '(H_ext, Zi_ext) := set_bc B H Zb Zi in
  (qxX H_ext Zi_ext B FLOW SLIDE, qyY H_ext Zi_ext B FLOW SLIDE).

(* get_timestep, 958-1017: filter2d(filt, (ZiMean - Zi)**2) is scipy's convolve in mode 'same', whose result has the
   shape of its first argument, the 3 x 3 filter; comparing it with a grid of another shape raises ValueError.  For grids
   of at most 3 x 3 cells the result is not modelled: [Some] of an arbitrary function. *)
Definition get_timestep (small : grid -> R) (H : grid) : option R :=
  if ((Nat.eqb ny 1 || Nat.eqb ny 3) && (Nat.eqb nx 1 || Nat.eqb nx 3))%bool then Some (small H) else None.

(* gc2d.update, 1159-1272; [None]: an exception *)
Record settings := mkSettings {
  FLOW : bool; SLIDE : bool; VARIABLE_DT : bool; dt_max : R; clim : climate;
  (* settings that are stored in Parameters and Toggles after the import, ice_base.py 805-866 *)
  set_bounds : bounds; set_glensA : R; set_MinGlacThick : R; set_UsChar : R; set_taubChar : R
}.
Definition update (small : grid -> R) (S : settings) (t : R) (H Zb : grid) (conserveIce : R) : option (R * grid * grid * grid * R) :=
  let Zi : grid := fun r c => Zb r c + Rmax (H r c) 0 in
  let '(qx, qy) := fluxes default_bounds (FLOW S) (SLIDE S) H Zb in
  match mass_balance (clim S) Zi t with
  | None => None
  | Some Bxy =>
      match (if VARIABLE_DT S then get_timestep small H else Some (dt_max S)) with
      | None => None
      | Some dt => let '(H', Zi', mr, ci) := update_vars H Zb Bxy qx qy dt conserveIce in Some (dt, H', Zi', mr, ci)
      end
  end.

(* ---------- gc2d.run_model, 90-116 ---------- *)
(* the variables of the loop: t, H, Zi, meltrate, conserveIce (reading of the MatLab file is not modelled) *)
Record gstate := mkG { time : R; h_ice : grid; z_ice : grid; mr_ice : grid; conserve : R }.
Definition g_init (H0 Zb : grid) : gstate := mkG 0 H0 (fun r c => Zb r c + H0 r c) (fun _ _ => 0) 0.
(* one turn of the loop, 114-116; update_vars returns t + dt, 1069 *)
Definition g_step (small : grid -> R) (S : settings) (Zb : grid) (s : gstate) : option gstate :=
  match update small S (time s) (h_ice s) Zb (conserve s) with
  | None => None
  | Some (dt, H', Zi', mr, ci) => Some (mkG (time s + dt) H' Zi' mr ci)
  end.
(* k turns *)
Fixpoint g_run (small : grid -> R) (S : settings) (Zb : grid) (k : nat) (s : gstate) : option gstate :=
  match k with
  | 0%nat => Some s
  | Datatypes.S k => match g_run small S Zb k s with Some s => g_step small S Zb s | None => None end
  end.
(* the loop, 112: while t < t_max, with fuel *)
Inductive outcome := Finished (s : gstate) | Raised | OutOfFuel.
Fixpoint run_model (small : grid -> R) (S : settings) (Zb : grid) (t_max : R) (fuel : nat) (s : gstate) : outcome :=
  if Rlt_dec (time s) t_max then
    match fuel with
    | 0%nat => OutOfFuel
    | Datatypes.S fuel => match g_step small S Zb s with Some s => run_model small S Zb t_max fuel s | None => Raised end
    end
  else Finished s.

(* ---------- the ice component, ice_base.py ---------- *)
Record ice := mkIce { clock : R; thick : grid; bed : grid; top : grid; melt : grid; vol_MR : R; account_MR : R; dt_min : R }.
(* initialize_vars_rtg 276-284, initialize_computed_vars 301-311 *)
Definition initialize (H0 Zb : grid) : ice :=
  mkIce 0 H0 Zb (fun r c => Zb r c + H0 r c) (fun _ _ => 0) 0 0 99999.
(* update, 469-578 (the calls that would update vol_MR are commented out, 549-550).  The result is the exception that
   leaves the call and the state it leaves behind: [ErrGc2d] from gc2d.update, or [ErrTime]: update_time is redefined
   without an argument for dt (752), so that the call in 577 raises TypeError. *)
Inductive error := ErrGc2d | ErrTime.
Definition ice_update (small : grid -> R) (S : settings) (s : ice) : option error * ice :=
  match update small S (clock s) (thick s) (bed s) (account_MR s) with
  | None => (Some ErrGc2d, s)
  | Some (dt, H', Zi', mr, ci) => (Some ErrTime, mkIce (clock s) H' (bed s) Zi' mr (vol_MR s) ci (Rmin dt (dt_min s)))
  end.
(* a caller that goes on calling update whatever it raises *)
Fixpoint ice_calls (small : grid -> R) (S : settings) (k : nat) (s : ice) : ice :=
  match k with 0%nat => s | Datatypes.S k => snd (ice_update small S (ice_calls small S k s)) end.
End Grid.
