(* Model of the landscape-evolution component "Erode": /repo/topoflow/components/erode_d8_global.py
   (update 262-421, update_slope_grid 567-620, update_dz_dt_grid 732-800, update_dt_grid_method1 1011-1125,
   update_DEM 1147-1190) and of the parts it inherits from erode_base.py (boundary conditions 703-776,
   update_U_integral 876-886, update_DEM_edge_values 925-935, check_stability 1965-1988,
   check_finished 1992-2022).
   Grids are lists in C order.  Elevations and rates are exact rationals: rounding, overflow, NaN and nodata
   elevations are not modelled.  The D8 grids are those of D8_Model.  FILL_PITS is False (erode_base.py 164).
   sys.exit() (here a NameError, sys is not imported; it ends the run too) and exceptions are None.
   At this commit update() stops earlier: update_d8_vars (erode_base.py 964) passes SILENT to d8.update, which has
   no such parameter.  The model is of the component with that argument dropped. *)
From Coq Require Import ZArith QArith Qminmax List Bool.
From Verif Require Import Base Chan_Model.
From Verif Require D8_Model.
Import ListNotations.
Local Open Scope Q_scope.

(* erode_base.py 140-152 *)
Definition dz_tolerance : Q := 1 # 1000000.
Definition dt_limit : Q := 100000000000000000000 # 1.
(* np.float32(0.01) *)
Definition hundredth32 : Q := 5368709 # 536870912.

(* ---------------------------------------------------------------- boundary conditions *)

(* erode_base.py 464-467: the four values of BC_method that are looked for, or something else *)
Inductive bc := BOTTOM | RIGHT | CORNER | FOUR_SIDES | NO_BC.

(* erode_base.py 703-776 initialize_boundary_conditions: the base_IDs and the changed DEM.  DEM is 2-D, so that
   DEM[top_IDs] etc. index ROWS; an index >= ny raises an IndexError.  None also for CORNER: np.concatenate of
   nine numbers raises a ValueError.  With no condition base_IDs stays unset: [Some None]. *)
Definition row_of (dem : list Q) (nx r : nat) : list Q := tab nx (fun c => get 0 dem (r * nx + c)%nat).

Definition init_bc (b : bc) (nx ny : nat) (dem : list Q) : option (option (list nat) * list Q) :=
  match b with
  | BOTTOM =>
      let base := tab nx (fun c => (c + nx * (ny - 1))%nat) in                               (* 713 *)
      if (2 * nx <=? ny)%nat
      then Some (Some base,
                 tab (nx * ny) (fun i => if (i / nx <? nx)%nat then get 0 dem (i + nx * nx)%nat else get 0 dem i))  (* 725 *)
      else None
  | RIGHT =>
      let base := tab ny (fun r => (nx * (r + 1) - 1)%nat) in                                (* 732-733 *)
      if forallb (fun r => (r * nx <? ny)%nat) (seq 0 ny)
      then Some (Some base,
                 tab (nx * ny) (fun i => if existsb (fun r => (r * nx =? i / nx)%nat) (seq 0 ny) then 0 else get 0 dem i))  (* 743 *)
      else None
  | FOUR_SIDES =>
      let T := tab nx (fun c => c) in
      let B := map (fun c => (c + nx * (ny - 1))%nat) T in
      let L := tab (ny - 2) (fun r => (nx * (r + 1))%nat) in
      let R := map (fun i => (i + (nx - 1))%nat) L in
      Some (Some (T ++ B ++ L ++ R), dem)                                                    (* 748-753 *)
  | CORNER => None                                                                           (* 762 *)
  | NO_BC => Some (None, dem)
  end.

(* ---------------------------------------------------------------- one update *)

Section Erode.
Variable G : D8_Model.geom.
Variable O : D8_Model.opts.
Notation n := (D8_Model.ncells G).
Variable da : nat -> Q.                      (* pixel areas *)
Variable ds : list Z -> nat -> Q.            (* d8.ds: distance to the parent, from the flow codes *)
(* update_Q_grid and update_Qs_grid 632-705: the sediment discharge of a cell, from the flow codes (which give
   the drainage area), the cell and its slope.  The power law itself is in Erode_Law.v. *)
Variable law : list Z -> nat -> Q -> Q.
Variable U : nat -> Q.                       (* uplift U_mpyr = U / 1000 *)
Variables (BLR CFL : Q).                     (* BLR_mpyr, CFL_factor *)
Variable base : list nat.                    (* base_IDs *)
Variable b : bc.

(* erode_base.py 925-935 update_DEM_edge_values *)
Definition edge_values (z : list Q) : list Q :=
  let z := match b with
           | BOTTOM => tab n (fun i => if D8_Model.top_edge G i
                                       then get 0 z (i + Z.to_nat (D8_Model.nx G))%nat + hundredth32 else get 0 z i)
           | _ => z end in
  match b with
  | RIGHT => tab n (fun i => if D8_Model.left_edge G i then get 0 z (i + 1)%nat + hundredth32 else get 0 z i)
  | _ => z end.

(* 583-584, 1052-1053: elevation drop to the cell with the parent's ID (cell 0 for cells without parent) *)
Definition del_z (pid : list Z) (z : list Q) (i : nat) : Q :=
  get 0 z i - get 0 z (Z.to_nat (get 0%Z pid i)).

(* 567-620 update_slope_grid *)
Definition slope_grid (d8 pid : list Z) (z : list Q) : option (list Q) :=
  let s := tab n (fun i => if Z.eqb (get 0%Z d8 i) 0 then 0 else del_z pid z i / ds d8 i) in
  if existsb (fun x => Qltb x 0) s then None else Some s.

(* 680-705 update_Qs_grid *)
Definition Qs_grid (d8 : list Z) (s : list Q) : list Q := tab n (fun i => law d8 i (get 0 s i)).

(* 732-800 update_dz_dt_grid; route_inflow with dt = 1 is the eight grouped additions 771-786 *)
Definition dz_dt_grid (d8 pid : list Z) (Qs : list Q) : list Q :=
  let flux_out := tab n (fun i => get 0 Qs i / da i) in                     (* 758 *)
  let r := tab n (fun i => - get 0 flux_out i) in                           (* 759 *)
  let r := tab n (fun i => get 0 r i + U i) in                              (* 766 *)
  let r := route_inflow G d8 pid 1 flux_out r in
  fancy_set r base (- BLR).                                                 (* 800 *)

(* 1011-1125 update_dt_grid_method1, one cell *)
Definition dt_at (pid : list Z) (z Qs : list Q) (i : nat) : Q :=
  let a := if Qltb 0 (get 0 Qs i) then CFL * (da i / 2 * del_z pid z i / get 0 Qs i) else 0 in   (* 1066-1076 *)
  let a := if Qltb (del_z pid z i) 0 then dt_limit else a in                                     (* 1081-1083 *)
  if Z.eqb (get 0%Z pid i) 0 then dt_limit else a.                                               (* 1090-1092 *)

(* np.nanmin / np.nanmax of a grid; None on an empty one *)
Definition lmin (l : list Q) : option Q :=
  match l with [] => None | x :: t => Some (fold_left Qmin t x) end.
Definition lmax (l : list Q) : option Q :=
  match l with [] => None | x :: t => Some (fold_left Qmax t x) end.

(* 1097, 1120-1125; dt_too_small only prints unless dt_min <= 0 *)
Definition dt_min (pid : list Z) (z Qs : list Q) : option Q :=
  match lmin (tab n (dt_at pid z Qs)) with
  | None => None
  | Some m => if Qle_bool m 0 then None else Some m
  end.

(* what one update leaves behind: flow codes, discharges, rates, time step, new DEM and dz_max *)
Record outcome := mkOut {
  o_z0 : list Q;       (* the DEM after update_DEM_edge_values *)
  o_d8 : list Z; o_Qs : list Q; o_rate : list Q; o_dt : Q;
  o_z : list Q; o_dzmax : Q
}.

(* 310-356 *)
Definition step (z : list Q) : option outcome :=
  let z := edge_values z in
  match D8_Model.update_flow_grid G O (map Some z) with                     (* 318 *)
  | None => None
  | Some d8 =>
      let pid := D8_Model.update_parent_ID_grid G O d8 in
      match slope_grid d8 pid z with
      | None => None
      | Some s =>
          let Qs := Qs_grid d8 s in
          let r := dz_dt_grid d8 pid Qs in
          match dt_min pid z Qs with
          | None => None
          | Some dt =>
              let dz := tab n (fun i => get 0 r i * dt) in                  (* 1180 *)
              match lmax dz with                                            (* 1181 *)
              | None => None
              | Some m =>
                  Some {| o_z0 := z; o_d8 := d8; o_Qs := Qs; o_rate := r; o_dt := dt;
                          o_z := tab n (fun i => get 0 z i + get 0 dz i);   (* 1189 *)
                          o_dzmax := m |}
              end
          end
      end
  end.

(* ---------------------------------------------------------------- the run *)

(* erode_base.py 1992-2022: how the run is to end (stop_code 0, 1, 2) *)
Inductive stop := N_steps (k : Q) | Stop_time (t : Q) | Until_dz_small.

Record rstate := mkR {
  r_z : list Q; r_dt : Q;       (* the DEM, self.dt (1.0 at the start, erode_base.py 153) *)
  r_time : Q; r_index : Q;      (* self.time [years], self.time_index *)
  r_volU : Q;                   (* vol_U *)
  r_DONE : bool; r_failed : bool
}.

(* 262-421 update.  update_U_integral (erode_base.py 876-886) comes first and so uses the time step of the
   previous update; it multiplies by U in mm/yr, here [1000 * U i].  update_time (BMI_base.py 1029-1043) adds
   self.dt when the argument is -1 (the default) and the argument itself otherwise. *)
Definition update (dt_arg : Q) (sc : stop) (s : rstate) : option rstate :=
  let volU := r_volU s + qsum n (fun i => 1000 * U i * da i * r_dt s) in
  match step (r_z s) with
  | None => None
  | Some o =>
      let bad := Qltb 1000 (o_dzmax o) in                                   (* 1972 *)
      let time := r_time s + (if Qeq_bool dt_arg (-1) then o_dt o else dt_arg) in
      let index := r_index s + 1 in
      let up := match sc with
                | N_steps k => Qle_bool k index
                | Stop_time t => Qle_bool t time
                | Until_dz_small => Qltb (o_dzmax o) dz_tolerance           (* 2021 *)
                end in
      Some {| r_z := o_z o; r_dt := o_dt o; r_time := time; r_index := index; r_volU := volU;
              r_DONE := r_DONE s || bad || up; r_failed := bad |}
  end.

(* the driver loop  while not(DONE): update()  (BMI_base.py run_model), cut off after [fuel] updates:
   None = an update exited or raised; Some (s, ran_out) *)
Fixpoint run (fuel : nat) (sc : stop) (s : rstate) : option (rstate * bool) :=
  if r_DONE s then Some (s, false) else
  match fuel with
  | Datatypes.O => Some (s, true)
  | Datatypes.S k => match update (-1) sc s with None => None | Some s' => run k sc s' end
  end.
End Erode.
