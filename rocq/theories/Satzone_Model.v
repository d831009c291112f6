(* Model of the groundwater component (/repo/topoflow/components/satzone_base.py; satzone_darcy_layers.py adds
   names only).  Numbers are exact rationals; rounding, NaN and infinities are not modelled.  Layers are numbered
   from the top.  A layer variable is a scalar or a grid (infil_base.py 435-500 build_layered_var with one node per
   layer, 391-397); here every cell has its own list of layers. *)
From Coq Require Import ZArith QArith Qminmax Qabs List Bool.
From Verif Require Import Base Field Chan_Model.
From Verif Require D8_Model.
Import ListNotations.
Local Open Scope Q_scope.

Record layer := mkLayer { th : Q; qs : Q; Ks : Q }.     (* thickness, porosity, conductivity *)
Definition lay0 : layer := mkLayer 0 0 0.

(* 454-459 initialize_wetted_thicknesses, one cell: bottom_z is lowered by th[k] before layer k is handled *)
Fixpoint init_y (h bottom_z : Q) (ls : list layer) : list Q :=
  match ls with
  | [] => []
  | l :: t => let b := bottom_z - th l in Qmin (Qmax (h - b) 0) (th l) :: init_y h b t
  end.
(* 455, 457: bottom_z is the array self.elev itself, so the loop also lowers self.elev *)
Fixpoint elev_after_init (elev : Q) (ls : list layer) : Q :=
  match ls with [] => elev | l :: t => elev_after_init (elev - th l) t end.

(* ---------------------------------------------------------------- update_water_table, one cell *)

(* 995-1032, k = n_layers-1 .. 0: (thicknesses, h_table, dzw_pos) after the loop *)
Fixpoint rise (ls : list layer) (ys : list Q) (h d : Q) : list Q * Q * Q :=
  match ls, ys with
  | l :: lt, y :: yt =>
      let '(yt', h, d) := rise lt yt h d in                     (* the layers below come first *)
      let dz := th l - y in                                     (* 1001 *)
      let avail := Qmin (dz * qs l) 0 in                        (* 1002-1003 *)
      if Qltb avail d                                           (* 1011 *)
      then (th l :: yt', h + dz, d - avail)                     (* 1012-1017 *)
      else (y + d / qs l :: yt', h + d / qs l, 0)               (* 1023-1030 *)
  | _, _ => (ys, h, d)
  end.
(* 1055-1087, k = 0 .. n_layers-1 *)
Fixpoint fall (ls : list layer) (ys : list Q) (h d : Q) : list Q * Q * Q :=
  match ls, ys with
  | l :: lt, y :: yt =>
      let avail := y * qs l in                                  (* 1061 *)
      let '(y', h, d) := if Qltb avail (Qabs d)            (* 1067 *)
                         then (0, h - y, d + avail)             (* 1068-1070 *)
                         else (y + d / qs l, h + d / qs l, 0) in   (* 1078-1085 *)
      let '(yt', h, d) := fall lt yt h d in
      (y' :: yt', h, d)
  | _, _ => (ys, h, d)
  end.
(* 993-1110; the porosity pk of 1100-1103 is that of the last layer *)
Definition update_water_table (ls : list layer) (ys : list Q) (h dzw : Q) : list Q * Q :=
  let '(ys, h, d) := rise ls ys h (if Qltb dzw 0 then 0 else dzw) in     (* 993-994 *)
  let h := if Qltb 0 d then h + d else h in                              (* 1042-1044 *)
  let '(ys, h, d) := fall ls ys h (if Qltb 0 dzw then 0 else dzw) in     (* 1053-1054 *)
  (ys, if Qltb d 0 then h + d / qs (last ls lay0) else h).               (* 1099-1104 *)

(* any number of updates of one cell that has a flow direction *)
Definition wt_run (ls : list layer) (s : list Q * Q) (ds : list Q) : list Q * Q :=
  fold_left (fun s d => update_water_table ls (fst s) (snd s) d) ds s.

(* ---------------------------------------------------------------- the grid *)
Section Grid.
Variable G : D8_Model.geom.
Notation n := (D8_Model.ncells G).
Variable d8 : list Z.             (* d8.d8_grid *)
Variable pid : list Z.            (* d8.parent_ID_grid *)
Variable lays : nat -> list layer.
Variable da : nat -> Q.           (* cell areas *)
Variables ds dw : nat -> Q.       (* flow lengths and widths *)
Variable dt : Q.

Record gw := mkGW { y : list (list Q); h_table : list Q; h_last : list Q; elev : list Q;
                    Q_gw : list Q; GWr : list Q; vol_GW : Q }.

(* 367-398 initialize_computed_vars; h0 is h0_table, a scalar (417-419) or a grid (421) *)
Definition gw_init (h0 : field) (elev0 : list Q) : gw :=
  let h := tab n (fat h0) in
  mkGW (tab n (fun i => init_y (get 0 h i) (get 0 elev0 i) (lays i))) h h
       (tab n (fun i => elev_after_init (get 0 elev0 i) (lays i)))
       (tab n (fun _ => 0)) (tab n (fun _ => 0)) 0.

(* 600-601 update_Sh *)
Definition Sh (s : gw) (i : nat) : Q :=
  (get 0 (h_table s) i - get 0 (h_table s) (Z.to_nat (get 0%Z pid i))) / ds i.
(* 612-623 update_Q_gw: "reset" with np.minimum, then one term per layer *)
Definition update_Q_gw (s : gw) : list Q :=
  tab n (fun i => fold_left (fun q ly => q + Ks (fst ly) * Sh s i * dw i * snd ly)
                            (combine (lays i) (get [] (y s) i)) (Qmin (get 0 (Q_gw s) i) 0)).
(* 884-918 update_water_volume_change: dzw *)
Definition update_dzw (Rg : field) (Qg : list Q) : list Q :=
  let dV := tab n (fun i => fat Rg i * da i * dt) in
  let dV := route_inflow G d8 pid dt Qg dV in                    (* 893-908 *)
  tab n (fun i => (get 0 dV i - get 0 Qg i * dt) / da i).        (* 913-918 *)
(* 666-679 update_seep_rate *)
Definition seep_rate (h h_last elev : list Q) : list Q :=
  let g := tab n (fun i => (if Qltb (get 0 elev i) (get 0 h i) then 1 else 0) * ((get 0 h i - get 0 h_last i) / dt)) in
  let g := fancy_set g (noflow_IDs G d8) 0 in                    (* 673 *)
  tab n (fun i => Qmax (get 0 g i) 0).                           (* 674 *)

(* 224-282 update (update_top_layer_for_ET returns at 720) *)
Definition gw_update (s : gw) (Rg : field) : gw :=
  let Qg := update_Q_gw s in
  let dzw := update_dzw Rg Qg in
  let r := tab n (fun i => update_water_table (lays i) (get [] (y s) i) (get 0 (h_table s) i) (get 0 dzw i)) in
  let h := fancy_set (tab n (fun i => snd (get ([], 0) r i))) (noflow_IDs G d8) 0 in   (* 1110 *)
  let g := seep_rate h (h_last s) (elev s) in
  mkGW (tab n (fun i => fst (get ([], 0) r i))) h h (elev s) Qg g
       (vol_GW s + qsum n (fun i => get 0 g i * da i * dt)).     (* 688-692; GW is a grid *)
Definition gw_run (s : gw) (Rgs : list field) : gw := fold_left gw_update Rgs s.
End Grid.
