(** Model of the conversion of the units of a stack of grids: topoflow/utils/rts_files.py 507-542 (convert_units), on
    top of Rts_Model.

    Numbers are their bytes (Rts_Model); the product and the sum in float32 are functions on numbers.  [None] for the
    factor stands for 1, [None] for the added value for 0: the two cases in which nothing is done (535, 537). *)

From Coq Require Import String List ZArith QArith Bool.
From Verif Require Import Time_Model Io_Model Rti_Model Rts_Model.
Import ListNotations.

(** 535-538 *)
Definition converted (factor add_val : option (cell -> cell)) (g : list cell) : list cell :=
  let g := match factor with Some f => map f g | None => g end in
  match add_val with Some f => map f g | None => g end.
(** 533-539: [k] grids to go, the next one is [idx]; read_grid has its default type float32, 4 bytes (466-470) *)
Fixpoint convert_loop (m : machine) (factor add_val : option (cell -> cell)) (k : nat) (idx : Z) (F : fs) (o new : rts)
    : res (fs * rts * rts) :=
  match k with
  | O => Ok (F, o, new)
  | S k' =>
      let! go := get_grid m F o idx 4 in
      let! fn := add_grid m F new (GGrid (converted factor add_val (fst go))) (-1) in
      convert_loop m factor add_val k' (idx + 1) (fst fn) (snd go) (snd fn)
  end.
(** the object keeps its info, which open_new_file has changed (512, 523, 257-261); info.SWAP_ENDIAN stays *)
Definition with_info (o : rts) (i : info) : rts :=
  mkrts i (o_swap o) (o_nx o) (o_ny o) (o_dtype o) (o_grid_size o) (o_name o) (o_mode o) (o_pos o) (o_index o).
(** 507-542; the result of open_new_file (523) is not looked at.  [None]: out of fuel in check_overwrite *)
Definition convert_units (m : machine) (F : fs) (o : rts) (new_name : string) (factor add_val : option (cell -> cell))
    : option (res (fs * rts * rts)) :=
  match number_of_grids F o with
  | Err e => Some (Err e)
  | Ok n =>
      match open_new_file m F new_name (o_info o) "float32" false None with
      | None => None
      | Some (Err e) => Some (Err e)
      | Some (Ok (F1, new)) =>
          Some (convert_loop m factor add_val (Z.to_nat n) 0 F1 (with_info o (o_info new)) new)
      end
  end.
