(** Model of topoflow/utils/rts_files.py: stacks of grids in one binary file,
    described by an RTI header; and topoflow/utils/rtg_files.py write_grid.

    A number is its bytes, most significant first, so that the same number can
    be stored by machines of either byte order.  Conversion between number
    types (astype) is not modelled: grids come as cells of the file's type. *)

From Coq Require Import String Ascii List ZArith NArith QArith Bool.
From Verif Require Import Time_Model Io_Model Rti_Model.
Import ListNotations.

Definition cell := string.

Fixpoint srev_acc (s acc : string) : string :=
  match s with EmptyString => acc | String a r => srev_acc r (String a acc) end.
(** Byte swap of one number. *)
Definition srev (s : string) : string := srev_acc s EmptyString.

(** How machine [m] keeps a number in memory. *)
Definition native (m : machine) (v : cell) : string :=
  match m with Big => v | Little => srev v end.
(** The number a machine sees in its memory. *)
Definition number (m : machine) (b : string) : cell :=
  match m with Big => b | Little => srev b end.

(** Does machine [m] have to swap for a file with this byte order?
    rti_files.py 481-482, 212-215; rts_files.py 485-491. *)
Definition swap_needed (m : machine) (bo : string) : bool :=
  negb (String.eqb (get_rti_byte_order m) bo).

Inductive mode := WB | RB | RBplus.

(** An rts_file object with an open file.  [o_dtype] and [o_grid_size] may be
    missing: open_new_file sets only the first, open_file only the second. *)
Record rts := mkrts {
  o_info : info; o_swap : bool; o_nx : Z; o_ny : Z;
  o_dtype : option string; o_grid_size : option Z;
  o_name : string; o_mode : mode; o_pos : nat; o_index : nat }.

(** Write [b] at position [pos] of contents [c]; a gap is filled with zero
    bytes. *)
Fixpoint zero_bytes (n : nat) : string :=
  match n with O => EmptyString | S k => String (ascii_of_N 0) (zero_bytes k) end.
Definition write_at (c : string) (pos : nat) (b : string) : string :=
  (take pos c ++ zero_bytes (pos - String.length c) ++ b
   ++ drop (pos + String.length b) c)%string.

Fixpoint sconcat (l : list string) : string :=
  match l with [] => EmptyString | x :: r => (x ++ sconcat r)%string end.

(** 32-bit wrap of the product of numpy integers. *)
Definition wrap32 (z : Z) : Z := ((z + 2147483648) mod 4294967296 - 2147483648)%Z.

(** rts_files.py 212-313 check_and_store_info with info given and MAKE_RTI, and
    318-347 open_new_file.  [old_size]: the grid_size a used object still has.
    [None]: out of fuel in check_overwrite. *)
Definition open_new_file (m : machine) (F : fs) (name : string) (i : info)
    (dtype : string) (overwrite_ok : bool) (old_size : option Z) : option (res (fs * rts)) :=
  let n' := if overwrite_ok then Some name else check_overwrite F name in
  match n' with
  | None => None
  | Some name =>
    Some (let! t := get_rti_data_type dtype in
          let i' := mkinfo name "TopoFlow 3.0" (ncols i) (nrows i) t (byte_order i) (pixel_geom i)
                      (xres i) (yres i) (zres i) (z_units i) (y_south_edge i) (y_north_edge i)
                      (x_east_edge i) (x_west_edge i) (box_units i) (-9999) (-9999) (UTM_zone i) in
          let F1 := write_info F name i' in
          let F2 := put F1 name EmptyString in
          Ok (F2, mkrts i' (swap_needed m (byte_order i)) (ncols i) (nrows i) (Some dtype) old_size
                    name WB 0 0))
  end.

(** rts_files.py 146-198 open_file.  A missing header gives None, which the
    test against -1 does not notice: AttributeError (here TypeError).
    [old_dtype]: the dtype a used object still has. *)
Definition open_file (m : machine) (F : fs) (name : string) (update : bool)
    (old_dtype : option string) : res rts :=
  let! oi := read_info F name in
  match oi with
  | None => Err TypeError
  | Some i =>
    let! bpe := get_bpe (data_type i) in
    let size := wrap32 (wrap32 (ncols i * nrows i) * Z.of_nat bpe) in
    Ok (mkrts i (swap_needed m (byte_order i)) (ncols i) (nrows i) old_dtype (Some size) name
          (if update then RBplus else RB) 0 0)
  end.

(** What add_grid may be given: a numpy scalar, a 0-dimensional array, or a
    grid. *)
Inductive grid := GScalar (v : cell) | GArray0 (v : cell) | GGrid (l : list cell).

(** rts_files.py 351-405 add_grid.  [idx] is time_index, negative for none.
    Writing to a file opened for reading is an error.  numpy cannot swap a
    scalar in place, nor add a grid to a 0-dimensional array in place:
    ValueError.  Simplified: adding zero to a number gives the number. *)
Definition add_grid (m : machine) (F : fs) (o : rts) (g : grid) (idx : Z) : res (fs * rts) :=
  match o_dtype o with
  | None => Err TypeError
  | Some _ =>
    let! pos := if (0 <=? idx)%Z
                then match o_grid_size o with
                     | None => Err TypeError
                     | Some s => if (idx * s <? 0)%Z then Err ValueError else Ok (Z.to_nat (idx * s))
                     end
                else Ok (o_pos o) in
    let! cells := match g with
                  | GGrid l => Ok (map (native m) l)
                  | GScalar v => if o_swap o then Err ValueError
                                 else Ok (repeat (native m v) (Z.to_nat (o_nx o * o_ny o)))
                  | GArray0 v => Err ValueError
                  end in
    let out := sconcat (if o_swap o then map srev cells else cells) in
    match o_mode o with
    | RB => Err ValueError
    | _ =>
      let c := match lookup F (o_name o) with Some c => c | None => EmptyString end in
      Ok (put F (o_name o) (write_at c pos out),
          mkrts (o_info o) (o_swap o) (o_nx o) (o_ny o) (o_dtype o) (o_grid_size o) (o_name o)
            (o_mode o) (pos + String.length out) (S (o_index o)))
    end
  end.

(** np.fromfile(count=n, dtype): as many whole elements as there are, at most
    n. *)
Fixpoint from_bytes (n bpe : nat) (s : string) : list string :=
  match n with
  | O => []
  | S k => if (String.length s <? bpe)%nat then []
           else take bpe s :: from_bytes k bpe (drop bpe s)
  end.

(** rts_files.py 442-462 get_grid with a dtype of [bpe] bytes.  reshape fails
    unless all elements are there. *)
Definition get_grid (m : machine) (F : fs) (o : rts) (idx : Z) (bpe : nat) : res (list cell * rts) :=
  match o_grid_size o with
  | None => Err TypeError
  | Some s =>
    match o_mode o with
    | WB => Err ValueError
    | _ =>
      if (idx * s <? 0)%Z then Err ValueError else
      let off := Z.to_nat (idx * s) in
      let n := Z.to_nat (o_nx o * o_ny o) in
      let c := match lookup F (o_name o) with Some c => c | None => EmptyString end in
      let items := from_bytes n bpe (drop off c) in
      if (List.length items =? n)%nat then
        let items := if o_swap o then map srev items else items in
        Ok (map (number m) items,
            mkrts (o_info o) (o_swap o) (o_nx o) (o_ny o) (o_dtype o) (o_grid_size o) (o_name o)
              (o_mode o) (off + n * bpe) (o_index o))
      else Err ValueError
    end
  end.

(** rts_files.py 495-503 number_of_grids *)
Definition number_of_grids (F : fs) (o : rts) : res Z :=
  match o_grid_size o, lookup F (o_name o) with
  | Some s, Some c => if (s =? 0)%Z then Err ValueError else Ok (Z.quot (Z.of_nat (String.length c)) s)
  | _, _ => Err TypeError
  end.

(** A sequence of add_grid calls without an index. *)
Fixpoint add_grids (m : machine) (F : fs) (o : rts) (gs : list grid) : res (fs * rts) :=
  match gs with
  | [] => Ok (F, o)
  | g :: r => let! (F', o') := add_grid m F o g (-1) in add_grids m F' o' r
  end.

(** model_input.py 226-243 read_grid, from the unread rest of the file: the
    next grid and what is left; None at the end of the file; ValueError when
    only part of a grid is left.  [n] is rti.n_pixels. *)
Definition read_grid (m : machine) (swap : bool) (n bpe : nat) (rest : string)
    : res (option (list cell) * string) :=
  let items := from_bytes n bpe rest in
  let rest' := drop (List.length items * bpe) rest in
  match items with
  | [] => Ok (None, rest')
  | _ => if (List.length items =? n)%nat
         then Ok (Some (map (number m) (if swap then map srev items else items)), rest')
         else Err ValueError
  end.
(** Successive calls. *)
Fixpoint read_grids (m : machine) (swap : bool) (n bpe k : nat) (rest : string)
    : res (list (option (list cell))) :=
  match k with
  | O => Ok []
  | S k' => let! (g, rest') := read_grid m swap n bpe rest in
            let! r := read_grids m swap n bpe k' rest' in Ok (g :: r)
  end.

(** rtg_files.py 345-373 write_grid: the bytes written, and the caller's grid
    afterwards.  The swap is done in place. *)
Definition rtg_write_grid (swap : bool) (g : list string) : string * list string :=
  let g' := if swap then map srev g else g in (sconcat g', g').
