(** Model of the cells along the boundary of a basin: topoflow/utils/ngen/hlr_utils.py 846-1007
    (get_cols_and_rows) and the part of try_to_get_outlet_info (745-842) that picks the outlet from them.

    Coordinates are integers (the boundary is snapped to multiples of the spacing, 703-741, before the call);
    32-bit overflow is not modelled.  The arguments round_method and print_c2_r2 are not used by the code. *)

From Coq Require Import String List ZArith QArith Bool Arith.
From Verif Require Import Site_Model Time_Model Bundle_Model.
Import ListNotations.
Local Open Scope Z_scope.

Definition vertex : Type := (Z * Z)%type.
(** 942-945: a vertex and the next one; the last vertex, whose next one is the first, is left out (948, 956, 964,
    972) *)
Definition edge : Type := (vertex * vertex)%type.
Definition edges (p : list vertex) : list edge := List.combine p (tl p).
(** 938-940 *)
Definition xoffset : Z := 500.
Definition yoffset : Z := 0.

(** 947-977: the four passes: which edges, and the point of each *)
Definition right (e : edge) : bool := fst (fst e) <? fst (snd e).
Definition left (e : edge) : bool := fst (snd e) <? fst (fst e).
Definition down (e : edge) : bool := snd (snd e) <? snd (fst e).
Definition up (e : edge) : bool := snd (fst e) <? snd (snd e).
Definition at_ (sx sy : Z) (e : edge) : vertex := (fst (fst e) + sx * xoffset, snd (fst e) + sy * yoffset).
Definition passes (p : list vertex) : list (list vertex) :=
  [map (at_ 1 (-1)) (filter right (edges p)); map (at_ (-1) 1) (filter left (edges p));
   map (at_ (-1) (-1)) (filter down (edges p)); map (at_ 1 1) (filter up (edges p))].
(** 950-980: the passes are stored one after the other in arrays of as many entries as there are vertices.
    cell_x[i1:i2] = values is an error where the slice is cut short, unless there is just one value, which is then
    dropped. *)
Fixpoint store (n i1 : nat) (l : list (list vertex)) : res (list vertex) :=
  match l with
  | [] => Ok []
  | v :: rest =>
      let i2 := (i1 + length v)%nat in
      if (i2 <=? n)%nat then let! r := store n i2 rest in Ok (v ++ r)
      else if (length v =? 1)%nat then store n i2 rest else Err ValueError
  end.
Definition points (p : list vertex) : res (list vertex) := store (length p) 0 (passes p).

(** 985-987: the two numbers as one text *)
Definition key (v : vertex) : string := (py_str (fst v) ++ py_str (snd v))%string.
(** 988-990: np.unique( ..., return_index=True ): the first entry of every text, in order of the texts *)
Definition uniq (l : list vertex) : list vertex :=
  flat_map (fun k => match find (fun v => String.eqb (key v) k) l with Some v => [v] | None => [] end)
           (sort (nodup string_dec (map key l))).
(** 994-997: np.int32 cuts off the decimals *)
Definition col_row (xmin ymax dx dy : Z) (v : vertex) : Z * Z :=
  (Z.quot (fst v - xmin) dx, Z.quot (ymax - snd v) dy).
(** 846-1007 *)
Definition get_cols_and_rows (p : list vertex) (xmin ymax dx dy : Z) : res (list (Z * Z)) :=
  let! l := points p in Ok (map (col_row xmin ymax dx dy) (uniq l)).

(** 780-842: elevation of the cells, their smallest one, and the longitude and latitude that are returned with the
    column and row; the elevations are a function of the cell (1116-1156; those of the file are read as unsigned,
    so that elevations below zero are not modelled). *)
Definition outlet (elev : Z * Z -> Z) (p : list vertex) (lons lats : list Q) (nodata xmin ymax dx dy : Z)
    : res (Q * Q * (Z * Z)) :=
  let! cells := get_cols_and_rows p xmin ymax dx dy in
  match map elev cells with
  | [] => Err ValueError
  | z :: zs =>
      match get_zmin_lon_and_lat z zs lons lats nodata with
      | Some (_, arg, lon, lat, _) =>
          match nth_error cells arg with Some c => Ok (lon, lat, c) | None => Err IndexError end
      | None => Err IndexError
      end
  end.
