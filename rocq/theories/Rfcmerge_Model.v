(** Model of the merging of the basins of all river forecast centers: topoflow/utils/ngen/rfc_utils.py 1412-1614
    (merge_rfc_basin_info).

    A file is the list of its headings and the list of its other lines, both split at the commas (1489, 1523); the last
    entry of each has its newline.  The texts of the numbers (np.float64 and five digits, 1532-1542) are a function of
    the cell, so cells that are not numbers are not modelled.  Printed messages are not modelled, nor are the lines
    that were written before an error. *)

From Coq Require Import String List Bool Arith.
From Verif Require Import Time_Model Io_Model.
Import ListNotations.

Record rfc_file := { rfc : string; headings : list string; lines : list (list string) }.

(** list.index *)
Fixpoint index (h : string) (hs : list string) : res nat :=
  match hs with
  | [] => Err ValueError
  | x :: hs' => if String.eqb x h then Ok 0%nat else let! k := index h hs' in Ok (S k)
  end.
Definition has (h : string) (hs : list string) : bool := existsb (String.eqb h) hs.
(** 1500-1514: column of the number of the basin, None at the break *)
Definition id_col (hs : list string) : res (option nat) :=
  let col h := let! k := index h hs in Ok (Some k) in
  if has "NWS_ID" hs then col "NWS_ID"%string
  else if has "NWSID" hs then col "NWSID"%string
  else if has "CH5_ID" hs then col "CH5_ID"%string
  else if has "BASIN" hs then col "BASIN"%string
  else if has "NAME" hs then col "NAME"%string
  else Ok None.
Definition cell (vals : list string) (k : nat) : res string := let! v := item vals k in Ok (strip v).
(** 1523-1555 *)
Definition basin_line (num : string -> string) (name_rfc : string) (id name minlon maxlon minlat maxlat : nat)
    (vals : list string) : res (list string) :=
  let! i := cell vals id in
  let! n := cell vals name in
  let i := if (String.length i =? 0)%nat then n else i in
  let! x1 := cell vals minlon in
  let! x2 := cell vals maxlon in
  let! y1 := cell vals minlat in
  let! y2 := cell vals maxlat in
  Ok [name_rfc; i; num x1; num x2; num y1; num y2; n].
Fixpoint all_lines (f : list string -> res (list string)) (l : list (list string)) : res (list (list string)) :=
  match l with [] => Ok [] | v :: l' => let! x := f v in let! r := all_lines f l' in Ok (x :: r) end.
(** 1489-1557: the lines of one file, None at a break *)
Definition one_file (num : string -> string) (f : rfc_file) : res (option (list (list string))) :=
  if (length (headings f) <=? 1)%nat then Ok None else
  let! name := index "NAME" (headings f) in
  let! minlon := index "MIN_X_AXIS_" (headings f) in
  let! maxlon := index "MAX_X_AXIS_" (headings f) in
  let! minlat := index "MIN_Y_AXIS_" (headings f) in
  let! maxlat := index "MAX_Y_AXIS_" (headings f) in
  let! c := id_col (headings f) in
  match c with
  | None => Ok None
  | Some id => let! r := all_lines (basin_line num (rfc f) id name minlon maxlon minlat maxlat) (lines f) in Ok (Some r)
  end.
(** 1473-1562 *)
Fixpoint all_files (num : string -> string) (fs : list rfc_file) : res (list (list string)) :=
  match fs with
  | [] => Ok []
  | f :: fs' => let! o := one_file num f in
                match o with None => Ok [] | Some r => let! r' := all_files num fs' in Ok (r ++ r') end
  end.
(** 1579-1604: the last center, with all cells as they are *)
Definition west_line (vals : list string) : res (list string) :=
  let! i := cell vals 1 in let! x1 := cell vals 2 in let! x2 := cell vals 3 in
  let! y1 := cell vals 4 in let! y2 := cell vals 5 in let! n := cell vals 6 in
  Ok ["WGRFC"%string; i; x1; x2; y1; y2; n].
Definition merge_rfc_basin_info (num : string -> string) (fs : list rfc_file) (west : list (list string)) : res (list (list string)) :=
  let! a := all_files num fs in let! b := all_lines west_line west in Ok (a ++ b).
