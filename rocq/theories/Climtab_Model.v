(** Model of the table of climate indicators of two data sets: topoflow/utils/ngen/classify.py 360-613
    (save_indicators_to_tsv).

    The lines of the two files after their headers come as lists of cells (468-472, 511-515; Join_Model and Time_Model
    have the splitting).  The texts of the converted aridities are functions of the cell (487-503, 524-529), so that
    cells that are not numbers are not modelled; the formulas themselves are below, on rationals.  The statistics that
    are printed (566-580) are not modelled. *)

From Coq Require Import String List QArith Bool Arith.
From Verif Require Import Time_Model Io_Model.
Import ListNotations.

Notation row := (list string) (only parsing).
Definition cell (r : row) (k : nat) : res string := let! v := item r k in Ok (strip v).
Fixpoint cells (r : row) (ks : list nat) : res (list string) :=
  match ks with [] => Ok [] | k :: ks' => let! v := cell r k in let! vs := cells r ks' in Ok (v :: vs) end.

(** 473-503: number of the site (not stripped), the three indicators, the converted aridity *)
Definition take1 (k2b : string -> string) (r : row) : res (string * list string) :=
  let! i := item r 0 in let! v := cells r [1; 2; 3]%nat in
  let! a := cell r 1 in Ok (i, v ++ [k2b a]).
(** 516-548: columns 66, 65 and 67, the converted aridity, then 8, 9, 16, 17 and 18 *)
Definition take2 (b2k : string -> string) (r : row) : res (string * list string) :=
  let! i := item r 0 in let! v := cells r [66; 65; 67]%nat in
  let! a := cell r 66 in let! w := cells r [8; 9; 16; 17; 18]%nat in Ok (i, v ++ b2k a :: w).
(** 467-505 and 510-561: read on to the line of the site; at the end of the file the values are those of the line
    read last, in this or an earlier search *)
Fixpoint search (take : row -> res (string * list string)) (site : string) (last : option (list string)) (file : list row)
    : res (option (list string) * list row) :=
  match file with
  | [] => Ok (last, [])
  | r :: rest => let! iv := take r in
                 if String.eqb (fst iv) site then Ok (Some (snd iv), rest) else search take site (Some (snd iv)) rest
  end.
Definition bound (v : option (list string)) : res (list string) :=
  match v with Some l => Ok l | None => Err UnboundLocalError end.
(** 585-590: Knoben's three, the three of the other file, the two converted ones, the rest *)
Definition new_line (site : string) (v1 v2 : list string) : list string :=
  site :: firstn 3 v1 ++ firstn 3 v2 ++ skipn 3 v1 ++ skipn 3 v2.
(** 461-595 *)
Fixpoint merge (k2b b2k : string -> string) (sites : list string) (last1 last2 : option (list string))
    (file1 file2 : list row) : res (list (list string)) :=
  match sites with
  | [] => Ok []
  | site :: rest =>
      let! s1 := search (take1 k2b) site last1 file1 in
      let! s2 := search (take2 b2k) site last2 file2 in
      let! v1 := bound (fst s1) in
      let! v2 := bound (fst s2) in
      let! r := merge k2b b2k rest (fst s1) (fst s2) (snd s1) (snd s2) in
      Ok (new_line site v1 v2 :: r)
  end.
Definition save_indicators (k2b b2k : string -> string) (sites : list string) (file1 file2 : list row) : res (list (list string)) :=
  merge k2b b2k sites None None file1 file2.

(** 489-492 and 525-528: moisture index to aridity and back *)
Definition K2B (a : Q) : Q := if Qle_bool 0 a then 1 - a else 1 / (a + 1).
Definition B2K (a : Q) : Q := if Qle_bool a 1 then 1 - a else 1 / a - 1.
