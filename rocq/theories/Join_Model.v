(** Model of tables of stations as lines of text: topoflow/utils/ngen/gages2_utils.py 655-668 and 1659-1793
    (combine_tsv_files), classify.py 225-260 and 316-343 (get_site_ids, get_common_site_ids), data_utils.py 849-863,
    891-913 and 1365-1394 (get_basin_ids, compare_basin_ids, sort_tsv_by_site_id), mopex_utils.py 61-89 (sort_by_site_code).
    A line of a file includes its newline.  Names of files and printed text are left out. *)

From Coq Require Import Ascii String List Bool Arith.
From Verif Require Import Time_Model Io_Model Template_Model Bundle_Model Collate_Model.
Import ListNotations.
Local Open Scope string_scope.

Definition nl : string := String (ascii_of_nat 10) "".
Definition dict := list (string * string).

(** ** combine_tsv_files *)

(** 664-668 *)
Definition get_csv_headings (header : string) : list string := map strip (split tab_char header).
(** 1721-1723, 1740-1742: values[j] for every heading; a later value of the same heading replaces an earlier one *)
Fixpoint val_dict (headings values : list string) : res dict :=
  match headings, values with
  | [], _ => Ok []
  | h :: _, [] => Err IndexError
  | h :: hs, v :: vs => let! d := val_dict hs vs in Ok ((h, v) :: d)
  end.
(** the last one counts *)
Fixpoint get_val (d : dict) (h : string) : option string :=
  match d with
  | [] => None
  | (k, v) :: r => match get_val r h with Some w => Some w | None => if String.eqb k h then Some v else None end
  end.
Definition val (d : dict) (h : string) : res string := match get_val d h with Some v => Ok v | None => Err KeyError end.
(** 1719-1724, 1734-1743 *)
Definition read_row (headings : list string) (line : string) : res (string * dict) :=
  let! d := val_dict headings (split tab_char (but_last line)) in let! i := val d "STAID" in Ok (i, d).
(** 1689-1694 *)
Definition new_headings : list string :=
  ["LONG_CENT"; "LAT_CENT"; "ARIDITY_INDEX"; "PRECIP_TIMING_INDEX"; "SNOW_PRECIP_FRACTION"; "SWB2_CLASS";
   "KNOBEN_ARIDITY"; "KNOBEN_SEASONALITY"; "KNOBEN_SNOW_FRAC"].
(** 1749-1769: the line of a basin *)
Definition out_line (h1 : list string) (d1 : dict) (same : bool) (d2 : dict) : res string :=
  let! a := rmap (val d1) h1 in
  let! b := (if same then rmap (val d2) new_headings else Ok (map (fun _ => "-") new_headings)) in
  Ok (tsv_line (a ++ b) ++ nl).
(** 1726-1786: the row of the second file stays when it has ended *)
Fixpoint combine_loop (h1 h2 : list string) (id2 : string) (d2 : dict) (lines1 lines2 : list string) : res (list string) :=
  match lines1 with
  | [] => Ok []
  | line1 :: rest1 =>
    let! r1 := read_row h1 line1 in
    let same := String.eqb id2 (fst r1) in
    let! out := out_line h1 (snd r1) same d2 in
    let! more := (if same then match lines2 with
                               | [] => combine_loop h1 h2 id2 d2 rest1 []
                               | line2 :: rest2 => let! r2 := read_row h2 line2 in combine_loop h1 h2 (fst r2) (snd r2) rest1 rest2
                               end
                  else combine_loop h1 h2 id2 d2 rest1 lines2) in
    Ok (out :: more)
  end.
(** 1672-1770: the lines of the new file; readline gives '' at the end of a file *)
Definition first_line (l : list string) : string * list string := match l with [] => ("", []) | x :: r => (x, r) end.
Definition combine_tsv_files (file1 file2 : list string) : res (list string) :=
  let (header1, lines1) := first_line file1 in
  let (header2, lines2) := first_line file2 in
  let h1 := get_csv_headings header1 in let h2 := get_csv_headings header2 in
  let (line2, rest2) := first_line lines2 in
  let! r2 := read_row h2 line2 in
  let! out := combine_loop h1 h2 (fst r2) (snd r2) lines1 rest2 in
  Ok ((tsv_line (h1 ++ new_headings) ++ nl) :: out).

(** ** Lists of stations *)

(** str.isdigit, for ASCII *)
Definition is_digit (c : ascii) : bool := let n := nat_of_ascii c in Nat.leb 48 n && Nat.leb n 57.
Fixpoint all_digits (s : string) : bool := match s with EmptyString => true | String c r => is_digit c && all_digits r end.
Definition isdigit (s : string) : bool := match s with EmptyString => false | _ => all_digits s end.
(** classify.py 225-260 *)
Definition get_site_ids (delim : ascii) (col : nat) (numeric : bool) (file : list string) : res (list string) :=
  let! ids := rmap (fun line => let! v := item (split delim (but_last line)) col in Ok (strip v)) (snd (first_line file)) in
  Ok (sort (if numeric then filter isdigit ids else ids)).
(** list(set(a) & set(b)) and list(set(a) - set(b)) in some order: they are sorted next *)
Definition isin (l : list string) (x : string) : bool := existsb (String.eqb x) l.
Definition both (a b : list string) : list string := filter (isin b) (nodup string_dec a).
Definition minus (a b : list string) : list string := filter (fun x => negb (isin b x)) (nodup string_dec a).
(** classify.py 324-343 *)
Inductive option_name := Common | In1not2.
Definition get_common_site_ids (o : option_name) (ids1 ids2 : list string) : list string :=
  match o with Common => sort (both ids1 ids2) | In1not2 => sort (minus ids1 ids2) end.

(** data_utils.py 849-863; Collate_Model.pad is 857-858 *)
Definition get_basin_ids (delim : ascii) (col : nat) (wqp : bool) (lines : list string) : res (list string) :=
  rmap (fun line => let! v := item (split delim line) col in
                    let i := strip v in Ok (pad (if wqp then replace_str "USGS-" "" i else i))) lines.
(** data_utils.py 894-915: the five numbers that are printed *)
Definition compare_basin_ids (ids1 ids2 : list string) : nat * nat * nat * nat * nat :=
  (length (nodup string_dec ids1), length (nodup string_dec ids2), length (both ids1 ids2), length (minus ids1 ids2), length (minus ids2 ids1)).

(** ** Sorting of files *)

(** data_utils.py 1381-1387 *)
Definition padded (line : string) : string :=
  match split tab_char line with
  | v :: _ => if Nat.eqb (String.length (strip v)) 7 then "0" ++ line else line
  | [] => line
  end.
(** data_utils.py 1372-1394: the text of the new file *)
Definition text (l : list string) : string := fold_right append "" l.
Definition sort_tsv_by_site_id (nh_lines : nat) (lines : list string) : string :=
  text (firstn nh_lines lines ++ sort (map padded (skipn nh_lines lines))).
(** str.find(tab) *)
Fixpoint tab_pos (s : string) : option nat :=
  match s with EmptyString => None | String c r => if Ascii.eqb c tab_char then Some 0 else match tab_pos r with Some n => Some (S n) | None => None end end.
(** line[:pos] and line[pos+1:], for pos = -1 too *)
Definition upto (line : string) : string := match tab_pos line with Some n => take n line | None => but_last line end.
Definition after (line : string) : string := match tab_pos line with Some n => drop (S n) line | None => line end.
(** mopex_utils.py 71-79 *)
Definition swap_columns (line : string) : string :=
  let site_id := upto line in let line := after line in
  let site_code := upto line in let line := after line in
  site_code ++ String tab_char (site_id ++ String tab_char line).
(** mopex_utils.py 61-89 *)
Definition sort_by_site_code (lines : list string) : res (list string) :=
  match map swap_columns lines with [] => Err IndexError | header :: l => Ok (header :: sort l) end.
