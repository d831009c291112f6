(** Model of the files of the diversions component and of the places they name:
    topoflow/utils/cfg_files.py 112-286, diversions_fraction_method.py 255-513
    and channels_base.py 1407-1447.

    Numbers are rationals; int32 overflow is not modelled.  eval(word) is
    [eval_num] of Rti_Model: a decimal number, anything else is refused. *)

From Coq Require Import String Ascii List ZArith NArith QArith Qround Bool.
From Verif Require Import Base Time_Model Io_Model Rti_Model Fmt_Model Div_Model.
Import ListNotations.

(** ** cfg_files.py *)

(** 154-177 read_words_after_key with the defaults, and 134-150
    read_line_after_key: the words after the first colon, and the text left. *)
Definition read_words_after_key (s : string) : list string * string :=
  let '(line, rest) := readline s in
  (words (match after_colon line with Some v => strip v | None => EmptyString end), rest).

(** 239-286 read_value for a number: a word that is no number is returned as it
    is. *)
Definition read_value (s : string) : res ((string + Q) * string) :=
  let '(ws, rest) := read_words_after_key s in
  let! w := item ws 0 in
  Ok (match eval_num w with Ok q => inr q | Err _ => inl w end, rest).

(** np.int32(value) and np.float64(value).  A word is kept and fails in the next
    statement that needs a number, with the exception [e]. *)
Definition as_int (e : exn) (v : string + Q) : res Z :=
  match v with inr q => Ok (trunc q) | inl _ => Err e end.
Definition as_float (e : exn) (v : string + Q) : res Q :=
  match v with inr q => Ok q | inl _ => Err e end.

(** 181-235 read_list_after_key(dtype='float64'): here eval is not guarded.
    Simplified: the exception of eval is ValueError. *)
Fixpoint eval_all (ws : list string) : res (list Q) :=
  match ws with
  | [] => Ok []
  | w :: r => match eval_num (strip w) with
              | Err _ => Err ValueError
              | Ok q => let! qs := eval_all r in Ok (q :: qs)
              end
  end.
Definition read_list (s : string) : res (list Q * string) :=
  let '(ws, rest) := read_words_after_key s in
  let! qs := eval_all ws in Ok (qs, rest).

(** ** diversions_fraction_method.py *)

(** np.zeros([n]): the length, refused when negative *)
Definition np_zeros (n : Z) : res nat :=
  if (n <? 0)%Z then Err ValueError else Ok (Z.to_nat n).

(** the length of row[0:nt] *)
Definition slice_len (nt_max : nat) (nt : Z) : nat :=
  if (nt <? 0)%Z then Z.to_nat (Z.of_nat nt_max + nt) else Nat.min (Z.to_nat nt) nt_max.

Record sources := mksources { s_IDs : list Z; s_nts : list Z; s_nt_max : nat; s_all : list (list Q) }.

(** 303-313: one source after the other *)
Fixpoint source_loop (n nt_max : nat) (s : string) : res (list (Z * Z * list Q)) :=
  match n with
  | O => Ok []
  | S n' =>
    let! (ID, s) := read_value s in
    let! (nt, s) := read_value s in
    let! (values, s) := read_list s in
    let! ID := as_int ValueError ID in
    let! nt := as_int ValueError nt in
    let! row := source_row nt_max (slice_len nt_max nt) values in
    let! r := source_loop n' nt_max s in
    Ok ((ID, nt, row) :: r)
  end.

(** 286-318 read_source_data of a file that is there.  (source_dt, 288, is read
    and used by nobody.) *)
Definition read_source_data (s : string) : res sources :=
  let! (n, s) := read_value s in
  let! (nt_max, s) := read_value s in
  let! (_, s) := read_value s in
  let! n := as_int TypeError n in let! n := np_zeros n in
  let! nt_max := as_int TypeError nt_max in let! nt_max := np_zeros nt_max in
  let! l := source_loop n nt_max s in
  Ok (mksources (map (fun r => fst (fst r)) l) (map (fun r => snd (fst r)) l) nt_max (map snd l)).

(** 378-388: as for the sources, but 383 calls size, which is not defined. *)
Definition sink_loop (n : nat) (s : string) : res (list (Z * Z * list Q)) :=
  match n with
  | O => Ok []
  | S _ =>
    let! (_, s) := read_value s in
    let! (_, s) := read_value s in
    let! (_, s) := read_list s in
    Err NameError
  end.
(** 361-393 read_sink_data *)
Definition read_sink_data (s : string) : res sources :=
  let! (n, s) := read_value s in
  let! (nt_max, s) := read_value s in
  let! (_, s) := read_value s in
  let! n := as_int TypeError n in let! n := np_zeros n in
  let! nt_max := as_int TypeError nt_max in let! nt_max := np_zeros nt_max in
  let! l := sink_loop n s in
  Ok (mksources (map (fun r => fst (fst r)) l) (map (fun r => snd (fst r)) l) nt_max (map snd l)).

Record canal := mkcanal { in_ID : Z; out_ID : Z; fraction : Q; travel : Q }.

(** 463-472 *)
Fixpoint canal_loop (n : nat) (s : string) : res (list canal) :=
  match n with
  | O => Ok []
  | S n' =>
    let! (a, s) := read_value s in
    let! (b, s) := read_value s in
    let! (f, s) := read_value s in
    let! (t, s) := read_value s in
    let! a := as_int ValueError a in
    let! b := as_int ValueError b in
    let! f := as_float ValueError f in
    let! t := as_float ValueError t in
    let! r := canal_loop n' s in
    Ok (mkcanal a b f t :: r)
  end.
(** 449-511 read_canal_data: the canals and the empty reaches.  np.int (508) is
    gone from current numpy. *)
Definition read_canal_data (old_numpy : bool) (dt : Q) (s : string) : res (list canal * canals) :=
  let! (n, s) := read_value s in
  let! n := as_int TypeError n in let! n := np_zeros n in
  let! l := canal_loop n s in
  if (length l =? 0)%nat then Err ValueError
  else if negb old_numpy then Err AttributeError
  else let! c := init_canals dt (map travel l) in Ok (l, c).

(** diversions_base.py 95-100 and diversions_fraction_method.py 266-275, 297: the
    attribute n_sources after initialize(); None: it does not exist. *)
Definition n_sources (use_sources : bool) (file : option string) : res (option Z) :=
  if negb use_sources then Ok (Some 0%Z)
  else match file with
       | None => Ok None
       | Some s => let! r := read_source_data s in Ok (Some (Z.of_nat (length (s_IDs r))))
       end.

(** ** Places *)

(** 323-326 (and 398-401, 491-499): pixel ID to coordinates.  The row is a true
    division. *)
Definition place_x (nx : Z) (dx : Q) (ID : Z) : Q := inject_Z (ID mod nx) * dx.
Definition place_y (nx : Z) (dy : Q) (ID : Z) : Q := inject_Z ID / inject_Z nx * dy.

(** channels_base.py 1412-1438 initialize_diversion_vars: coordinates to row and
    column.  (Its call, 1400, is commented out.) *)
Definition place_cell (nx ny : Z) (x y : Q) : Z * Z :=
  (trunc (y / inject_Z ny), trunc (x / inject_Z nx)).
