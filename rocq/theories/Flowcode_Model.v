(** Model of the conversion of a grid of flow codes: topoflow/utils/tf_utils.py 475-498 (Not_Same_Byte_Order) and
    563-720 (Convert_Flow_Grid), with idl_func.py 32-58 (byte), 127-153 (fstat) and 166-182 (n_elements).

    Files are lists of bytes.  Simplified: the bytes at the end of a file that do not make up a whole number are left
    unread (they are lost in either case); codes given as one number for all (numpy's broadcasting) are a ValueError
    here; nothing is said about the files being closed. *)

From Coq Require Import String List ZArith Bool Arith.
From Verif Require Import Time_Model.
Import ListNotations.
Local Open Scope Z_scope.

(** 475-498 *)
Definition machine_byte_order (big_endian : bool) : string := if big_endian then "MSB" else "LSB".
Definition not_same_byte_order (big_endian : bool) (byte_order : string) : bool :=
  negb (String.eqb (machine_byte_order big_endian) byte_order).

(** 585: the arguments icodes and ocodes.  [icodes, ocodes].count(None) compares each with None; for a numpy array the
    comparison is an array, which has a truth value only where it has at most one entry *)
Inductive codes := NoCodes | AsList (l : list Z) | AsArray (l : list Z).
Definition count_none (c : codes) : res unit :=
  match c with AsArray l => if (length l <=? 1)%nat then Ok tt else Err ValueError | _ => Ok tt end.
(** 600-607 *)
Definition code_list (c : codes) (default : list Z) : list Z :=
  match c with NoCodes => default | AsList l | AsArray l => match l with [] => default | _ => l end end.
Definition arc_codes : list Z := [128; 1; 2; 4; 8; 16; 32; 64].
Definition rt_codes : list Z := [1; 2; 4; 8; 16; 32; 64; 128].

(** 618-619: a table of 255 entries, of type uint8; numpy's indices count from the end where they are negative *)
Definition table_size : Z := 255.
Definition entry (i : Z) : res Z :=
  if (0 <=? i) && (i <? table_size) then Ok i
  else if (- table_size <=? i) && (i <? 0) then Ok (table_size + i) else Err IndexError.
Definition table : Type := Z -> Z.
Fixpoint fill (ic oc : list Z) (t : table) : res table :=
  match ic, oc with
  | [], [] => Ok t
  | i :: ic', o :: oc' => let! k := entry i in fill ic' oc' (fun j => if j =? k then o mod 256 else t j)
  | _, _ => Err ValueError
  end.
Definition look (t : table) (i : Z) : res Z := let! k := entry i in Ok (t k).

(** 648-655 and 680-687: bytes per number.  The output type is that of the table where it is none of the three *)
Definition width (type : string) : nat :=
  if String.eqb type "BYTE" then 1%nat else if String.eqb type "INTEGER" then 2%nat
  else if String.eqb type "LONG" then 4%nat else 1%nat.
(** numbers and bytes: least significant byte first, or the other way round; uint8 has no sign, the others have *)
Fixpoint unsigned (b : list Z) : Z := match b with [] => 0 | x :: r => x + 256 * unsigned r end.
Definition number (big : bool) (b : list Z) : Z :=
  let w := length b in
  let v := unsigned (if big then rev b else b) in
  if (1 <? w)%nat && (2 ^ (8 * Z.of_nat w - 1) <=? v) then v - 2 ^ (8 * Z.of_nat w) else v.
Fixpoint low_bytes (w : nat) (v : Z) : list Z := match w with O => [] | S k => v mod 256 :: low_bytes k (v / 256) end.
Definition bytes (big : bool) (w : nat) (v : Z) : list Z := let l := low_bytes w v in if big then rev l else l.

(** 676: np.fromfile( file, count=n, dtype ): up to n numbers of w bytes, and what is left of the file *)
Fixpoint fromfile (big : bool) (w n : nat) (file : list Z) : list Z * list Z :=
  match n with
  | O => ([], file)
  | S k =>
      if (length file <? w)%nat then ([], file)
      else let '(l, rest) := fromfile big w k (skipn w file) in (number big (firstn w file) :: l, rest)
  end.
Fixpoint look_all (t : table) (l : list Z) : res (list Z) :=
  match l with [] => Ok [] | x :: r => let! y := look t x in let! ys := look_all t r in Ok (y :: ys) end.

(** what is in the output file, and how the call ends *)
Definition outcome : Type := (list Z * option exn)%type.
(** 675-691: the size and the type of the block that is read are those of the block written before *)
Fixpoint blocks (big : bool) (t : table) (wo : nat) (k w n : nat) (file out : list Z) : outcome :=
  match k with
  | O => (out, None)
  | S k' =>
      let '(l, rest) := fromfile big w n file in
      match look_all t l with
      | Err e => (out, Some e)
      | Ok m => blocks big t wo k' wo (length m) rest (out ++ flat_map (bytes big wo) m)
      end
  end.
(** 632-636: the number of blocks is a float; np.arange( 1, n_blocks + 1 ) has as many entries as the next whole
    number says *)
Definition blocksize : Z := 1024.
Definition n_passes (filesize : Z) : Z := (filesize + blocksize - 1) / blocksize.
(** 563-720: itype and otype are in upper case already (612-613).  The part for the last block (695-712) starts with
    the name size, which is not defined in the module; so do array and GUI_Error_Message (591-594) *)
Definition convert_flow_grid (big_endian same_name : bool) (file : list Z) (itype otype byte_order : string)
    (icodes ocodes : codes) : outcome :=
  match (let! _ := count_none icodes in let! _ := count_none ocodes in
         if same_name then Err NameError
         else fill (code_list icodes arc_codes) (code_list ocodes rt_codes) (fun _ => 0)) with
  | Err e => ([], Some e)
  | Ok t =>
      let swap := not_same_byte_order big_endian byte_order in
      let big := xorb swap big_endian in
      let filesize := Z.of_nat (length file) in
      match blocks big t (width otype) (Z.to_nat (n_passes filesize)) (width itype) (Z.to_nat blocksize) file [] with
      | (out, Some e) => (out, Some e)
      | (out, None) => (out, if filesize mod blocksize =? 0 then None else Some NameError)
      end
  end.
