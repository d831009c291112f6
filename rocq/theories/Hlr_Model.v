(** Model of the table of basins of the hydrologic landscape regions: topoflow/utils/ngen/hlr_utils.py
    298-664 (create_tsv: which features are looked at, counted and written), 1011-1112 (get_cols_and_rows2),
    1116-1156 (get_polygon_zvals) and 1160-1173 (check_lon_lats).

    Not modelled: the shapefile and its polygons (whether a basin is in the DEM and the lowest elevation found
    along its boundary are given with the feature: Site_Model and Bound_Model), the text of a line, 32-bit
    overflow of the counters. *)

From Coq Require Import String List ZArith QArith Qround Bool Arith.
From Verif Require Import Time_Model.
Import ListNotations.
Local Open Scope Z_scope.

(** 417-422, 431, 522-532: what is used of a feature: VALUE, COUNT, MINELE, HLR, AREA; in the DEM or not; lowest
    elevation of its boundary, and whether there is just one such cell *)
Record feature := { f_value : Z; f_count : Z; f_minele : Z; f_code : Z; f_area : Z;
                    f_inside : bool; f_zmin : Z; f_one : bool }.

(** 335-361 *)
Record state := { total : nat; unique : nat; excluded : nat; saved : nat; one_cell : nat; code_zero : nat;
                  zmin_match : nat; one_zmin : nat; one_zmin_match : nat; not_in_dem : nat;
                  not_in_dem_vals : list Z; hlr_histogram : Z -> nat; val_histogram : Z -> nat;
                  hlr_zmin_match : Z -> bool; headers : nat; rows : list feature }.
Definition state0 : state :=
  {| total := 0; unique := 0; excluded := 0; saved := 0; one_cell := 0; code_zero := 0; zmin_match := 0;
     one_zmin := 0; one_zmin_match := 0; not_in_dem := 0; not_in_dem_vals := []; hlr_histogram := fun _ => 0%nat;
     val_histogram := fun _ => 0%nat; hlr_zmin_match := fun _ => false; headers := 0; rows := [] |}.
(** 357-359 *)
Definition max_val : Z := 48000.
Definition n_codes : Z := 21.
(** the place of index i in an array of n entries: negative ones count from the end *)
Definition place (n i : Z) : res Z :=
  if (0 <=? i) && (i <? n) then Ok i else if (- n <=? i) && (i <? 0) then Ok (n + i) else Err IndexError.
Definition bump (h : Z -> nat) (i : Z) : Z -> nat := fun j => if j =? i then S (h j) else h j.

(** 401-463: the header before the first feature, the two reasons to leave out a feature, and the counts of all
    features *)
Definition is_one_cell (old : bool) (f : feature) : bool := if old then f_area f =? 1000000 else f_count f =? 1.
Definition exclude (old : bool) (f : feature) : bool := (f_code f =? 0) || is_one_cell old f.
Definition count (old : bool) (f : feature) (s : state) : res state :=
  let! v := place max_val (f_value f) in
  Ok {| total := S (total s);
        unique := if (val_histogram s v =? 0)%nat then S (unique s) else unique s;
        excluded := excluded s; saved := saved s;
        one_cell := if is_one_cell old f then S (one_cell s) else one_cell s;
        code_zero := if f_code f =? 0 then S (code_zero s) else code_zero s;
        zmin_match := zmin_match s; one_zmin := one_zmin s; one_zmin_match := one_zmin_match s;
        not_in_dem := not_in_dem s; not_in_dem_vals := not_in_dem_vals s; hlr_histogram := hlr_histogram s;
        val_histogram := bump (val_histogram s) v; hlr_zmin_match := hlr_zmin_match s;
        headers := if (total s =? 0)%nat then S (headers s) else headers s; rows := rows s |}.
(** 479-481 *)
Definition leave_out (s : state) : state :=
  {| total := total s; unique := unique s; excluded := S (excluded s); saved := saved s; one_cell := one_cell s;
     code_zero := code_zero s; zmin_match := zmin_match s; one_zmin := one_zmin s;
     one_zmin_match := one_zmin_match s; not_in_dem := not_in_dem s; not_in_dem_vals := not_in_dem_vals s;
     hlr_histogram := hlr_histogram s; val_histogram := val_histogram s; hlr_zmin_match := hlr_zmin_match s;
     headers := headers s; rows := rows s |}.
(** 686-688 *)
Definition outside (f : feature) (s : state) : state :=
  {| total := total s; unique := unique s; excluded := excluded s; saved := saved s; one_cell := one_cell s;
     code_zero := code_zero s; zmin_match := zmin_match s; one_zmin := one_zmin s;
     one_zmin_match := one_zmin_match s; not_in_dem := S (not_in_dem s);
     not_in_dem_vals := not_in_dem_vals s ++ [f_value f];
     hlr_histogram := hlr_histogram s; val_histogram := val_histogram s; hlr_zmin_match := hlr_zmin_match s;
     headers := headers s; rows := rows s |}.
(** 830-836 *)
Definition outlet_counts (f : feature) (s : state) : res state :=
  let! v := place max_val (f_value f) in
  let same := f_zmin f =? f_minele f in
  Ok {| total := total s; unique := unique s; excluded := excluded s; saved := saved s; one_cell := one_cell s;
        code_zero := code_zero s;
        zmin_match := if same then S (zmin_match s) else zmin_match s;
        one_zmin := if f_one f then S (one_zmin s) else one_zmin s;
        one_zmin_match := if same && f_one f then S (one_zmin_match s) else one_zmin_match s;
        not_in_dem := not_in_dem s; not_in_dem_vals := not_in_dem_vals s;
        hlr_histogram := hlr_histogram s; val_histogram := val_histogram s;
        hlr_zmin_match := if same then (fun j => (j =? v) || hlr_zmin_match s j) else hlr_zmin_match s;
        headers := headers s; rows := rows s |}.
(** 580-592 *)
Definition good_info (f : feature) : bool := (0 <? f_code f) && (1 <? f_count f).
Definition good_outlet (f : feature) : bool := (f_zmin f =? f_minele f) && f_one f.
Definition save_info (with_outlet : bool) (f : feature) : bool :=
  if with_outlet then good_info f && good_outlet f else good_info f.
(** 597-612: the line is written before the code is counted *)
Definition save (f : feature) (s : state) : res state :=
  let! c := place n_codes (f_code f) in
  Ok {| total := total s; unique := unique s; excluded := excluded s; saved := S (saved s); one_cell := one_cell s;
        code_zero := code_zero s; zmin_match := zmin_match s; one_zmin := one_zmin s;
        one_zmin_match := one_zmin_match s; not_in_dem := not_in_dem s; not_in_dem_vals := not_in_dem_vals s;
        hlr_histogram := bump (hlr_histogram s) c; val_histogram := val_histogram s;
        hlr_zmin_match := hlr_zmin_match s; headers := headers s; rows := rows s ++ [f] |}.

(** 393-615: one feature; the flag tells whether the end of the loop body (614) is reached *)
Definition visit (old with_outlet : bool) (f : feature) (s : state) : res (state * bool) :=
  let! s := count old f s in
  if exclude old f then Ok (leave_out s, false)
  else if with_outlet && negb (f_inside f) then Ok (outside f s, false)
  else
    let! s := (if with_outlet then outlet_counts f s else Ok s) in
    let! s := (if save_info with_outlet f then save f s else Ok s) in
    Ok (s, true).
Fixpoint loop (old with_outlet : bool) (nb_max : nat) (l : list feature) (s : state) : res state :=
  match l with
  | [] => Ok s
  | f :: rest =>
      let! r := visit old with_outlet f s in
      let '(s', at_end) := r in
      if at_end && (nb_max <=? total s')%nat then Ok s' else loop old with_outlet nb_max rest s'
  end.
Definition create_tsv (old with_outlet : bool) (nb_max : nat) (l : list feature) : res state :=
  loop old with_outlet nb_max l state0.

(** 1060-1101: numpy's ways of rounding; anything else is np.around *)
Definition trunc (x : Q) : Z := if Qle_bool 0 x then Qfloor x else Qceiling x.
Definition half_even (x : Q) : Z :=
  let f := Qfloor x in
  match Qcompare (x - inject_Z f) (1 # 2) with
  | Lt => f | Gt => f + 1 | Eq => if Z.even f then f else f + 1
  end.
Definition rounding (round_method : string) : (Q -> Z) * (Q -> Z) :=
  if String.eqb round_method "floor" then (Qfloor, Qfloor)
  else if String.eqb round_method "ceil" then (Qceiling, Qceiling)
  else if String.eqb round_method "trunc" then (trunc, trunc)
  else if String.eqb round_method "around" then (half_even, half_even)
  else if String.eqb round_method "ceilfloor" then (Qceiling, Qfloor)
  else if String.eqb round_method "floorceil" then (Qfloor, Qceiling)
  else (half_even, half_even).
(** 1011-1112, one point *)
Definition get_cols_and_rows2 (round_method : string) (xmin ymax dx dy : Q) (p : Q * Q) : Z * Z :=
  (fst (rounding round_method) ((fst p - xmin) / dx)%Q, snd (rounding round_method) ((ymax - snd p) / dy)%Q).
(** 1160-1173: cells with their longitudes and latitudes *)
Definition check_lon_lats (ncols nrows : Z) (l : list ((Z * Z) * (Q * Q))) : list ((Z * Z) * (Q * Q)) :=
  filter (fun e => ((0 <=? fst (fst e)) && (fst (fst e) <? ncols)) &&
                   ((0 <=? snd (fst e)) && (snd (fst e) <? nrows))) l.

(** 1123, 1135: a number into an array of type int16.  Up to NumPy 1.x it is reduced to 16 bits; NumPy 2 refuses. *)
Definition store16 (numpy2 : bool) (v : Z) : res Z :=
  if (-32768 <=? v) && (v <? 32768) then Ok v
  else if numpy2 then Err OverflowError else Ok ((v + 32768) mod 65536 - 32768).
(** 1134: int.from_bytes( b, byteorder='big' ), which takes the bytes as unsigned; there may be less than two *)
Definition big (b : list Z) : Z := fold_left (fun a x => 256 * a + x) b 0.
(** 1126-1135; seek to a negative place is an OSError, which is written ValueError here *)
Definition get_zval (numpy2 : bool) (ncols : Z) (file : list Z) (cr : Z * Z) : res Z :=
  let offset := 2 * (snd cr * ncols + fst cr) in
  if offset <? 0 then Err ValueError else store16 numpy2 (big (firstn 2 (skipn (Z.to_nat offset) file))).
Fixpoint get_polygon_zvals (numpy2 : bool) (ncols : Z) (file : list Z) (l : list (Z * Z)) : res (list Z) :=
  match l with
  | [] => Ok []
  | c :: rest => let! z := get_zval numpy2 ncols file c in let! r := get_polygon_zvals numpy2 ncols file rest in
                 Ok (z :: r)
  end.
