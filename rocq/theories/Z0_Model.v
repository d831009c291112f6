(** Model of the initial DEM of the erosion models:
    topoflow/components/erode_base.py 455-462 (options), 490-564 (initialize_DEM)
    and 569-699 (create_initial_DEM), with utils/midpoints.py 34-276.

    Numbers are rationals (float32 conversion is left out).  A grid file is the
    type of its numbers and the numbers.  The Gaussian random numbers are given.
    Printing is left out; NaN does not occur. *)

From Coq Require Import String List ZArith QArith Bool.
From Verif Require Import Base Time_Model Io_Model.
Import ListNotations.

Inductive kind := Byte | Integer | Long | Float | Double.
Definition bpe (k : kind) : Z := match k with Byte => 1 | Integer => 2 | Long => 4 | Float => 4 | Double => 8 end.
Definition kind_eqb (a b : kind) : bool :=
  match a, b with Byte, Byte | Integer, Integer | Long, Long | Float, Float | Double, Double => true | _, _ => false end.
Record gfile := mkfile { fkind : kind; fcells : list Q }.
(** os.path.getsize *)
Definition fsize (f : gfile) : Z := Z.of_nat (length (fcells f)) * bpe (fkind f).

(** What self.DEM is afterwards: numbers, the bits of numbers of another type, or
    no DEM at all (513-515: return), or the file cannot be opened (501). *)
Inductive dem := Numbers (z : list Q) | Bits (f : gfile) (as_kind : kind) | Missing | NoFile.

Record options := mkopt { make_z0_method : string; noise_method : string; ny : nat; nx : nat;
  dx : Q; dy : Q; noise_scale : Q; plane_dz_dx : Q; plane_dz_dy : Q }.

(** 501-520: the type of the file from its size *)
Definition read_z0 (o : options) (f : gfile) : dem :=
  let n := (Z.of_nat (nx o) * Z.of_nat (ny o))%Z in
  let found := if (fsize f =? n * 8)%Z then Some Double
               else if (fsize f =? n * 4)%Z then Some Float
               else if (fsize f =? n * 2)%Z then Some Integer else None in
  match found with
  | None => Missing
  | Some k => if kind_eqb k (fkind f) then Numbers (fcells f) else Bits f k
  end.

(** midpoints.make_fractal_surface 59-65, 125, 157-164: step = step / 2 is a float
    in Python 3, so the first array of indices is refused; above 11 levels the
    function returns None, which cannot be indexed (erode_base.py 631).
    Simplified: the grid has at least three rows or columns. *)
Definition midpoint_surface (nn : nat) : res (nat -> nat -> Q) :=
  if (2049 <? nn)%nat then Err TypeError else Err IndexError.

Definition is (s name : string) : bool := String.eqb (upper s) name.

(** 598-635; float32 is not a name of this module *)
Definition base_surface (o : options) (normal : nat -> nat -> Q) : res (nat -> nat -> Q) :=
  if is (noise_method o) "GAUSSIAN" then Ok (fun i j => noise_scale o * normal i j)
  else if is (noise_method o) "MIDPOINTS" then midpoint_surface (Nat.max (nx o) (ny o))
  else Err NameError.

(** 640-689; sqrt is not a name of this module *)
Definition create_z0 (o : options) (normal : nat -> nat -> Q) : res (list Q) :=
  let! z := base_surface o normal in
  let x j := dx o * inject_Z (Z.of_nat j) in
  let y i := dy o * inject_Z (Z.of_nat (ny o) - 1 - Z.of_nat i) in
  let z := if is (make_z0_method o) "PLANE"
           then fun i j => z i j + (plane_dz_dx o * x j + plane_dz_dy o * y i) else z in
  if is (make_z0_method o) "CORNER_PLANE" then Err NameError
  else Ok (flat_map (fun i => map (fun j => z i j) (seq 0 (nx o))) (seq 0 (ny o))).

(** 490-564, with the z0 file before and after (698: it is written as DOUBLE) *)
Definition initialize_DEM (o : options) (normal : nat -> nat -> Q) (file : option gfile) : res (dem * option gfile) :=
  if String.eqb (make_z0_method o) "READ_FILE"
  then match file with
       | None => Ok (NoFile, None)
       | Some f => Ok (read_z0 o f, file)
       end
  else let! z := create_z0 o normal in Ok (Numbers z, Some (mkfile Double z)).
