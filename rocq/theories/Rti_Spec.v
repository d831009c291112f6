(** What the theorems on RTI headers say. *)

From Coq Require Import String Ascii List ZArith QArith Qabs Bool.
From Verif Require Import Io_Model Rti_Model.

(** Two headers describe the same grid: same names, sizes and codes; keywords
    equal up to upper case; numbers equal to within half of 10^-12. *)
Definition close (a b : Q) : Prop := (Qabs (a - b) <= 1 # 2000000000000)%Q.
Definition describes (i j : info) : Prop :=
  grid_file j = grid_file i /\ data_source j = data_source i /\
  ncols j = ncols i /\ nrows j = nrows i /\ pixel_geom j = pixel_geom i /\
  data_type j = upper (data_type i) /\ byte_order j = upper (byte_order i) /\
  z_units j = upper (z_units i) /\ box_units j = upper (box_units i) /\
  close (xres j) (xres i) /\ close (yres j) (yres i) /\ close (zres j) (zres i) /\
  close (y_south_edge j) (y_south_edge i) /\ close (y_north_edge j) (y_north_edge i) /\
  close (x_east_edge j) (x_east_edge i) /\ close (x_west_edge j) (x_west_edge i) /\
  close (gmin j) (gmin i) /\ close (gmax j) (gmax i).

(** The same header, field by field. *)
Definition same_info (i j : info) : Prop :=
  grid_file j = grid_file i /\ data_source j = data_source i /\
  ncols j = ncols i /\ nrows j = nrows i /\ pixel_geom j = pixel_geom i /\
  data_type j = data_type i /\ byte_order j = byte_order i /\
  z_units j = z_units i /\ box_units j = box_units i /\ UTM_zone j = UTM_zone i /\
  (xres j == xres i)%Q /\ (yres j == yres i)%Q /\ (zres j == zres i)%Q /\
  (y_south_edge j == y_south_edge i)%Q /\ (y_north_edge j == y_north_edge i)%Q /\
  (x_east_edge j == x_east_edge i)%Q /\ (x_west_edge j == x_west_edge i)%Q /\
  (gmin j == gmin i)%Q /\ (gmax j == gmax i)%Q.

(** Text that fits on a header line: no line break in it, no blanks around. *)
Definition one_line (s : string) : Prop :=
  (forall k, String.get k s <> Some (ascii_of_nat 10)) /\ strip s = s.

(** Headers that can be written: one-line texts, sizes that fit a 32-bit
    integer, a geometry code that fits a byte, a known data type. *)
Definition writable (i : info) : Prop :=
  one_line (grid_file i) /\ one_line (data_source i) /\ one_line (data_type i) /\
  one_line (byte_order i) /\ one_line (z_units i) /\ one_line (box_units i) /\
  one_line (UTM_zone i) /\
  (-2147483648 <= ncols i <= 2147483647)%Z /\ (-2147483648 <= nrows i <= 2147483647)%Z /\
  (0 <= pixel_geom i <= 255)%Z /\
  In (upper (data_type i)) ("BYTE" :: "INTEGER" :: "LONG" :: "LONG64" :: "FLOAT" :: "DOUBLE" :: nil)%string.

(** A number with at most twelve decimals. *)
Definition twelve_decimals (x : Q) : Prop := exists k, (x == inject_Z k / 1000000000000)%Q.
