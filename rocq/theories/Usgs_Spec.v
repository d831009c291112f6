(** What is expected of the expanded names of stations. *)

From Coq Require Import String Ascii List Bool Arith.
Import ListNotations.
Local Open Scope string_scope.

Definition is_digit (c : ascii) : Prop := (48 <= nat_of_ascii c <= 57)%nat.
Definition is_lower (c : ascii) : Prop := (97 <= nat_of_ascii c <= 122)%nat.
(** the character is somewhere in the text *)
Definition has (c : ascii) (s : string) : Prop := In c (list_ascii_of_string s).
(** the digits of the text, in their order *)
Definition digits (s : string) : list ascii :=
  filter (fun c => (Nat.leb 48 (nat_of_ascii c) && Nat.leb (nat_of_ascii c) 57)%nat) (list_ascii_of_string s).
(** every period is the decimal point of a number *)
Definition only_decimal_points (s : string) : Prop :=
  forall a b, s = a ++ String "." b ->
  (exists a' d, a = a' ++ String d "" /\ is_digit d) /\ (exists d b', b = String d b' /\ is_digit d).

(** words and the text they make *)
Definition word (w : string) : Prop := ~ has " " w.
Fixpoint sentence (ws : list string) : string :=
  match ws with [] => "" | [w] => w | w :: r => w ++ " " ++ sentence r end.
(** no word [w] follows a word [w] *)
Fixpoint no_repeat (w : string) (ws : list string) : Prop :=
  match ws with a :: (b :: _) as r => ~ (a = w /\ b = w) /\ no_repeat w r | _ => True end.
Definition number (w : string) : Prop := w <> "" /\ forall c, has c w -> is_digit c.

(** The spellings of the states which are to give way to the postal codes. *)
Definition spellings_of_states : list (string * string) :=
  [("ALA", "AL"); ("ALABAMA", "AL"); ("ARIZ", "AZ"); ("ARK", "AR"); ("ARKANSAS", "AR"); ("CAL", "CA"); ("CALIF", "CA"); ("COLO", "CO");
   ("CONN", "CT"); ("FLA", "FL"); ("FLORIDA", "FL"); ("GEORGIA", "GA"); ("IDAHO", "ID"); ("ILL", "IL"); ("IND", "IN"); ("KENTUCKY", "KY");
   ("LOUISIANA", "LA"); ("MAINE", "ME"); ("MARYLAND", "MD"); ("MASS", "MA"); ("MICH", "MI"); ("MINN", "MN"); ("MISS", "MS");
   ("MISSOURI", "MO"); ("NEBR", "NE"); ("NEVADA", "NV"); ("NEW HAMPSHIRE", "NH"); ("N MEX", "NM"); ("N M", "NM"); ("N Y", "NY");
   ("N C", "NC"); ("N D", "ND"); ("OREG", "OR"); ("S C", "SC"); ("S D", "SD"); ("TEN", "TN"); ("TENN", "TN"); ("TENNESSEE", "TN");
   ("TEX", "TX"); ("TEXAS", "TX"); ("UTAH", "UT"); ("WASH", "WA"); ("W VA", "WV"); ("WYO", "WY")].

(** The fifty states and Puerto Rico. *)
Definition states : list string :=
  ["AL"; "AK"; "AZ"; "AR"; "CA"; "CO"; "CT"; "DE"; "FL"; "GA"; "HI"; "ID"; "IL"; "IN"; "IA"; "KS"; "KY"; "LA"; "ME"; "MD"; "MA"; "MI"; "MN";
   "MS"; "MO"; "MT"; "NE"; "NV"; "NH"; "NJ"; "NM"; "NY"; "NC"; "ND"; "OH"; "OK"; "OR"; "PA"; "RI"; "SC"; "SD"; "TN"; "TX"; "UT"; "VT"; "VA";
   "WA"; "WV"; "WI"; "WY"; "PR"].

(** What the usual abbreviations stand for. *)
Definition meanings : list (string * string) :=
  [("AB", "ABOVE"); ("ABV", "ABOVE"); ("BL", "BELOW"); ("BLW", "BELOW"); ("DS", "DOWNSTREAM"); ("NR", "NEAR"); ("UPSTR", "UPSTREAM");
   ("RM", "RIVER MILE"); ("FK", "FORK"); ("BR", "BRANCH"); ("BK", "BROOK"); ("BRK", "BROOK"); ("BYU", "BAYOU"); ("CONFL", "CONFLUENCE");
   ("C", "CREEK"); ("CK", "CREEK"); ("CR", "CREEK"); ("CRK", "CREEK"); ("CYN", "CANYON"); ("DIV", "DIVERSION"); ("DTCH", "DITCH");
   ("FDR", "FEEDER"); ("INTK", "INTAKE"); ("L", "LITTLE"); ("LK", "LAKE"); ("MTH", "MOUTH"); ("PD", "POND"); ("R", "RIVER"); ("RV", "RIVER");
   ("RIV", "RIVER"); ("RES", "RESERVOIR"); ("RPDS", "RAPIDS"); ("SPGS", "SPRINGS"); ("STR", "STREAM"); ("TRIB", "TRIBUTARY"); ("ISL", "ISLAND");
   ("MT", "MOUNT"); ("MTN", "MOUNTAIN"); ("PT", "POINT"); ("STA", "STATION"); ("AVE", "AVENUE"); ("BLVD", "BOULEVARD"); ("BRG", "BRIDGE");
   ("HWY", "HIGHWAY"); ("JCT", "JUNCTION"); ("LN", "LANE"); ("PKWY", "PARKWAY"); ("RD", "ROAD"); ("RT", "ROUTE"); ("TPKE", "TURNPIKE")].
