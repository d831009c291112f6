(** Model of the expansion of the names of USGS stations: topoflow/utils/ngen/usgs_utils.py
    914-1728 (replace_periods, replace_punctuation, replace_st, replace_ft,
    replace_abbreviations, replace_state_letters, fix_spellings, replace_city_letters,
    expand_usgs_site_name, get_usgs_long_name) and get_state_code of
    topoflow/utils/ngen/data_utils.py 1106-1285.

    Text is ASCII (simplified: str.upper, str.lower, str.title, str.isnumeric on ASCII only). *)

From Coq Require Import String Ascii List Bool Arith.
From Verif Require Import Time_Model Io_Model Template_Model.
Import ListNotations.
Local Open Scope string_scope.

(** name[-n:], name[:-n] *)
Definition last_n (n : nat) (s : string) : string := drop (String.length s - n) s.
Definition but_n (n : nat) (s : string) : string := take (String.length s - n) s.
(** s.endswith(x) *)
Definition endswith (x s : string) : bool := Nat.leb (String.length x) (String.length s) && String.eqb (last_n (String.length x) s) x.
(** x in s *)
Fixpoint occurs (x s : string) : bool :=
  String.prefix x s || match s with EmptyString => false | String _ r => occurs x r end.

(** the kinds of statement of the functions: name = name.replace(old, new); the same after
    if (test in name); if (name[-n:] == x): name = name[:-n] + t; if name.endswith(x): name =
    name[:-n] + t; if (name[:n] == x): name = t + name[n:]; if (name == x): name = t; if (name ==
    x): name = name.replace(old, new); if name.startswith(x): name = t *)
Inductive step :=
| Repl (old new : string) | ReplIf (test old new : string) | Tail (n : nat) (x t : string) | Ends (x : string) (n : nat) (t : string)
| Head (n : nat) (x t : string) | EqSet (x t : string) | EqRepl (x old new : string) | StartSet (x t : string).

Definition apply (name : string) (a : step) : string :=
  match a with
  | Repl old new => replace_str old new name
  | ReplIf x old new => if occurs x name then replace_str old new name else name
  | Tail n x t => if String.eqb (last_n n name) x then but_n n name ++ t else name
  | Ends x n t => if endswith x name then but_n n name ++ t else name
  | Head n x t => if String.eqb (take n name) x then t ++ drop n name else name
  | EqSet x t => if String.eqb name x then t else name
  | EqRepl x old new => if String.eqb name x then replace_str old new name else name
  | StartSet x t => if String.prefix x name then t else name
  end.
Definition follow (l : list step) (name : string) : string := fold_left apply l name.

(** c.isnumeric() for one character, and for a word *)
Definition digit (c : ascii) : bool := (Nat.leb 48 (nat_of_ascii c) && Nat.leb (nat_of_ascii c) 57)%nat.
Fixpoint all_digits (s : string) : bool := match s with EmptyString => true | String c r => digit c && all_digits r end.
Definition isnumeric (s : string) : bool := negb (String.eqb s "") && all_digits s.

(** 914-944 replace_periods(name, ''): [left] is whether the character before is a digit *)
Fixpoint periods (left : bool) (s : string) : string :=
  match s with
  | EmptyString => EmptyString
  | String c r =>
      let right := match r with String d _ => digit d | EmptyString => false end in
      if Ascii.eqb c "." && negb (left && right) then periods (digit c) r else String c (periods (digit c) r)
  end.
Definition replace_periods (name : string) : string := periods false name.

(** 949-954 and 956-958 of replace_punctuation *)
Definition commas : list step :=
  [Repl ", " ","; Repl "," " "; Repl "; " ";"; Repl ";" " "].
Definition ats : list step :=
  [Repl "@" "AT"; Repl "  " " "].
(** 947-961 *)
Definition replace_punctuation (name : string) : string := follow ats (replace_periods (follow commas name)).

(** 979-1003 *)
Definition saint_list : list string :=
  ["ALBAN"; "ALBANS"; "ANTHONY"; "ANTHONYS"; "AUGUST"; "AUGUSTINE"; "BENEDICT"; "BENEDICTS"; "CLEMENT"; "CLEMENTS"; "CROIX"; "DAVID"; "DAVIDS";
   "FRANCIS"; "GEORGE"; "GEORGES"; "HELENA"; "HELENS"; "JOE"; "JOHN"; "JOHNS"; "JOHNSBURY"; "JOSEPH"; "JOSEPHS"; "LANDRY"; "LEONARD"; "LEONARDS";
   "LOUIS"; "MARIES"; "MARY"; "MARYS"; "MATTHEW"; "MATTHEWS"; "MICHAEL"; "MICHAELS"; "PARIS"; "PAUL"; "PAULS"; "SEBASTIAN"; "SEBASTIANS"; "STEPHEN";
   "STEPHENS"; "THOMAS"].
(** 964-1026 replace_st *)
Definition st_steps : list step :=
  app [Repl " ST LINE " " STATE LINE "; Repl " ST HWY " " STATE HIGHWAY "; Repl " ST HW " " STATE HIGHWAY "]
  (app (map (fun saint => ReplIf ("ST " ++ saint) ("ST " ++ saint) ("SAINT " ++ saint)) saint_list) [ReplIf " ST " " ST " " STREET "]).

(** the text before the first [x] in [s]; s.split(x)[0] *)
Fixpoint before (x s : string) : string :=
  if String.prefix x s then EmptyString
  else match s with EmptyString => EmptyString | String c r => String c (before x r) end.
(** 1029-1089 replace_ft *)
Definition replace_ft (name : string) : string :=
  let name := upper name in
  if negb (occurs " FT " name) then name
  else let last_word := List.last (split " " (before " FT " name)) "" in
       if isnumeric last_word then replace_str " FT " " FEET " name else replace_str " FT " " FORT " name.

(** 1108-1382 of replace_abbreviations *)
Definition abbreviations : list step :=
  [Repl " A " " AT "; Repl " AB " " ABOVE "; Repl " ABV " " ABOVE "; Repl " ALT " " ALTITUDE "; Repl " BL " " BELOW "; Repl " BLO " " BELOW ";
   Repl " BLW " " BELOW "; Repl " DS " " DOWNSTREAM "; Repl " NR " " NEAR "; Repl " RM " " RIVER MILE "; Repl " UPSTR " " UPSTREAM ";
   Repl "EF " "EAST FORK "; Repl "MF " "MIDDLE FORK "; Repl "NF " "NORTH FORK "; Repl "SF " "SOUTH FORK "; Repl "WF " "WEST FORK ";
   Repl "E F " "EAST FORK "; Repl "M F " "MIDDLE FORK "; Repl "N F " "NORTH FORK "; Repl "S F " "SOUTH FORK "; Repl "W F " "WEST FORK ";
   Repl "E FK " "EAST FORK "; Repl "M FK " "MIDDLE FORK "; Repl "N FK " "NORTH FORK "; Repl "S FK " "SOUTH FORK "; Repl "W FK " "WEST FORK ";
   Repl "EFK " "EAST FORK "; Repl "NFK " "NORTH FORK "; Repl "SFK " "SOUTH FORK "; Repl "WFK " "WEST FORK "; Repl "EFORK " " EAST FORK ";
   Repl "NFORK " " NORTH FORK "; Repl "SFORK " " SOUTH FORK "; Repl "WFORK " " WEST FORK "; Repl " FK " " FORK "; Repl " B " " BRANCH ";
   Repl " BR " " BRANCH "; Repl "NB " "NORTH BRANCH "; Repl "SB " "SOUTH BRANCH "; Repl " BCH." " BEACH"; Repl " BCH" " BEACH"; Repl " BD " " BEND ";
   Repl " BK " " BROOK "; Repl " BRK " " BROOK "; Repl " BYU " " BAYOU "; Repl " CA " " CANAL "; Repl " CANL " " CANAL "; Repl " CONF " " CONFLUENCE ";
   Repl " CONFL " " CONFLUENCE "; Repl " C " " CREEK "; Repl " CK " " CREEK "; Repl " CR " " CREEK "; Repl " CRK " " CREEK "; Repl " CAN " " CANYON ";
   Repl " CN " " CANYON "; Repl " CNYN " " CANYON "; Repl " CYN " " CANYON "; Repl " DIV " " DIVERSION "; Repl " DTCH " " DITCH ";
   Repl " D&R CA " "DELAWARE AND RARITAN CANAL"; Repl " DEL & RAR CA " "DELAWARE AND RARITAN CANAL";
   Repl " DEL AND RAR CA " "DELAWARE AND RARITAN CANAL"; Repl " FDR " " FEEDER "; Repl " FEED " " FEEDER "; Repl " INTK " " INTAKE ";
   Repl " INTKE " " INTAKE "; Repl " L " " LITTLE "; Repl "LTL " "LITTLE "; Repl " LK " " LAKE "; Repl " MTH " " MOUTH "; Repl " PD " " POND ";
   Repl " R " " RIVER "; Repl " RV " " RIVER "; Repl " RIV " " RIVER "; Repl " RVR " " RIVER "; Repl " RES " " RESERVOIR "; Repl " RESV " " RESERVOIR ";
   Repl " RPDS " " RAPIDS "; Repl " SPGS " " SPRINGS "; Repl " SPRGS " " SPRINGS "; Repl " SPRNGS " " SPRINGS "; Repl " SPS " " SPRINGS ";
   Repl " STR " " STREAM "; Repl " TR " " TRIBUTARY "; Repl " TRIB " " TRIBUTARY "; Repl " O R N L " " ORNL "; Repl " OAK RIDGE NATL LAB " " ORNL ";
   Ends "TENN (TVA)" 10 "(TVA) TN"; Ends "TN (TVA)" 8 "(TVA) TN"; Ends "TENN (CE)" 9 "(CE) TN"; Ends "TN (CE)" 7 "(CE) TN"; Head 2 "G " "GREAT ";
   Head 2 "L " "LITTLE "; Head 3 "ST " "SAINT "; Head 2 "E " "EAST "; Head 2 "N " "NORTH "; Head 2 "S " "SOUTH "; Head 2 "W " "WEST ";
   Head 3 "SO " "SOUTH "; Head 3 "NO " "NORTH "; Head 5 "TRIB " "TRIBUTARY "; Repl " BUTE " " BUTTE "; Repl " CORR " " CORRIDOR ";
   Repl " ISL " " ISLAND "; Repl " MT " " MOUNT "; Repl " MTN " " MOUNTAIN "; Repl " PT " " POINT "; Repl " RH " " RANCH "; Repl " RCH " " RANCH ";
   Repl " RNCH " " RANCH "; Repl " RNGR " " RANGER "; Repl " STA " " STATION "; Repl " STRM SWR " " STORM SEWER "; Repl " WRF " " WHARF ";
   Repl " AVE " " AVENUE "; Repl " BLVD " " BOULEVARD "; Repl " BRG " " BRIDGE "; Repl " CRSG " " CROSSING "; Repl " CTR " " CENTER ";
   Repl " DR " " DRIVE "; Repl " HWY " " HIGHWAY "; Repl " HIGHWY " " HIGHWAY "; Repl " JCT " " JUNCTION "; Repl " LN " " LANE ";
   Repl " PKWY " " PARKWAY "; Repl " RD " " ROAD "; Repl " RT " " ROUTE "; Repl " RTE " " ROUTE "; Repl " TNL " " TUNNEL "; Repl " TPKE " " TURNPIKE ";
   Repl " TUN " " TUNNEL "].
(** 1092-1384 *)
Definition replace_abbreviations (name : string) : string := follow abbreviations (replace_ft (follow st_steps name)).

(** 1387-1520 replace_state_letters *)
Definition state_letters : list step :=
  [Tail 4 " ALA" " AL"; Tail 4 " ARK" " AR"; Tail 4 " CAL" " CA"; Tail 4 " FLA" " FL"; Tail 4 " ILL" " IL"; Tail 4 " IND" " IN"; Tail 4 " N C" " NC";
   Tail 4 " N D" " ND"; Tail 4 " N M" " NM"; Tail 4 " N Y" " NY"; Tail 4 " S C" " SC"; Tail 4 " S D" " SD"; Tail 4 " TEN" " TN"; Tail 4 " TEX" " TX";
   Tail 4 " WYO" " WY"; Tail 5 " ARIZ" " AZ"; Tail 5 " COLO" " CO"; Tail 5 " CONN" " CT"; Tail 5 " MASS" " MA"; Tail 5 " MICH" " MI";
   Tail 5 " MINN" " MN"; Tail 5 " MISS" " MS"; Tail 5 " NEBR" " NE"; Tail 5 " OREG" " OR"; Tail 5 " TENN" " TN"; Tail 5 " UTAH" " UT";
   Tail 5 " WASH" " WA"; Tail 5 " W VA" " WV"; Tail 6 " AL-GA" " AL/GA"; Tail 6 " AZ-CA" " AZ/CA"; Tail 6 " CA-AZ" " AZ/CA"; Tail 6 " IL-KY" " IL/KY";
   Tail 6 " KY-TN" " KY/TN"; Tail 6 " CALIF" " CA"; Tail 6 " IDAHO" " ID"; Tail 6 " MAINE" " ME"; Tail 6 " N MEX" " NM"; Tail 6 " TEXAS" " TX";
   Tail 7 " NEVADA" " NV"; Tail 8 " ALABAMA" " AL"; Tail 8 " FLORIDA" " FL"; Tail 8 " GEORGIA" " GA"; Tail 8 " MIAMI F" " MIAMI FL";
   Tail 9 " ARKANSAS" " AR"; Tail 9 " KENTUCKY" " KY"; Tail 9 " MARYLAND" " MD"; Tail 9 " MISSOURI" " MO"; Tail 10 " LOUISIANA" " LA";
   Tail 10 " TENNESSEE" " TN"; Tail 14 " NEW HAMPSHIRE" " NH"].
(** 1523-1597 fix_spellings; the statement of 1553 compares and changes nothing *)
Definition spellings : list step :=
  [EqRepl "ARROYO VALLE BELOW LANG CANAL NEAR LIVERMORE CA" " CANAL " " CANYON "; ReplIf "BOGUECHITTO" "BOGUECHITTO" "BOGUE CHITTO";
   EqSet "BOGUE CHITTO NEAR BUSH LA" "BOGUE CHITTO RIVER NEAR BUSH LA"; ReplIf "CHYSOTILE" "CHYSOTILE" "CHRYSOTILE";
   ReplIf "D ALENE" "D ALENE" "D'ALENE"; ReplIf "ELEVENPOINT" "ELEVENPOINT" "ELEVEN POINT"; ReplIf "HAZLEGREEN" "HAZLEGREEN" "HAZELGREEN";
   ReplIf "HOBOLOCHITTO" "HOBOLOCHITTO" "HOBOLO CHITTO"; EqSet "HORSE CREEK NEAR ARCADIA FL" "HORSE CREEK AT SR 72 NEAR ARCADIA FL";
   EqSet "KINCHAFOONEE CREEK NEAR DAWSON GA" "KINCHAFOONEE CREEK AT PINEWOOD ROAD NEAR DAWSON GA";
   EqSet "LAMAR RIVER NEAR TOWER RANGER STATION YNP" "LAMAR RIVER NEAR TOWER FALLS RANGER STATION YNP";
   EqSet "LITTLE CYPRESS CREEK NEAR JEFFERSON TX" "LITTLE CYPRESS CREEK NEAR JEFFERSON TX";
   EqSet "MANATEE RIVER NEAR MYAKKA HEAD FL" "MANATEE RIVER AT SR 64 NEAR MYAKKA HEAD FL"; ReplIf "MARKLEEVILLECA" "MARKLEEVILLECA" "MARKLEEVILLE CA";
   EqSet "MCDONALDS BRANCH IN LEBANON STATE FOREST NJ" "MCDONALDS BRANCH IN BYRNE STATE FOREST NJ";
   EqSet "MINAM RIVER NEAR MINAM OR" "MINAM RIVER AT MINAM OR";
   EqSet "MUDDY CREEK BELOW CLEAR CREEK NEAR COUGAR WA" "MUDDY RIVER BELOW CLEAR CREEK NEAR COUGAR WA"; ReplIf "NORTH EAST" "NORTH EAST" "NORTHEAST";
   ReplIf "NORTH WEST" "NORTH WEST" "NORTHWEST";
   EqSet "NORTH FORK CLEARWATER RIVER NEAR CANYON RANGER STATION" ("NORTH FORK CLEARWATER RIVER NEAR CANYON RANGER STATION" ++ " ID");
   EqSet "PEACE RIVER AT ARCADIA FL" "PEACE RIVER AT SR 70 AT ARCADIA FL"; StartSet "RD CHUTE BYU" "RED CHUTE BAYOU TRIBUTARY AT SKNL P2 NEAR SLIGO LA";
   EqSet "SAUK RIVER ABOVE WHITECHUCK RIVER NEAR DARRINGTON WA" "SAUK RIVER ABOVE WHITE CHUCK RIVER NEAR DARRINGTON WA";
   EqSet "SHIAWASSEE RIVER AT BYRON MI" "SHIAWASSEE RIVER AT BATH ROAD AT BYRON MI"; ReplIf " SKNL P2" " SKNL P2" " SKANNEL POND #2";
   ReplIf " SKNL PD" " SKNL PD" " SKANNEL POND"; ReplIf " SKNL POND" " SKNL POND" " SKANNEL POND"; ReplIf "TCHEFUNCTA" "TCHEFUNCTA" "TCHEFUNCTE";
   ReplIf "WHISKEY CHITTO" "WHISKEY" "OUISKA"].
(** 1600-1613 replace_city_letters *)
Definition city_letters : list step :=
  [Tail 4 " SLC" " SALT LAKE CITY UT"; Tail 8 " S L CITY" " SALT LAKE CITY UT"; ReplIf " SLGO " " SLGO " " SLIGO ";
   ReplIf " SNTA BRB " " SNTA BRB " " SANTA BARBARA "].
(** 1669-1671 *)
Definition missing_state : list step :=
  [EqSet "GALENA CREEK AT GALENA CREEK STATE PARK" ("GALENA CREEK AT GALENA CREEK STATE PARK" ++ " NV")].
(** 1680-1698 *)
Definition directions : list step :=
  [Repl " N " " NORTH "; Repl " S " " SOUTH "; Repl " E " " EAST "; Repl " W " " WEST "; Repl " NE " " NORTHEAST "; Repl " NW " " NORTHWEST ";
   Repl " SE " " SOUTHEAST "; Repl " SW " " SOUTHWEST "; Head 3 "NE " "NORTHEAST "; Head 3 "NW " "NORTHWEST "; Head 3 "SE " "SOUTHEAST ";
   Head 3 "SW " "SOUTHWEST "].

Record options := { UPPER : bool; PUNCTUATION : bool; ABBREVIATIONS : bool; SPELLINGS : bool; STATE_LETTERS : bool;
                    CITY_LETTERS : bool; MISSING_STATE : bool; DIRECTIONS : bool }.
(** the default arguments of 1616-1623 *)
Definition default : options := Build_options true true true true true true true true.

(** 1639-1644 *)
Definition trailing (x name : string) : string := if endswith x name then strip (but_n 1 name) else name.
(** 1616-1700 expand_usgs_site_name *)
Definition expand_usgs_site_name (o : options) (name : string) : string :=
  let name := if UPPER o then upper name else name in
  let name := trailing "," (trailing "." name) in
  let name := if PUNCTUATION o then replace_punctuation name else name in
  let name := if ABBREVIATIONS o then replace_abbreviations name else name in
  let name := if STATE_LETTERS o then follow state_letters name else name in
  let name := if SPELLINGS o then follow spellings name else name in
  let name := if CITY_LETTERS o then follow city_letters name else name in
  let name := if MISSING_STATE o then follow missing_state name else name in
  if DIRECTIONS o then follow directions name else name.

Definition letter (c : ascii) : bool :=
  (Nat.leb 65 (nat_of_ascii c) && Nat.leb (nat_of_ascii c) 90) || (Nat.leb 97 (nat_of_ascii c) && Nat.leb (nat_of_ascii c) 122).
(** s.title(): [w] is whether the character before is a letter *)
Fixpoint title_from (w : bool) (s : string) : string :=
  match s with
  | EmptyString => EmptyString
  | String c r => String (if w then lower_char c else upper_char c) (title_from (letter c) r)
  end.
Definition title (s : string) : string := title_from false s.

(** 1708-1714 *)
Definition state_list : list string :=
  [" AL"; " AK"; " AZ"; " AR"; " CA"; " CO"; " CT"; " DE"; " FL"; " GA"; " HI"; " ID"; " IL"; " IN"; " IA"; " KS"; " KY"; " LA"; " ME"; " MD"; " MA";
   " MI"; " MN"; " MS"; " MO"; " MT"; " NE"; " NV"; " NH"; " NJ"; " NM"; " NY"; " NC"; " ND"; " OH"; " OK"; " OR"; " PA"; " PR"; " RI"; " SC"; " SD";
   " TN"; " TX"; " UT"; " VT"; " VA"; " WA"; " WV"; " WI"; " WY"; "YT"].
(** 1705-1726 get_usgs_long_name *)
Definition get_usgs_long_name (usgs_name : string) : string :=
  let long_name := title (expand_usgs_site_name default usgs_name) in
  let long_name := if existsb (String.eqb (upper (last_n 3 long_name))) state_list
                   then but_n 2 long_name ++ upper (last_n 2 long_name) else long_name in
  if String.eqb (upper (last_n 4 long_name)) " YNP" then but_n 3 long_name ++ "YNP" else long_name.

(** data_utils.py 1142-1272: the endings, in the order of the tests *)
Definition code_list : list (string * string) :=
  [("al-ga", "AL/GA"); ("az-ca", "CA/AZ"); ("az-cal", "CA/AZ"); ("ca-az", "CA/AZ"); ("colorado-nebraska", "CO/NE"); ("il-ky", "IL/KY");
   ("ky-tn", "KY/TN"); ("alberta", "IB-ALB-CAN"); ("view alta", "IB-ALB-CAN"); ("manitoba", "IB-MAN-CAN"); ("manitoba canada", "IB-MAN-CAN");
   ("ontario", "IB-ONT-CAN"); ("ontario can", "IB-ONT-CAN"); ("ontario canada", "IB-ONT-CAN"); ("quebec", "IB-QBC-CAN"); ("sask", "IB-SASK-CAN");
   ("intnl bndary sask", "IB-SASK-CAN"); (" yt", "IB-YUK-CAN"); ("cnmi", "MP"); ("fsm", "FM"); ("guam", "GU"); ("international boundary", "IB");
   ("int'l boundary", "IB"); ("int boundary", "IB"); ("okinawa", "JA"); ("japan", "JA"); ("palau", "PS"); ("samoa", "AS"); ("usvi", "VI");
   ("saint croix", "VI"); ("saint john", "VI"); ("saint thomas", "VI"); ("ynp", "YNP")].
(** data_utils.py 1106-1285 get_state_code (long_name[-3] of a shorter name is an IndexError) *)
Definition get_state_code (long_name : string) : res string :=
  if Nat.ltb (String.length long_name) 3 then Err IndexError
  else let code := if String.eqb (take 1 (last_n 3 long_name)) " " then upper (last_n 2 long_name) else "" in
       Ok (fold_left (fun code e => if endswith (fst e) (lower long_name) then snd e else code) code_list code).
