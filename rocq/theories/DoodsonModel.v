(** DoodsonConstituent text conversions, comparison, wave tables; include/doodson.hpp and
    src/lib/doodson/*.cpp *)
From Coq Require Import Ascii String ZArith List Bool.
From Verif Require Import Base CString.
Import ListNotations.
Open Scope Z_scope.

(** include/doodson.hpp:66-67: iar[6], pifac. [pifac] is a double there; here it is an integer
    (all values in the library's tables are integral). *)
Record doodson := mkD { n0 : Z; n1 : Z; n2 : Z; n3 : Z; n4 : Z; n5 : Z; pifac : Z }.

(** include/doodson.hpp:93-103 char2int; [None]: std::runtime_error *)
Definition char2int (c : Z) : res (option Z) :=
  d <- isdigit c ;;
  if d then Ok (Some (c - 48)) else
  c <- tolower c ;;
  if (97 <=? c) && (c <=? 109) then Ok (Some ((c - 97) + 10)) else
  if (110 <=? c) && (c <=? 122) then Ok (Some ((c - 110) - 13)) else Ok None.

(** include/doodson.hpp:122-128 int2char *)
Definition int2char (d : Z) : Z :=
  if d <? 0 then to_char (110 + (d + 13)) else
  if 9 <? d then to_char (97 + (d - 10)) else to_char (48 + d).

(** one element of the initialiser of [ints]: read, convert, shift *)
Definition field (s : list Z) (i off : Z) (k : Z -> res (option doodson)) : res (option doodson) :=
  c <- rd s i ;; v <- char2int c ;;
  match v with None => Ok None | Some v => k (v - off) end.

(** src/lib/doodson/doodson_from_chars.cpp:5-23; the six conversions come first, the separator is
    tested afterwards, the failure branch prints the argument with "%s" *)
Definition from_chars (s : list Z) : res (option doodson) :=
  field s 0 0 (fun a => field s 1 5 (fun b => field s 2 5 (fun c =>
  field s 4 5 (fun d => field s 5 5 (fun e => field s 6 5 (fun f =>
    p <- rd s 3 ;;
    if negb (p =? 46) then _ <- c_str s ;; Ok None
    else Ok (Some (mkD a b c d e f 0)))))))).

(** src/lib/doodson/doodson_to_str.cpp:4-15: sprintf "%c%c%c.%c%c%c" and the terminator *)
Definition str_bytes (d : doodson) (fives : bool) : list Z :=
  let add := if fives then 5 else 0 in
  [int2char (n0 d); int2char (n1 d + add); int2char (n2 d + add); 46;
   int2char (n3 d + add); int2char (n4 d + add); int2char (n5 d + add)].
(** ... into a buffer of [size] bytes holding [buf] *)
Definition str (buf : list Z) (d : doodson) (fives : bool) : res (list Z) :=
  let out := (str_bytes d fives ++ [0])%list in
  if (length out <=? length buf)%nat then Ok (out ++ skipn (length out) buf)%list else UB.

(** include/doodson.hpp:237-242 operator== *)
Definition eqb (a b : doodson) : bool :=
  (n0 a =? n0 b) && (n1 a =? n1 b) && (n2 a =? n2 b) && (n3 a =? n3 b) && (n4 a =? n4 b) &&
  (n5 a =? n5 b) && (pifac a =? pifac b).
(** include/doodson.hpp:252-270 same_species, same_group, same_constituent *)
Definition same_species (a b : doodson) := n0 a =? n0 b.
Definition same_group (a b : doodson) := same_species a b && (n1 a =? n1 b).
Definition same_constituent (a b : doodson) := same_group a b && (n2 a =? n2 b).

(** src/lib/doodson/resolve_iers2010_doodson_string.cpp:10-12: number of leading blanks *)
Fixpoint blanks (s : list Z) : res Z :=
  match s with
  | [] => UB
  | c :: t => if negb (c =? 0) && (c =? 32) then k <- blanks t ;; Ok (k + 1) else Ok 0
  end.
(** src/lib/doodson/resolve_iers2010_doodson_string.cpp:6-38 *)
Definition resolve_iers10 (s : list Z) : res (option doodson) :=
  k <- blanks s ;;
  a <- rd s k ;; b <- rd s (k + 1) ;; c <- rd s (k + 2) ;; p <- rd s (k + 3) ;;
  d <- rd s (k + 4) ;; e <- rd s (k + 5) ;; f <- rd s (k + 6) ;;
  let ints := [a - 48; b - 48 - 5; c - 48 - 5; d - 48 - 5; e - 48 - 5; f - 48 - 5] in
  let error := (if p =? 46 then 0 else 1) +
    fold_right Z.add 0 (map (fun i => if (i <? -9) || (9 <? i) then 1 else 0) ints) in
  if error =? 0
  then Ok (Some (mkD (a - 48) (b - 53) (c - 53) (d - 53) (e - 53) (f - 53) 0))
  else _ <- c_str s ;; Ok None.

(** include/doodson.hpp:359-373 TidalConstituentArrayEntry; [per]: _per in units of 1e-9 deg/hour;
    the height [_hf] is 0 in every entry and left out; [nm]: the characters of [_n] *)
Record entry := mkE { dn : doodson; per : Z; nm : list Z }.
Definition e (a b c d e f p per : Z) (n : string) : entry := mkE (mkD a b c d e f p) per (chars n).

(** include/doodson.hpp:376-431 AtmosphericTidalHarmonics *)
Definition atmospheric : list entry :=
  [e 1 1 (-3) 0 0 1 (-1) 14917866090 "π1"; e 1 1 (-2) 0 0 0 1 14958932770 "P1"; e 1 1 (-1) 0 0 0 2 15000001410 "S1";
   e 1 1 0 0 0 0 (-1) 15041070050 "K1"; e 1 1 1 0 0 (-1) 1 15082136730 "ψ1"; e 2 0 0 0 0 0 0 28984107050 "M2";
   e 2 2 (-3) 0 0 1 0 29958936140 "T2"; e 2 2 (-2) 0 0 0 0 30000002820 "S2"; e 2 2 (-1) 0 0 (-1) 2 30041069500 "R2";
   e 2 2 0 0 0 0 0 30082140100 "K2"; e 2 (-1) 0 1 0 0 0 28439729500 "N2"; e 2 1 0 (-1) 0 0 2 28439729500 "L2";
   e 3 3 (-4) 0 0 0 0 44958935590 "T3"; e 3 3 (-3) 0 0 0 0 45000004230 "S3"; e 3 3 (-2) 0 0 0 0 45041072870 "R3";
   e 4 4 (-4) 0 0 0 0 60000005640 "S4"; e 5 5 (-5) 0 0 0 0 75000007050 "S5"; e 6 6 (-6) 0 0 0 0 90000008460 "S6"].

(** include/doodson.hpp:433-476 OceanicTidalHarmonics *)
Definition oceanic : list entry :=
  [e 0 0 0 0 1 0 2 0 "Omega1"; e 0 0 0 0 2 0 0 0 "Omega2"; e 0 0 1 0 0 (-1) 0 0 "Sa"; e 0 0 2 0 0 0 0 0 "Ssa";
   e 0 1 0 (-1) 0 0 0 0 "Mm"; e 0 2 0 0 0 0 0 0 "Mf"; e 0 3 0 (-1) 0 0 0 0 "Mtm"; e 0 4 (-2) 0 0 0 0 0 "Msqm";
   e 1 (-2) 0 1 0 0 (-1) 0 "Q1"; e 1 (-1) 0 0 0 0 (-1) 0 "O1"; e 1 1 (-2) 0 0 0 (-1) 0 "P1"; e 1 1 0 0 0 0 1 0 "K1";
   e 1 1 (-1) 0 0 0 2 0 "S1"; e 1 2 0 (-1) 0 0 1 0 "J1";
   e 2 (-2) 0 2 0 0 0 0 "2N2"; e 2 (-1) 0 1 0 0 0 0 "N2"; e 2 0 0 0 0 0 0 0 "M2"; e 2 2 (-2) 0 0 0 0 0 "S2";
   e 2 2 0 0 0 0 0 0 "K2"; e 2 2 (-3) 0 0 1 0 0 "T2"; e 2 (-3) 2 1 0 0 0 0 "Epsilon2"; e 2 (-2) 2 0 0 0 0 0 "Mu2";
   e 2 (-1) 2 (-1) 0 0 0 0 "Nu2"; e 2 1 (-2) 1 0 0 2 0 "La2"; e 2 1 0 (-1) 0 0 2 0 "L2"; e 2 2 (-1) 0 0 (-1) 2 0 "R2";
   e 3 0 0 0 0 0 2 0 "M3"; e 4 0 0 0 0 0 0 0 "M4"; e 4 (-2) 0 2 0 0 0 0 "N4"; e 4 (-1) 0 1 0 0 0 0 "Mn4";
   e 4 2 (-2) 0 0 0 0 0 "Ms4"; e 4 4 (-4) 0 0 0 0 0 "S4"; e 6 0 0 0 0 0 0 0 "M6"; e 8 0 0 0 0 0 0 0 "M8"].

Fixpoint list_eqb (a b : list Z) : bool :=
  match a, b with
  | [], [] => true
  | x :: a, y :: b => (x =? y) && list_eqb a b
  | _, _ => false
  end.
(** strcasecmp's folding: ASCII letters only (C locale) *)
Definition fold_case (c : Z) : Z := if (65 <=? c) && (c <=? 90) then c + 32 else c.

(** src/lib/doodson/match_tadal_constituents.cpp:9-18 (by name; the argument is the NUL-free text) *)
Definition match_ocean_name (n : list Z) : option entry :=
  find (fun w => list_eqb (map fold_case (nm w)) (map fold_case n)) oceanic.
(** src/lib/doodson/match_tadal_constituents.cpp:20-26 (by Doodson number) *)
Definition match_ocean_doodson (d : doodson) : option entry := find (fun w => eqb d (dn w)) oceanic.
(** src/lib/doodson/tidal_wave_tables.cpp:7-17 find_wave_entry (strcmp, atmospheric table) *)
Definition find_wave_entry (n : list Z) : option entry := find (fun w => list_eqb (nm w) n) atmospheric.

(** include/doodson.hpp:50, 502-511: the name member holds 16 bytes.
    strcpy from another name member: characters up to the terminator, and the terminator *)
Definition MAX_CHARS_TIDAL_WAVE : Z := 16.
(** strncpy (_n, name, 16): copies at most 16 bytes, pads with zeros, no terminator if the name is longer *)
Definition strncpy16 (n : list Z) : list Z := firstn 16 (n ++ repeat 0 16).
