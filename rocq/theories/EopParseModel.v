(** Reading IERS C04 files; src/lib/eop/{parse_iers_c0414,parse_iers_c0420,parse_iers_c04,choose_eop_c04_series}.cpp.
    A file is the list of its lines (without the line ends, no NUL inside). *)
From Coq Require Import Ascii String Reals ZArith List Bool.
From Verif Require Import Base CString FromChars EopModel.
Import ListNotations.
Open Scope Z_scope.

Section Parse.
  (** epochs (TT) as in EopModel *)
  Variable T : Type.
  Variable ltb : T -> T -> bool.
  (** TwoPartDateUTC(imjd, seconds).utc2tt() and dso::dat(modified_julian_day) of the datetime library *)
  Variable tt_of_utc : Z -> R -> T.
  Variable dat : Z -> R.
  (** std::from_chars to double *)
  Variable sdbl : list Z -> option R * list Z.
  (** std::modf followed by the cast of the integral part to int *)
  Variable modf : R -> Z * R.

  Definition MAX_LINE_CHARS : Z := 256.

  (** parse_iers_c0414.cpp:72, parse_iers_c0420.cpp:75: lines not looked at *)
  Definition skipped (line : list Z) : bool :=
    match line with [] => true | c :: _ => (c =? 32) || (c =? 35) end.

  (** parse_iers_c0414.cpp:95-101 and parse_iers_c0420.cpp:126-132: n real numbers from [s] (the characters from
      fcr.ptr to the end of the line) on. The number of failures; the value of a failed field is never used. *)
  Fixpoint fields (n : nat) (s : list Z) : list R * Z :=
    match n with
    | O => ([], 0)
    | S k =>
        let c := skip_blanks s in
        let (v, r) := sdbl c in
        let bad := match v with None => true | Some _ => Nat.eqb (length r) (length c) end in
        let (vs, e) := fields k r in
        (match v with Some x => x | None => 0%R end :: vs, e + if bad then 1 else 0)
    end.
  Definition nthr (l : list R) (i : nat) : R := nth i l 0%R.

  (** outcome of one line: continue with error count and possibly a record; stop at a date past the end; return *)
  Inductive outcome := Continue (error : Z) (r : option (rec T)) | Break (error : Z) | Return (code : Z).

  (** parse_iers_c0414.cpp:72-122. A line shorter than 12 characters makes [line + 12] point behind its end:
      undefined (std::from_chars on a reversed range, stale characters). *)
  Definition line14 (start stop : T) (line : list Z) : res outcome :=
    if skipped line then Ok (Continue 0 None)
    else if Nat.ltb (length line) 12 then UB
    else
      let c := skip_blanks (skipn 12 line) in
      let (v, r) := scan_i64 c in
      let error := match v with None => 1 | Some _ => if Nat.eqb (length r) (length c) then 1 else 0 end in
      let imjd := match v with Some m => m | None => 0 end in
      let ctt := tt_of_utc imjd 0%R in
      if negb (ltb ctt start) && ltb ctt stop then
        let (d, e) := fields 6 r in
        let error := error + e in
        Ok (Continue error (if error =? 0 then
          Some (mkR T ctt (nthr d 0) (nthr d 1) (nthr d 2) (nthr d 3) (nthr d 4) (nthr d 5) (dat imjd) 0%R 0%R) else None))
      else if negb (ltb ctt stop) then Ok (Break error)
      else Ok (Continue error None).

  (** parse_iers_c0420.cpp:75-152; the assertion of line 109 *)
  Definition line20 (start stop : T) (line : list Z) : res outcome :=
    if skipped line then Ok (Continue 0 None)
    else if Nat.ltb (length line) 12 then UB
    else
      let c := skip_blanks (skipn 12 line) in
      match scan_i32 c with
      | (None, _) => Ok (Return 2)
      | (Some hours, r) =>
          if Nat.eqb (length r) (length c) then Ok (Return 2) else
          let c := skip_blanks r in
          match sdbl c with
          | (None, _) => Ok (Return 2)
          | (Some mjd, r) =>
              if Nat.eqb (length r) (length c) then Ok (Return 2) else
              let (imjd, fdays) := modf mjd in
              if Req_EM_T fdays (IZR hours / 24) then
                let ctt := tt_of_utc imjd (fdays * 86400)%R in
                if negb (ltb ctt start) && ltb ctt stop then
                  let (d, e) := fields 8 r in
                  Ok (Continue e (if e =? 0 then
                    Some (mkR T ctt (nthr d 0) (nthr d 1) (nthr d 2) (nthr d 7) (nthr d 3) (nthr d 4) (dat imjd) (nthr d 5) (nthr d 6)) else None))
                else if negb (ltb ctt stop) then Ok (Break 0)
                else Ok (Continue 0 None)
              else Abort
          end
      end.

  (** parse_iers_c0414.cpp:64-135, parse_iers_c0420.cpp:68-165: the loop over the lines and the returned code.
      istream::getline fails on a line of 256 characters or more, without reaching the end of the file. *)
  Fixpoint loop (step : list Z -> res outcome) (lines : list (list Z)) (v : list (rec T)) : res (Z * list (rec T)) :=
    match lines with
    | [] => Ok (0, v)
    | line :: rest =>
        if MAX_LINE_CHARS <=? Z.of_nat (length line) then Ok (1, v) else
        o <- step line ;;
        match o with
        | Return c => Ok (c, v)
        | Break e => Ok (if e =? 0 then 0 else 1, v)
        | Continue e r =>
            if e =? 0 then loop step rest (match r with Some x => v ++ [x] | None => v end) else Ok (1, v)
        end
    end.

  Inductive format := C0414 | C0420.
  Definition step_of (f : format) := match f with C0414 => line14 | C0420 => line20 end.
  (** parse_iers_c0414.cpp:33-135, parse_iers_c0420.cpp:37-165; [None]: the file cannot be opened *)
  Definition parse_details (f : format) (file : option (list (list Z))) (start stop : T) (s : series T) : res (Z * series T) :=
    if negb (ltb start stop) then Ok (1, s) else
    match file with
    | None => Ok (1, s)
    | Some lines => ' (c, v) <- loop (step_of f start stop) lines [] ;; Ok (c, mkSer T v None)
    end.

  (** strncmp(s, h, strlen(h)) == 0 *)
  Fixpoint starts_with (s h : list Z) : bool :=
    match h, s with
    | [], _ => true
    | c :: h', d :: s' => (c =? d) && starts_with s' h'
    | _ :: _, [] => false
    end.
  Definition h1c0420 := chars "# EARTH ORIENTATION PARAMETER (EOP) PRODUCT CENTER CENTER (PARIS OBSERVATORY)".
  Definition h2c0420 := chars "# EOP (IERS) 20 C04 TIME SERIES  consistent with ITRF 2020 - sampled".
  Definition h1c0414 := chars "EARTH ORIENTATION PARAMETER (EOP) PRODUCT CENTER CENTER (PARIS OBSERVATORY)".
  Definition h2c0414 := chars "INTERNATIONAL EARTH ROTATION AND REFERENCE SYSTEMS SERVICE".
  Definition h3c0414 := chars "EOP (IERS) 14 C04 TIME SERIES".
  (** choose_eop_c04_series.cpp:53-99 for a file. A getline after the end of the file leaves an empty string; of a long line 255
      characters are stored, which is more than the headers compared with, and the following getline fails the
      same way as at the end of the file. *)
  Definition getline (lines : list (list Z)) : list Z * list (list Z) :=
    match lines with
    | [] => ([], [])
    | l :: rest => if MAX_LINE_CHARS <=? Z.of_nat (length l) then (firstn 255 l, []) else (l, rest)
    end.
  Definition choose_c04_series (lines : list (list Z)) : option format :=
    let (l1, rest) := getline lines in
    if starts_with l1 h1c0420 then
      let (l2, _) := getline rest in if starts_with l2 h2c0420 then Some C0420 else None
    else if starts_with (skip_blanks l1) h1c0414 then
      let (l2, rest) := getline rest in
      if starts_with (skip_blanks l2) h2c0414 then
        let (l3, _) := getline rest in if starts_with (skip_blanks l3) h3c0414 then Some C0414 else None
      else None
    else None.

  (** parse_iers_c04.cpp:3-19 *)
  Definition parse_C04 (file : option (list (list Z))) (start stop : T) (s : series T) : res (Z * series T) :=
    match file with
    | None => Ok (1, s)
    | Some lines =>
        match choose_c04_series lines with
        | None => Ok (1, s)
        | Some f =>
            ' (c, s') <- parse_details f file start stop s ;;
            s'' <- reset T s' (-1) ;; Ok (c, s'')
        end
    end.
End Parse.
