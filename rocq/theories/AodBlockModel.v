(** AOD1B files: header skipping, data blocks, block iterator, tidal files; src/lib/aod1b/aod1b_skip_header.cpp,
    aod1b_parse_data_block_header.cpp, aod1b_goto_next_block.cpp, aod1b_get_tidal_wave.cpp, include/aod1b.hpp:344-495.
    The stream is open. Lines hold no NUL character. A pointer into the line buffer is the text from it up to the
    terminator; what lies behind the terminator (leftovers of earlier lines or indeterminate characters) counts as
    undefined when it is read. *)
From Coq Require Import Ascii String Reals ZArith List Bool.
From Verif Require Import Base CString FromChars Aod1bModel.
Import ListNotations.
Open Scope Z_scope.

(** ** streams *)
(** remaining lines, whether the last of them ends with a newline, eofbit, failbit *)
Record ifs := mkI { ilines : list (list Z); iterm : bool; ieof : bool; ifail : bool }.
Definition good (s : ifs) : bool := negb (ieof s) && negb (ifail s).
(** istream::getline with room for n characters: text in the buffer, new state *)
Definition igetline (n : Z) (s : ifs) : list Z * ifs :=
  if negb (good s) then ([], mkI (ilines s) (iterm s) (ieof s) true) else
  match ilines s with
  | [] => ([], mkI [] (iterm s) true true)
  | l :: rest =>
      if n <=? Z.of_nat (length l) then (firstn (Z.to_nat (n - 1)) l, mkI (skipn (Z.to_nat (n - 1)) l :: rest) (iterm s) false true)
      else (l, mkI rest (iterm s) (match rest with [] => negb (iterm s) | _ => false end) false)
  end.
(** seekg(0): clears eofbit; does not move a failed stream *)
Definition seek0 (file : list (list Z)) (term : bool) (s : ifs) : ifs :=
  if ifail s then mkI (ilines s) (iterm s) false true else mkI file term false false.

(** strncmp(s, lit, strlen(lit)) == 0 *)
Fixpoint starts (lit s : list Z) : bool :=
  match lit, s with
  | [], _ => true
  | a :: lit', b :: s' => (a =? b) && starts lit' s'
  | _ :: _, [] => false
  end.
(** p + n; behind the terminator: undefined *)
Definition drop (n : nat) (p : list Z) : res (list Z) := if Nat.leb n (length p) then Ok (skipn n p) else UB.

(** ** src/lib/aod1b/aod1b_skip_header.cpp:12-36 *)
(** lines 25-28; [n] lines may still be looked at *)
Fixpoint find_end (n : nat) (s : ifs) : Z * ifs :=
  let (l, s') := igetline MAXL s in
  if ifail s' then (1, s') else
  match n with
  | O => (1, s')
  | S k => if starts (chars "END OF HEADER") l then (0, s') else find_end k s'
  end.
Definition skip_header (file : list (list Z)) (term : bool) (s : ifs) : Z * ifs := find_end 99 (seek0 file term s).

(** lines 38-61; [m]: how many lines may follow the next one *)
Fixpoint skip_loop (m : nat) (s : ifs) : Z * ifs :=
  let (_, s') := igetline MAXL s in
  if ifail s' then (0, s') else
  match m with
  | O => (0, s')
  | S k => if good s' then skip_loop k s' else (if ieof s' then -1 else 1, s')
  end.
Definition skip_lines (num_lines : Z) (s : ifs) : Z * ifs := if num_lines =? 0 then (0, s) else skip_loop (Z.to_nat (num_lines - 1)) s.

(** ** data blocks *)
(** include/aod1b.hpp:20 *)
Inductive ctype := ATM | OCN | GLO | OBA.
Definition same_type (a b : ctype) : bool :=
  match a, b with ATM, ATM | OCN, OCN | GLO, GLO | OBA, OBA => true | _, _ => false end.
(** include/aod1b.hpp:93-102 *)
Record hdr := mkH { mset_nr : Z; mnum_lines : Z; mepoch : Z; mtype : ctype }.
Definition failed {A} (v : option A) : Z := match v with Some _ => 0 | None => 1 end.

Section Blocks.
  (** dso::from_char: date and the text behind it, None: exception *)
  Variable from_char : list Z -> option (Z * list Z).
  (** Datetime::gps2tt *)
  Variable gps2tt : Z -> Z.

  (** src/lib/aod1b/aod1b_parse_data_block_header.cpp:14-64; noexcept *)
  Definition parse_data_block_header (line : list Z) (rec : hdr) : res (Z * hdr) :=
    if negb (starts (chars "DATA SET") line) then Ok (1, rec) else
    str <- drop 8 line ;;
    let (v1, ptr) := scan_i32 (skip_blanks str) in
    let rec := match v1 with Some v => mkH v (mnum_lines rec) (mepoch rec) (mtype rec) | None => rec end in
    str <- drop 1 ptr ;;
    let (v2, ptr) := scan_i32 (skip_blanks str) in
    let rec := match v2 with Some v => mkH (mset_nr rec) v (mepoch rec) (mtype rec) | None => rec end in
    let error := failed v1 + failed v2 in
    let error := if starts (chars "COEFFICIENTS FOR ") (skip_blanks ptr) then error else error + 1 in
    str <- drop 17 ptr ;;
    match from_char (skip_blanks str) with
    | None => Abort
    | Some (t, ptr) =>
        let rec := mkH (mset_nr rec) (mnum_lines rec) (gps2tt t) (mtype rec) in
        str <- drop 1 ptr ;;
        let error := if starts (chars "OF TYPE") (skip_blanks str) then error else error + 1 in
        str <- drop 7 str ;;
        let str := skip_blanks str in
        let ty :=
          if starts (chars "atm") str then Some ATM
          else if starts (chars "ocn") str then Some OCN
          else if starts (chars "glo") str then Some GLO
          else if starts (chars "oba") str then Some OBA
          else None in
        let rec := match ty with Some y => mkH (mset_nr rec) (mnum_lines rec) (mepoch rec) y | None => rec end in
        Ok (if error + failed ty =? 0 then 0 else 1, rec)
    end.

  (** src/lib/aod1b/aod1b_goto_next_block.cpp:29-36 and 76-83 when the loop ends without error *)
  Definition end_code (s : ifs) : Z := if ieof s then -1 else 1.

  (** src/lib/aod1b/aod1b_goto_next_block.cpp:4-39; [n] = MAXLS - 1 - j. An error is seen after the next getline. *)
  Fixpoint next_any (n : nat) (s : ifs) (rec : hdr) : res (Z * ifs * hdr) :=
    let (l, s') := igetline MAXL s in
    if ifail s' then Ok (end_code s', s', rec) else
    match n with
    | O => Ok (end_code s', s', rec)
    | S k =>
        ' (e, rec') <- parse_data_block_header l rec ;;
        if negb (e =? 0) then Ok (1, snd (igetline MAXL s'), rec') else next_any k s' rec'
    end.
  Definition goto_next_block_any (num_data_sets : Z) (s : ifs) (rec : hdr) : res (Z * ifs * hdr) :=
    next_any (Z.to_nat (num_data_sets - 1)) s rec.

  (** lines 65-66: n lines passed over *)
  Fixpoint pass (n : nat) (s : ifs) : ifs := match n with O => s | S k => pass k (snd (igetline MAXL s)) end.
  (** src/lib/aod1b/aod1b_goto_next_block.cpp:41-86 *)
  Fixpoint next_of (n : nat) (type : ctype) (s : ifs) (rec : hdr) : res (Z * ifs * hdr) :=
    let (l, s') := igetline MAXL s in
    if ifail s' then Ok (end_code s', s', rec) else
    match n with
    | O => Ok (end_code s', s', rec)
    | S k =>
        ' (e, rec') <- parse_data_block_header l rec ;;
        if negb (e =? 0) then Ok (1, snd (igetline MAXL s'), rec')
        else if same_type (mtype rec') type then Ok (0, s', rec')
        else next_of k type (pass (Z.to_nat (mnum_lines rec')) s') rec'
    end.
  Definition goto_next_block (num_data_sets : Z) (type : ctype) (s : ifs) (rec : hdr) : res (Z * ifs * hdr) :=
    next_of (Z.to_nat (num_data_sets - 1)) type s rec.

  (** ** include/aod1b.hpp:387-495 Aod1bDataBlockIterator<type> *)
  (** Datetime::min() *)
  Variable EOF : Z.
  Record iter := mkIt { mfin : ifs; mheader : hdr }.
  (** lines 408-415 *)
  Definition set_eof (it : iter) : iter := mkIt (mfin it) (mkH (mset_nr (mheader it)) (mnum_lines (mheader it)) EOF (mtype (mheader it))).
  Definition is_eof (it : iter) : bool := (mepoch (mheader it) =? EOF) && ieof (mfin it).
  (** lines 430-448; Abort: throws *)
  Definition set_begin (file : list (list Z)) (term : bool) (num_data_sets : Z) (type : ctype) (it : iter) : res iter :=
    let s := mfin it in
    let s := mkI (ilines s) (iterm s) false false in
    let (e, s) := skip_header file term s in
    if negb (e =? 0) then Abort else
    ' (j, s, rec) <- goto_next_block num_data_sets type s (mheader it) ;;
    if (j <? 0) || (0 <? j) then Abort else Ok (mkIt s rec).
  (** line 451 *)
  Definition skip (it : iter) : iter := mkIt (snd (skip_lines (mnum_lines (mheader it)) (mfin it))) (mheader it).
  (** lines 488-493 *)
  Definition advance (num_data_sets : Z) (type : ctype) (it : iter) : res (Z * iter) :=
    ' (j, s, rec) <- goto_next_block num_data_sets type (mfin it) (mheader it) ;;
    let it := mkIt s rec in
    Ok (j, if j <? 0 then set_eof it else it).

  (** std::from_chars to double *)
  Variable sdbl : list Z -> option R * list Z.
  (** collect_coeffs works on the streams of Aod1bModel, which have one bit for good(). A stream that is no longer good
      comes back with failbit: the next getline would set it. *)
  Definition narrow (s : ifs) : stream := mkS (ilines s) (iterm s) (good s).
  Definition widen (s : stream) : ifs :=
    if sgood s then mkI (slines s) (sterm s) false false
    else mkI (slines s) (sterm s) (match slines s with [] => true | _ => false end) true.
  (** lines 464-478, without resizing *)
  Definition collect (file_degree cd co max_degree max_order : Z) (cs : coeffs) (it : iter) : res (Z * coeffs * iter) :=
    let max_degree := if max_degree <? 0 then file_degree else max_degree in
    let max_order := if max_order <? 0 then file_degree else max_order in
    ' (e, cs, s) <- collect_coeffs sdbl file_degree cd co max_degree max_order (mnum_lines (mheader it)) (narrow (mfin it)) cs ;;
    Ok (if e =? 0 then 0 else 1, cs, mkIt (widen s) (mheader it)).

  (** ** tidal files: src/lib/aod1b/aod1b_get_tidal_wave.cpp *)
  (** lines 78-91, 126-139: one line; coefficients and errors. l and m are not initialised: comparing them after a failed
      conversion is undefined *)
  Definition tidal_line (max_degree max_order : Z) (line : list Z) (cs : coeffs) : res (coeffs * Z) :=
    let (vl, r) := scan_i32 (skip_blanks line) in
    let (vm, r) := scan_i32 (skip_blanks r) in
    match vl with
    | None => UB
    | Some l =>
        if negb (l <=? max_degree) then Ok (cs, failed vm) else
        match vm with
        | None => UB
        | Some m =>
            if negb (m <=? max_order) then Ok (cs, 0) else
            if negb ((0 <=? m) && (m <=? l)) then UB else
            let (vc, r) := sdbl (skip_blanks r) in
            let (vs, _) := sdbl (skip_blanks r) in
            let cs := match vc with Some v => put cs l m (fun x => (v, snd x)) | None => cs end in
            let cs := match vs with Some v => put cs l m (fun x => (fst x, v)) | None => cs end in
            Ok (cs, failed vc + failed vs)
        end
    end.
  (** lines 77-92, 125-140; [n] lines remain to be read *)
  Fixpoint tidal_lines (max_degree max_order : Z) (n : nat) (s : ifs) (cs : coeffs) : res (ifs * coeffs * Z) :=
    match n with
    | O => Ok (s, cs, 0)
    | S k =>
        let (line, s') := igetline MAXL s in
        if ifail s' then Ok (s', cs, 0) else
        ' (cs', error) <- tidal_line max_degree max_order line cs ;;
        if error =? 0 then tidal_lines max_degree max_order k s' cs' else Ok (s', cs', error)
    end.
  (** lines 58-101 and 104-149: header line and coefficients of one of the two blocks; code, coefficients, stream *)
  Definition tidal_block (set type : list Z) (max_degree max_order : Z) (s : ifs) (cs : coeffs) : res (Z * coeffs * ifs) :=
    let (line, s) := igetline MAXL s in
    let error := if starts set (skip_blanks line) then 0 else 1 in
    str <- drop 12 line ;;
    let (v, ptr) := scan_i32 (skip_blanks str) in
    let error := error + failed v in
    let error := if starts type (skip_blanks ptr) then error else error + 1 in
    match v with
    | None => Ok (1, cs, s)
    | Some max_lines =>
        if negb (error =? 0) then Ok (1, cs, s) else
        ' (s, cs, error) <- tidal_lines max_degree max_order (Z.to_nat max_lines) s cs ;;
        Ok (if negb (error =? 0) || negb (good s) then 1 else 0, cs, s)
    end.
  (** src/lib/aod1b/aod1b_get_tidal_wave.cpp:14-163; [fd]: degree of the file header; [cd], [co], [sd], [so]: sizes of the two sets *)
  Definition get_tidal_wave_coeffs (file : list (list Z)) (term : bool) (fd cd co sd so max_degree max_order : Z) (cCs sCs : coeffs) : res (Z * coeffs * coeffs) :=
    let (e, s) := skip_header file term (mkI file term false false) in
    if negb (e =? 0) then Ok (1, cCs, sCs) else
    let max_degree := if max_degree <? 0 then fd else max_degree in
    let max_order := if max_order <? 0 then fd else max_order in
    if (max_degree <? max_order) || (fd <? max_degree) then Ok (1, cCs, sCs)
    else if (cd <? max_degree) || (co <? max_order) || ((sd <? max_degree) || (so <? max_order)) then Ok (1, cCs, sCs)
    else
      ' (e, cCs, s) <- tidal_block (chars "DATA SET 01:") (chars "COEFFICIENTS OF TYPE cos") max_degree max_order s zero ;;
      if negb (e =? 0) then Ok (1, cCs, zero) else
      ' (e, sCs, s) <- tidal_block (chars "DATA SET 02:") (chars "COEFFICIENTS OF TYPE sin") max_degree max_order s zero ;;
      if negb (e =? 0) then Ok (1, cCs, sCs) else
      let (_, s) := igetline MAXL s in
      Ok (if ieof s then 0 else 1, cCs, sCs).
End Blocks.
