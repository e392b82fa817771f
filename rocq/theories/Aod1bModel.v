(** AOD1B products: file names, block reading, interpolating stream; src/lib/aod1b/*.cpp, include/aod1b.hpp,
    include/aod1b_data_stream.hpp *)
From Coq Require Import Ascii String Reals ZArith List Bool.
From Verif Require Import Base CString FromChars.
Import ListNotations.
Open Scope Z_scope.

(** ** File names *)
(** bytes written into a buffer from an offset on *)
Definition write_at (buf : list Z) (off : nat) (bytes : list Z) : res (list Z) :=
  if Nat.leb (off + length bytes) (length buf) then Ok (firstn off buf ++ bytes ++ skipn (off + length bytes) buf) else UB.
(** "%02d" *)
Definition fmt02 (n : Z) : list Z :=
  if n <? 0 then 45 :: dec (- n) else if n <? 10 then 48 :: dec n else dec n.

(** src/lib/aod1b/aod1bnontidalproductnaming.cpp:7-23; [date]: the ten characters YYYY-MM-DD written by dso::to_char *)
Definition filename (date : list Z) (rl : Z) (buf : list Z) (satid : Z) (is_compressed : bool) : res (list Z) :=
  b <- write_at buf 0 (cstring "AOD1B_") ;;
  b <- write_at b 6 date ;;
  b <- write_at b 16 [95] ;;
  b <- write_at b 17 [satid] ;;
  b <- write_at b 18 (95 :: fmt02 rl ++ cstring ".asc") ;;
  if is_compressed then write_at b 27 (cstring ".gz") else Ok b.

(** src/lib/aod1b/aod1bnontidalproductnaming.cpp:25-39; [fn]: the bytes up to the terminator, [fn ++ [0]] the object.
    strrchr gives a null pointer without a '/'. *)
Fixpoint last_slash (s : list Z) : option nat :=
  match s with
  | [] => None
  | c :: t => match last_slash t with Some k => Some (S k) | None => if c =? 47 then Some O else None end
  end.
Definition resolve_rl (fn : list Z) : res Z :=
  match last_slash fn with
  | None => UB
  | Some k =>
      match nth_error (fn ++ [0]) (S k + 19), nth_error (fn ++ [0]) (S k + 20) with
      | Some a, Some b => Ok (match scan_i32 [a; b] with (Some v, _) => v | (None, _) => -100 end)
      | _, _ => UB
      end
  end.

(** ** Block reading *)
Section Collect.
  (** std::from_chars to double *)
  Variable sdbl : list Z -> option R * list Z.

  (** a text stream: remaining lines, whether the last one ends with a newline, and the stream state *)
  Record stream := mkS { slines : list (list Z); sterm : bool; sgood : bool }.
  (** istream::getline with room for n characters: a line of n or more characters sets failbit; the end of the file
      sets eofbit (and failbit if nothing was read) *)
  Definition getline (n : Z) (s : stream) : option (list Z) * stream :=
    if negb (sgood s) then (None, s) else
    match slines s with
    | [] => (None, mkS [] (sterm s) false)
    | l :: rest =>
        if n <=? Z.of_nat (length l) then (None, mkS (skipn (Z.to_nat (n - 1)) l :: rest) (sterm s) false)
        else (Some l, mkS rest (sterm s) (match rest with [] => sterm s | _ => true end))
    end.

  (** src/lib/aod1b/aod1b_collect_coeffs.cpp:6-10 *)
  Fixpoint skipws (s : list Z) : list Z :=
    match s with c :: t => if (c =? 32) || (c =? 43) then skipws t else s | [] => [] end.

  (** a coefficient set: C and S at (degree, order); a cell outside 0 <= order <= degree does not exist *)
  Definition coeffs := Z -> Z -> R * R.
  Definition zero : coeffs := fun _ _ => (0%R, 0%R).
  Definition put (cs : coeffs) (l m : Z) (f : R * R -> R * R) : coeffs :=
    fun n k => if (n =? l) && (k =? m) then f (cs n k) else cs n k.
  Definition MAXL : Z := 124.

  (** src/lib/aod1b/aod1b_collect_coeffs.cpp:66-81: one line; new coefficients, error count, largest degree and order *)
  Definition one_line (max_degree max_order : Z) (line : list Z) (cs : coeffs) (dc oc : Z) : res (coeffs * Z * Z * Z) :=
    let (vl, r) := scan_i32 (skipws line) in
    let e1 := match vl with Some _ => 0 | None => 1 end in
    let l := match vl with Some v => v | None => 0 end in
    let (vm, r) := scan_i32 (skipws r) in
    let e2 := match vm with Some _ => 0 | None => 1 end in
    let m := match vm with Some v => v | None => 0 end in
    let error := e1 + e2 in
    if (l <=? max_degree) && (m <=? max_order) && (error =? 0) then
      if negb ((0 <=? m) && (m <=? l)) then UB else
      let (vc, r) := sdbl (skipws r) in
      let (vs, _) := sdbl (skipws r) in
      let cs := match vc with Some v => put cs l m (fun x => (v, snd x)) | None => cs end in
      let cs := match vs with Some v => put cs l m (fun x => (fst x, v)) | None => cs end in
      let e3 := match vc with Some _ => 0 | None => 1 end in
      let e4 := match vs with Some _ => 0 | None => 1 end in
      Ok (cs, error + e3 + e4, Z.max dc l, Z.max oc m)
    else Ok (cs, error, dc, oc).

  (** lines 65-82; [n] lines remain to be read *)
  Fixpoint read_lines (max_degree max_order : Z) (n : nat) (s : stream) (cs : coeffs) (dc oc : Z) : res (stream * coeffs * Z * Z * Z) :=
    match n with
    | O => Ok (s, cs, 0, dc, oc)
    | S k =>
        let (l, s') := getline MAXL s in
        match l with
        | None => Ok (s', cs, 0, dc, oc)
        | Some line =>
            ' (cs', error, dc', oc') <- one_line max_degree max_order line cs dc oc ;;
            if error =? 0 then read_lines max_degree max_order k s' cs' dc' oc' else Ok (s', cs', error, dc', oc')
        end
    end.

  (** src/lib/aod1b/aod1b_collect_coeffs.cpp:13-115 for an open stream, without resizing. [file_degree]: Aod1bIn::max_degree(),
      [cd], [co]: degree and order of the caller's set. Code, coefficients, stream. *)
  Definition collect_coeffs (file_degree cd co max_degree max_order max_lines : Z) (s : stream) (cs : coeffs) : res (Z * coeffs * stream) :=
    if (max_degree <? max_order) || (file_degree <? max_degree) then Ok (1, cs, s)
    else if (cd <? max_degree) || (co <? max_order) then Ok (1, cs, s)
    else
      ' (s', cs', error, dc, oc) <- read_lines max_degree max_order (Z.to_nat max_lines) s zero 0 0 ;;
      if negb (error =? 0) || negb (sgood s') then Ok (1, cs', s')
      else if negb (dc =? max_degree) || negb (oc =? max_order) then Ok (-1, cs', s')
      else Ok (0, cs', s').
End Collect.

(** ** The interpolating stream *)
Section Stream.
  (** coefficients of a block *)
  Variable C : Type.

  (** a block of the stream's type: epoch (nanoseconds) and coefficients. Blocks of other types are passed over by
      goto_next_block; every block is taken to be readable. *)
  Record block := mkB { ep : Z; co : C }.
  (** Datetime::min(): the epoch that marks the end of the file *)
  Variable EOF : Z.

  (** include/aod1b_data_stream.hpp:43-61. [files]: blocks of the present file and of those that follow it in the
      directory, [dir]: a directory was given; [mit]: header the iterator is at, None after the end of the file;
      [unread]: blocks behind it. mhdrvec and mcsvec as separate arrays, so that they may disagree. *)
  Record st := mkSt { files : list (list block); dir : bool; mit : option block; unread : list block; h : Z * Z * Z; c : C * C * C }.

  (** mit.header().mepoch *)
  Definition mepoch (s : st) : Z := match mit s with Some b => ep b | None => EOF end.
  (** include/aod1b.hpp:488-492 advance: code and new position *)
  Definition advance (s : st) : Z * st :=
    match unread s with
    | b :: rest => (0, mkSt (files s) (dir s) (Some b) rest (h s) (c s))
    | [] => (-1, mkSt (files s) (dir s) None [] (h s) (c s))
    end.
  (** include/aod1b.hpp:464-477 collect into mcsvec[i]: fails at the end of the file *)
  Definition setc (i : nat) (x : C) (v : C * C * C) : C * C * C :=
    let '(a, b, d) := v in match i with O => (x, b, d) | S O => (a, x, d) | _ => (a, b, x) end.
  Definition seth (i : nat) (x : Z) (v : Z * Z * Z) : Z * Z * Z :=
    let '(a, b, d) := v in match i with O => (x, b, d) | S O => (a, x, d) | _ => (a, b, x) end.
  Definition collect (i : nat) (s : st) : Z * st :=
    match mit s with
    | Some b => (0, mkSt (files s) (dir s) (mit s) (unread s) (h s) (setc i (co b) (c s)))
    | None => (1, s)
    end.
  (** mhdrvec[i] = mit.header() *)
  Definition take_header (i : nat) (s : st) : st := mkSt (files s) (dir s) (mit s) (unread s) (seth i (mepoch s) (h s)) (c s).
  (** swap(0,1); swap(1,2) *)
  Definition shift (s : st) : st :=
    let '(h0, h1, h2) := h s in let '(c0, c1, c2) := c s in mkSt (files s) (dir s) (mit s) (unread s) (h1, h2, h0) (c1, c2, c0).

  (** include/aod1b.hpp:432-448 set_begin: throws without a block; in a noexcept function this terminates *)
  Definition set_begin (s : st) : res st :=
    match files s with
    | (b :: rest) :: _ => Ok (mkSt (files s) (dir s) (Some b) rest (h s) (c s))
    | _ => Abort
    end.
  (** include/aod1b_data_stream.hpp:251-277 *)
  Definition initialize (s : st) : res (Z * st) :=
    s <- set_begin s ;;
    let (e, s) := collect 0 s in
    if negb (e =? 0) then Ok (1, s) else
    let s := take_header 0 s in
    let (j, s) := advance s in
    let (e, s) := collect 1 s in
    let j := j + e in
    let s := take_header 1 s in
    let '(j, s) :=
      if j =? 0 then
        let (j', s) := advance s in
        let (e, s) := collect 2 s in
        (j + j' + e, take_header 2 s)
      else (j, s) in
    let (j', s) := advance s in
    Ok (if j + j' =? 0 then 0 else 1, s).

  (** lines 137-142: the loop over the blocks (structural on those left); error *)
  Fixpoint hunt_loop (t : Z) (error : Z) (n : nat) (s : st) : Z * st :=
    match n with
    | O => (error, s)
    | S k =>
        if (t <=? mepoch s) && (error =? 0) then
          let (e, s) := collect 0 s in
          let s := take_header 0 s in
          let (j, s) := advance s in
          hunt_loop t (e + j) k s
        else (error, s)
    end.
  (** lines 105-233; [again]: whether the recursive call of line 217 is still possible (a second re-initialisation
      in one hunt would be an unbounded recursion; it is reported as UB) *)
  Fixpoint hunt_range (again : nat) (t : Z) (s : st) : res (Z * st) :=
    let '(h0, h1, h2) := h s in
    if (h0 <=? t) && (t <? h1) then Ok (0, s)
    else if (h1 <=? t) && (t <? h2) then Ok (1, s)
    else if (h2 <=? t) && (match mit s with Some _ => true | None => false end) then
      if (h2 <=? t) && (t <? mepoch s) then
        let s := shift s in
        let s := take_header 2 s in
        let (j, s) := collect 2 s in
        let (_, s) := advance s in
        Ok (if 0 <? j then -1 else 1, s)
      else
        let (error, s) := hunt_loop t 0 (S (S (length (unread s)))) s in
        if negb (error =? 0) then Ok (-2, s) else
        let (e, s) := collect 1 s in
        if negb (e =? 0) then Ok (-3, s) else
        let s := take_header 1 s in
        let (j, s) := advance s in
        if j <? 0 then Ok (0, take_header 2 s)
        else
          let (e, s) := collect 2 s in
          if negb (e =? 0) then Ok (-3, s) else
          let s := take_header 2 s in
          let (_, s) := advance s in
          Ok (0, s)
    else if t <? h0 then
      match files s with
      | (f :: _) :: _ =>
          if t <? ep f then Ok (-4, s) else
          ' (e, s) <- initialize s ;;
          if negb (e =? 0) then Ok (-5, s) else
          match again with O => UB | S k => hunt_range k t s end
      | _ => Abort
      end
    else if (h2 <=? t) && (match mit s with Some _ => false | None => true end) then Ok (-100, s)
    else Abort.

  (** lines 281-320: continue with the next file of the directory (the one of the following day; [files] holds them
      in that order, an empty list stands for an unreadable or missing file) *)
  Definition feed_next_file (s : st) : res (Z * st) :=
    match files s with
    | _ :: (b :: rest) :: more =>
        let s := mkSt ((b :: rest) :: more) (dir s) (mit s) (unread s) (h s) (c s) in
        let s := shift s in
        s <- set_begin s ;;
        let (e, s) := collect 2 s in
        if negb (e =? 0) then Ok (1, s) else
        let s := take_header 2 s in
        let (j, s) := advance s in
        Ok (if j =? 0 then 0 else 1, s)
    | _ => Ok (2, s)
    end.

  (** the two blocks lines 382-402 work with *)
  Definition pair_at (i : Z) (s : st) : (Z * C) * (Z * C) :=
    let '(h0, h1, h2) := h s in let '(c0, c1, c2) := c s in
    if i =? 0 then ((h0, c0), (h1, c1)) else ((h1, c1), (h2, c2)).
  (** lines 332-404: None for a nonzero code, otherwise the blocks interpolated between *)
  Definition coefficients_at (t : Z) (s : st) : res (option ((Z * C) * (Z * C)) * st) :=
    let '(h0, h1, h2) := h s in
    if (h0 <=? t) && (t <? h1) then Ok (Some (pair_at 0 s), s)
    else if (h1 <=? t) && (t <? h2) then Ok (Some (pair_at 1 s), s)
    else
      ' (i, s) <- hunt_range 1 t s ;;
      if 0 <=? i then Ok (Some (pair_at i s), s)
      else if (i =? -100) && dir s then
        ' (e, s) <- feed_next_file s ;;
        if negb (e =? 0) then Ok (None, s) else
        ' (i, s) <- hunt_range 1 t s ;;
        if i <? 0 then Ok (None, s) else Ok (Some (pair_at i s), s)
      else Ok (None, s).
End Stream.

(** include/aod1b_data_stream.hpp:387-402: one coefficient *)
Definition lerp (t t1 t2 : R) (c1 c2 : R) : R :=
  ((t2 - t) / (t2 - t1) * c1 + (t - t1) / (t2 - t1) * c2)%R.

(** ** Ownership of the stream object *)
(** include/aod1b_data_stream.hpp:43-61, 406-457: a live stream object [self] holds an iterator that points to the
    Aod1bIn member of object [target], and owns an array of coefficient sets ([None]: null pointer) *)
Record sobj := mkO { target : nat; arr : option nat }.
Record swld := mkW { objs : list (nat * sobj); owned : list nat; fresh : nat }.
Fixpoint ofind (l : list (nat * sobj)) (i : nat) : option sobj :=
  match l with [] => None | (j, o) :: t => if Nat.eqb i j then Some o else ofind t i end.
Definition oset (l : list (nat * sobj)) (i : nat) (o : sobj) : list (nat * sobj) := (i, o) :: filter (fun p => negb (Nat.eqb i (fst p))) l.
Definition odel (l : list (nat * sobj)) (i : nat) : list (nat * sobj) := filter (fun p => negb (Nat.eqb i (fst p))) l.
Inductive sop := New (i : nat) | MoveNew (i j : nat) | MoveAssign (i j : nat) | Query (i : nat) | Drop (i : nat).
Definition srun1 (w : swld) (o : sop) : res swld :=
  match o with
  | New i => (* lines 406-414 *)
      match ofind (objs w) i with
      | Some _ => Illegal
      | None => Ok (mkW (oset (objs w) i (mkO i (Some (fresh w)))) (fresh w :: owned w) (S (fresh w)))
      end
  | MoveNew i j => (* lines 442-446: object i from object j *)
      match ofind (objs w) i, ofind (objs w) j with
      | None, Some o => Ok (mkW (oset (oset (objs w) j (mkO (target o) None)) i o) (owned w) (fresh w))
      | _, _ => Illegal
      end
  | MoveAssign i j => (* lines 448-457 *)
      match ofind (objs w) i, ofind (objs w) j with
      | Some _, Some o => if Nat.eqb i j then Ok w else Ok (mkW (oset (oset (objs w) j (mkO (target o) None)) i o) (owned w) (fresh w))
      | _, _ => Illegal
      end
  | Query i => (* initialize, coefficients_at: use of the iterator's Aod1bIn and of the array *)
      match ofind (objs w) i with
      | None => Illegal
      | Some o => match ofind (objs w) (target o), arr o with Some _, Some a => if existsb (Nat.eqb a) (owned w) then Ok w else UB | _, _ => UB end
      end
  | Drop i => (* lines 431-435: the elements are destroyed through the pointer, null or not *)
      match ofind (objs w) i with
      | None => Illegal
      | Some o => match arr o with
                  | None => UB
                  | Some a => if existsb (Nat.eqb a) (owned w) then Ok (mkW (odel (objs w) i) (filter (fun b => negb (Nat.eqb a b)) (owned w)) (fresh w)) else UB
                  end
      end
  end.
Definition srun (w : swld) (l : list sop) : res swld := fold_res srun1 l w.
