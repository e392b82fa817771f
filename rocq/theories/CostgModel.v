(** Readers of the COST-G benchmark programs: costg-benchmark/bin/costg_utils.cpp, costg_utils.hpp. Streams as in AodBlockModel; lines
    hold no NUL character. An epoch is kept as the two arguments of the constructor of dso::MjdEpoch. *)
From Coq Require Import Ascii String Reals ZArith List Bool.
From Verif Require Import Base CString FromChars AodBlockModel.
Import ListNotations.
Open Scope Z_scope.

(** a double read from text: a number; an infinity or NaN *)
Inductive fl := Num (x : R) | Special.
(** conversion of a double to int: truncation, undefined outside the range of int *)
Definition trunc (x : R) : Z := if Rle_dec 0 x then Int_part x else - Int_part (- x).
Definition to_int (x : fl) : res Z :=
  match x with
  | Num x => let k := trunc x in if (- 2 ^ 31 <=? k) && (k <=? 2 ^ 31 - 1) then Ok k else UB
  | Special => UB
  end.

Record bm := mkB { bday : Z; bsec : R; bdata : list fl }.

Section Readers.
  (** std::from_chars to double: no value if it reports an error; the text from the returned pointer on *)
  Variable sdbl : list Z -> option fl * list Z.

  (** lines 9-13 *)
  Definition skipws := skip_blanks.
  (** lines 33-38, 71-76, 109-114, 147-152: values and number of errors; the value of a failed field is never used *)
  Fixpoint fields (n : nat) (s : list Z) : list fl * Z :=
    match n with
    | O => ([], 0)
    | S k =>
        let (v, r) := sdbl (skipws s) in
        let (vs, e) := fields k r in
        (match v with Some x => x | None => Special end :: vs, e + match v with Some _ => 0 | None => 1 end)
    end.
  (** lines 39-44 and so on *)
  Definition read_line (n : nat) (line : list Z) : res (option bm) :=
    let (td, error) := fields n line in
    if negb (error =? 0) then Ok None else
    match td with
    | [] => Ok None
    | t :: rest => imjd <- to_int t ;; Ok (Some (mkB imjd (match t with Num x => (x - IZR imjd) * 86400 | Special => 0 end)%R rest))
    end.
  (** the loops over the lines, with room for [size] characters; [fuel]: lines *)
  Fixpoint read (fuel : nat) (size : Z) (n : nat) (s : ifs) : res (list bm * ifs) :=
    let (l, s') := igetline size s in
    if ifail s' then Ok ([], s') else
    match fuel with
    | O => Ok ([], s')
    | S k =>
        r <- read_line n l ;;
        ' (rs, s'') <- read k size n s' ;;
        Ok (match r with Some r => r :: rs | None => rs end, s'')
    end.
  (** a file that cannot be opened: None; an exception: Abort *)
  Definition parse (size : Z) (n : nat) (file : option (list (list Z) * bool)) : res (list bm) :=
    match file with
    | None => Abort
    | Some (lines, term) =>
        ' (rs, s) <- read (length lines) size n (mkI lines term false false) ;;
        if ieof s then Ok rs else Abort
    end.
  Definition at_ (l : list fl) (i : nat) : fl := nth i l Special.
  Definition triple (l : list fl) (i : nat) : fl * fl * fl := (at_ l i, at_ l (i + 1), at_ l (i + 2)).
  (** lines 15-54, costg_utils.hpp:22-28 *)
  Definition parse_acceleration (file : option (list (list Z) * bool)) : res (list (Z * R * (fl * fl * fl))) :=
    rs <- parse 256 4 file ;; Ok (map (fun b => (bday b, bsec b, triple (bdata b) 0)) rs).
  (** lines 56-92, costg_utils.hpp:10-20: position, velocity, acceleration *)
  Definition parse_orbit (file : option (list (list Z) * bool)) : res (list (Z * R * (fl * fl * fl) * (fl * fl * fl) * (fl * fl * fl))) :=
    rs <- parse 512 10 file ;; Ok (map (fun b => (bday b, bsec b, triple (bdata b) 0, triple (bdata b) 3, triple (bdata b) 6)) rs).
  (** lines 94-130, costg_utils.hpp:30-37: the rows *)
  Definition parse_rotary (file : option (list (list Z) * bool)) : res (list (Z * R * (fl * fl * fl) * (fl * fl * fl) * (fl * fl * fl))) :=
    rs <- parse 1024 10 file ;; Ok (map (fun b => (bday b, bsec b, triple (bdata b) 0, triple (bdata b) 3, triple (bdata b) 6)) rs).
  (** lines 132-168, costg_utils.hpp:39-45: xp, yp, sp, dUT1, LOD, X, Y, s *)
  Definition parse_eops (file : option (list (list Z) * bool)) : res (list (Z * R * list fl)) :=
    rs <- parse 1024 9 file ;; Ok (map (fun b => (bday b, bsec b, map (at_ (bdata b)) [0; 1; 2; 3; 4; 5; 6; 7]%nat)) rs).
End Readers.

(** std::from_chars with "inf" and "nan" (longer forms and rounding are left out) *)
Definition lower (c : Z) : Z := if (65 <=? c) && (c <=? 90) then c + 32 else c.
Definition scan_fl (s : list Z) : option fl * list Z :=
  let t := match s with c :: t => if c =? 45 then t else s | [] => [] end in
  if starts (chars "inf") (map lower t) || starts (chars "nan") (map lower t) then (Some Special, skipn 3 t)
  else let (v, r) := scan_dbl s in (option_map Num v, r).

(** ** basename: lines 170-177; the argument up to its terminator. Reading behind the terminator is undefined. *)
(** the loop: [c] points at the head of [s] after ++c; [last]: text from last_split on *)
Fixpoint last_slash (s last : list Z) : list Z :=
  match s with
  | [] => last
  | c :: t => last_slash t (if c =? 47 then s else last)
  end.
Definition basename (fn : list Z) : res (list Z) :=
  match fn with
  | [] => UB
  | _ :: t => Ok (tl (last_slash t fn))
  end.
