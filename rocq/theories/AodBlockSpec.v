(** Specification of AOD1B data blocks, iteration and tidal files. *)
From Coq Require Import Ascii String Reals ZArith List Bool.
From Verif Require Import Base CString FromChars Aod1bModel Aod1bSpec AodBlockModel.
Import ListNotations.
Open Scope Z_scope.

(** ** text *)
Definition blanks (s : list Z) : Prop := Forall (fun c => c = 32) s.
Definition digit_char (c : Z) : Prop := 48 <= c <= 57.
(** decimal number without sign *)
Definition number (w : list Z) (v : Z) : Prop := w <> [] /\ Forall digit_char w /\ digits_val w = v /\ v < 2 ^ 31.
Definition short (l : list Z) : Prop := (length l < 124)%nat.
Definition begins (lit s : list Z) : Prop := exists r, s = lit ++ r.
(** text that does not begin with a blank *)
Definition solid (w : list Z) : Prop := exists c r, w = c :: r /\ c <> 32.

(** position in a file behind at least one line: the lines that follow, and whether the last one ends with a newline *)
Definition at_lines (ls : list (list Z)) (term : bool) (s : ifs) : Prop :=
  ilines s = ls /\ iterm s = term /\ ifail s = false /\ ieof s = match ls with [] => negb term | _ => false end.

(** header of a file: the lines up to END OF HEADER *)
Definition header_lines (hl : list (list Z)) : Prop := exists pre e,
  hl = pre ++ [e] /\ (length pre < 99)%nat /\ begins (chars "END OF HEADER") e /\
  Forall (fun l => ~ begins (chars "END OF HEADER") l) pre /\ Forall short hl.

(** largest degree or order asked for; negative: all of the file *)
Definition limit (fd N : Z) : Z := if N <? 0 then fd else N.

(** ** data blocks *)
Definition tag (ty : ctype) : list Z :=
  match ty with ATM => chars "atm" | OCN => chars "ocn" | GLO => chars "glo" | OBA => chars "oba" end.
Section Blocks.
  Variable from_char : list Z -> option (Z * list Z).
  Variable gps2tt : Z -> Z.
  (** a date, read whatever follows the blank behind it *)
  Definition date_text (d : list Z) (t : Z) : Prop := solid d /\ forall r, from_char (d ++ 32 :: r) = Some (t, 32 :: r).
  (** DATA SET 01:   16471 COEFFICIENTS FOR 2008-07-03 00:00:00 OF TYPE atm *)
  Definition header_line (line : list Z) (set n t : Z) (ty : ctype) : Prop := exists b1 w1 sep b2 w2 b3 date b4 rest,
    line = chars "DATA SET" ++ b1 ++ w1 ++ sep :: b2 ++ w2 ++ chars " COEFFICIENTS FOR " ++ b3 ++ date ++ chars " OF TYPE " ++ b4 ++ tag ty ++ rest /\
    blanks b1 /\ blanks b2 /\ blanks b3 /\ blanks b4 /\ number w1 set /\ ~ digit_char sep /\ number w2 n /\ date_text date t /\ short line.
  Record block := mkBlock { bline : list Z; bset : Z; btime : Z; btype : ctype; bdata : list (list Z) }.
  Definition bnum (b : block) : Z := Z.of_nat (length (bdata b)).
  Definition block_ok (b : block) : Prop := header_line (bline b) (bset b) (bnum b) (btime b) (btype b) /\ Forall short (bdata b).
  Definition block_lines (b : block) : list (list Z) := bline b :: bdata b.
  Definition body (bs : list block) : list (list Z) := concat (map block_lines bs).
  (** what the reader should report for a block; the epoch in TT *)
  Definition reported (b : block) : hdr := mkH (bset b) (bnum b) (gps2tt (btime b)) (btype b).
  Definition of_type (ty : ctype) (b : block) : bool := match ty, btype b with ATM, ATM | OCN, OCN | GLO, GLO | OBA, OBA => true | _, _ => false end.
  (** fewer than k blocks of other types in a row *)
  Definition gaps (k : Z) (ty : ctype) (bs : list block) : Prop := forall l1 l2 l3,
    bs = l1 ++ l2 ++ l3 -> Forall (fun b => of_type ty b = false) l2 -> Z.of_nat (length l2) < k.

  (** ** iteration as in include/aod1b.hpp:361-382 *)
  Variable EOF : Z.
  Inductive walk (nds : Z) (ty : ctype) : iter -> list hdr -> iter -> Prop :=
  | walk_end it it' : advance from_char gps2tt EOF nds ty it = Ok (-1, it') -> walk nds ty it [] it'
  | walk_next it it1 hs it' : advance from_char gps2tt EOF nds ty it = Ok (0, it1) -> walk nds ty (skip it1) hs it' ->
      walk nds ty it (mheader it1 :: hs) it'.

  Variable sdbl : list Z -> option R * list Z.
  Inductive walk_collect (nds : Z) (ty : ctype) (fd cd co N M : Z) (cs0 : coeffs) : iter -> list (hdr * coeffs) -> iter -> Prop :=
  | wc_end it it' : advance from_char gps2tt EOF nds ty it = Ok (-1, it') -> walk_collect nds ty fd cd co N M cs0 it [] it'
  | wc_next it it1 cs it2 hs it' : advance from_char gps2tt EOF nds ty it = Ok (0, it1) ->
      collect sdbl fd cd co N M cs0 it1 = Ok (0, cs, it2) -> walk_collect nds ty fd cd co N M cs0 it2 hs it' ->
      walk_collect nds ty fd cd co N M cs0 it ((mheader it1, cs) :: hs) it'.
  (** the coefficients of a block, all of those up to (N, M) *)
  Definition block_says (N M : Z) (b : block) (cs : coeffs) : Prop := exists es,
    lines_say sdbl (bdata b) es /\ Forall valid_entry es /\
    top_degree (filter (within_limits N M) es) = N /\ top_order (filter (within_limits N M) es) = M /\
    forall l m, cs l m = match value_of (filter (within_limits N M) es) l m with Some v => v | None => (0%R, 0%R) end.

  (** ** tidal files *)
  Definition tidal_coef_line (line : list Z) (l m : Z) (c s : R) : Prop := exists s1 w1 s2 w2 s3 w3 s4 w4 rest,
    line = s1 ++ w1 ++ 32 :: s2 ++ w2 ++ 32 :: s3 ++ w3 ++ 32 :: s4 ++ w4 ++ rest /\
    blanks s1 /\ blanks s2 /\ blanks s3 /\ blanks s4 /\ solid w1 /\ solid w2 /\ solid w3 /\ solid w4 /\ at_blank rest /\
    scan_i32 w1 = (Some l, []) /\ scan_i32 w2 = (Some m, []) /\ sdbl w3 = (Some c, []) /\ sdbl w4 = (Some s, []) /\ short line.
  Definition tidal_say (lines : list (list Z)) (es : list entry) : Prop :=
    Forall2 (fun line e => let '(l, m, c, s) := e in tidal_coef_line line l m c s) lines es.
  Definition tidal_header (set type line : list Z) (n : Z) : Prop := exists b1 w b2 rest,
    line = set ++ b1 ++ w ++ b2 ++ type ++ rest /\ blanks b1 /\ blanks b2 /\ number w n /\ short line.
  Definition tidal_file (file : list (list Z)) (ces ses : list entry) : Prop := exists hl h1 ls1 h2 ls2,
    file = hl ++ h1 :: ls1 ++ h2 :: ls2 /\ header_lines hl /\
    tidal_header (chars "DATA SET 01:") (chars "COEFFICIENTS OF TYPE cos") h1 (Z.of_nat (length ls1)) /\ tidal_say ls1 ces /\
    tidal_header (chars "DATA SET 02:") (chars "COEFFICIENTS OF TYPE sin") h2 (Z.of_nat (length ls2)) /\ tidal_say ls2 ses /\
    Forall valid_entry ces /\ Forall valid_entry ses.
  (** the coefficients up to (N, M), zero where the file says nothing *)
  Definition cut (N M : Z) (es : list entry) (cs : coeffs) : Prop := forall l m,
    cs l m = match value_of (filter (within_limits N M) es) l m with Some v => v | None => (0%R, 0%R) end.
End Blocks.
