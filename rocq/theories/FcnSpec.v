(** Free core nutation from a table of complex amplitudes, and the text of such a table. *)
From Coq Require Import Ascii String Reals ZArith List Bool Sorted.
From Verif Require Import Base CString FromChars AtlasSpec FcnModel.
Import ListNotations.
Open Scope R_scope.

Definition earlier (a b : lcoef) : Prop := lt a < lt b.
Definition ascending (v : list lcoef) : Prop := StronglySorted earlier v.
Definition neighbours (v : list lcoef) (a b : lcoef) : Prop := exists l r, (v = l ++ a :: b :: r)%list.
Definition first (v : list lcoef) (a : lcoef) : Prop := exists r, (v = a :: r)%list.
Definition last (v : list lcoef) (a : lcoef) : Prop := exists l, (v = l ++ [a])%list.
(** the straight line through (t0, p) and (t1, q) *)
Definition line (t0 t1 p q t : R) : R := (p * (t1 - t) + q * (t - t0)) / (t1 - t0).
(** (a + ib) exp(i phi) *)
Definition turned (a b phi : R) : R * R := (a * cos phi - b * sin phi, a * sin phi + b * cos phi).
(** one turn backwards in 430.21 days, phase 0 at J2000 *)
Definition phi (t : R) : R := - (2 * PI) * ((t - 51544.5) / 430.21).
(** amplitude a + ib and uncertainty s of both coordinates *)
Definition says (r : fresult) (t a b s : R) : Prop := (xcip r, ycip r) = turned a b (phi t) /\ sxcip r = s /\ sycip r = s.

(** ** the file: a header starting with %, then lines of five numbers *)
Section File.
  Variable sdbl : list Z -> option R * list Z.
  Definition header (head : list Z) : Prop := (length head <= 127)%nat /\ exists n rest, head = (repeat 32 n ++ 37 :: rest)%list%Z.
  (** year and entry *)
  Definition row_line (line : list Z) (r : R * lcoef) : Prop := (length line <= 127)%nat /\
    number_line sdbl line [fst r; lt (snd r); lre (snd r); lim (snd r); lsg (snd r)].
  (** the same, by what the scanner reads *)
  Definition row_reads (line : list Z) (r : R * lcoef) : Prop := (length line <= 127)%nat /\
    AtlasModel.numbers sdbl 5 line = ([Some (fst r); Some (lt (snd r)); Some (lre (snd r)); Some (lim (snd r)); Some (lsg (snd r))], 0%Z).
  Definition wanted (from to : R) (e : lcoef) : Prop := from <= lt e < to.
  Definition in_int (e : lcoef) : Prop := -2147483649 < lt e < 2147483648.
End File.
(** [sub] is the list of the elements of [l] with [P], in order *)
Inductive selects {A} (P : A -> Prop) : list A -> list A -> Prop :=
| sel_nil : selects P [] []
| sel_in a l s : P a -> selects P l s -> selects P (a :: l) (a :: s)
| sel_out a l s : ~ P a -> selects P l s -> selects P (a :: l) s.
(** the last neighbours whose epochs enclose t *)
Definition encloses (t : R) (a b : lcoef) : Prop := lt a <= t < lt b.
Definition latest (v : list lcoef) (t : R) (a b : lcoef) : Prop := exists l r, (v = l ++ a :: b :: r)%list /\ encloses t a b /\ forall c d, neighbours (b :: r) c d -> ~ encloses t c d.
