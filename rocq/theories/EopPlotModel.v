(** bin/plot_eopdiffs_wrt_costg.py without the plots: the two readers and the matching of epochs. Conventions in PyModel. Numbers are doubles
    without overflow, infinities and NaN: real numbers, rounded to nearest after every operation. What match prints is left out. *)
From Coq Require Import Ascii String Reals ZArith List Bool.
From Flocq Require Import Core.Core.
From Verif Require Import Base CString PyModel.
Import ListNotations.
Open Scope Z_scope.

Definition rnd (x : R) : R := round radix2 (FLT_exp (-1074) 53) ZnearestE x.
Section Read.
  (** float(str); None: ValueError *)
  Variable fl : list Z -> option R.

  (** [float(x) for x in ws]; None: an exception, which the callers catch *)
  Fixpoint floats (ws : list (list Z)) : option (list R) :=
    match ws with [] => Some [] | w :: r => match fl w, floats r with Some x, Some xs => Some (x :: xs) | _, _ => None end end.
  (** lines 44-51 *)
  Definition ref_row (l : list Z) : option (list R) := if 5 <? Z.of_nat (length l) then floats (words l) else None.
  (** lines 85-94 *)
  Definition lib_row (l : list Z) : option (list R) :=
    match words l with
    | a :: b :: ws =>
        match parse_int a, fl b, floats ws with
        | Some i, Some s, Some xs => Some (rnd (rnd (IZR i) + rnd (s / 86400)) :: xs)
        | _, _, _ => None
        end
    | _ => None
    end.
  (** the rows that are appended *)
  Fixpoint rows (f : list Z -> option (list R)) (ls : list (list Z)) : list (list R) :=
    match ls with [] => [] | l :: r => match f l with Some x => x :: rows f r | None => rows f r end end.
  (** lines 41-52; lines 83-94 *)
  Definition parseRefEops (text : list Z) : list (list R) := rows ref_row (lines text).
  Definition read_stdin (text : list Z) : list (list R) := rows lib_row (lines text).
End Read.
(** row[0] *)
Definition first (r : list R) : py R := match r with [] => Raise IndexError | x :: _ => Val x end.
(** lines 62-63; the literal 1e-12 *)
Definition tol : R := rnd (1 / IZR (10 ^ 12)).
Fixpoint grep (data : list (list R)) (t : R) : py (list (list R)) :=
  match data with
  | [] => Val []
  | r :: more =>
      let* x := first r in
      let* g := grep more t in
      Val (if Rlt_bool (Rabs (rnd (x - t))) tol then r :: g else g)
  end.
(** line 69 *)
Fixpoint diffs (xs ys : list R) : list R := match xs, ys with x :: xs', y :: ys' => rnd (x - y) :: diffs xs' ys' | _, _ => [] end.
(** lines 59-73; [match] of the script *)
Fixpoint matches (l1 l2 : list (list R)) : py (list (list R)) :=
  match l1 with
  | [] => Val []
  | ref :: more =>
      let* t := first ref in
      let* c := grep l2 t in
      let* m := matches more l2 in
      Val (match c with [] => m | cmp :: _ => (t :: diffs (tl ref) (tl cmp)) :: m end)
  end.
