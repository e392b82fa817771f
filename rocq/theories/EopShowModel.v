(** examples/plot_eop_example.py without the plots. Conventions in PyModel; numbers are real. The five lists of a kind are one list of rows,
    which are filled together. *)
From Coq Require Import Ascii String Reals ZArith List Bool.
From Flocq Require Import Core.Core.
From Verif Require Import Base CString PyModel Sp3Model.
Import ListNotations.
Open Scope Z_scope.

(** epoch, xp, yp, dut1, lod *)
Definition erow : Type := R * R * R * R * R.
Section Read.
  (** float(str); None: ValueError *)
  Variable fl : list Z -> option R.

  (** line 67 *)
  Definition eop_row (l : list Z) : py erow :=
    let* xs := each fl (skipn 1 (words l)) in
    match xs with [t; xp; yp; dut1; lod] => Val (t, xp, yp, dut1, lod) | _ => Raise ValueError end.
  (** lines 63-71: raw and corrected values *)
  Fixpoint read_eops (ls : list (list Z)) : py (list erow * list erow) :=
    match ls with
    | [] => Val ([], [])
    | l :: r =>
        let* x := eop_row l in
        let* (raw, cor) := read_eops r in
        Val (if startswith (chars "[RAW]") l then (x :: raw, cor) else (raw, x :: cor))
    end.
End Read.
(** line 61; tlst[0] is not evaluated for an empty list *)
Definition t2fdays (ts : list R) : list R := match ts with [] => [] | a :: _ => map (fun t => (t - a)%R) ts end.
(** lines 104-110 *)
Definition tfilter (dt y : list R) (daysafter : R) : list R * list R :=
  let l := filter (fun x => Rlt_bool 4 (fst x)) (combine dt y) in (map fst l, map snd l).
