(** costg-benchmark/bin/cmdplt.py:63-90: what the script for plots reads. Conventions in PyModel; numbers are real. The seven lists are one list
    of rows, which are filled together. The statistics and the plots are not modelled. *)
From Coq Require Import Ascii String Reals ZArith List Bool.
From Verif Require Import Base CString PyModel Sp3Model EopPlotModel.
Import ListNotations.
Open Scope Z_scope.

(** s.split(c) *)
Fixpoint split_on (c : Z) (s : list Z) : list (list Z) :=
  match s with [] => [[]] | x :: t => if x =? c then [] :: split_on c t else match split_on c t with w :: r => (x :: w) :: r | [] => [[x]] end end.
Section Read.
  (** float(str); None: ValueError *)
  Variable fl : list Z -> option R.

  (** lines 79-82: the seconds and two accelerations; None: an exception, which is caught *)
  Definition plot_row (l : list Z) : option (R * vec * vec) :=
    match floats fl (split_on 32 l) with
    | Some [imjd; sec; x1; y1; z1; x2; y2; z2] => Some (sec, (x1, y1, z1), (x2, y2, z2))
    | _ => None
    end.
  (** lines 75-87 *)
  Fixpoint read (ls : list (list Z)) (title : option (list Z)) : py (list (R * vec * vec) * option (list Z)) :=
    match ls with
    | [] => Val ([], title)
    | l :: r =>
        let* c := ofopt IndexError (hd_error l) in
        if negb (c =? 35) && negb (startswith (chars "mjd") l) then
          let* (rows, title) := read r title in
          Val (match plot_row l with Some x => x :: rows | None => rows end, title)
        else if startswith (chars "#title") l then read r (Some (strip (replace (chars "#title") [] l)))
        else read r title
    end.
  (** lines 67-90 *)
  Definition plot_input (text : list Z) : py (list (R * vec * vec) * option (list Z)) :=
    let* (rows, title) := read (lines text) None in
    if Z.of_nat (length rows) <=? 1 then Raise (Exit 1) else Val (rows, title).
End Read.
