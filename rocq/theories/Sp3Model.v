(** script/apytest.py, xtractSatelliteState: the states of a satellite in an Sp3 file. Conventions in PyModel; numbers are real. What astropy
    does with the states is not modelled. *)
From Coq Require Import Ascii String Reals ZArith List Bool.
From Verif Require Import Base CString PyModel.
Import ListNotations.
Open Scope Z_scope.

(** str.upper, str.startswith *)
Definition upper (s : list Z) : list Z := map (fun c => if (97 <=? c) && (c <=? 122) then c - 32 else c) s.
Definition startswith (a s : list Z) : bool := text_eqb a (firstn (length a) s).
Definition vec : Type := R * R * R.
Section Extract.
  (** float(str); strptime of the text made of five integers and the seconds with six decimals, then the modified Julian date *)
  Variable fl : list Z -> option R.
  Variable date : list Z -> R -> py R.

  (** [f(x) for x in ws] *)
  Fixpoint each {A} (f : list Z -> option A) (ws : list (list Z)) : py (list A) :=
    match ws with [] => Val [] | w :: r => let* a := ofopt ValueError (f w) in let* l := each f r in Val (a :: l) end.
  (** lines 36-37 *)
  Definition epoch_of (l : list Z) : py R :=
    let* ns := each parse_int (firstn 5 (skipn 1 (words l))) in
    let* w := ofopt IndexError (nth_error (words l) 6) in
    let* s := ofopt ValueError (fl w) in
    date ns s.
  (** lines 39, 41 *)
  Definition three (k : R) (l : list Z) : py vec :=
    let* xs := each fl (firstn 3 (skipn 1 (words l))) in
    match xs with [x; y; z] => Val (x * k, y * k, z * k)%R | _ => Raise ValueError end.
  (** lines 33-47; None: not assigned yet. The name is in capitals in [sat] *)
  Fixpoint extract (sat : list Z) (ls : list (list Z)) (t : option R) (p : option vec) : py (list (R * vec * vec)) :=
    match ls with
    | [] => Val []
    | l :: r =>
        if startswith (chars "* ") l then let* t := epoch_of l in extract sat r (Some t) p else
        if startswith (chars "P" ++ sat) l then let* p := three 1000 l in extract sat r t (Some p) else
        if startswith (chars "V" ++ sat) l then
          let* v := three 0.1 l in
          match t, p with
          | Some t0, Some p0 => let* es := extract sat r t p in Val ((t0, p0, v) :: es)
          | _, _ => Raise NameError
          end
        else extract sat r t p
    end.
  (** lines 30-47; [text]: the file *)
  Definition states (text sat : list Z) : py (list (R * vec * vec)) := extract (upper sat) (lines text) None None.
End Extract.
