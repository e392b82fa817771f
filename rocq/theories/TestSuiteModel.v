(** The test driver: run_test_suite.py. Conventions in PyModel; texts have no other ends of lines than newlines; messages are not modelled. *)
From Coq Require Import Ascii String Reals ZArith List Bool.
From Verif Require Import Base CString PyModel.
Import ListNotations.
Open Scope Z_scope.

(** a float; nan and the infinities are one *)
Inductive float := Fin (x : R) | Special.

(** check_file_vs_str: lines 41-44 *)
Definition squeeze (s : list Z) : list Z := replace [10] [] (replace (chars " ") [] s).
Definition check_file_vs_str (out vstr : list Z) : bool := text_eqb (squeeze out) (squeeze vstr).

(** check_w_precision: lines 54-80, without the report; columns are not negative; differences without rounding (with a special value every
    comparison is false) *)
Section Precision.
  Variable tofloat : list Z -> option float.
  Variable cols : list nat.
  (** lines 65-69 *)
  Fixpoint same_columns (c : nat) (l1 l2 : list (list Z)) : py unit :=
    match l1, l2 with
    | a :: r1, b :: r2 => if existsb (Nat.eqb c) cols || text_eqb a b then same_columns (S c) r1 r2 else Raise AssertionError
    | _, _ => Val tt
    end.
  (** lines 70-75 *)
  Definition below (x y : float) (p : R) : bool :=
    match x, y with Fin x, Fin y => if Rlt_dec (Rabs (x - y)) p then true else false | _, _ => false end.
  Fixpoint close_columns (kp : list (nat * R)) (l1 l2 : list (list Z)) : py unit :=
    match kp with
    | [] => Val tt
    | (c, p) :: r =>
        let* a := ofopt IndexError (nth_error l1 c) in
        let* x := ofopt ValueError (tofloat a) in
        let* b := ofopt IndexError (nth_error l2 c) in
        let* y := ofopt ValueError (tofloat b) in
        if below x y p then close_columns r l1 l2 else Raise AssertionError
    end.
  Definition check_line (precision : list R) (s1 s2 : list Z) : py unit :=
    let l1 := words s1 in
    let l2 := words s2 in
    if negb (length l1 =? length l2)%nat then Raise AssertionError else
    let* _ := same_columns 0 l1 l2 in
    close_columns (combine cols precision) l1 l2.
  Fixpoint check_lines (precision : list R) (ls : list (list Z * list Z)) : py unit :=
    match ls with [] => Val tt | (s1, s2) :: r => let* _ := check_line precision s1 s2 in check_lines precision r end.
  Definition check_w_precision (out vstr : list Z) (precision : list R) : py unit := check_lines precision (combine (lines out) (lines vstr)).
End Precision.

(** ** data files: lines 14-29. Files by name; what a url gives (None: exception); gzip (None: exception) *)
Section Data.
  Variable fetch : list Z -> option (list Z).
  Variable gunzip : list Z -> option (list Z).
  Record data_file := mkD { url : list Z; local : list Z; actions : list (list Z) }.
  Definition files := list Z -> option (list Z).
  Definition put (d : files) (f text : list Z) : files := fun g => if text_eqb g f then Some text else d g.
  Fixpoint act (f : list Z) (l : list (list Z)) (d : files) : py files :=
    match l with
    | [] => Val d
    | a :: r =>
        if text_eqb a (chars "decompress") then
          let* z := ofopt OSError (d f) in
          let* s := ofopt OSError (gunzip z) in
          act f r (put d (firstn (length f - 3) f) s)
        else act f r d
    end.
  Fixpoint get_data_files (l : list data_file) (d : files) : py files :=
    match l with
    | [] => Val d
    | x :: r =>
        match d (local x) with
        | Some _ => get_data_files r d
        | None =>
            let* s := ofopt (Exit 1) (fetch (url x)) in
            let* d := act (local x) (actions x) (put d (local x) s) in
            get_data_files r d
        end
    end.
End Data.

(** ** programs. [exec] gives the exit code and the standard output of a program with arguments (None: it cannot be started) *)
Section Programs.
  Variable tofloat : list Z -> option float.
  Variable isfile : list Z -> bool.
  Variable exec : list Z -> list (list Z) -> option (Z * list Z).
  Inductive exit_status := Nzero | Code (n : Z).
  Record special := mkS { prog : list Z; path : list Z; args : list (list Z); exit_ : exit_status;
                          results : option (list Z); testwp : option (list nat * list R) }.
  (** run_progs_with_args: lines 82-116 *)
  Definition run_special (d : special) : py unit :=
    let exe := pathjoin (path d) (prog d) in
    if negb (isfile exe) then Raise (Exit 1) else
    let* (code, out) := ofopt OSError (exec exe (args d)) in
    if negb (match exit_ d with Nzero => negb (code =? 0) | Code n => code =? n end) then Raise (Exit 1) else
    match results d with
    | None => Val tt
    | Some r =>
        match testwp d with
        | Some (cols, precision) => check_w_precision tofloat cols out r precision
        | None => if check_file_vs_str out r then Val tt else Raise (Exit 1)
        end
    end.
  Fixpoint run_progs_with_args (l : list special) : py unit :=
    match l with [] => Val tt | d :: r => let* _ := run_special d in run_progs_with_args r end.
  (** prog_needs_args: lines 31-36, for a name without a directory *)
  Definition prog_needs_args (f : list Z) (l : list special) : bool := existsb (fun d => text_eqb f (prog d)) l.

  (** programs that must not compile: lines 202-215; json.load is a parameter (None: exception) *)
  Record mock := mkM { cxx : list Z; flags : list Z; name : list Z; incp : list Z; mexit : Z }.
  Variable load : list Z -> option (list mock).
  Fixpoint run_mocks (l : list mock) : py unit :=
    match l with
    | [] => Val tt
    | m :: r =>
        let* (code, _) := ofopt OSError (exec (cxx m) [flags m; name m; chars "-I" ++ incp m]) in
        if negb (code =? mexit m) then Raise (Exit 2) else run_mocks r
    end.
  Definition endswith (e s : list Z) : bool := text_eqb (skipn (length s - length e) s) e.
  (** lines 194-215 *)
  Fixpoint run_dir (dir : list Z) (sp : list special) (fs : list (list Z)) : py unit :=
    match fs with
    | [] => Val tt
    | f :: r =>
        let exe := pathjoin dir f in
        if endswith (chars ".out") f && negb (prog_needs_args f sp) then
          let* (code, _) := ofopt OSError (exec exe []) in
          if code =? 0 then run_dir dir sp r else Raise CalledProcessError
        else if endswith (chars ".json") f then
          let* l := ofopt ValueError (load exe) in
          let* _ := run_mocks l in
          run_dir dir sp r
        else run_dir dir sp r
    end.
  (** lines 184-215; the listing of a directory, None: not a directory; the data files are there *)
  Variable listdir : list Z -> option (list (list Z)).
  Definition suite (sp : list special) (progs_dir : list Z) : py unit :=
    let* _ := run_progs_with_args sp in
    let dir := pathjoin progs_dir (chars "unit_tests") in
    let* fs := ofopt (Exit 1) (listdir dir) in
    run_dir dir sp fs.
End Programs.
