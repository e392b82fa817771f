(** The comparison loops of the COST-G check programs, costg-benchmark/bin/check_*.cpp, behind the readers of CostgModel. The calls to the
    library are parameters that turn the state of the variables of main into the next one or fail; what they compute is modelled
    elsewhere. Left out: command line, kernels, titles; formatD3Plot is 0 in all programs. *)
From Coq Require Import Reals ZArith List Bool.
From Verif Require Import Base.
Import ListNotations.
Open Scope Z_scope.

(** what a pass of the loop does: read the current EOPs, the current rotation matrix (each with an assert on the epoch); a call whose failure
    ends the program with an exit code; compare with the reference, and print *)
Inductive stage := Eops | Rotary | Call (k : nat) (code : Z) | Reference.
(** [first]: orbvec[0] is used ahead of the loop *)
Record program := mkP { first : bool; stages : list stage }.
(** check_03directTideMoon_icrf.cpp:42-75, check_03directTideSun_icrf.cpp:42-75 *)
Definition check_03 : program := mkP false [Call 0 2; Reference].
(** check_04solidEarthTide_icrf.cpp:46, 80-148; the calls of the library with unused result belong to the second call *)
Definition check_04 : program := mkP true [Rotary; Call 0 2; Call 1 2; Reference].
(** check_05poleTide_icrf.cpp:57-112 *)
Definition check_05 : program := mkP false [Eops; Call 0 1; Rotary; Reference].
(** check_06oceanPoleTide_icrf.cpp:58-124 *)
Definition check_06 : program := mkP false [Eops; Call 0 1; Call 1 1; Rotary; Reference].
(** check_07relativistic_icrf.cpp:42-81 *)
Definition check_07 : program := mkP false [Call 0 2; Reference].
(** check_08aod1b_RL06_icrf.cpp:59-113 *)
Definition check_08 : program := mkP false [Call 0 1; Call 1 1; Rotary; Reference].
(** check_09aod1b_atmosphericTides_icrf.cpp:44, 77-133, check_09aod1b_atmosphericTides_S1_icrf.cpp:44, 75-131 *)
Definition check_09 : program := mkP true [Call 0 1; Rotary; Reference].
(** check_11oceanTide_fes2014b_34major_icrf.cpp:44, 69-127 *)
Definition check_11 : program := mkP true [Call 0 1; Rotary; Reference].

Section Loop.
  (** epochs; the values of orbit, reference, rotation and EOP records; results; states *)
  Variables (E O A R P V ST : Type) (eqb : E -> E -> bool).
  (** the call number [k] with the state, the orbit record, and the EOP and rotation records read so far in this pass *)
  Variable call : nat -> ST -> E * O -> option P -> option R -> option ST.
  Variable value : ST -> E * O -> option P -> option R -> V.
  (** asserts are checked *)
  Variable debug : bool.

  (** one pass: exit code, if the program ends; new state; lines printed. Iterators are the records from them on; the end must not be read *)
  Fixpoint pass (ss : list stage) (st : ST) (i : E * O) (accs : list (E * A)) (rots : list (E * R)) (eops : list (E * P)) (p : option P) (r : option R) : res (option Z * ST * list (E * A * V)) :=
    match ss with
    | [] => Ok (None, st, [])
    | Eops :: ss =>
        match eops with
        | [] => UB
        | (e, x) :: _ => if debug && negb (eqb e (fst i)) then Abort else pass ss st i accs rots eops (Some x) r
        end
    | Rotary :: ss =>
        match rots with
        | [] => UB
        | (e, x) :: _ => if debug && negb (eqb e (fst i)) then Abort else pass ss st i accs rots eops p (Some x)
        end
    | Call k code :: ss =>
        match call k st i p r with
        | None => Ok (Some code, st, [])
        | Some st' => pass ss st' i accs rots eops p r
        end
    | Reference :: ss =>
        match accs with
        | [] => UB
        | (e, x) :: _ =>
            if negb (eqb e (fst i)) then Ok (Some 1, st, []) else
            ' (c, st', out) <- pass ss st i accs rots eops p r ;;
            Ok (c, st', (fst i, x, value st i p r) :: out)
        end
    end.
  Fixpoint loop (ss : list stage) (orb : list (E * O)) (st : ST) (accs : list (E * A)) (rots : list (E * R)) (eops : list (E * P)) : res (Z * list (E * A * V)) :=
    match orb with
    | [] => Ok (0, [])
    | i :: orb' =>
        ' (c, st', out) <- pass ss st i accs rots eops None None ;;
        match c with
        | Some c => Ok (c, out)
        | None => ' (c, out') <- loop ss orb' st' (tl accs) (tl rots) (tl eops) ;; Ok (c, out ++ out')
        end
    end.
  (** exit code and printed lines *)
  Definition check (p : program) (orb : list (E * O)) (st : ST) (accs : list (E * A)) (rots : list (E * R)) (eops : list (E * P)) : res (Z * list (E * A * V)) :=
    if first p && match orb with [] => true | _ => false end then UB else loop (stages p) orb st accs rots eops.
End Loop.

(** ** Time scales: arguments of the calls, in seconds; epochs of the files are GPS time. The conversions are those of the datetime library;
    [leap]: TAI - UTC *)
Section Times.
  Variable leap : R -> R.
  Definition gps2tai (t : R) : R := (t + 19)%R.
  Definition tai2tt (t : R) : R := (t + 32.184)%R.
  Definition tai2ut1 (dut1 t : R) : R := (t - leap t + dut1)%R.
  Definition tt2ut1 (dut1 t : R) : R := tai2ut1 dut1 (t - 32.184)%R.
  (** TT: check_03*:45, check_04:91-121, check_05:73, check_07:49, check_08:64-67 (gps2tt), check_09*:80-93, check_11:76-83 *)
  Definition tt_arg (t : R) : R := tai2tt (gps2tai t).
  (** UT1: check_04:119 *)
  Definition ut1_04 (dut1 t : R) : R := tai2ut1 dut1 (gps2tai t).
  (** check_09aod1b_atmosphericTides_icrf.cpp:81, 91 *)
  Definition ut1_09 (dut1 t : R) : R := tt2ut1 dut1 (tai2tt (gps2tai t)).
  (** check_11:73, 83 *)
  Definition ut1_11 (dut1 t : R) : R := tt2ut1 dut1 t.
End Times.
