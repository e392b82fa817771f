(** Sidereal angles with rounding (FlModel): src/lib/iau/era00.cpp, src/lib/iau/gmst.cpp, src/lib/iau/gmst82.cpp, include/iau.hpp:70-76.
    Variables: 0 fraction of the UT1 day, 1 days of UT1 since J2000, 2 centuries of TT since J2000, 3 D2PI, 4 DPI, 5 seconds of the
    UT1 day, 6 centuries of UT1; the epochs are handed out by the datetime library, already rounded. *)
From Coq Require Import Reals ZArith List.
From Verif Require Import KahanModel FundModel FlModel FlFloatModel.
Import ListNotations.
Open Scope nat_scope.

(** era00.cpp:13-14, inside anp *)
Definition era00e : expr := Add (Mul (Var 3) (Add (Add (Var 0) (Dec 7790572732640 13)) (Mul (Dec 273781191135448 17) (Var 1)))) (Var 4).
(** gmst.cpp:11-18, the correction to the Earth rotation angle *)
Definition gmst_polye : expr :=
  let t := Var 2 in
  Sec (Add (Dec 14506 6) (Mul (Add (Dec 4612156534 6) (Mul (Add (Dec 13915817 7) (Mul (Add (Dec (-44) 8) (Mul (Add (Dec (-29956) 9) (Mul (Dec (-368) 10) t)) t)) t)) t)) t)).
(** gmst82.cpp:6-22, seconds of time inside hsec2rad *)
Definition gmst82e : expr :=
  let half := Quo (Int 86400) 2 in let A := Sub (Dec 2411054841 5) half in let t := Var 6 in
  Add (Add (Add A (Mul (Add (Dec 8640184812866 6) (Mul (Add (Dec 93104 6) (Mul (Dec (-62) 7) t)) t)) t)) (Var 5)) half.
(** iau.hpp:70-76 *)
Definition sp00e : expr := Sec (Mul (Dec (-47) 6) (Var 2)).

Open Scope R_scope.
Record times := mkTimes { tf : R; ttu : R; ttt : R; td2pi : R; tdpi : R; tsec : R; tut : R }.
Definition teenv (T : times) : nat -> R := fun i => nth i [tf T; ttu T; ttt T; td2pi T; tdpi T; tsec T; tut T] 0.
(** dso::anp (geodesy library): whole turns taken off, with the errors of the constant and of the operations *)
Definition anp_run (x v : R) : Prop := Rabs v <= 7 /\ exists k : Z, Rabs (IZR k) <= Rabs x / 6 + 1 /\ Rabs (v - (x - 2 * PI * IZR k)) <= (Rabs (IZR k) + 1) * / 2 ^ 50.
Definition era_run (T : times) (v : R) : Prop := exists p, run (teenv T) era00e p /\ anp_run p v.
Definition gmst_run (T : times) (v : R) : Prop :=
  exists e p s, era_run T e /\ run (teenv T) gmst_polye p /\ near (e + p) s /\ anp_run s v.
Definition gmst82_run (T : times) (v : R) : Prop :=
  exists p h, run (teenv T) gmst82e p /\ Rabs (h - hsec2rad p) <= 4 * u * Rabs (hsec2rad p) + tiny /\ anp_run h v.
Definition sp00_run (T : times) (v : R) : Prop := run (teenv T) sp00e v.

(** ** binary64 *)
Section Doubles.
  Variables dsin dcos dsec dhsec danp : double -> double.
  Definition env64e (f tu t d2pi dpi sec ut : double) (i : nat) : double := nth i [f; tu; t; d2pi; dpi; sec; ut] dzero.
  Definition era64 (E : nat -> double) : double := danp (exec dsin dcos dsec E era00e).
  Definition gmst64 (E : nat -> double) : double := danp (dadd (era64 E) (exec dsin dcos dsec E gmst_polye)).
  Definition gmst82_64 (E : nat -> double) : double := danp (dhsec (exec dsin dcos dsec E gmst82e)).
End Doubles.
