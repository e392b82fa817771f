(** Fundamental arguments and sidereal time: include/fundarg.hpp, src/lib/fundarg/fundarg.cpp, src/lib/iau/{era00,gmst,dgmst,gmst82}.cpp.
    Real arithmetic. Epochs (datetime library) are a Modified Julian day and the fraction of the day. *)
From Coq Require Import Reals ZArith List.
From Verif Require Import Angles.
Import ListNotations.
Open Scope R_scope.

(** ** external library *)
(** std::fmod: quotient rounded towards zero *)
Definition trunc (x : R) : Z := if Rle_dec 0 x then Int_part x else (- Int_part (- x))%Z.
Definition fmod (x y : R) : R := x - y * IZR (trunc (x / y)).
Definition TURNAS : R := 1296000.
Definition D2PI : R := 2 * PI.
(** sec2rad: arc seconds, hsec2rad: seconds of time *)
Definition sec2rad (s : R) : R := s * PI / 648000.
Definition hsec2rad (s : R) : R := s * PI / 43200.
(** MjdEpoch *)
Record epoch := mkT { mday : Z; mfrac : R }.
Definition mjd (t : epoch) : R := IZR (mday t) + mfrac t.
Definition jcenturies_sinceJ2000 (t : epoch) : R := (mjd t - 51544.5) / 36525.

(** ** fundarg.hpp, namespace iers2010 *)
(** lines 61-68, 91-98, 121-128, 152-159, 186-193 *)
Definition fal03 (t : R) : R := sec2rad (fmod (485868.249036 + t * (1717915923.2178 + t * (31.8792 + t * (0.051635 + t * (-0.00024470))))) TURNAS).
Definition falp03 (t : R) : R := sec2rad (fmod (1287104.793048 + t * (129596581.0481 + t * (-0.5532 + t * (0.000136 + t * (-0.00001149))))) TURNAS).
Definition faf03 (t : R) : R := sec2rad (fmod (335779.526232 + t * (1739527262.8478 + t * (-12.7512 + t * (-0.001037 + t * (0.00000417))))) TURNAS).
Definition fad03 (t : R) : R := sec2rad (fmod (1072260.703692 + t * (1602961601.2090 + t * (-6.3706 + t * (0.006593 + t * (-0.00003169))))) TURNAS).
Definition faom03 (t : R) : R := sec2rad (fmod (450160.398036 + t * (-6962890.5431 + t * (7.4722 + t * (0.007702 + t * (-0.00005939))))) TURNAS).
(** lines 75-80, 105-110, 136-141, 170-175, 201-206 *)
Definition dfal03 (t : R) : R := sec2rad (1717915923.2178 + t * (31.8792 + t * (0.051635 + t * (-0.00024470)))).
Definition dfalp03 (t : R) : R := sec2rad (129596581.0481 + t * (-0.5532 + t * (0.000136 + t * (-0.00001149)))).
Definition dfaf03 (t : R) : R := sec2rad (1739527262.8478 + t * (-12.7512 + t * (-0.001037 + t * (0.00000417)))).
Definition dfad03 (t : R) : R := sec2rad (1602961601.2090 + t * (-6.3706 + t * (0.006593 + t * (-0.00003169)))).
Definition dfaom03 (t : R) : R := sec2rad (-6962890.5431 + t * (7.4722 + t * (0.007702 + t * (-0.00005939)))).
(** lines 217-323 *)
Definition fame03 (t : R) : R := fmod (4.402608842 + 2608.7903141574 * t) D2PI.
Definition fave03 (t : R) : R := fmod (3.176146697 + 1021.3285546211 * t) D2PI.
Definition fae03 (t : R) : R := fmod (1.753470314 + 628.3075849991 * t) D2PI.
Definition fama03 (t : R) : R := fmod (6.203480913 + 334.0612426700 * t) D2PI.
Definition faju03 (t : R) : R := fmod (0.599546497 + 52.9690962641 * t) D2PI.
Definition fasa03 (t : R) : R := fmod (0.874016757 + 21.3299104960 * t) D2PI.
Definition faur03 (t : R) : R := fmod (5.481293872 + 7.4781598567 * t) D2PI.
Definition fane03 (t : R) : R := fmod (5.311886287 + 3.8133035638 * t) D2PI.
Definition fapa03 (t : R) : R := (0.024381750 + 0.00000538691 * t) * t.
(** fundarg.cpp:3-21, 23-41 *)
Definition fundarg (t : R) : list R := [fal03 t; falp03 t; faf03 t; fad03 t; faom03 t].
Definition fundarg_derivs (t : R) : list R := [dfal03 t; dfalp03 t; dfaf03 t; dfad03 t; dfaom03 t].

(** ** overloads for an epoch: fundarg.hpp:330-436 *)
Definition fundarg_mjd (tt : epoch) : list R := fundarg (jcenturies_sinceJ2000 tt).
Definition fundarg_derivs_mjd (tt : epoch) : list R := fundarg_derivs (jcenturies_sinceJ2000 tt).
Definition fal03_mjd (tt : epoch) : R := fal03 (jcenturies_sinceJ2000 tt).
Definition dfal03_mjd (tt : epoch) : R := dfal03 (jcenturies_sinceJ2000 tt).
Definition falp03_mjd (tt : epoch) : R := falp03 (jcenturies_sinceJ2000 tt).
Definition dfalp03_mjd (tt : epoch) : R := dfalp03 (jcenturies_sinceJ2000 tt).
Definition faf03_mjd (tt : epoch) : R := faf03 (jcenturies_sinceJ2000 tt).
(** lines 369-371 *)
Definition dfaf03_mjd (tt : epoch) : R := faf03 (jcenturies_sinceJ2000 tt).
Definition fad03_mjd (tt : epoch) : R := fad03 (jcenturies_sinceJ2000 tt).
Definition dfad03_mjd (tt : epoch) : R := dfad03 (jcenturies_sinceJ2000 tt).
Definition faom03_mjd (tt : epoch) : R := faom03 (jcenturies_sinceJ2000 tt).
Definition dfaom03_mjd (tt : epoch) : R := dfaom03 (jcenturies_sinceJ2000 tt).
Definition fame03_mjd (tt : epoch) : R := fame03 (jcenturies_sinceJ2000 tt).
Definition fave03_mjd (tt : epoch) : R := fave03 (jcenturies_sinceJ2000 tt).
Definition fae03_mjd (tt : epoch) : R := fae03 (jcenturies_sinceJ2000 tt).
Definition fama03_mjd (tt : epoch) : R := fama03 (jcenturies_sinceJ2000 tt).
Definition faju03_mjd (tt : epoch) : R := faju03 (jcenturies_sinceJ2000 tt).
Definition fasa03_mjd (tt : epoch) : R := fasa03 (jcenturies_sinceJ2000 tt).
Definition faur03_mjd (tt : epoch) : R := faur03 (jcenturies_sinceJ2000 tt).
Definition fane03_mjd (tt : epoch) : R := fane03 (jcenturies_sinceJ2000 tt).
Definition fapa03_mjd (tt : epoch) : R := fapa03 (jcenturies_sinceJ2000 tt).

(** ** src/lib/iau *)
(** era00.cpp:3-17 *)
Definition era00 (ut1 : epoch) : R :=
  let tu := mjd ut1 - 51544.5 in
  let f := mfrac ut1 in
  anp (D2PI * (f + 0.7790572732640 + 0.00273781191135448 * tu) + PI).
(** gmst.cpp:4-21 *)
Definition gmst (tt ut1 : epoch) : R :=
  let t := jcenturies_sinceJ2000 tt in
  anp (era00 ut1 + sec2rad (0.014506 + (4612.156534 + (1.3915817 + (-0.00000044 + (-0.000029956 + (-0.0000000368) * t) * t) * t) * t) * t)).
(** dgmst.cpp:4-17; the full circle in radians is 2 pi *)
Definition dgmst (tt : epoch) : R :=
  let t := jcenturies_sinceJ2000 tt in
  let b := sec2rad (4612.156534 + (1.3915817 + (-0.00000044 + (-0.000029956 + (-0.0000000368) * t) * t) * t) * t) / 36525 in
  let a := D2PI * 2 * 1.00273781191135448 in
  a + b.
(** gmst82.cpp:4-23 *)
Definition gmst82 (ut1 : epoch) : R :=
  let half_day_sec := 86400 / 2 in
  let A := 24110.54841 - half_day_sec in let B := 8640184.812866 in let C := 0.093104 in let D := - 6.2e-6 in
  let t := jcenturies_sinceJ2000 ut1 in
  let f := 86400 * mfrac ut1 in
  anp (hsec2rad (((A + (B + (C + D * t) * t) * t) + f) + half_day_sec)).
