(** What C64 talks about: IERS Conventions (2010), section 7.1.1.1. *)
From Coq Require Import Reals ZArith List Bool.
From Verif Require Import Base DoodsonModel DoodsonArgModel FundSpec SolidModel Vec SolidSpec SsdModel.
Import ListNotations.
Open Scope R_scope.

(** ** axes at a place: east, north, up (radial) *)
Definition up (p : place) : v3 := position 1 (latitude p) (longitude p).
Definition east (p : place) : v3 := mk3 (- sin (longitude p)) (cos (longitude p)) 0.
Definition north (p : place) : v3 := mk3 (- sin (latitude p) * cos (longitude p)) (- sin (latitude p) * sin (longitude p)) (cos (latitude p)).
Definition local (p : place) (e n u : R) : v3 := vplus (vmul e (east p)) (vplus (vmul n (north p)) (vmul u (up p))).
Definition vsum (l : list v3) : v3 := fold_right vplus v0 l.

(** ** step 1, one body at q *)
(** GM_j Re^(n+2) / (GM R_j^(n+1)) *)
Definition strength (n : nat) (Re ratio : R) (q : place) : R := ratio * Re * (Re / radius q) ^ (n + 1).
(** (7.2) *)
Definition h2 (phi : R) : R := 0.6078 + -0.0006 * ((3 * sin phi ^ 2 - 1) / 2).
Definition l2 (phi : R) : R := 0.0847 + 0.0002 * ((3 * sin phi ^ 2 - 1) / 2).
(** (7.5), (7.6) *)
Definition in_phase (Re ratio : R) (p q : place) : v3 :=
  let c := cosangle p q in let t := vminus (up q) (vmul c (up p)) in
  vplus (vmul (strength 2 Re ratio q) (vplus (vmul (h2 (latitude p) * ((3 * c ^ 2 - 1) / 2)) (up p)) (vmul (3 * l2 (latitude p) * c) t)))
        (vmul (strength 3 Re ratio q) (vplus (vmul (0.292 * ((5 * c ^ 3 - 3 * c) / 2)) (up p)) (vmul (0.015 * ((15 * c ^ 2 - 3) / 2)) t))).
(** (7.8), (7.9): dependence of the Shida number on the latitude, diurnal and semi-diurnal band *)
Definition lat_diurnal (p q : place) : v3 :=
  let x := longitude p - longitude q in let k := - (0.0012 * sin (latitude p) * (3 * sin (latitude q) * cos (latitude q))) in
  local p (- k * (cos (2 * latitude p) * sin x)) (k * (sin (latitude p) * cos x)) 0.
Definition lat_semidiurnal (p q : place) : v3 :=
  let x := longitude p - longitude q in let k := - (1 / 2 * 0.0024 * sin (latitude p) * cos (latitude p) * (3 * cos (latitude q) ^ 2)) in
  local p (k * (sin (latitude p) * sin (2 * x))) (k * cos (2 * x)) 0.
(** (7.10), (7.11): imaginary parts of the Love numbers *)
Definition out_diurnal (p q : place) : v3 :=
  let x := longitude p - longitude q in
  local p (- (3 / 2) * -0.0007 * sin (2 * latitude q) * (sin (latitude p) * cos x)) (- (3 / 2) * -0.0007 * sin (2 * latitude q) * (cos (2 * latitude p) * sin x))
          (- (3 / 4) * -0.0025 * sin (2 * latitude q) * sin (2 * latitude p) * sin x).
Definition out_semidiurnal (p q : place) : v3 :=
  let x := longitude p - longitude q in
  local p (- (3 / 4) * -0.0007 * cos (latitude q) ^ 2 * (2 * cos (latitude p) * cos (2 * x))) (3 / 4 * -0.0007 * cos (latitude q) ^ 2 * (sin (2 * latitude p) * sin (2 * x)))
          (- (3 / 4) * -0.0022 * cos (latitude q) ^ 2 * cos (latitude p) ^ 2 * sin (2 * x)).
Definition one_body (Re ratio : R) (p q : place) : v3 :=
  vplus (in_phase Re ratio p q) (vmul (strength 2 Re ratio q) (vsum [out_diurnal p q; out_semidiurnal p q; lat_diurnal p q; lat_semidiurnal p q])).

(** ** step 2 *)
(** a line of a table: Doodson number and amplitudes in units of 0.01 mm: radial in phase, out of phase, transverse in phase, out of phase *)
Record line := mkLine { code : Z; rip : Z; rop : Z; tip : Z; top : Z }.
Definition amp (x : Z) : R := IZR x * 1e-5.
(** (7.12) *)
Definition diurnal (p : place) (th : doodson -> R) (l : line) : v3 :=
  let a := th (of_code (code l)) + longitude p in
  local p ((amp (tip l) * cos a - amp (top l) * sin a) * sin (latitude p)) ((amp (tip l) * sin a + amp (top l) * cos a) * cos (2 * latitude p))
          ((amp (rip l) * sin a + amp (rop l) * cos a) * sin (2 * latitude p)).
(** (7.13) *)
Definition long_period (p : place) (th : doodson -> R) (l : line) : v3 :=
  let a := th (of_code (code l)) in
  local p 0 ((amp (tip l) * cos a + amp (top l) * sin a) * sin (2 * latitude p)) ((3 / 2 * sin (latitude p) ^ 2 - 1 / 2) * (amp (rip l) * cos a + amp (rop l) * sin a)).
(** Tables 7.3a and 7.3b *)
Definition table_73a : list line := [
  mkLine 135655 (-8) 0 (-1) 1; mkLine 145545 (-10) 0 0 0; mkLine 145555 (-51) 0 (-2) 3; mkLine 155655 6 0 0 0; mkLine 162556 (-6) 0 0 0;
  mkLine 163555 (-123) (-7) 6 1; mkLine 165545 (-22) 1 1 0; mkLine 165555 1200 (-78) (-67) (-3); mkLine 165565 173 (-12) (-10) 0;
  mkLine 166554 (-50) (-1) 3 0; mkLine 167555 (-11) 1 1 0]%Z.
Definition table_73b : list line := [
  mkLine 55565 47 16 23 7; mkLine 57555 (-20) (-11) (-12) (-5); mkLine 65455 (-11) (-9) (-8) (-4); mkLine 75555 (-13) (-15) (-11) (-7);
  mkLine 75565 (-5) (-6) (-5) (-3)]%Z.
(** the diurnal lines of the routine DEHANTTIDEINEL that are not in Table 7.3a *)
Definition further : list line := [
  mkLine 125755 (-1) (-1) 0 0; mkLine 127555 (-1) (-1) 0 0; mkLine 135645 (-2) (-1) 0 0; mkLine 137455 (-2) (-1) 0 0; mkLine 147555 1 0 0 0;
  mkLine 153655 1 0 0 0; mkLine 155455 2 1 0 0; mkLine 155665 1 0 0 0; mkLine 157455 1 0 0 0; mkLine 163565 1 0 0 0; mkLine 164554 2 0 0 0;
  mkLine 164556 4 0 0 0; mkLine 165575 (-4) 0 0 0; mkLine 166556 1 0 0 0; mkLine 166564 (-1) 0 0 0; mkLine 167355 (-1) 0 0 0;
  mkLine 173655 (-1) 0 0 0; mkLine 175455 (-2) 2 0 1; mkLine 185555 0 1 0 1; mkLine 185565 0 1 0 0]%Z.
Definition frequency_part (p : place) (th : doodson -> R) (a b : list line) : v3 := vplus (vsum (map (diurnal p th) a)) (vsum (map (long_period p th) b)).

(** ** sum, with given tables *)
Definition site (Re ratio_sun ratio_moon : R) (p sun moon : place) (th : doodson -> R) (a b : list line) : v3 :=
  vplus (vplus (one_body Re ratio_sun p sun) (one_body Re ratio_moon p moon)) (frequency_part p th a b).
(** the line of Q1 in the Conventions and in the table that the code uses *)
Definition q1_iers : line := mkLine 135655 (-8) 0 (-1) 1.
Definition q1_code : line := mkLine 135655 (-8) 0 1 1.

(** the diurnal lines with the second one *)
Definition code_table : list line := q1_code :: tl table_73a ++ further.

(** ** deformation by a potential *)
(** Legendre polynomials of degree two and three *)
Definition leg2 (x : R) : R := (3 * x ^ 2 - 1) / 2.
Definition leg3 (x : R) : R := (5 * x ^ 3 - 3 * x) / 2.

(** [W] as a function of latitude and longitude; h and l: Love and Shida number *)
Definition deforms (h l : R) (W : R -> R -> R) (p : place) (d : v3) : Prop :=
  exists Wn We, derivable_pt_lim (fun x => W x (longitude p)) (latitude p) Wn /\ derivable_pt_lim (fun x => W (latitude p) x) (longitude p) We /\
    d = local p (l * (We / cos (latitude p))) (l * Wn) (h * W (latitude p) (longitude p)).
(** the parts of P_2(cos psi) that vary once and twice a day, as functions of the difference of longitudes *)
Definition part20 (phi Phi : R) : R := (3 * sin phi ^ 2 - 1) / 2 * ((3 * sin Phi ^ 2 - 1) / 2).
Definition part21 (phi Phi x : R) : R := 3 / 4 * sin (2 * phi) * sin (2 * Phi) * cos x.
Definition part22 (phi Phi x : R) : R := 3 / 4 * cos phi ^ 2 * cos Phi ^ 2 * cos (2 * x).

(** ** rotation about the axis of the Earth *)
Definition turn (a : R) (p : place) : place := mkPl (radius p) (latitude p) (longitude p + a).
Definition rotz (a : R) (v : v3) : v3 := mk3 (cos a * p1 v - sin a * p2 v) (sin a * p1 v + cos a * p2 v) (p3 v).
