(** Pole tides: constants of the ocean pole tide and its displacement as a sum along the unit vectors of the site. *)
From Coq Require Import Reals.
From Verif Require Import PoleModel PoleSpec.
Open Scope R_scope.

(** IERS Conventions 2010, (7.29) and Table 1.1 *)
Definition Hp : R := sqrt (8 * PI / 15) * (7.2921151467064e-5 ^ 2 * 6378136.6 ^ 4 / 3.986004418e14).
Definition Kp : R := 4 * PI * 6.67428e-11 * 6378136.6 * 1025 * Hp / (3 * 9.7803278).
Definition comp (i : nat) (v : vec) : R := let '(x, y, z) := v in match i with O => x | S O => y | _ => z end.
(** (7.26), in metres *)
Definition solid_displacement (t xp yp lat lon : R) : vec :=
  let th := PI / 2 - lat in let a := m1 t xp in let b := m2 t yp in
  times 0.001 (addv (times (s_theta a b th lon) (e_theta th lon)) (addv (times (s_lambda a b th lon) (e_lambda lon)) (times (s_r a b th lon) (e_r th lon)))).
(** (7.29): east, north, up *)
Definition ocean_displacement (t xp yp lat lon : R) (c : desai) : vec :=
  let th := PI / 2 - lat in let gr := g_real (m1 t xp) (m2 t yp) in let gi := g_imag (m1 t xp) (m2 t yp) in
  times Kp (addv (times (gr * eR c + gi * eI c) (e_lambda lon)) (addv (times (- (gr * nR c + gi * nI c)) (e_theta th lon)) (times (gr * rR c + gi * rI c) (e_r th lon)))).
