(** Pole tides with rounding (FlModel): include/pole_tide.hpp:35-40, 135-143, 248-257, include/eop.hpp:37-42,
    src/lib/pole_tide/pole_tide_deformation.cpp, src/lib/pole_tide/ocean_pole_tide_deformation.cpp.
    Variables: 0 years since J2000 (handed out by the datetime library, already rounded), 1 xp, 2 yp in arcseconds, 3 latitude,
    4 longitude, 5 DPI, 6-11 the coefficients rR rI nR nI eR eI of the site, 12 the factor K of the ocean pole tide. *)
From Coq Require Import Reals ZArith List Bool.
From Verif Require Import KahanModel FlModel FlFloatModel PoleModel.
Import ListNotations.
Open Scope nat_scope.

(** eop.hpp:41, pole_tide.hpp:39 *)
Definition m1e : expr := Sub (Var 1) (Mul (Add (Int 55) (Mul (Dec 1677 3) (Var 0))) (Dec 1 3)).
Definition m2e : expr := Neg (Sub (Var 2) (Mul (Add (Dec 3205 1) (Mul (Dec 3460 3) (Var 0))) (Dec 1 3))).
(** pole_tide.hpp:140-141 *)
Definition solidCe : expr := Mul (Dec (-1333) 12) (Add m1e (Mul (Dec 115 4) m2e)).
Definition solidSe : expr := Mul (Dec (-1333) 12) (Sub m2e (Mul (Dec 115 4) m1e)).
(** pole_tide.hpp:254-255 *)
Definition oceanCe : expr := Mul (Dec (-21778) 14) (Sub m1e (Mul (Dec 1724 5) m2e)).
Definition oceanSe : expr := Mul (Dec (-17232) 14) (Sub m2e (Mul (Dec 3365 5) m1e)).

(** matrix (three rows) times vector times scalar: any order of the sums, the scalar multiplied to the sum or to the matrix (Eigen
    rewrites k * (A * v) to (k * A) * v) *)
Definition sums (a b c : expr) : list expr := [Add (Add a b) c; Add a (Add b c); Add (Add a c) b].
Definition row_variants (k : expr) (r v : expr * expr * expr) : list expr :=
  let '(x, y, z) := r in let '(a, b, c) := v in
  map (fun e => Mul e k) (sums (Mul x a) (Mul y b) (Mul z c)) ++ sums (Mul (Mul k x) a) (Mul (Mul k y) b) (Mul (Mul k z) c).

(** pole_tide_deformation.cpp:11-26 *)
Definition thetae : expr := Sub (Quo (Var 5) 2) (Var 3).
Definition sle : expr := Sin (Var 4).
Definition cle : expr := Cos (Var 4).
Definition ste : expr := Sin thetae.
Definition cte : expr := Cos thetae.
Definition s2te : expr := Mul (Mul (Int 2) ste) cte.
Definition c2te : expr := Sub (Mul (Mul (Int 2) cte) cte) (Int 1).
Definition alonge : expr := Add (Mul m1e cle) (Mul m2e sle).
Definition acrosse : expr := Sub (Mul m1e sle) (Mul m2e cle).
Definition solid_se : expr * expr * expr := (Mul (Mul (Int (-9)) c2te) alonge, Mul (Mul (Int 9) cte) acrosse, Mul (Mul (Int (-33)) s2te) alonge).
(** pole_tide_deformation.cpp:28-41 *)
Definition solid_rows (i : nat) : expr * expr * expr :=
  match i with 0 => (Mul cte cle, Neg sle, Mul ste cle) | 1 => (Mul cte sle, cle, Mul ste sle) | _ => (Neg ste, Int 0, cte) end.
Definition solid_variants (i : nat) : list expr := row_variants (Dec 1 3) (solid_rows i) solid_se.

(** ocean_pole_tide_deformation.cpp:18-35 *)
Definition gre : expr := Add (Mul (Sec m1e) (Dec 6870 4)) (Mul (Sec m2e) (Dec 36 4)).
Definition gie : expr := Sub (Mul (Sec m2e) (Dec 6870 4)) (Mul (Sec m1e) (Dec 36 4)).
Definition ocean_se : expr * expr * expr :=
  (Add (Mul gre (Var 10)) (Mul gie (Var 11)), Add (Mul gre (Var 8)) (Mul gie (Var 9)), Add (Mul gre (Var 6)) (Mul gie (Var 7))).
(** geodetic2lvlh (geodesy library), columns east, north, up *)
Definition lvlh_rows (i : nat) : expr * expr * expr :=
  let sf := Sin (Var 3) in let cf := Cos (Var 3) in
  match i with 0 => (Neg sle, Mul (Neg sf) cle, Mul cf cle) | 1 => (cle, Mul (Neg sf) sle, Mul cf sle) | _ => (Int 0, cf, sf) end.
(** ocean_pole_tide_deformation.cpp:37-41 *)
Definition ocean_variants (i : nat) : list expr := row_variants (Var 12) (lvlh_rows i) ocean_se.

Open Scope R_scope.
Definition penv (dt xp yp lat lon dpi : R) (c : desai) (K : R) (i : nat) : R :=
  nth i [dt; xp; yp; lat; lon; dpi; rR c; rI c; nR c; nI c; eR c; eI c; K] 0.
(** one of the variants was evaluated *)
Definition some_run (env : nat -> R) (l : list expr) (v : R) : Prop := exists e, In e l /\ run env e v.
(** ocean_pole_tide_deformation.cpp:22-24 with the default arguments (iersconst.hpp:20-69); [d] is D2PI, std::pow accurate to 2^-52 *)
Definition K_run (d K : R) : Prop :=
  exists Re Omega G ge a b s o c p q Hp k1 k2 k3 k4 k5 k6,
    near 6378136.6 Re /\ near 7.2921151467064e-5 Omega /\ near 6.67428e-11 G /\ near 9.7803278 ge /\
    near (4 * d) a /\ near (a / 15) b /\ near (sqrt b) s /\ near (Omega * Omega) o /\ near (s * o) c /\ Rabs (p - Re ^ 4) <= 2 * u * Rabs (Re ^ 4) + tiny /\
    near (c * p) q /\ near (q / 3.986004418e14) Hp /\
    near (2 * d) k1 /\ near (k1 * G) k2 /\ near (k2 * Re) k3 /\ near (k3 * 1025) k4 /\ near (k4 * Hp) k5 /\ near (k5 / 3) k6 /\ near (k6 / ge) K.

(** ** binary64 *)
Definition penv64 (l : list double) (i : nat) : double := nth i l dzero.
