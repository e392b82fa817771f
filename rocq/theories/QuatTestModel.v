(** The program test/experimental/earth_quaternion.cpp: the matrices it compares. Real arithmetic; Eigen as in RotModel. The functions of SOFA
    are described by their documentation: rotations of the axes, a new one is multiplied from the left. *)
From Coq Require Import Reals.
From Verif Require Import Vec RotModel.
Open Scope R_scope.

(** ** SOFA *)
Definition iauIr : m33 := ident.
Definition iauRx (phi : R) (r : m33) : m33 := mmul (mkM (mk3 1 0 0) (mk3 0 (cos phi) (sin phi)) (mk3 0 (- sin phi) (cos phi))) r.
Definition iauRy (theta : R) (r : m33) : m33 := mmul (mkM (mk3 (cos theta) 0 (- sin theta)) (mk3 0 1 0) (mk3 (sin theta) 0 (cos theta))) r.
Definition iauRz (psi : R) (r : m33) : m33 := mmul (mkM (mk3 (cos psi) (sin psi) 0) (mk3 (- sin psi) (cos psi) 0) (mk3 0 0 1)) r.
Definition iauRxr (a b : m33) : m33 := mmul a b.
Definition iauPom00 (xp yp sp : R) : m33 := iauRx (- yp) (iauRy (- xp) (iauRz sp iauIr)).
Definition iauC2ixys (x y s : R) : m33 :=
  let r2 := x * x + y * y in
  let e := if Rlt_dec 0 r2 then atan2 y x else 0 in
  let d := atan (sqrt (r2 / (1 - r2))) in
  iauRz (- (e + s)) (iauRy d (iauRz e iauIr)).

(** ** the program *)
(** lines 12-18: Rw; lines 20-25 print Rw - rpom *)
Definition pom_matrix (xp yp : R) : m33 :=
  qmat (Q (cos (xp / 2) * cos (yp / 2)) (cos (xp / 2) * sin (yp / 2)) (sin (xp / 2) * cos (yp / 2)) (sin (xp / 2) * sin (yp / 2))).
(** lines 28-54 *)
Definition fromq (era s sp Xcip Ycip xp yp : R) : m33 :=
  let tw := cos (xp / 2) * cos (yp / 2) in let aw := cos (xp / 2) * sin (yp / 2) in
  let bw := cos (yp / 2) * sin (xp / 2) in let cw := sin (xp / 2) * sin (yp / 2) in
  let thetap := era + sp - s in let ct2 := cos (thetap / 2) in let st2 := sin (thetap / 2) in
  let r2 := Xcip * Xcip + Ycip * Ycip in
  let e := if Rlt_dec 0 r2 then atan2 Ycip Xcip else 0 in
  let d := atan (sqrt (r2 / (1 - r2))) in
  let X := sin d * cos e in let Y := sin d * sin e in let Z := cos d in
  let fac := 1 / sqrt (2 * (1 + Z)) in
  let T := fac * (ct2 * (X * bw - Y * aw + (1 + Z) * tw) + st2 * (X * aw + Y * bw + (1 + Z) * cw)) in
  let A := fac * (ct2 * (X * cw + Y * tw + (1 + Z) * aw) + st2 * (- X * tw + Y * cw - (1 + Z) * bw)) in
  let B := fac * (ct2 * (- X * tw + Y * cw + (1 + Z) * bw) + st2 * (- X * cw - Y * tw + (1 + Z) * aw)) in
  let C := fac * (ct2 * (- X * aw - Y * bw + (1 + Z) * cw) + st2 * (X * bw - Y * aw - (1 + Z) * tw)) in
  qmat (Q T A B C).
(** lines 57-83: the matrix rc2it; x, y, s, era and sp are those of SOFA for the epoch *)
Definition sofa (era s sp x y xp yp : R) : m33 := iauRxr (iauPom00 xp yp sp) (iauRz era (iauC2ixys x y s)).
