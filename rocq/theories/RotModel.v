(** Earth rotation: include/earth_rotation.hpp and src/lib/earth_rotation. Real arithmetic; Eigen's quaternions and
    rotations by angle and axis are described by their defining formulas. CIP coordinates, CIO locator and Earth rotation
    angle (src/lib/iau) are parameters here. *)
From Coq Require Import Reals.
From Verif Require Import Vec.
Open Scope R_scope.

(** ** Eigen *)
Record quat := Q { qw : R; qx : R; qy : R; qz : R }.
(** Quaternion * Quaternion *)
Definition qmul (a b : quat) : quat :=
  Q (qw a * qw b - qx a * qx b - qy a * qy b - qz a * qz b) (qw a * qx b + qx a * qw b + qy a * qz b - qz a * qy b)
    (qw a * qy b + qy a * qw b + qz a * qx b - qx a * qz b) (qw a * qz b + qz a * qw b + qx a * qy b - qy a * qx b).
(** Quaternion(AngleAxis(t, unit vector)); AngleAxis * AngleAxis and Quaternion * AngleAxis are quaternion products *)
Definition aaX (t : R) : quat := Q (cos (t / 2)) (sin (t / 2)) 0 0.
Definition aaY (t : R) : quat := Q (cos (t / 2)) 0 (sin (t / 2)) 0.
Definition aaZ (t : R) : quat := Q (cos (t / 2)) 0 0 (sin (t / 2)).
Definition qconj (a : quat) : quat := Q (qw a) (- qx a) (- qy a) (- qz a).
(** Quaternion::toRotationMatrix *)
Definition qmat (q : quat) : m33 :=
  let tx := 2 * qx q in let ty := 2 * qy q in let tz := 2 * qz q in
  let twx := tx * qw q in let twy := ty * qw q in let twz := tz * qw q in
  let txx := tx * qx q in let txy := ty * qx q in let txz := tz * qx q in
  let tyy := ty * qy q in let tyz := tz * qy q in let tzz := tz * qz q in
  mkM (mk3 (1 - (tyy + tzz)) (txy - twz) (txz + twy)) (mk3 (txy + twz) (1 - (txx + tzz)) (tyz - twx)) (mk3 (txz - twy) (tyz + twx) (1 - (txx + tyy))).
(** Quaternion * Vector3: _transformVector *)
Definition qapp (q : quat) (v : v3) : v3 :=
  let u := mk3 (qx q) (qy q) (qz q) in
  let uv := vplus (cross u v) (cross u v) in
  vplus (vplus v (vmul (qw q) uv)) (cross u uv).
(** AngleAxis::toRotationMatrix for the z axis *)
Definition aaZ_mat (t : R) : m33 := mkM (mk3 (cos t) (- sin t) 0) (mk3 (sin t) (cos t) 0) (mk3 0 0 1).

(** std::atan2 *)
Definition atan2 (y x : R) : R :=
  if Rlt_dec 0 x then atan (y / x)
  else if Rlt_dec x 0 then (if Rle_dec 0 y then atan (y / x) + PI else atan (y / x) - PI)
  else if Rlt_dec 0 y then PI / 2 else if Rlt_dec y 0 then - (PI / 2) else 0.
(** sec2rad (geodesy library) *)
Definition sec2rad (s : R) : R := s * PI / 648000.

(** ** earth_rotation.hpp *)
(** xycip2spherical: lines 95-105; (d, e) *)
Definition xycip2spherical (X Y : R) : R * R :=
  let r2 := X * X + Y * Y in
  (atan (sqrt (r2 / (1 - r2))), if Rlt_dec 0 r2 then atan2 Y X else 0).
(** C: lines 136-143 *)
Definition C (X Y s : R) : quat :=
  let '(d, e) := xycip2spherical X Y in qmul (qmul (aaZ (e + s)) (aaY (- d))) (aaZ (- e)).
(** C_qimpl: lines 165-181 *)
Definition C_qimpl (X Y s : R) : quat :=
  let '(d, e) := xycip2spherical X Y in
  let z := cos d in let cs2 := cos (s / 2) in let ss2 := sin (s / 2) in
  let f := 1 / sqrt (2 * (1 + z)) in
  Q (f * (cs2 * (1 + z))) (f * (cs2 * Y - ss2 * (- X))) (f * (cs2 * (- X) + ss2 * Y)) (f * (ss2 * (1 + z))).
(** C_rxyimpl: lines 202-215 *)
Definition C_rxyimpl (x y s : R) : m33 :=
  let a := 1 / 2 + 1 / 8 * (x * x + y * y) in
  mmul (aaZ_mat s) (mkM (mk3 (1 - a * x * x) (- a * x * y) (- x)) (mk3 (- a * x * y) (1 - a * y * y) (- y)) (mk3 x y (1 - a * (x * x + y * y)))).
(** dRdt: lines 231-240 *)
Definition dRdt (era omega : R) : m33 :=
  let os := omega * sin era in let oc := omega * cos era in
  mkM (mk3 (- os) oc 0) (mk3 (- oc) (- os) 0) (mk3 0 0 0).
(** c2i: lines 302-308 *)
Definition c2i (era s sp d e xp yp : R) : quat :=
  qmul (qmul (qmul (qmul (aaX yp) (aaY xp)) (aaZ (- sp - era + e + s))) (aaY (- d))) (aaZ (- e)).
(** c2tirs: lines 335-340 *)
Definition c2tirs (era s d e : R) : quat := qmul (qmul (aaZ (- era + e + s)) (aaY (- d))) (aaZ (- e)).
(** tirs2i: lines 355-359 *)
Definition tirs2i (xp yp sp : R) : quat := qmul (qmul (aaX yp) (aaY xp)) (aaZ (- sp)).
(** iersconst.hpp:41 *)
Definition OmegaEarth : R := 7.2921151467064e-5.
(** lines 368-374 *)
Definition earth_rotation_rate (dlod : R) : R := OmegaEarth * (1 - dlod / 86400).
Definition earth_rotation_axis (lod : R) : v3 := mk3 0 0 (earth_rotation_rate lod).

(** ** c2i06abz.cpp: gcrs2itrs_quaternion, lines 5-47 *)
Definition gcrs2itrs_quaternion (era s sp Xcip Ycip xp yp : R) : quat :=
  let cxp2 := cos (xp / 2) in let sxp2 := sin (xp / 2) in let cyp2 := cos (yp / 2) in let syp2 := sin (yp / 2) in
  let tw := cxp2 * cyp2 in let aw := cxp2 * syp2 in let bw := cyp2 * sxp2 in let cw := sxp2 * syp2 in
  let thetap := era + sp - s in
  let ct2 := cos (thetap / 2) in let st2 := sin (thetap / 2) in
  let r2 := Xcip * Xcip + Ycip * Ycip in
  let e := if Rlt_dec 0 r2 then atan2 Ycip Xcip else 0 in
  let d := atan (sqrt (r2 / (1 - r2))) in
  let X := sin d * cos e in let Y := sin d * sin e in let Z := cos d in
  let pZ := 1 + Z in
  let fac := 1 / sqrt (2 * pZ) in
  Q (fac * (ct2 * (X * bw - Y * aw + pZ * tw) + st2 * (X * aw + Y * bw + pZ * cw)))
    (fac * (ct2 * (X * cw + Y * tw + pZ * aw) + st2 * (- X * tw + Y * cw - pZ * bw)))
    (fac * (ct2 * (- X * tw + Y * cw + pZ * bw) + st2 * (- X * cw - Y * tw + pZ * aw)))
    (fac * (ct2 * (- X * aw - Y * bw + pZ * cw) + st2 * (X * bw - Y * aw - pZ * tw))).

(** ** the functions for an epoch and Earth orientation parameters *)
Record eop := mkE { e_dX : R; e_dY : R; e_dut : R; e_xp : R; e_yp : R; e_lod : R }.
Section Epoch.
  Variable epoch : Type.
  (** xycip06a, s06 (the fundamental arguments passed on are those of the epoch), era00, tt2ut1, jcenturies_sinceJ2000 *)
  Variable xycip06a : epoch -> R * R.
  Variable s06 : epoch -> R -> R -> R.
  Variable era00 : epoch -> R.
  Variable tt2ut1 : epoch -> R -> epoch.
  Variable jcenturies : epoch -> R.
  (** sp00: iau.hpp:72-77 *)
  Definition sp00 (tt : epoch) : R := sec2rad (- 47e-6 * jcenturies tt).
  (** corrected pole: c2i06a.cpp:11-19, 39-47, c2i06abz.cpp:54-62, c2i06apq.cpp:11-19 *)
  Definition pole (tt : epoch) (o : eop) : R * R * R :=
    let '(X, Y) := xycip06a tt in (X + sec2rad (e_dX o), Y + sec2rad (e_dY o), s06 tt X Y).
  Definition era_of (tt : epoch) (o : eop) : R := era00 (tt2ut1 tt (e_dut o)).
  (** c2i06a.cpp:4-29 *)
  Definition c2i06a (tt : epoch) (o : eop) : quat :=
    let '(X, Y, s) := pole tt o in let '(d, e) := xycip2spherical X Y in
    c2i (era_of tt o) s (sp00 tt) d e (sec2rad (e_xp o)) (sec2rad (e_yp o)).
  (** c2i06a.cpp:31-64: quaternion and dMdt *)
  Definition c2i06a_dM (tt : epoch) (o : eop) : quat * m33 :=
    let '(X, Y, s) := pole tt o in let '(d, e) := xycip2spherical X Y in
    (c2i (era_of tt o) s (sp00 tt) d e (sec2rad (e_xp o)) (sec2rad (e_yp o)),
     mmul (mmul (qmat (tirs2i (sec2rad (e_xp o)) (sec2rad (e_yp o)) (sp00 tt))) (dRdt (era_of tt o) (earth_rotation_rate (e_lod o)))) (qmat (C X Y s))).
  (** c2i06abz.cpp:49-72 *)
  Definition c2i06a_bz (tt : epoch) (o : eop) : quat :=
    let '(X, Y, s) := pole tt o in gcrs2itrs_quaternion (era_of tt o) s (sp00 tt) X Y (sec2rad (e_xp o)) (sec2rad (e_yp o)).
  (** c2i06apq.cpp:4-33: qc2tirs, qtirs2i, rotation vector *)
  Definition c2i06a_pq (tt : epoch) (o : eop) : quat * quat * v3 :=
    let '(X, Y, s) := pole tt o in let '(d, e) := xycip2spherical X Y in
    (c2tirs (era_of tt o) s d e, tirs2i (sec2rad (e_xp o)) (sec2rad (e_yp o)) (sp00 tt), earth_rotation_axis (e_lod o)).
End Epoch.
