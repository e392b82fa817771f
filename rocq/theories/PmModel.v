(** Third body attraction: src/lib/gravity/point_mass_acceleration.cpp. Real arithmetic: a body at the
    origin or at the satellite gives a division by zero, infinities or NaN in C++; the model
    describes other positions. *)
From Coq Require Import Reals.
From Verif Require Import Vec.
Open Scope R_scope.

(** lines 3-13 *)
Definition pm_acceleration (r rcb : v3) (GM : R) : v3 :=
  let Rcb3 := dot rcb rcb * len rcb in
  let s := vminus r rcb in
  let S3 := dot s s * len s in
  vmul (- GM) (vplus (vdiv s S3) (vdiv rcb Rcb3)).
(** lines 15-32: acceleration and J *)
Definition pm_partials (r rcb : v3) (GM : R) : v3 * m33 :=
  let Rcb3 := dot rcb rcb * len rcb in
  let s := vminus r rcb in
  let S3 := dot s s * len s in
  let S5 := S3 * dot s s in
  let J := mscale (- GM) (mminus (mdiv ident S3) (mdiv (outer (vmul 3 s) s) S5)) in
  (vmul (- GM) (vplus (vdiv s S3) (vdiv rcb Rcb3)), J).
