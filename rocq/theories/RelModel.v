(** Relativistic acceleration: src/lib/relativity/iers12010_relativistic_correction.cpp. Real arithmetic; Eigen's vectors are [v3],
    a state is a pair of position and velocity. *)
From Coq Require Import Reals.
From Verif Require Import Vec.
Open Scope R_scope.

Definition state := (v3 * v3)%type.
Definition sscale (k : R) (s : state) : state := (vmul k (fst s), vmul k (snd s)).
(** schwarzschild: lines 5-14 *)
Definition schwarzschild (sat : state) (GMe beta gamma : R) : v3 :=
  let r := fst sat in let v := snd sat in let s := len r in
  vplus (vmul (2 * (beta + gamma) * (GMe / s) - gamma * dot v v) r) (vmul (2 * (1 + gamma) * dot r v) v).
(** lens_thirring: lines 17-30 *)
Definition lens_thirring (sat : state) (J gamma : R) : v3 :=
  let r := fst sat in let v := snd sat in let s := len r in
  let j := mk3 0 0 J in
  vmul (1 + gamma) (vplus (vmul (dot r j) (vmul (3 / s / s) (cross r v))) (cross v j)).
(** geodesic: lines 33-46; std::pow(x, 3) is the third power *)
Definition geodesic (rsat rersn : state) (GMe GMs gamma : R) : v3 :=
  let v := snd rsat in let re := fst rersn in let ve := snd rersn in
  let s := len (fst rsat) in let R := len (fst rersn) in
  vmul (s ^ 3 / R ^ 3) (vmul (GMs / GMe) (cross (vmul (1 + 2 * gamma) (cross ve re)) v)).
(** lines 49-70 *)
Definition iers2010_relativistic_acceleration (rsatin rsunin : state) (GMe GMs J c beta gamma : R) : v3 :=
  let rsat := sscale 1e-3 rsatin in
  let rsun := sscale 1e-3 rsunin in
  let GMe := GMe * 1e-9 in
  let GMs := GMs * 1e-9 in
  let J := J * 1e-6 in
  let c := c * 1e-3 in
  let s := len (fst rsat) in
  let f := GMe / (c * c * s * s * s) in
  vmul 1e3 (vmul f (vminus (vplus (schwarzschild rsat GMe beta gamma) (lens_thirring rsat J gamma)) (geodesic rsat (sscale (-1) rsun) GMe GMs gamma))).
(** defaults: include/relativity.hpp:36-41, iersconst.hpp:25, 59, 64, 74 *)
Definition default_acceleration (rsat rsun : state) : v3 :=
  iers2010_relativistic_acceleration rsat rsun 3.986004418e14 1.32712442099e20 9.8e8 299792458 1 1.
