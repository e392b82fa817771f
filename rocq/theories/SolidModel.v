(** Solid Earth tide, geopotential: include/solid_earth_tide.hpp, src/lib/solid_earth_tides/{iers2010_geopotential_step1,
    iers2010_geopotential_step2,iers2010_stokes_coeffs}.cpp. Real arithmetic; the coefficient matrices are objects of the matrix model. *)
From Coq Require Import Reals ZArith List Bool.
From Verif Require Import Base StorageModel MatrixModel DoodsonModel DoodsonArgModel TideModel PoleModel FundModel Vec RotModel.
Import ListNotations.

(** ** spherical coordinates *)
(** radius, geocentric latitude, longitude *)
Record sph := mkSph { sr : R; slat : R; slon : R }.
(** dso::cartesian2spherical (geodesy library), by the usual formulas *)
Definition cartesian2spherical (v : v3) : sph :=
  mkSph (len v) (atan2 (p3 v) (sqrt (p1 v * p1 v + p2 v * p2 v))) (atan2 (p2 v) (p1 v)).

Section Step1.
  Open Scope R_scope.
  (** std::transform with the lambda of geopotential_step1.cpp:112-116, 226-230: dc + dct fac *)
  Fixpoint transform (fac : R) (dct dc : list R) : list R :=
    match dct, dc with x :: dct', y :: dc' => y + x * fac :: transform fac dct' dc' | _, _ => [] end.
  (** geopotential_step1.cpp:40-53, 154-167: sine and cosine of the latitude, Legendre functions in the order P20, P21, P22, P30, P31, P32, P33 *)
  Definition P20 (t : R) : R := sqrt 5 * 0.5 * (3 * (t * t) - 1).
  Definition P21 (t u : R) : R := sqrt (5 / 3) * 3 * t * u.
  Definition P22 (u : R) : R := sqrt (5 / 12) * 3 * (u * u).
  Definition P30 (t : R) : R := (0.5 * t * sqrt 7) * (5 * (t * t) - 3).
  Definition P31 (t u : R) : R := (3 / 2) * (5 * (t * t) - 1) * u * sqrt (7 / 6).
  Definition P32 (t u : R) : R := 15 * sqrt (7 / 60) * t * (u * u).
  Definition P33 (u : R) : R := 15 * (u * u) * u * sqrt (14 / 720).
  (** 69-72, 183-186 *)
  Definition c2l (cl sl : R) : R := cl * cl - sl * sl.
  Definition s2l (cl sl : R) : R := 2 * cl * sl.
  Definition c3l (cl : R) : R := 4 * cl * cl * cl - 3 * cl.
  Definition s3l (sl : R) : R := -4 * sl * sl * sl + 3 * sl.

  (** geopotential_step1.cpp:31-119; returns the new contents of dC and dS *)
  Definition anelastic_tb (Re GM_ratio : R) (rtb : v3) (dC dS : list R) : list R * list R :=
    let b := cartesian2spherical rtb in
    let t := sin (slat b) in let u := cos (slat b) in
    let cl := cos (slon b) in let sl := sin (slon b) in
    let fac2 := 1 / 5 in
    let fac3 := Re / sr b / 7 in
    let dCt := [
      fac2 * P20 t * 0.30190;
      fac2 * P21 t u * (0.29830 * cl + (-0.00144) * sl);
      fac2 * P22 u * (0.30102 * c2l cl sl + (-0.00130) * s2l cl sl);
      fac3 * P30 t * 0.093;
      fac3 * P31 t u * 0.093 * cl;
      fac3 * P32 t u * 0.093 * c2l cl sl;
      fac3 * P33 u * 0.094 * c3l cl;
      fac2 * P20 t * (-0.00089);
      fac2 * P21 t u * (-0.00080) * cl;
      fac2 * P22 u * (-0.00057) * c2l cl sl;
      0; 0] in
    let dSt := [
      0;
      fac2 * P21 t u * (0.29830 * sl - (-0.00144) * cl);
      fac2 * P22 u * (0.30102 * s2l cl sl - (-0.00130) * c2l cl sl);
      0;
      fac3 * P31 t u * 0.093 * sl;
      fac3 * P32 t u * 0.093 * s2l cl sl;
      fac3 * P33 u * 0.094 * s3l sl;
      0;
      fac2 * P21 t u * (-0.00080) * sl;
      fac2 * P22 u * (-0.00057) * s2l cl sl;
      0; 0] in
    let fac := GM_ratio * (Re / sr b) ^ 3 in
    (transform fac dCt dC, transform fac dSt dS).

  (** geopotential_step1.cpp:144-233, not called *)
  Definition elastic_tb (Re GM_ratio : R) (rtb : v3) (dC dS : list R) : list R * list R :=
    let b := cartesian2spherical rtb in
    let t := sin (slat b) in let u := cos (slat b) in
    let cl := cos (slon b) in let sl := sin (slon b) in
    let fac2 := 1 / 5 in
    let fac3 := Re / sr b / 7 in
    let dCt := [
      fac2 * P20 t * 0.29525;
      fac2 * P21 t u * 0.29470 * cl;
      fac2 * P22 u * 0.29801 * c2l cl sl;
      fac3 * P30 t * 0.093;
      fac3 * P31 t u * 0.093 * cl;
      fac3 * P32 t u * 0.093 * c2l cl sl;
      fac3 * P33 u * 0.094 * c3l cl;
      fac2 * P20 t * (-0.00087);
      fac2 * P21 t u * (-0.00079) * cl;
      fac2 * P22 u * (-0.00057) * c2l cl sl;
      0; 0] in
    let dSt := [
      0;
      fac2 * P21 t u * 0.29470 * sl;
      fac2 * P22 u * 0.29801 * s2l cl sl;
      0;
      fac3 * P31 t u * 0.093 * sl;
      fac3 * P32 t u * 0.093 * s2l cl sl;
      fac3 * P33 u * 0.094 * s3l sl;
      0;
      fac2 * P21 t u * (-0.00079) * sl;
      fac2 * P22 u * (-0.00057) * s2l cl sl;
      0; 0] in
    let fac := GM_ratio * (Re / sr b) ^ 3 in
    (transform fac dCt dC, transform fac dSt dS).

  (** geopotential_step1.cpp:236-259; [dC], [dS]: previous contents of the arrays *)
  Definition potential_step1 (Re mSEratio mMEratio : R) (rMoon rSun : v3) (dC dS : list R) : list R * list R :=
    let z := (map (fun _ => 0) dC, map (fun _ => 0) dS) in
    let s := anelastic_tb Re mSEratio rSun (fst z) (snd z) in
    anelastic_tb Re mMEratio rMoon (fst s) (snd s).
End Step1.

Section Step2.
  (** a line of the table: geopotential_step2.cpp:9-16; amplitudes in units of 0.1 (all values in the table are multiples) *)
  Record step2_wave := mkW { mdn : doodson; ampInPhase : Z; ampOutOfPhase : Z }.
  Definition wave (a b c d e f i o : Z) : step2_wave := mkW (mkD a b c d e f 0) i o.
  Open Scope Z_scope.
  (** geopotential_step2.cpp:22-94 *)
  Definition Step2 : list step2_wave := [
  wave 1 (-3) 0 2 0 0 (-1) 0; wave 1 (-3) 2 0 0 0 (-1) 0; wave 1 (-2) 0 1 (-1) 0 (-1) 0;
  wave 1 (-2) 0 1 0 0 (-7) 1; wave 1 (-2) 2 (-1) 0 0 (-1) 0; wave 1 (-1) 0 0 (-1) 0 (-13) 1;
  wave 1 (-1) 0 0 0 0 (-68) 6; wave 1 (-1) 2 0 0 0 1 0; wave 1 0 (-2) 1 0 0 1 0;
  wave 1 0 0 (-1) (-1) 0 1 0; wave 1 0 0 (-1) 0 0 4 0; wave 1 0 0 1 0 0 13 (-1);
  wave 1 0 0 1 1 0 3 0; wave 1 0 2 (-1) 0 0 3 0; wave 1 0 2 (-1) 1 0 1 0;
  wave 1 1 (-3) 0 0 1 (-19) 1; wave 1 1 (-2) 0 (-1) 0 5 0; wave 1 1 (-2) 0 0 0 (-434) 29;
  wave 1 1 (-1) 0 0 (-1) 6 0; wave 1 1 (-1) 0 0 1 16 (-1); wave 1 1 0 (-2) (-1) 0 1 0;
  wave 1 1 0 0 (-2) 0 1 0; wave 1 1 0 0 (-1) 0 (-88) 5; wave 1 1 0 0 0 0 4709 (-302);
  wave 1 1 0 0 1 0 681 (-46); wave 1 1 0 0 2 0 (-16) 1; wave 1 1 1 (-1) 0 0 1 0;
  wave 1 1 1 0 (-1) (-1) (-1) 0; wave 1 1 1 0 0 (-1) (-206) (-3); wave 1 1 1 0 0 1 3 0;
  wave 1 1 1 0 1 (-1) (-3) 0; wave 1 1 2 (-2) 0 0 (-2) 0; wave 1 1 2 (-2) 1 0 (-1) 0;
  wave 1 1 2 0 0 0 (-50) 3; wave 1 1 2 0 1 0 2 0; wave 1 1 3 0 0 (-1) (-2) 0;
  wave 1 2 (-2) 1 0 0 (-5) 0; wave 1 2 (-2) 1 1 0 (-1) 0; wave 1 2 0 (-1) (-1) 0 1 0;
  wave 1 2 0 (-1) 0 0 (-21) 1; wave 1 2 0 (-1) 1 0 (-4) 0; wave 1 3 (-2) 0 0 0 (-2) 0;
  wave 1 3 0 (-2) 0 0 (-1) 0; wave 1 3 0 0 0 0 (-6) 0; wave 1 3 0 0 1 0 (-4) 0;
  wave 1 3 0 0 2 0 (-1) 0; wave 1 4 0 (-1) 0 0 (-1) 0; wave 1 4 0 (-1) 1 0 (-1) 0;
  wave 0 0 0 0 1 0 166 (-67); wave 0 0 0 0 2 0 (-1) 1; wave 0 0 1 0 0 (-1) (-12) 8;
  wave 0 0 2 0 0 0 (-55) 43; wave 0 0 2 0 1 0 1 (-1); wave 0 0 3 0 0 (-1) (-3) 2;
  wave 0 1 (-2) 1 0 0 (-3) 7; wave 0 1 0 (-1) (-1) 0 1 (-2); wave 0 1 0 (-1) 0 0 (-12) 37;
  wave 0 1 0 (-1) 1 0 1 (-2); wave 0 1 0 1 0 0 1 (-2); wave 0 2 (-2) 0 0 0 0 6;
  wave 0 2 0 (-2) 0 0 0 3; wave 0 2 0 0 0 0 6 63; wave 0 2 0 0 1 0 2 26;
  wave 0 2 0 0 2 0 0 2; wave 0 3 (-2) 1 0 0 1 2; wave 0 3 0 (-1) 0 0 4 11;
  wave 0 3 0 (-1) 1 0 2 5; wave 0 4 (-2) 0 0 0 1 2; wave 0 4 0 (-2) 0 0 1 1;
  wave 2 (-1) 0 1 0 0 (-3) 0; wave 2 0 0 0 0 0 (-12) 0].
  Close Scope Z_scope.
  Open Scope R_scope.
  (** dC20, dC21, dS21, dC22, dS22 *)
  Record step2_out := mkO { oC20 : R; oC21 : R; oS21 : R; oC22 : R; oS22 : R }.
  (** geopotential_step2.cpp:115-132, one pass *)
  Definition step2_add (f : variables) (o : step2_out) (c : step2_wave) : step2_out :=
    let arg := argument (mdn c) f in
    let carg := cos arg in let sarg := sin arg in
    let A := IZR (ampInPhase c) / 10 in let B := IZR (ampOutOfPhase c) / 10 in
    if (n0 (mdn c) =? 1)%Z then
      mkO (oC20 o) (oC21 o + (A * sarg + B * carg)) (oS21 o + (A * carg - B * sarg)) (oC22 o) (oS22 o)
    else if (n0 (mdn c) =? 0)%Z then
      mkO (oC20 o + (A * carg - B * sarg)) (oC21 o) (oS21 o) (oC22 o) (oS22 o)
    else if (n0 (mdn c) =? 2)%Z then
      mkO (oC20 o) (oC21 o) (oS21 o) (oC22 o + (A * carg - B * sarg)) (oS22 o - (A * sarg + B * carg))
    else o.
  (** geopotential_step2.cpp:97-142 *)
  Definition potential_step2 (mjdtt mjdut1 : epoch) (F : delaunay) : step2_out :=
    let f := delaunay2doodson F (gmst mjdtt mjdut1) in
    let o := fold_left (step2_add f) Step2 (mkO 0 0 0 0 0) in
    mkO (oC20 o * 1e-12) (oC21 o * 1e-12) (oS21 o * 1e-12) (oC22 o * 1e-12) (oS22 o * 1e-12).
End Step2.

(** ** the object *)
Open Scope Z_scope.
(** solid_earth_tide.hpp:51-56; the radius is that of mcs *)
Record solid := mkSolid { mSEratio : R; mMEratio : R; mRe : R; mcs : pair }.
(** solid_earth_tide.hpp:199-204 *)
Definition solid_ctor (h : mem R) (GMearth Rearth GMsun GMmoon : R) : res (mem R * solid) :=
  '(h1, a) <- tide_ctor R h 4 4 ;;
  Ok (h1, mkSolid (GMsun / GMearth) (GMmoon / GMearth) Rearth (amats a)).
(** an assignment: which matrix, degree, order, value *)
Definition assign (p : pair) (h : mem R) (x : bool * Z * Z * R) : res (mem R) :=
  let '(c, n, m, v) := x in put h (if c then mC p else mS p) n m (Some v).
(** iers2010_stokes_coeffs.cpp:4-50; [dC], [dS]: what happens to be in the local arrays *)
Definition stokes_coeffs (h : mem R) (o : solid) (dC dS : list R) (mjdtt mjdut1 : epoch) (rMoon rSun : v3) (F : delaunay) : res (mem R) :=
  let s1 := potential_step1 (mRe o) (mSEratio o) (mMEratio o) rMoon rSun dC dS in
  let s2 := potential_step2 mjdtt mjdut1 F in
  let C := fun i => nth i (fst s1) 0%R in
  let S := fun i => nth i (snd s1) 0%R in
  h0 <- clear R 0%R h (mcs o) ;;
  fold_res (assign (mcs o)) [
    (true, 2, 0, (C 0%nat + oC20 s2)%R);
    (true, 3, 0, C 3%nat);
    (true, 4, 0, C 7%nat);
    (true, 2, 1, (C 1%nat + oC21 s2)%R);
    (true, 3, 1, C 4%nat);
    (true, 4, 1, C 8%nat);
    (true, 2, 2, (C 2%nat + oC22 s2)%R);
    (true, 3, 2, C 5%nat);
    (true, 4, 2, C 9%nat);
    (true, 3, 3, C 6%nat);
    (true, 4, 3, C 10%nat);
    (true, 4, 4, C 11%nat);
    (false, 2, 1, (S 1%nat + oS21 s2)%R);
    (false, 3, 1, S 4%nat);
    (false, 4, 1, S 8%nat);
    (false, 2, 2, (S 2%nat + oS22 s2)%R);
    (false, 3, 2, S 5%nat);
    (false, 4, 2, S 9%nat);
    (false, 3, 3, S 6%nat);
    (false, 4, 3, S 10%nat);
    (false, 4, 4, S 11%nat)] h0.
(** one evaluation, and evaluations one after the other *)
Record call := mkCall { cdC : list R; cdS : list R; ctt : epoch; cut1 : epoch; cmoon : v3; csun : v3; cargs : delaunay }.
Definition run (o : solid) (h : mem R) (c : call) : res (mem R) :=
  stokes_coeffs h o (cdC c) (cdS c) (ctt c) (cut1 c) (cmoon c) (csun c) (cargs c).
