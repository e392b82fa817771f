(** Solid Earth tide, displacement of a site: src/lib/solid_earth_tides/{iers2010_displacement_step1,iers2010_displacement_step2,
    iers2010_site_displacement}.cpp, include/solid_earth_tide.hpp. Real arithmetic. *)
From Coq Require Import Reals ZArith List Bool.
From Verif Require Import Base DoodsonModel DoodsonArgModel TideModel FundModel Angles RotModel SolidModel Vec.
Import ListNotations.
Open Scope R_scope.

(** Eigen: normalized; the zero vector stays *)
Definition normalized (v : v3) : v3 := vdiv v (len v).
(** geodetic2lvlh (geodesy library): [x, y, z] = R [east, north, up], see displacement_step1.cpp:359-361 *)
Definition geodetic2lvlh (lat lon : R) : m33 := mkM
  (mk3 (- sin lon) (- sin lat * cos lon) (cos lat * cos lon))
  (mk3 (cos lon) (- sin lat * sin lon) (cos lat * sin lon))
  (mk3 0 (cos lat) (sin lat)).
(** PointSphericalTrigs: solid_earth_tide.hpp:26-47 *)
Record trigs := mkTr { msph : sph; mslat : R; mclat : R; mslon : R; mclon : R }.
Definition point_trigs (v : v3) : trigs :=
  let s := cartesian2spherical v in mkTr s (sin (slat s)) (cos (slat s)) (sin (slon s)) (cos (slon s)).

(** ** step 1: displacement_step1.cpp *)
(** 8-13 *)
Definition love_h0 : R := 0.6078.
Definition love_h2 : R := -0.0006.
Definition love_h3 : R := 0.292.
Definition shida_l0 : R := 0.0847.
Definition shida_l2 : R := 0.0002.
Definition shida_l3 : R := 0.015.
(** 38-42, 227-231 *)
Definition lat_term (rsta : v3) : R := let sf := p3 rsta / len rsta in (3 * sf * sf - 1) / 2.
Definition love2 (rsta : v3) : R := love_h0 + love_h2 * lat_term rsta.
Definition shida2 (rsta : v3) : R := shida_l0 + shida_l2 * lat_term rsta.
(** degrees two and three in phase, not scaled: 48-61, the same text in 241-253 and 257-270 *)
Definition in_phase_terms (Re : R) (rsta rtb : v3) : v3 :=
  let urtb := normalized rtb in
  let ursta := normalized rsta in
  let c := dot urtb ursta in
  let c2 := c * c in
  let c3 := c2 * c in
  let dr := vplus (vmul (love2 rsta * ((3 * c2 - 1) / 2)) ursta) (vmul (3 * shida2 rsta * c) (vminus urtb (vmul c ursta))) in
  let scale3 := Re / len rtb in
  vplus dr (vmul scale3 (vplus (vmul (love_h3 * (5 * c3 - 3 * c) / 2) ursta) (vmul (shida_l3 * (15 * c2 - 3) / 2) (vminus urtb (vmul c ursta))))).
(** 64, 169, 234-235 *)
Definition factor (Re GMratio : R) (rtb : v3) : R := GMratio * (Re / len rtb) ^ 3 * Re.
(** deprecated: 30-66 *)
Definition step1_in_phase (Re GMratio : R) (rtb rsta : v3) : v3 := vmul (factor Re GMratio rtb) (in_phase_terms Re rsta rtb).
(** deprecated: 90-171; the corrections one after the other *)
Definition step1_outof_phase (Re GMratio : R) (rtb : v3) (tb sta : trigs) : v3 :=
  let s2Phi := 2 * mslat tb * mclat tb in
  let cPhi := mclat tb in
  let s2phi := 2 * mslat sta * mclat sta in
  let c2phi := mclat sta * mclat sta - mslat sta * mslat sta in
  let sphi := mslat sta in
  let cphi := mclat sta in
  let sPhi := mslat tb in
  let slmL := sin (slon (msph sta) - slon (msph tb)) in
  let clmL := cos (slon (msph sta) - slon (msph tb)) in
  let s2lmL := 2 * slmL * clmL in
  let c2lmL := clmL * clmL - slmL * slmL in
  let hI10 := -0.0025 in
  let lI10 := -0.0007 in
  let dr := mk3 (-1.5 * lI10 * s2Phi * sphi * clmL) (-1.5 * lI10 * s2Phi * c2phi * slmL) (-0.75 * hI10 * s2Phi * s2phi * slmL) in
  let hI11 := -0.0022 in
  let lI11 := -0.0007 in
  let cPhi2 := cPhi * cPhi in
  let cphi2 := cphi * cphi in
  let dr := vplus dr (mk3 (-1.5 * lI11 * cPhi2 * cphi * c2lmL) (0.75 * lI11 * cPhi2 * s2phi * s2lmL) (-0.75 * hI11 * cPhi2 * cphi2 * s2lmL)) in
  let l18 := 0.0012 in
  let P21 := -3 * sPhi * cPhi in
  let F := l18 * sphi * P21 in
  let dr := vplus dr (mk3 (F * (- c2phi * slmL)) (F * (sphi * clmL)) 0) in
  let l19 := 0.0024 in
  let P22 := 3 * cPhi * cPhi in
  let F := -0.5 * l19 * sphi * cphi * P22 in
  let dr := vplus dr (mk3 (F * (sphi * s2lmL)) (F * c2lmL) 0) in
  vmul (factor Re GMratio rtb) dr.
(** out of phase and latitude dependent terms, not scaled: 278-316, the same text in 321-354 *)
Definition drs (sta tb : trigs) : v3 :=
  let s2phi := 2 * mslat sta * mclat sta in
  let c2phi := mclat sta * mclat sta - mslat sta * mslat sta in
  let sphi := mslat sta in
  let cphi := mclat sta in
  let s2Phi := 2 * mslat tb * mclat tb in
  let cPhi := mclat tb in
  let sPhi := mslat tb in
  let slmL := sin (slon (msph sta) - slon (msph tb)) in
  let clmL := cos (slon (msph sta) - slon (msph tb)) in
  let s2lmL := 2 * slmL * clmL in
  let c2lmL := clmL * clmL - slmL * slmL in
  let hI10 := -0.0025 in
  let hI11 := -0.0022 in
  let lI10 := -0.0007 in
  let lI11 := -0.0007 in
  let l18 := 0.0012 in
  let l19 := 0.0024 in
  let P21 := -3 * sPhi * cPhi in
  let P22 := 3 * cPhi * cPhi in
  let F18 := l18 * sphi * P21 in
  let F19 := -0.5 * l19 * sphi * cphi * P22 in
  let cPhi2 := cPhi * cPhi in
  let cphi2 := cphi * cphi in
  mk3 (-1.5 * lI10 * s2Phi * sphi * clmL + -1.5 * lI11 * cPhi2 * cphi * c2lmL + F18 * (- c2phi * slmL) + F19 * (sphi * s2lmL))
      (-1.5 * lI10 * s2Phi * c2phi * slmL + 0.75 * lI11 * cPhi2 * s2phi * s2lmL + F18 * (sphi * clmL) + F19 * c2lmL)
      (-0.75 * hI10 * s2Phi * s2phi * slmL + -0.75 * hI11 * cPhi2 * cphi2 * s2lmL).
(** 218-364 *)
Definition step1 (Re : R) (rsta rsun rmoon : v3) (ratio_sun ratio_moon : R) (tsta tsun tmoon : trigs) : v3 :=
  let facSun := factor Re ratio_sun rsun in
  let facMon := factor Re ratio_moon rmoon in
  let dx := vmul facSun (in_phase_terms Re rsta rsun) in
  let dx := vplus dx (vmul facMon (in_phase_terms Re rsta rmoon)) in
  let dr := vmul facSun (drs tsta tsun) in
  let dr := vplus dr (vmul facMon (drs tsta tmoon)) in
  let rot := geodetic2lvlh (slat (msph tsta)) (slon (msph tsta)) in
  vplus dr (app3 (transp rot) dx).
(** 368-379 *)
Definition step1_displacement (o : solid) (rsta rMoon rSun : v3) (tSta tMoon tSun : trigs) : v3 :=
  step1 (mRe o) rsta rSun rMoon (mSEratio o) (mMEratio o) tSta tSun tMoon.

(** ** step 2: displacement_step2.cpp *)
(** 9-20; amplitudes in units of 0.01 mm (all values in the tables are multiples) *)
Record table7 := mkT7 { md : doodson; dRip : Z; dRop : Z; dTip : Z; dTop : Z }.
Definition row (a b c d e f rip rop tip top : Z) : table7 := mkT7 (mkD a b c d e f 0) rip rop tip top.
Open Scope Z_scope.
(** 27-61, not used *)
Definition Tables7 : list table7 := [
  row 1 (-2) 0 1 0 0 (-8) 0 (-1) 1; row 1 (-1) 0 0 (-1) 0 (-10) 0 0 0; row 1 (-1) 0 0 0 0 (-51) 0 (-2) 3;
  row 1 0 0 1 0 0 6 0 0 0; row 1 1 (-3) 0 0 1 (-6) 0 0 0; row 1 1 (-2) 0 0 0 (-123) (-7) 6 1;
  row 1 1 0 0 (-1) 0 (-22) 1 1 0; row 1 1 0 0 0 0 1200 (-78) (-67) (-3); row 1 1 0 0 1 0 173 (-12) (-10) 0;
  row 1 1 1 0 0 (-1) (-50) (-1) 3 0; row 1 1 2 0 0 0 (-11) 1 1 0; row 0 0 0 0 1 0 47 16 23 7;
  row 0 0 2 0 0 0 (-20) (-11) (-12) (-5); row 0 1 0 (-1) 0 0 (-11) (-9) (-8) (-4); row 0 2 0 0 0 0 (-13) (-15) (-11) (-7);
  row 0 2 0 0 1 0 (-5) (-6) (-5) (-3)].
(** 70-145 *)
Definition Tables7Extended : list table7 := [
  row 1 (-3) 0 2 0 0 (-1) (-1) 0 0; row 1 (-3) 2 0 0 0 (-1) (-1) 0 0; row 1 (-2) 0 1 (-1) 0 (-2) (-1) 0 0;
  row 1 (-2) 0 1 0 0 (-8) 0 1 1; row 1 (-2) 2 (-1) 0 0 (-2) (-1) 0 0; row 1 (-1) 0 0 (-1) 0 (-10) 0 0 0;
  row 1 (-1) 0 0 0 0 (-51) 0 (-2) 3; row 1 (-1) 2 0 0 0 1 0 0 0; row 1 0 (-2) 1 0 0 1 0 0 0;
  row 1 0 0 (-1) 0 0 2 1 0 0; row 1 0 0 1 0 0 6 0 0 0; row 1 0 0 1 1 0 1 0 0 0;
  row 1 0 2 (-1) 0 0 1 0 0 0; row 1 1 (-3) 0 0 1 (-6) 0 0 0; row 1 1 (-2) 0 1 0 1 0 0 0;
  row 1 1 (-2) 0 0 0 (-123) (-7) 6 1; row 1 1 (-1) 0 0 (-1) 2 0 0 0; row 1 1 (-1) 0 0 1 4 0 0 0;
  row 1 1 0 0 (-1) 0 (-22) 1 1 0; row 1 1 0 0 0 0 1200 (-78) (-67) (-3); row 1 1 0 0 1 0 173 (-12) (-10) 0;
  row 1 1 0 0 2 0 (-4) 0 0 0; row 1 1 1 0 0 (-1) (-50) (-1) 3 0; row 1 1 1 0 0 1 1 0 0 0;
  row 1 1 1 0 1 (-1) (-1) 0 0 0; row 1 1 2 (-2) 0 0 (-1) 0 0 0; row 1 1 2 0 0 0 (-11) 1 1 0;
  row 1 2 (-2) 1 0 0 (-1) 0 0 0; row 1 2 0 (-1) 0 0 (-2) 2 0 1; row 1 3 0 0 0 0 0 1 0 1;
  row 1 3 0 0 1 0 0 1 0 0; row 0 0 0 0 1 0 47 16 23 7; row 0 0 2 0 0 0 (-20) (-11) (-12) (-5);
  row 0 1 0 (-1) 0 0 (-11) (-9) (-8) (-4); row 0 2 0 0 0 0 (-13) (-15) (-11) (-7); row 0 2 0 0 1 0 (-5) (-6) (-5) (-3)].
Close Scope Z_scope.
Definition mm (x : Z) : R := IZR x / 100.
(** 153-197, one pass *)
Definition step2_pass (f : variables) (tsta : trigs) (dr : v3) (tc : table7) : v3 :=
  let sphi := mslat tsta in
  let s2phi := 2 * mslat tsta * mclat tsta in
  let c2phi := mclat tsta * mclat tsta - mslat tsta * mslat tsta in
  let lambda := slon (msph tsta) in
  let arg := argument (md tc) f in
  if (n0 (md tc) =? 1)%Z then
    let ang := anp (arg + lambda) in
    let sa := sin ang in let ca := cos ang in
    vplus dr (mk3 ((ca * mm (dTip tc) - sa * mm (dTop tc)) * sphi) ((sa * mm (dTip tc) + ca * mm (dTop tc)) * c2phi)
                  ((sa * mm (dRip tc) + ca * mm (dRop tc)) * s2phi))
  else
    let sa := sin arg in let ca := cos arg in
    vplus dr (mk3 0 ((mm (dTip tc) * ca + mm (dTop tc) * sa) * s2phi) ((1.5 * sphi * sphi - 0.5) * (mm (dRip tc) * ca + mm (dRop tc) * sa))).
(** 147-203 *)
Definition step2_displacement (mjdtt mjdut1 : epoch) (tsta : trigs) (F : delaunay) : v3 :=
  let f := delaunay2doodson F (gmst mjdtt mjdut1) in
  vmul 1e-3 (fold_left (step2_pass f tsta) Tables7Extended v0).

(** ** site_displacement.cpp:4-43 *)
Definition displacement (o : solid) (mjdtt mjdut1 : epoch) (rsta rMoon rSun : v3) (F : delaunay) : v3 :=
  let trigs_sun := point_trigs rSun in
  let trigs_mon := point_trigs rMoon in
  let trigs_sta := point_trigs rsta in
  let dr := step1_displacement o rsta rMoon rSun trigs_sta trigs_mon trigs_sun in
  let dr := vplus dr (step2_displacement mjdtt mjdut1 trigs_sta F) in
  app3 (geodetic2lvlh (slat (msph trigs_sta)) (slon (msph trigs_sta))) dr.
