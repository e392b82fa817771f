(** What C65 talks about: IERS Conventions (2010), Tables 5.1a, 5.1b, 8.1, 8.2 and 8.3. *)
From Coq Require Import Reals ZArith List.
From Verif Require Import Angles Poly DoodsonModel DoodsonArgModel DoodsonArgSpec FundSpec SolidSpec EtvModel.
Import ListNotations.
Open Scope Z_scope.

(** ** tables; a wave by its Doodson number, amplitudes of sine and cosine in hundredths of a microarcsecond or microsecond *)
(** Table 5.1a, diurnal waves: amplitudes of x; those of y make the motion circular and prograde *)
Definition libration_pole : list (Z * (Z * Z)) := [
  (135645, (-40, 30)); (135655, (-230, 130)); (137455, (-40, 30)); (145545, (-210, 120)); (145555, (-1140, 650));
  (155655, (80, -50)); (163555, (-480, 270)); (165555, (1430, -820)); (165565, (190, -110)); (175455, (80, -40))].
(** Table 5.1b: UT1, length of day *)
Definition libration_ut1 : list (Z * ((Z * Z) * (Z * Z))) := [
  (235755, ((5, -3), (-30, -60))); (237555, ((6, -3), (-40, -70))); (245655, ((35, -20), (-240, -420))); (247455, ((7, -4), (-50, -80)));
  (255545, ((-7, 4), (50, 80))); (255555, ((175, -101), (-1220, -2130))); (265455, ((-5, 3), (30, 60))); (272556, ((5, -3), (-30, -60)));
  (273555, ((76, -44), (-550, -950))); (275555, ((21, -12), (-150, -260))); (275565, ((6, -4), (-40, -80)))].
(** Tables 8.2 and 8.3: x, y, UT1, length of day *)
Definition ocean : list (Z * ((Z * Z) * (Z * Z) * (Z * Z) * (Z * Z))) := [
  (117655, ((0, 90), (-90, -10), (40, -8), (-40, -210))); (125745, ((10, 60), (-60, 10), (19, -6), (-30, -110)));
  (125755, ((30, 340), (-340, 30), (103, -31), (-170, -560))); (127545, ((10, 80), (-80, 10), (22, -7), (-40, -120)));
  (127555, ((50, 420), (-410, 50), (119, -39), (-210, -640))); (135645, ((120, 500), (-500, 120), (97, -47), (-270, -540)));
  (135655, ((620, 2630), (-2630, 620), (512, -250), (-1400, -2870))); (137445, ((20, 90), (-90, 20), (17, -9), (-50, -100)));
  (137455, ((130, 500), (-500, 130), (91, -47), (-270, -510))); (145535, ((-30, -80), (80, -30), (-9, 7), (40, 50)));
  (145545, ((920, 2510), (-2510, 920), (303, -228), (-1330, -1770))); (145555, ((4880, 13290), (-13290, 4880), (1602, -1207), (-7050, -9360)));
  (145755, ((-30, -90), (90, -30), (-10, 8), (50, 60))); (147555, ((-70, -170), (170, -70), (-19, 15), (90, 110)));
  (153655, ((-40, -90), (90, -40), (-8, 7), (50, 50))); (155445, ((-30, -60), (60, -30), (-6, 5), (30, 40)));
  (155455, ((-160, -350), (350, -160), (-31, 27), (170, 190))); (155655, ((-450, -960), (960, -450), (-86, 75), (460, 520)));
  (155665, ((-90, -190), (190, -90), (-17, 15), (90, 100))); (157455, ((-90, -180), (180, -90), (-16, 14), (80, 100)));
  (162556, ((150, 300), (-300, 150), (31, -19), (-120, -200))); (163545, ((-30, -60), (60, -30), (-6, 3), (20, 40)));
  (163555, ((2610, 5120), (-5120, 2610), (551, -310), (-1940, -3450))); (164554, ((-20, -40), (40, -20), (-5, 2), (20, 30)));
  (164556, ((-60, -120), (120, -60), (-13, 7), (40, 80))); (165545, ((150, 300), (-300, 150), (35, -17), (-110, -220)));
  (165555, ((-7750, -15170), (15170, -7750), (-1762, 855), (5390, 11100))); (165565, ((-1050, -2060), (2060, -1050), (-239, 116), (730, 1510)));
  (165575, ((20, 40), (-40, 20), (5, -3), (-20, -30))); (166554, ((-60, -120), (120, -60), (-14, 6), (40, 90)));
  (167555, ((-110, -210), (210, -110), (-27, 11), (70, 170))); (173655, ((-70, -140), (140, -70), (-29, 4), (30, 190)));
  (175455, ((-350, -730), (730, -350), (-161, 19), (120, 1050))); (175465, ((-70, -140), (140, -70), (-32, 4), (20, 210)));
  (183555, ((-40, -110), (110, -40), (-41, -1), (0, 270))); (185355, ((-20, -50), (50, -20), (-21, -1), (0, 140)));
  (185555, ((-110, -340), (340, -110), (-144, -4), (-30, 970))); (185565, ((-70, -220), (220, -70), (-92, -2), (-20, 620)));
  (185575, ((-10, -50), (50, -10), (-19, 0), (0, 130))); (195455, ((0, -60), (60, 0), (-40, -2), (-20, 280)));
  (195465, ((0, -40), (40, 0), (-25, -2), (-10, 180))); (225855, ((-50, 0), (60, 20), (-9, -1), (-10, 100)));
  (227655, ((-130, -20), (150, 70), (-22, -3), (-40, 260))); (235755, ((-610, -160), (310, 340), (-64, -18), (-210, 740)));
  (237555, ((-760, -200), (340, 420), (-74, -22), (-260, 870))); (238554, ((-50, -10), (20, 30), (-5, -2), (-20, 60)));
  (244656, ((50, 10), (-10, -30), (3, 1), (20, -40))); (245645, ((210, 50), (-40, -120), (14, 6), (70, -170)));
  (245655, ((-5690, -1290), (1110, 3290), (-379, -156), (-1860, 4520))); (246654, ((-50, -10), (10, 30), (-3, -1), (-20, 40)));
  (247455, ((-1100, -240), (190, 640), (-70, -30), (-360, 830))); (248454, ((-50, -10), (10, 30), (-3, -1), (-20, 40)));
  (253755, ((100, 10), (-10, -60), (5, 2), (30, -60))); (254556, ((110, 10), (-10, -70), (6, 3), (30, -70)));
  (255545, ((1230, 100), (-140, -730), (60, 27), (320, -730))); (255555, ((-33020, -2700), (3760, 19590), (-1619, -725), (-8680, 19660)));
  (256554, ((-100, -10), (10, 60), (-5, -2), (-30, 60))); (263655, ((250, -30), (-40, -150), (11, 3), (40, -140)));
  (265455, ((940, -140), (-190, -560), (42, 12), (140, -530))); (265655, ((-240, 40), (50, 140), (-11, -3), (-40, 130)));
  (265665, ((-100, 20), (20, 60), (-5, -1), (-20, 60))); (272556, ((-850, 350), (330, 510), (-44, -2), (-20, 550)));
  (273555, ((-14410, 6360), (5920, 8660), (-755, -16), (-200, 9480))); (274554, ((120, -60), (-50, -70), (6, 0), (0, -80)));
  (275545, ((50, -20), (-20, -30), (3, 0), (0, -30))); (275555, ((-3850, 1910), (1770, 2310), (-210, 4), (50, 2650)));
  (275565, ((-1140, 580), (530, 690), (-63, 1), (20, 790))); (275575, ((-120, 60), (60, 70), (-7, 0), (0, 90)));
  (285455, ((-180, 180), (170, 100), (-15, 4), (50, 190))); (285465, ((-80, 80), (80, 50), (-6, 2), (20, 80)));
  (295555, ((-30, 60), (70, 20), (-5, 2), (20, 60)))].
(** Table 8.1: multipliers of l, l', F, D, Omega; sine and cosine of UT1, cosine and sine of length of day, cosine and sine of the rate of rotation; 10^-4 of the units of the table, which are 10^-4 s, 10^-5 s and 10^-14 rad/s *)
Definition zonal : list (list Z * ((Z * Z) * (Z * Z) * (Z * Z))) := [
  ([1; 0; 2; 2; 2], ((-235, 0), (2617, 0), (-2209, 0))); ([2; 0; 2; 0; 1], ((-404, 0), (3706, 0), (-3128, 0)));
  ([2; 0; 2; 0; 2], ((-987, 0), (9041, 0), (-7630, 0))); ([0; 0; 2; 2; 1], ((-508, 0), (4499, 0), (-3797, 0)));
  ([0; 0; 2; 2; 2], ((-1231, 0), (10904, 0), (-9203, 0))); ([1; 0; 2; 0; 0], ((-385, 0), (2659, 0), (-2244, 0)));
  ([1; 0; 2; 0; 1], ((-4108, 0), (28298, 0), (-23884, 0))); ([1; 0; 2; 0; 2], ((-9926, 0), (68291, 0), (-57637, 0)));
  ([3; 0; 0; 0; 0], ((-179, 0), (1222, 0), (-1031, 0))); ([-1; 0; 2; 2; 1], ((-818, 0), (5384, 0), (-4544, 0)));
  ([-1; 0; 2; 2; 2], ((-1974, 0), (12978, 0), (-10953, 0))); ([1; 0; 0; 2; 0], ((-761, 0), (4976, 0), (-4200, 0)));
  ([2; 0; 2; -2; 2], ((216, 0), (-1060, 0), (895, 0))); ([0; 1; 2; 0; 2], ((254, 0), (-1211, 0), (1022, 0)));
  ([0; 0; 2; 0; 0], ((-2989, 0), (13804, 0), (-11650, 0))); ([0; 0; 2; 0; 1], ((-31873, 2010), (146890, 9266), (-123974, -7820)));
  ([0; 0; 2; 0; 2], ((-78468, 5320), (360910, 24469), (-304606, -20652))); ([2; 0; 0; 0; -1], ((216, 0), (-988, 0), (834, 0)));
  ([2; 0; 0; 0; 0], ((-3384, 0), (15433, 0), (-13025, 0))); ([2; 0; 0; 0; 1], ((179, 0), (-813, 0), (686, 0)));
  ([0; -1; 2; 0; 2], ((-244, 0), (1082, 0), (-913, 0))); ([0; 0; 0; 2; -1], ((470, 0), (-2004, 0), (1692, 0)));
  ([0; 0; 0; 2; 0], ((-7341, 0), (31240, 0), (-26367, 0))); ([0; 0; 0; 2; 1], ((-526, 0), (2235, 0), (-1886, 0)));
  ([0; -1; 0; 2; 0], ((-508, 0), (2073, 0), (-1749, 0))); ([1; 0; 2; -2; 1], ((498, 0), (-1312, 0), (1107, 0)));
  ([1; 0; 2; -2; 2], ((1006, 0), (-2640, 0), (2228, 0))); ([1; 1; 0; 0; 0], ((395, 0), (-968, 0), (817, 0)));
  ([-1; 0; 2; 0; 0], ((470, 0), (-1099, 0), (927, 0))); ([-1; 0; 2; 0; 1], ((1767, 0), (-4115, 0), (3473, 0)));
  ([-1; 0; 2; 0; 2], ((4352, 0), (-10093, 0), (8519, 0))); ([1; 0; 0; 0; -1], ((5339, 0), (-12224, 0), (10317, 0)));
  ([1; 0; 0; 0; 0], ((-84046, 2500), (191647, 5701), (-161749, -4811))); ([1; 0; 0; 0; 1], ((5443, 0), (-12360, 0), (10432, 0)));
  ([0; 0; 0; 1; 0], ((470, 0), (-1000, 0), (844, 0))); ([1; -1; 0; 0; 0], ((-555, 0), (1169, 0), (-987, 0)));
  ([-1; 0; 0; 2; -1], ((1175, 0), (-2332, 0), (1968, 0))); ([-1; 0; 0; 2; 0], ((-18236, 0), (36018, 0), (-30399, 0)));
  ([-1; 0; 0; 2; 1], ((1316, 0), (-2587, 0), (2183, 0))); ([1; 0; -2; 2; -1], ((179, 0), (-344, 0), (290, 0)));
  ([-1; -1; 0; 2; 0], ((-855, 0), (1542, 0), (-1302, 0))); ([0; 2; 2; -2; 2], ((-573, 0), (395, 0), (-333, 0)));
  ([0; 1; 2; -2; 1], ((329, 0), (-173, 0), (146, 0))); ([0; 1; 2; -2; 2], ((-18847, 0), (9726, 0), (-8209, 0)));
  ([0; 0; 2; -2; 0], ((2510, 0), (-910, 0), (768, 0))); ([0; 0; 2; -2; 1], ((11703, 0), (-4135, 0), (3490, 0)));
  ([0; 0; 2; -2; 2], ((-497174, 4330), (171056, 1490), (-144370, -1257))); ([0; 2; 0; 0; 0], ((-1936, 0), (666, 0), (-562, 0)));
  ([2; 0; 0; -2; -1], ((489, 0), (-154, 0), (130, 0))); ([2; 0; 0; -2; 0], ((-5471, 0), (1670, 0), (-1409, 0)));
  ([2; 0; 0; -2; 1], ((367, 0), (-108, 0), (92, 0))); ([0; -1; 2; -2; 1], ((-451, 0), (82, 0), (-69, 0)));
  ([0; 1; 0; 0; -1], ((921, 0), (-167, 0), (141, 0))); ([0; -1; 2; -2; 2], ((8281, 0), (-1425, 0), (1202, 0)));
  ([0; 1; 0; 0; 0], ((-158887, 1530), (27332, 263), (-23068, -222))); ([0; 1; 0; 0; 1], ((-1382, 0), (225, 0), (-190, 0)));
  ([1; 0; 0; -1; 0], ((348, 0), (-53, 0), (45, 0))); ([2; 0; -2; 0; 0], ((-1372, 0), (-79, 0), (66, 0)));
  ([-2; 0; 2; 0; 1], ((4211, 0), (-203, 0), (171, 0))); ([-1; 1; 0; 1; 0], ((-404, 0), (8, 0), (-7, 0)));
  ([0; 0; 0; 0; 2], ((78998, 0), (1460, 0), (-1232, 0))); ([0; 0; 0; 0; 1], ((-16172681, 0), (-149471, 0), (126153, 0)))].

Close Scope Z_scope.
Open Scope R_scope.
(** ** series *)
Definition sum (l : list R) : R := fold_right Rplus 0 l.
Definition wave_at (sc : Z * Z) (x : R) : R := IZR (fst sc) / 100 * sin x + IZR (snd sc) / 100 * cos x.
Definition series {A : Type} (amp : A -> Z * Z) (t : list (Z * A)) (F : delaunay) (gmst : R) : R :=
  sum (map (fun r => wave_at (amp (snd r)) (iers_argument (of_code (fst r)) F gmst)) t).
Definition px (a : (Z * Z) * (Z * Z) * (Z * Z) * (Z * Z)) := fst (fst (fst a)).
Definition py (a : (Z * Z) * (Z * Z) * (Z * Z) * (Z * Z)) := snd (fst (fst a)).
Definition pu (a : (Z * Z) * (Z * Z) * (Z * Z) * (Z * Z)) := snd (fst a).
Definition pl (a : (Z * Z) * (Z * Z) * (Z * Z) * (Z * Z)) := snd a.
(** a quarter of a turn behind *)
Definition behind (a : Z * Z) : Z * Z := ((- snd a)%Z, fst a).
(** (8.1): microseconds, microseconds, 10^-14 rad/s *)
Definition zonal_argument (n : list Z) (F : delaunay) : R :=
  IZR (nth 0 n 0%Z) * el F + IZR (nth 1 n 0%Z) * elp F + IZR (nth 2 n 0%Z) * ef F + IZR (nth 3 n 0%Z) * ed F + IZR (nth 4 n 0%Z) * eom F.
Definition zonal_ut1 (F : delaunay) : R :=
  sum (map (fun r => let '(n, (u, _, _)) := r in 1e-4 * IZR (fst u) * sin (zonal_argument n F) + 1e-4 * IZR (snd u) * cos (zonal_argument n F)) zonal) * (1e-4 / 1e-6).
Definition zonal_lod (F : delaunay) : R :=
  sum (map (fun r => let '(n, (_, u, _)) := r in 1e-4 * IZR (fst u) * cos (zonal_argument n F) + 1e-4 * IZR (snd u) * sin (zonal_argument n F)) zonal) * (1e-5 / 1e-6).
Definition zonal_omega (F : delaunay) : R :=
  sum (map (fun r => let '(n, (_, _, u)) := r in 1e-4 * IZR (fst u) * cos (zonal_argument n F) + 1e-4 * IZR (snd u) * sin (zonal_argument n F)) zonal).

(** ** rates of the arguments, radians per day *)
Record rates := mkRates { rl : R; rlp : R; rF : R; rD : R; rOm : R; rg : R }.
(** the linear terms of (5.43), and of the sidereal time *)
Definition mean_rates : rates :=
  mkRates (arcsec 1717915923.2178 / 36525) (arcsec 129596581.0481 / 36525) (arcsec 1739527262.8478 / 36525) (arcsec 1602961601.2090 / 36525)
    (arcsec (-6962890.5431) / 36525) (2 * PI * 1.00273781191135448 + arcsec 4612.156534 / 36525).
(** they change by less than this within a century; that of the sidereal time also with the length of day *)
Definition near (r : rates) : Prop :=
  Rabs (rl r - rl mean_rates) <= 1e-8 /\ Rabs (rlp r - rlp mean_rates) <= 1e-8 /\ Rabs (rF r - rF mean_rates) <= 1e-8 /\
  Rabs (rD r - rD mean_rates) <= 1e-8 /\ Rabs (rOm r - rOm mean_rates) <= 1e-8 /\ Rabs (rg r - rg mean_rates) <= 1e-6.
(** arguments as functions of time, days *)
Definition moving (F : R -> delaunay) (g : R -> R) (t : R) (r : rates) : Prop :=
  derivable_pt_lim (fun s => el (F s)) t (rl r) /\ derivable_pt_lim (fun s => elp (F s)) t (rlp r) /\ derivable_pt_lim (fun s => ef (F s)) t (rF r) /\
  derivable_pt_lim (fun s => ed (F s)) t (rD r) /\ derivable_pt_lim (fun s => eom (F s)) t (rOm r) /\ derivable_pt_lim g t (rg r).
(** rate of the phase of a wave *)
Definition wave_rate (n : doodson) (r : rates) : R :=
  IZR (n0 n) * rg r - (IZR (nl n) * rl r + IZR (nlp n) * rlp r + IZR (nF n) * rF r + IZR (nD n) * rD r + IZR (nOm n) * rOm r).
Definition zonal_rate (n : list Z) (r : rates) : R :=
  IZR (nth 0 n 0%Z) * rl r + IZR (nth 1 n 0%Z) * rlp r + IZR (nth 2 n 0%Z) * rF r + IZR (nth 3 n 0%Z) * rD r + IZR (nth 4 n 0%Z) * rOm r.

(** ** length of day is minus the rate of UT1 *)
(** to within [e] per day *)
Definition rate_within (u : R -> R) (l : R) (t e : R) : Prop := exists d, derivable_pt_lim u t d /\ Rabs (l - - d) <= e.
(** amplitudes of one wave: the sine of UT1 gives minus the cosine of its rate *)
Definition row_within (w : R) (u l : Z * Z) (e : R) : Prop :=
  Rabs (IZR (fst l) / 100 - w * (IZR (snd u) / 100)) <= e /\ Rabs (IZR (snd l) / 100 + w * (IZR (fst u) / 100)) <= e.
(** the same for a row of Table 8.1, seconds *)
Definition zonal_row_within (w : R) (u l : Z * Z) (e : R) : Prop :=
  Rabs (IZR (fst l) * 1e-4 * 1e-5 + w * (IZR (fst u) * 1e-4 * 1e-4)) <= e /\ Rabs (IZR (snd l) * 1e-4 * 1e-5 - w * (IZR (snd u) * 1e-4 * 1e-4)) <= e.
(** nominal rate of rotation of the Earth, rad/s; seconds of the day *)
Definition omega_earth : R := 7.292115e-5.

(** ** dates *)
(** the arguments of an array l, l', F, D, Omega *)
Definition from_array (a : list R) : delaunay := mkDel (nth 0 a 0) (nth 1 a 0) (nth 2 a 0) (nth 3 a 0) (nth 4 a 0).
(** (5.43) at a Julian date *)
Definition arguments_at (jd : R) : delaunay := from_array (map (fun c => arcsec (peval c (centuries jd))) lunisolar).
(** arguments equal up to full turns *)
Definition same_angles (F G : delaunay) : Prop := eqm (el F) (el G) /\ eqm (elp F) (elp G) /\ eqm (ef F) (ef G) /\ eqm (ed F) (ed G) /\ eqm (eom F) (eom G).
