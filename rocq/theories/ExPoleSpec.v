(** What C91 talks about. *)
From Coq Require Import Ascii String Reals ZArith List.
From Verif Require Import Base FundModel EopModel EopSpec PoleModel PoleSpec SiteModel ExPoleModel ExEopSpec.
Import ListNotations.
Open Scope R_scope.

(** solid Earth pole tide (7.26), metres, at colatitude and longitude *)
Definition solid_shift (t x y lat lon : R) : vec :=
  let th := PI / 2 - lat in let a := m1 t x in let b := m2 t y in
  times 0.001 (addv (times (s_theta a b th lon) (e_theta th lon)) (addv (times (s_lambda a b th lon) (e_lambda lon)) (times (s_r a b th lon) (e_r th lon)))).
(** ocean pole tide loading (7.29), metres, rotated from east, north, up *)
Definition ocean_shift (t x y : R) (c : desai) (rot : vec * vec * vec) (Re GM Omega G ge : R) : vec :=
  let Hp := sqrt (8 * PI / 15) * (Omega ^ 2 * Re ^ 4 / GM) in let K := 4 * PI * G * Re * 1025 * Hp / (3 * ge) in
  let gr := g_real (m1 t x) (m2 t y) in let gi := g_imag (m1 t x) (m2 t y) in
  times K (mulv rot (gr * eR c + gi * eI c, gr * nR c + gi * nI c, gr * rR c + gi * rI c)).
(** the pole of a table at an epoch: up to three records on either side *)
Definition pole_at (leap : epoch -> R) (tab : list (rec epoch)) (t : epoch) (x y : R) : Prop := exists b a,
  cut mjd tab t b a /\ b <> [] /\ a <> [] /\
  interpolates mjd (nearest b a (usable b a 5)) (EopModel.xp epoch) (mjd t) x /\ interpolates mjd (nearest b a (usable b a 5)) (EopModel.yp epoch) (mjd t) y.
(** the lines of one epoch: one for each site, name and coefficients in the same place *)
Definition lines_at (years : epoch -> R) (lvlh : site -> vec * vec * vec) (Re GM Omega G ge : R) (t : epoch) (x y : R) (sta : list site) (cf : list desai) (name : list string) (o : list oline) : Prop :=
  length o = length sta /\ forall j l, nth_error o j = Some l -> exists s c n, nth_error sta j = Some s /\ nth_error cf j = Some c /\ nth_error name j = Some n /\
    l = mkO n t (solid_shift (years t) x y (slat s) (slon s)) (ocean_shift (years t) x y c (lvlh s) Re GM Omega G ge).
(** the beacons in the order of their coordinates: Ny-Alesund, Thule, Dionysos, Kourou, Belgrano, Terre Adelie *)
Definition beacons : list string := ["svac"; "thub"; "diob"; "krwb"; "belb"; "adhc"]%string.
