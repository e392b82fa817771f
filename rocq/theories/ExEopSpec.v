(** What C90 talks about. *)
From Coq Require Import Reals ZArith List.
From Verif Require Import Base DoodsonArgModel FundModel FundSpec EopModel EopSpec EtvModel EtvSpec ExEopModel.
Import ListNotations.
Open Scope R_scope.

(** a record with the zonal tides taken off UT1 and length of day, seconds *)
Definition without_zonal (x y : rec epoch) : Prop :=
  rt epoch y = rt epoch x /\ xp epoch y = xp epoch x /\ yp epoch y = yp epoch x /\ rdat epoch y = rdat epoch x /\
  dut epoch y = dut epoch x - zonal_ut1 (arguments_at (julian_date (mjd (rt epoch x)))) * 1e-6 /\
  lod epoch y = lod epoch x - zonal_lod (arguments_at (julian_date (mjd (rt epoch x)))) * 1e-6.
(** diurnal and semidiurnal variations: libration and ocean tides, arc seconds and seconds *)
Definition short_x (F : delaunay) (g : R) : R := (series (fun a => a) libration_pole F g + series px ocean F g) * 1e-6.
Definition short_y (F : delaunay) (g : R) : R := (series behind libration_pole F g + series py ocean F g) * 1e-6.
Definition short_ut1 (F : delaunay) (g : R) : R := (series fst libration_ut1 F g + series pu ocean F g) * 1e-6.
Definition short_lod (F : delaunay) (g : R) : R := (series snd libration_ut1 F g + series pl ocean F g) * 1e-6.
(** half a minute in days; number of epochs half a minute apart from [a] on, before [b] *)
Definition half_minute : R := 30 / 86400.
Definition epochs_between (a b : R) (n : nat) : Prop := b <= a + INR n * half_minute /\ (n = O \/ a + (INR n - 1) * half_minute < b).
(** the line printed for an epoch, from a table without zonal tides: interpolation with up to three records on either side, then
    the short period variations. The sidereal time uses UT1 interpolated between two records. *)
Definition printed (leap : epoch -> R) (tt2ut1 : epoch -> R -> epoch) (tab : list (rec epoch)) (t : epoch) (l : line) : Prop := exists b p q a u,
  cut mjd tab t (b ++ [p]) (q :: a) /\
  interpolated mjd (nearest (b ++ [p]) (q :: a) (usable (b ++ [p]) (q :: a) 5)) t (leap t) (raw l) /\
  interpolates mjd [p; q] (fun r => dut epoch r - rdat epoch r) (mjd t) (u - leap t) /\
  rt epoch (raw l) = t /\ rt epoch (cor l) = t /\
  let F := arguments_at (julian_date (mjd t)) in let g := sidereal_time (julian_date (mjd t)) (julian_date (mjd (tt2ut1 t u))) in
  xp epoch (cor l) = xp epoch (raw l) + short_x F g /\ yp epoch (cor l) = yp epoch (raw l) + short_y F g /\
  dut epoch (cor l) = dut epoch (raw l) + short_ut1 F g /\ lod epoch (cor l) = lod epoch (raw l) + short_lod F g.
