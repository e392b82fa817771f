(** What C81 and C82 talk about: distances of quaternions and of vectors, and the rotation of the Conventions for an epoch. *)
From Coq Require Import Reals.
From Verif Require Import Vec RotModel RotSpec FundModel FundSpec CipSpec.
Open Scope R_scope.

Definition qminus (a b : quat) : quat := Q (qw a - qw b) (qx a - qx b) (qy a - qy b) (qz a - qz b).
Definition qsq (a : quat) : R := qw a * qw a + qx a * qx a + qy a * qy a + qz a * qz a.
Definition qlen (a : quat) : R := sqrt (qsq a).
Definition qdist (a b : quat) : R := qlen (qminus a b).
Definition vdist (a b : v3) : R := len (vminus a b).
(** within k units of 2^-53 *)
Definition off (k : R) (a b : quat) : Prop := qdist a b <= k * / 2 ^ 53.

(** ** IERS Conventions (2010), chapter 5: the transformation for an epoch, with observed corrections and pole in arc seconds *)
Section Conventions.
  Variables (tt ut1 : epoch) (o : eop).
  Let t : R := centuries (julian_date (mjd tt)).
  Definition series_x : R := uas (X_iers (iers_arguments t) t).
  Definition series_y : R := uas (Y_iers (iers_arguments t) t).
  Definition locator_s : R := uas (S_iers (iers_arguments t) t) - series_x * series_y / 2.
  (** d and e are spherical coordinates of the corrected pole: (5.7) *)
  Definition pole_at (d e : R) : Prop := 0 <= d < PI / 2 /\ sin d * cos e = series_x + arcsec (e_dX o) /\ sin d * sin e = series_y + arcsec (e_dY o).
  (** from the celestial to the terrestrial system *)
  Definition terrestrial (d e : R) (v : v3) : v3 :=
    app3 (transp (crs_from_trs (earth_rotation_angle (julian_date (mjd ut1))) locator_s (arcsec (-47e-6 * t)) d e (arcsec (e_xp o)) (arcsec (e_yp o)))) v.
End Conventions.
(** Earth orientation parameters of any size that occurs: corrections of the pole up to 100 arc seconds, polar motion up to 1000 *)
Definition ordinary (o : eop) : Prop := Rabs (e_dX o) <= 100 /\ Rabs (e_dY o) <= 100 /\ Rabs (e_xp o) <= 1000 /\ Rabs (e_yp o) <= 1000.
