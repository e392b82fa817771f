(** What C83 talks about: distances of matrices, and the motion of the rotation. *)
From Coq Require Import Reals.
From Verif Require Import Vec RotModel RotSpec FundModel FundSpec CipSpec FlRotSpec.
Open Scope R_scope.

(** every element within k *)
Definition vclose (k : R) (a b : v3) : Prop := Rabs (p1 a - p1 b) <= k /\ Rabs (p2 a - p2 b) <= k /\ Rabs (p3 a - p3 b) <= k.
Definition mclose (k : R) (A B : m33) : Prop := vclose k (row1 A) (row1 B) /\ vclose k (row2 A) (row2 B) /\ vclose k (row3 A) (row3 B).
(** from the celestial to the terrestrial system with a given rotation angle *)
Definition turned (tt : epoch) (o : eop) (d e era : R) : m33 :=
  transp (crs_from_trs era (locator_s tt) (arcsec (-47e-6 * centuries (julian_date (mjd tt)))) d e (arcsec (e_xp o)) (arcsec (e_yp o))).
(** Conventions, 1.1: nominal mean angular velocity of the Earth, and excess length of day in seconds *)
Definition angular_velocity (lod : R) : R := 7.2921151467064e-5 * (1 - lod / 86400).
