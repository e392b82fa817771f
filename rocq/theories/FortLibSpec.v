(** What C89 talks about: arguments of the reference programs at a date, and the waves in which they and the library differ. *)
From Coq Require Import Reals ZArith List.
From Verif Require Import Angles Poly DoodsonModel DoodsonArgModel DoodsonArgSpec FundModel FundSpec SolidSpec EtvModel EtvSpec.
Import ListNotations.
Open Scope R_scope.

(** the seconds of the day of a modified Julian date *)
Definition seconds_of_day (mjd : R) : R := 86400 * (mjd - IZR (Int_part mjd)).
(** sidereal time of 1982, the same clock for both of its arguments *)
Definition sidereal_1982_at (mjd : R) : R := sidereal_1982 (julian_date mjd) (seconds_of_day mjd).
(** Doodson numbers *)
Definition N2 : doodson := of_code 245655.
Definition T2 : doodson := of_code 272556.
Definition S2 : doodson := of_code 273555.
(** the amplitudes of x and y of the long-period waves of Table 5.1a; rates of the secular part in microarcseconds per year *)
Definition secular (rate mjd : R) : R := rate * (mjd - 51544.5) / 365.25.
