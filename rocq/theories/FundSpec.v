(** What C46, C47 and C48 talk about: IERS Conventions (2010), chapter 5. *)
From Coq Require Import Reals List.
From Verif Require Import Poly.
Import ListNotations.
Open Scope R_scope.

(** coefficients of the powers of time: [peval] of Poly.v *)
Definition arcsec (x : R) : R := x / 3600 / 360 * (2 * PI).
Definition degrees (x : R) : R := x * 3600.
(** (5.43), arc seconds and Julian centuries *)
Definition mean_anomaly_moon : list R := [degrees 134.96340251; 1717915923.2178; 31.8792; 0.051635; - 0.00024470].
Definition mean_anomaly_sun : list R := [degrees 357.52910918; 129596581.0481; - 0.5532; 0.000136; - 0.00001149].
Definition latitude_argument : list R := [degrees 93.27209062; 1739527262.8478; - 12.7512; - 0.001037; 0.00000417].
Definition elongation : list R := [degrees 297.85019547; 1602961601.2090; - 6.3706; 0.006593; - 0.00003169].
Definition node : list R := [degrees 125.04455501; - 6962890.5431; 7.4722; 0.007702; - 0.00005939].
Definition lunisolar : list (list R) := [mean_anomaly_moon; mean_anomaly_sun; latitude_argument; elongation; node].
(** (5.44), radians *)
Definition planetary : list (list R) :=
  [[4.402608842; 2608.7903141574]; [3.176146697; 1021.3285546211]; [1.753470314; 628.3075849991]; [6.203480913; 334.0612426700];
   [0.599546497; 52.9690962641]; [0.874016757; 21.3299104960]; [5.481293872; 7.4781598567]; [5.311886287; 3.8133035638]].
Definition precession : list R := [0; 0.02438175; 0.00000538691].
(** derivative of a polynomial *)
Fixpoint dcoef (n : R) (c : list R) : list R := match c with [] => [] | a :: t => n * a :: dcoef (n + 1) t end.
Definition pderiv (c : list R) : list R := dcoef 1 (tl c).

(** (5.15): Earth rotation angle at a Julian date of UT1 *)
Definition julian_date (mjd : R) : R := mjd + 2400000.5.
Definition earth_rotation_angle (jd_ut1 : R) : R := 2 * PI * (0.7790572732640 + 1.00273781191135448 * (jd_ut1 - 2451545.0)).
(** Julian centuries *)
Definition centuries (jd : R) : R := (jd - 2451545.0) / 36525.
(** (5.32) *)
Definition sidereal_poly : list R := [0.014506; 4612.156534; 1.3915817; - 0.00000044; - 0.000029956; - 0.0000000368].
Definition sidereal_time (jd_tt jd_ut1 : R) : R := earth_rotation_angle jd_ut1 + arcsec (peval sidereal_poly (centuries jd_tt)).
(** IAU 1982: seconds of time, [ut] the seconds of the day *)
Definition sidereal_1982 (jd_ut1 ut : R) : R := let T := centuries jd_ut1 in (ut + 24110.54841 + 8640184.812866 * T + 0.093104 * (T * T) - 6.2e-6 * (T * T * T)) / 86400 * (2 * PI).
(** rate of (5.32), radians per day, both clocks running alike *)
Definition sidereal_rate (jd_tt : R) : R := 2 * PI * 1.00273781191135448 + arcsec (peval (pderiv sidereal_poly) (centuries jd_tt)) / 36525.
