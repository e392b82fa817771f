(** Specification: IERS Conventions (2010), section 5.5: the coordinates of the celestial intermediate pole (5.16) and the
    locator of the celestial intermediate origin (table 5.2d) as polynomial plus Poisson series. *)
From Coq Require Import Reals ZArith List.
From Verif Require Import Poly Angles FundSpec CipRow CipTabX CipTabY.
Import ListNotations.
Open Scope R_scope.

(** sum of the multiples of the arguments *)
Definition total (l : list R) : R := fold_right Rplus 0 l.
Definition argument (n : list Z) (F : list R) : R := total (map (fun p => IZR (fst p) * snd p) (combine n F)).
(** one term, in microarcseconds *)
Definition wave (F : list R) (r : row) : R :=
  IZR (csin r) / 100 * sin (argument (mult r) F) + IZR (ccos r) / 100 * cos (argument (mult r) F).
(** sum over j of t^j times the terms of the table j *)
Fixpoint series_from (j : nat) (tabs : list (list row)) (F : list R) (t : R) : R :=
  match tabs with [] => 0 | tab :: rest => t ^ j * total (map (wave F) tab) + series_from (S j) rest F t end.
Definition series := series_from 0.
(** microarcseconds in radians *)
Definition uas (x : R) : R := x * 1e-6 * PI / 648000.

(** the leading term of table 5.2a for j = 1; the other rows as in the code *)
Definition lead : row := T (-330973) 20583311 0 0 0 0 1 0 0 0 0 0 0 0 0 0.
Definition X_tables : list (list row) := [X0; removelast X1 ++ [lead]; X2; X3; X4].
Definition Y_tables : list (list row) := [Y0; Y1; Y2; Y3; Y4].
Definition X_iers (F : list R) (t : R) : R :=
  peval [-16617; 2004191898; -429782.9; -198618.34; 7.578; 5.9285] t + series X_tables F t.
Definition Y_iers (F : list R) (t : R) : R :=
  peval [-6951; -25896; -22407274.7; 1900.59; 1112.526; 0.1358] t + series Y_tables F t.

(** table 5.2d, j = 0 *)
Definition S0 : list row := [
T (-264073) 39 0 0 0 0 1 0 0 0 0 0 0 0 0 0;
T (-6353) 2 0 0 0 0 2 0 0 0 0 0 0 0 0 0;
T (-1175) (-1) 0 0 2 (-2) 3 0 0 0 0 0 0 0 0 0;
T (-1121) (-1) 0 0 2 (-2) 1 0 0 0 0 0 0 0 0 0;
T 457 0 0 0 2 (-2) 2 0 0 0 0 0 0 0 0 0;
T (-202) 0 0 0 2 0 3 0 0 0 0 0 0 0 0 0;
T (-198) 0 0 0 2 0 1 0 0 0 0 0 0 0 0 0;
T 172 0 0 0 0 0 3 0 0 0 0 0 0 0 0 0;
T 141 1 0 1 0 0 1 0 0 0 0 0 0 0 0 0;
T 126 1 0 1 0 0 (-1) 0 0 0 0 0 0 0 0 0;
T 63 0 1 0 0 0 (-1) 0 0 0 0 0 0 0 0 0;
T 63 0 1 0 0 0 1 0 0 0 0 0 0 0 0 0;
T (-46) 0 0 1 2 (-2) 3 0 0 0 0 0 0 0 0 0;
T (-45) 0 0 1 2 (-2) 1 0 0 0 0 0 0 0 0 0;
T (-36) 0 0 0 4 (-4) 4 0 0 0 0 0 0 0 0 0;
T 24 12 0 0 1 (-1) 1 0 (-8) 12 0 0 0 0 0 0;
T (-32) 0 0 0 2 0 0 0 0 0 0 0 0 0 0 0;
T (-28) 0 0 0 2 0 2 0 0 0 0 0 0 0 0 0;
T (-27) 0 1 0 2 0 3 0 0 0 0 0 0 0 0 0;
T (-26) 0 1 0 2 0 1 0 0 0 0 0 0 0 0 0;
T 21 0 0 0 2 (-2) 0 0 0 0 0 0 0 0 0 0;
T (-19) 0 0 1 (-2) 2 (-3) 0 0 0 0 0 0 0 0 0;
T (-18) 0 0 1 (-2) 2 (-1) 0 0 0 0 0 0 0 0 0;
T 10 (-5) 0 0 0 0 0 0 8 (-13) 0 0 0 0 0 (-1);
T (-15) 0 0 0 0 2 0 0 0 0 0 0 0 0 0 0;
T 14 0 2 0 (-2) 0 (-1) 0 0 0 0 0 0 0 0 0;
T 14 0 0 1 2 (-2) 2 0 0 0 0 0 0 0 0 0;
T (-14) 0 1 0 0 (-2) 1 0 0 0 0 0 0 0 0 0;
T (-14) 0 1 0 0 (-2) (-1) 0 0 0 0 0 0 0 0 0;
T (-13) 0 0 0 4 (-2) 4 0 0 0 0 0 0 0 0 0;
T 11 0 0 0 2 (-2) 4 0 0 0 0 0 0 0 0 0;
T (-11) 0 1 0 (-2) 0 (-3) 0 0 0 0 0 0 0 0 0;
T (-11) 0 1 0 (-2) 0 (-1) 0 0 0 0 0 0 0 0 0].
(** table 5.2d, j = 1 *)
Definition S1 : list row := [
T (-7) 357 0 0 0 0 2 0 0 0 0 0 0 0 0 0;
T 173 (-3) 0 0 0 0 1 0 0 0 0 0 0 0 0 0;
T 0 48 0 0 2 (-2) 3 0 0 0 0 0 0 0 0 0].
(** table 5.2d, j = 2 *)
Definition S2 : list row := [
T 74352 (-17) 0 0 0 0 1 0 0 0 0 0 0 0 0 0;
T 5691 6 0 0 2 (-2) 2 0 0 0 0 0 0 0 0 0;
T 984 (-1) 0 0 2 0 2 0 0 0 0 0 0 0 0 0;
T (-885) 1 0 0 0 0 2 0 0 0 0 0 0 0 0 0;
T (-638) (-5) 0 1 0 0 0 0 0 0 0 0 0 0 0 0;
T (-307) 0 1 0 0 0 0 0 0 0 0 0 0 0 0 0;
T 223 0 0 1 2 (-2) 2 0 0 0 0 0 0 0 0 0;
T 167 0 0 0 2 0 1 0 0 0 0 0 0 0 0 0;
T 130 0 1 0 2 0 2 0 0 0 0 0 0 0 0 0;
T 93 0 0 1 (-2) 2 (-2) 0 0 0 0 0 0 0 0 0;
T 68 0 1 0 0 (-2) 0 0 0 0 0 0 0 0 0 0;
T (-55) 0 0 0 2 (-2) 1 0 0 0 0 0 0 0 0 0;
T 53 0 1 0 (-2) 0 (-2) 0 0 0 0 0 0 0 0 0;
T (-27) 0 0 0 0 2 0 0 0 0 0 0 0 0 0 0;
T (-27) 0 1 0 0 0 1 0 0 0 0 0 0 0 0 0;
T (-26) 0 1 0 (-2) (-2) (-2) 0 0 0 0 0 0 0 0 0;
T (-25) 0 1 0 0 0 (-1) 0 0 0 0 0 0 0 0 0;
T 22 0 1 0 2 0 1 0 0 0 0 0 0 0 0 0;
T (-21) 0 2 0 0 (-2) 0 0 0 0 0 0 0 0 0 0;
T 20 0 2 0 (-2) 0 (-1) 0 0 0 0 0 0 0 0 0;
T 17 0 0 0 2 2 2 0 0 0 0 0 0 0 0 0;
T 13 0 2 0 2 0 2 0 0 0 0 0 0 0 0 0;
T (-13) 0 2 0 0 0 0 0 0 0 0 0 0 0 0 0;
T (-12) 0 1 0 2 (-2) 2 0 0 0 0 0 0 0 0 0;
T (-11) 0 0 0 2 0 0 0 0 0 0 0 0 0 0 0].
(** table 5.2d, j = 3 *)
Definition S3 : list row := [
T 30 (-2342) 0 0 0 0 1 0 0 0 0 0 0 0 0 0;
T (-3) (-146) 0 0 2 (-2) 2 0 0 0 0 0 0 0 0 0;
T (-1) (-25) 0 0 2 0 2 0 0 0 0 0 0 0 0 0;
T 0 23 0 0 0 0 2 0 0 0 0 0 0 0 0 0].
(** table 5.2d, j = 4 *)
Definition S4 : list row := [
T (-26) (-1) 0 0 0 0 1 0 0 0 0 0 0 0 0 0].
Definition S_tables : list (list row) := [S0; S1; S2; S3; S4].
(** s + XY/2 *)
Definition S_iers (F : list R) (t : R) : R :=
  peval [94; 3808.65; -122.68; -72574.11; 27.98; 15.62] t + series S_tables F t.

(** the arguments (5.43), (5.44) without reduction to one turn *)
Definition iers_arguments (t : R) : list R :=
  map (fun c => arcsec (peval c t)) lunisolar ++ map (fun c => peval c t) planetary ++ [peval precession t].
(** arguments that differ by whole turns *)
Definition same_angles (F G : list R) : Prop := Forall2 eqm F G.
(** all rows hold multipliers that are different, not zero and not opposite to one another *)
Definition independent (tab : list row) : Prop :=
  (forall a b, In a tab -> In b tab -> mult a = map Z.opp (mult b) -> False) /\ NoDup (map mult tab).
