(** The reference programs of the IERS in the repository: fortran_impl/UTLIBR_D0.F and fortran_impl/PMSDNUT2_D0.F. Over R; the constants PI
    and TWOPI are the exact ones, the REAL constants -0.0000062, -3.8 and -4.3 are taken as written; DMOD and MOD are [fmod]. Amplitudes are integers,
    hundredths of a microarcsecond or microsecond. FUNDARG is not in the repository: its five results are a parameter. Not modelled:
    the periods PER (unused). *)
From Coq Require Import Reals ZArith List Bool.
From Verif Require Import DoodsonArgModel FundModel.
Import ListNotations.
Open Scope Z_scope.

(** IARG and the four amplitudes: UTLIBR_D0.F:142-155 (DUT1S, DUT1C, DLODS, DLODC) *)
Definition term : Type := list Z * (Z * Z * Z * Z).
Definition ut_terms : list term := [
  ([2; -2; 0; -2; 0; -2], (5, -3, -30, -60));
  ([2; 0; 0; -2; -2; -2], (6, -3, -40, -70));
  ([2; -1; 0; -2; 0; -2], (35, -20, -240, -410));
  ([2; 1; 0; -2; -2; -2], (7, -4, -50, -80));
  ([2; 0; 0; -2; 0; -1], (-7, 4, 50, 80));
  ([2; 0; 0; -2; 0; -2], (175, -101, -1220, -2130));
  ([2; 1; 0; -2; 0; -2], (-5, 3, 30, 60));
  ([2; 0; -1; -2; 2; -2], (4, -3, -30, -60));
  ([2; 0; 0; -2; 2; -2], (76, -44, -550, -960));
  ([2; 0; 0; 0; 0; 0], (21, -12, -150, -260));
  ([2; 0; 0; 0; 0; -1], (6, -4, -40, -80))].
(** PMSDNUT2_D0.F:159-193 (XS, XC, YS, YC) *)
Definition pm_terms : list term := [
  ([0; 0; 0; 0; 0; -1], (0, 60, -10, -10));
  ([0; -1; 0; 1; 0; 2], (150, 0, -20, 10));
  ([0; -1; 0; 1; 0; 1], (-2850, -20, 340, -390));
  ([0; -1; 0; 1; 0; 0], (-470, -10, 60, -90));
  ([0; 1; 1; -1; 0; 0], (-70, 20, -20, -70));
  ([0; 1; 1; -1; 0; -1], (100, 30, -30, 100));
  ([0; 0; 0; 1; -1; 1], (120, 20, -20, 140));
  ([0; 1; 0; 1; -2; 1], (130, 40, -20, 290));
  ([0; 0; 0; 1; 0; 2], (-10, -20, 0, -170));
  ([0; 0; 0; 1; 0; 1], (90, 400, -10, 3240));
  ([0; 0; 0; 1; 0; 0], (10, 60, 0, 510));
  ([0; -1; 0; 1; 2; 1], (0, 10, 0, 60));
  ([0; 1; 0; 1; 0; 1], (-10, 30, 0, 270));
  ([0; 0; 0; 3; 0; 3], (-10, 10, 0, 90));
  ([0; 0; 0; 3; 0; 2], (-10, 10, 0, 60));
  ([1; -1; 0; -2; 0; -1], (-40, 30, -30, -40));
  ([1; -1; 0; -2; 0; -2], (-230, 130, -130, -230));
  ([1; 1; 0; -2; -2; -2], (-40, 30, -30, -40));
  ([1; 0; 0; -2; 0; -1], (-210, 120, -120, -210));
  ([1; 0; 0; -2; 0; -2], (-1140, 650, -650, -1140));
  ([1; -1; 0; 0; 0; 0], (80, -50, 50, 80));
  ([1; 0; 0; -2; 2; -2], (-480, 270, -270, -480));
  ([1; 0; 0; 0; 0; 0], (1430, -820, 820, 1430));
  ([1; 0; 0; 0; 0; -1], (190, -110, 110, 190));
  ([1; 1; 0; 0; 0; 0], (80, -40, 40, 80))].
Close Scope Z_scope.
Open Scope R_scope.

(** UTLIBR_D0.F:130-137, 165-182, PMSDNUT2_D0.F:147-154, 208-225 *)
Definition rmjd0 : R := 51544.5.
Definition rad2sec : R := 86400 / (2 * PI).
Definition julian (rmjd : R) : R := (rmjd - rmjd0) / 36525.
Definition gmst_seconds (t : R) : R := fmod (67310.54841 + t * ((8640184.812866 + 3155760000) + t * (0.093104 + t * (-0.0000062)))) 86400.
Definition arg1 (t : R) : R := fmod (gmst_seconds t / rad2sec + PI) (2 * PI).
Definition args (fundarg : R -> delaunay) (rmjd : R) : list R :=
  let t := julian rmjd in let f := fundarg t in [arg1 t; el f; elp f; ef f; ed f; eom f].
(** UTLIBR_D0.F:186-193, PMSDNUT2_D0.F:237-244 *)
Definition angle (n : list Z) (arg : list R) : R := fmod (fold_left (fun a p => a + IZR (fst p) * snd p) (combine n arg) 0) (2 * PI).
(** UTLIBR_D0.F:195-197, PMSDNUT2_D0.F:247-249: two sums at once *)
Definition add_term (arg : list R) (s : R * R) (r : term) : R * R :=
  let '(n, (a, b, c, d)) := r in let x := angle n arg in
  (fst s + IZR a / 100 * sin x + IZR b / 100 * cos x, snd s + IZR c / 100 * sin x + IZR d / 100 * cos x).
(** DUT1, DLOD *)
Definition UTLIBR (fundarg : R -> delaunay) (rmjd : R) : R * R := fold_left (add_term (args fundarg rmjd)) ut_terms (0, 0).
(** PM; PMSDNUT2_D0.F:198-257, for any value of the parameter IBAND *)
Definition PMSDNUT2 (iband : Z) (fundarg : R -> delaunay) (rmjd : R) : R * R :=
  let jstart := (if iband =? 1 then 16 else 1)%Z in
  let pm := fold_left (add_term (args fundarg rmjd)) (skipn (Z.to_nat (jstart - 1)) pm_terms) (0, 0) in
  if (iband =? 1)%Z then pm
  else (fst pm + -3.8 * (rmjd - rmjd0) / 365.25, snd pm + -4.3 * (rmjd - rmjd0) / 365.25).
(** PMSDNUT2_D0.F:127 *)
Definition IBAND : Z := 1.
