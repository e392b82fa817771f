(** Tables of src/lib/iau/ycip06a.cpp. Coefficients in units of 0.01 microarcseconds. *)
From Coq Require Import ZArith List.
From Verif Require Import CipRow.
Import ListNotations.
Open Scope Z_scope.

(** ycip06a.cpp:45-1008 *)
Definition Y0 : list row := [
T 0 10 1 2 2 (-4) 1 0 0 0 0 0 0 0 0 0;
T 0 10 2 0 (-2) (-2) (-2) 0 0 (-2) 0 2 0 0 0 0;
T 0 (-10) 2 (-1) (-2) 0 0 0 0 0 0 0 0 0 0 0;
T 0 (-10) 0 0 2 0 2 0 (-2) 2 0 0 0 0 0 0;
T 0 10 0 0 2 0 2 0 2 (-2) 0 0 0 0 0 0;
T 10 0 0 0 2 0 2 0 (-2) 3 0 0 0 0 0 0;
T 10 0 0 0 2 0 2 0 2 (-3) 0 0 0 0 0 0;
T 0 (-10) 3 (-1) 0 0 0 0 0 0 0 0 0 0 0 0;
T 0 (-10) 0 0 0 3 2 0 0 0 0 0 0 0 0 0;
T 0 10 2 2 0 (-2) (-1) 0 0 0 0 0 0 0 0 0;
T 0 (-10) 2 (-1) (-2) 0 1 0 0 0 0 0 0 0 0 0;
T 0 (-10) 3 0 0 (-4) 0 0 0 0 0 0 0 0 0 0;
T (-10) 0 0 0 0 0 2 0 0 0 0 1 0 0 0 0;
T 0 (-10) 2 0 0 (-6) 0 0 0 0 0 0 0 0 0 0;
T 0 10 0 1 4 (-4) 2 0 0 0 0 0 0 0 0 0;
T 0 (-10) 1 0 0 (-6) 0 0 0 0 0 0 0 0 0 0;
T 0 (-10) 0 2 0 0 (-2) 0 0 0 0 0 0 0 0 0;
T 0 (-10) 2 (-1) 0 2 0 0 0 0 0 0 0 0 0 0;
T 0 (-10) 1 0 (-2) (-4) 0 0 0 0 0 0 0 0 0 0;
T 0 (-10) 1 0 0 0 1 0 (-10) 3 0 0 0 0 0 0;
T 0 10 1 0 0 0 (-1) 0 (-10) 3 0 0 0 0 0 0;
T 0 (-10) 0 1 (-2) (-2) 0 0 0 0 0 0 0 0 0 0;
T 10 0 0 0 0 0 1 0 0 (-1) 0 2 0 0 0 0;
T 0 (-10) 1 1 (-2) (-2) 0 0 0 0 0 0 0 0 0 0;
T 0 11 1 0 (-2) 0 (-3) 0 0 0 0 0 0 0 0 0;
T 0 17 0 1 (-2) 2 (-3) 0 0 0 0 0 0 0 0 0;
T 0 (-19) 0 1 2 (-2) 0 0 0 0 0 0 0 0 0 0;
T 0 20 1 1 (-2) 2 (-2) 0 0 0 0 0 0 0 0 0;
T 0 20 0 0 1 (-1) 2 0 (-8) 12 0 0 0 0 0 0;
T 0 (-20) 0 1 2 (-4) 2 0 0 0 0 0 0 0 0 0;
T 0 20 0 0 0 0 1 0 0 2 0 (-2) 0 0 0 0;
T 0 (-20) 0 0 0 0 1 0 0 2 (-2) 0 0 0 0 0;
T (-20) 0 0 0 0 0 1 0 3 (-4) 0 0 0 0 0 0;
T 0 (-20) 0 2 0 0 2 0 0 0 0 0 0 0 0 0;
T 0 (-20) 1 (-1) 0 0 (-2) 0 0 0 0 0 0 0 0 0;
T 0 20 1 0 (-2) 0 2 0 0 0 0 0 0 0 0 0;
T 0 (-20) 2 1 (-2) 0 0 0 0 0 0 0 0 0 0 0;
T (-20) 0 0 0 1 (-1) 2 0 0 (-1) 0 (-1) 0 0 0 0;
T 0 (-20) 2 1 0 (-2) (-2) 0 0 0 0 0 0 0 0 0;
T 0 20 0 0 1 (-1) 2 0 (-5) 7 0 0 0 0 0 0;
T 0 (-20) 1 (-1) 2 (-3) 1 0 0 0 0 0 0 0 0 0;
T 0 20 3 0 0 0 2 0 0 0 0 0 0 0 0 0;
T 0 20 2 (-1) 0 2 1 0 0 0 0 0 0 0 0 0;
T 0 (-20) 2 (-2) 0 (-2) (-2) 0 0 0 0 0 0 0 0 0;
T 0 (-20) 3 1 2 (-2) 1 0 0 0 0 0 0 0 0 0;
T 0 20 1 0 (-2) (-6) (-1) 0 0 0 0 0 0 0 0 0;
T 0 20 1 (-2) 2 2 1 0 0 0 0 0 0 0 0 0;
T 0 (-20) 1 0 (-4) (-2) (-1) 0 0 0 0 0 0 0 0 0;
T 0 (-20) 1 (-1) (-2) (-4) (-1) 0 0 0 0 0 0 0 0 0;
T 0 20 2 0 2 4 1 0 0 0 0 0 0 0 0 0;
T 0 (-20) 0 1 (-2) 4 (-1) 0 0 0 0 0 0 0 0 0;
T 0 20 2 (-1) (-2) (-2) (-1) 0 0 0 0 0 0 0 0 0;
T (-20) 0 0 0 1 1 2 0 0 1 0 0 0 0 0 0;
T 0 (-20) 2 1 2 2 1 0 0 0 0 0 0 0 0 0;
T 0 20 1 (-1) 2 4 1 0 0 0 0 0 0 0 0 0;
T 0 20 2 0 0 (-6) (-1) 0 0 0 0 0 0 0 0 0;
T 0 20 3 0 (-2) (-6) (-1) 0 0 0 0 0 0 0 0 0;
T 0 (-20) 1 2 2 0 1 0 0 0 0 0 0 0 0 0;
T 0 20 0 0 2 (-2) 2 0 0 (-2) 0 2 0 0 0 0;
T 0 20 1 0 2 (-6) 1 0 0 0 0 0 0 0 0 0;
T 20 0 0 0 2 (-2) 1 0 (-8) 11 0 0 0 0 0 0;
T 0 20 1 (-1) 0 4 1 0 0 0 0 0 0 0 0 0;
T 0 (-20) 2 1 0 2 1 0 0 0 0 0 0 0 0 0;
T 0 20 0 0 0 0 1 0 0 7 (-13) 0 0 0 0 0;
T 0 20 2 0 0 4 1 0 0 0 0 0 0 0 0 0;
T 0 (-20) 0 1 0 4 1 0 0 0 0 0 0 0 0 0;
T 0 20 4 0 (-2) 0 (-1) 0 0 0 0 0 0 0 0 0;
T 0 (-20) 1 0 4 0 1 0 0 0 0 0 0 0 0 0;
T 10 (-10) 0 0 0 0 0 0 0 2 1 0 0 0 0 2;
T 0 (-20) 0 0 0 0 0 0 0 1 0 (-5) 0 0 0 (-2);
T 0 20 0 0 0 0 0 0 0 1 0 (-2) 0 0 0 (-2);
T 20 0 0 0 0 0 0 0 0 1 0 (-2) 5 0 0 2;
T 20 0 0 0 0 0 0 0 0 1 0 (-1) 0 0 0 (-1);
T 0 20 0 0 0 0 0 0 0 1 0 0 0 0 0 (-1);
T 20 0 0 0 0 0 0 0 0 1 0 1 0 0 0 1;
T 20 0 0 0 0 0 0 0 0 2 (-7) 0 0 0 0 (-2);
T 0 (-20) 0 0 0 0 0 0 0 2 (-4) 0 0 0 0 1;
T 0 (-20) 0 0 0 0 0 0 0 2 0 (-5) 0 0 0 (-2);
T 20 0 0 0 0 0 0 0 0 2 0 0 (-2) 0 0 1;
T 0 20 0 0 0 0 0 0 0 3 (-8) 3 0 0 0 (-2);
T 20 0 0 0 0 0 0 0 0 3 0 0 0 0 0 2;
T 20 0 0 0 0 0 0 0 0 4 (-8) 1 5 0 0 2;
T 0 20 0 0 0 0 0 0 0 4 (-8) 3 0 0 0 (-1);
T 0 (-20) 0 0 0 0 0 0 0 4 (-8) 3 0 0 0 1;
T 0 (-20) 0 0 0 0 0 0 0 4 (-7) 0 0 0 0 (-1);
T 0 (-20) 0 0 0 0 0 0 0 4 (-6) 0 0 0 0 (-2);
T 0 20 0 0 0 0 0 0 0 4 0 (-4) 0 0 0 2;
T 20 0 0 0 0 0 0 0 0 5 (-10) 0 0 0 0 (-2);
T (-20) 0 0 0 0 0 0 0 0 5 (-6) 0 0 0 0 2;
T (-20) 0 0 0 0 0 0 0 0 7 (-9) 0 0 0 0 2;
T (-20) 0 0 0 0 0 0 0 0 7 (-8) 0 0 0 0 2;
T (-20) 0 0 0 0 0 0 0 0 7 (-7) 0 0 0 0 2;
T 0 (-20) 0 0 0 0 0 0 0 9 (-17) 0 0 0 0 (-2);
T 0 20 0 0 0 0 0 0 1 (-4) 0 0 0 0 0 (-1);
T 0 20 0 0 0 0 0 0 1 (-2) 0 0 0 0 0 (-1);
T 0 20 0 0 0 0 0 0 2 (-5) 0 0 0 0 0 (-1);
T (-20) 0 0 0 0 0 0 0 3 (-8) 0 0 0 0 0 (-2);
T 20 0 0 0 0 0 0 0 3 (-4) 0 0 0 0 0 (-2);
T 0 (-20) 0 0 0 0 0 0 3 (-4) 0 0 0 0 0 1;
T 20 0 0 0 0 0 0 0 4 (-5) 0 0 0 0 0 (-2);
T 0 (-20) 0 0 0 0 0 0 4 (-5) 0 0 0 0 0 (-1);
T (-20) 0 0 0 0 0 0 0 4 (-2) 0 0 0 0 0 0;
T 0 (-20) 0 0 0 0 0 0 5 (-6) 0 0 0 0 0 (-1);
T (-20) 0 0 0 0 0 0 0 5 (-5) 0 0 0 0 0 1;
T (-20) 0 0 0 0 0 0 0 6 (-6) 0 0 0 0 0 1;
T (-20) 0 0 0 0 0 0 0 6 (-4) 0 0 0 0 0 1;
T 20 0 0 0 0 0 0 0 7 (-11) 0 0 0 0 0 (-1);
T 0 (-20) 0 0 0 0 0 0 7 (-10) 0 0 0 0 0 (-1);
T 0 20 0 0 0 0 0 0 8 (-12) 0 0 0 0 0 (-2);
T 20 0 0 0 1 (-1) 1 0 (-5) 6 0 0 0 0 0 0;
T 0 (-20) 0 0 1 (-1) 1 0 0 (-4) 6 0 0 0 0 0;
T 20 0 0 0 1 (-1) 1 0 0 (-1) 0 0 0 (-1) 0 0;
T 20 0 0 0 1 (-1) 1 0 0 (-1) 0 1 (-3) 0 0 0;
T 0 (-20) 0 0 1 (-1) 1 0 0 1 (-4) 0 0 0 0 0;
T 0 20 0 0 1 (-1) 1 0 1 (-3) 0 0 0 0 0 0;
T 0 (-20) 0 0 2 (-2) 1 0 (-5) 5 0 0 0 0 0 0;
T 0 (-20) 0 0 2 (-2) 1 0 0 (-4) 4 0 0 0 0 0;
T 0 (-20) 0 0 2 (-2) 1 0 0 (-3) 0 3 0 0 0 0;
T 0 20 0 0 2 (-2) 1 0 0 (-2) 0 0 0 0 0 0;
T 0 20 0 0 2 (-2) 1 0 0 1 0 (-1) 0 0 0 0;
T 0 (-20) 0 0 4 2 2 0 0 0 0 0 0 0 0 0;
T 0 20 0 3 (-2) (-2) (-2) 0 0 0 0 0 0 0 0 0;
T 0 20 1 (-1) (-2) 1 (-1) 0 0 0 0 0 0 0 0 0;
T 0 (-20) 1 (-1) 2 1 2 0 0 0 0 0 0 0 0 0;
T 0 20 1 0 (-2) (-2) (-2) 0 0 (-2) 0 3 0 0 0 0;
T 20 0 1 0 (-1) (-2) (-1) 0 0 0 0 0 0 0 0 0;
T 0 20 1 0 (-1) 0 (-1) 0 (-3) 5 0 0 0 0 0 0;
T 20 0 1 0 (-1) 1 (-1) 0 0 1 0 0 0 0 0 0;
T 20 0 1 0 1 1 1 0 0 1 0 0 0 0 0 0;
T (-20) 0 1 0 3 0 3 0 0 0 0 0 0 0 0 0;
T 0 20 1 1 (-2) (-6) (-2) 0 0 0 0 0 0 0 0 0;
T 0 (-20) 1 1 (-2) (-3) (-2) 0 0 0 0 0 0 0 0 0;
T 0 (-20) 1 1 2 4 2 0 0 0 0 0 0 0 0 0;
T 0 20 2 (-2) 2 2 2 0 0 0 0 0 0 0 0 0;
T 0 20 2 0 2 (-3) 2 0 0 0 0 0 0 0 0 0;
T 0 20 2 1 (-2) (-6) (-2) 0 0 0 0 0 0 0 0 0;
T 0 (-20) 2 1 0 (-4) 0 0 0 0 0 0 0 0 0 0;
T 0 20 2 2 (-2) (-4) (-2) 0 0 0 0 0 0 0 0 0;
T 0 (-20) 3 0 (-2) (-1) (-1) 0 0 0 0 0 0 0 0 0;
T 0 20 3 0 (-2) 2 (-1) 0 0 0 0 0 0 0 0 0;
T 0 (-20) 3 0 2 1 2 0 0 0 0 0 0 0 0 0;
T 0 (-20) 3 0 4 (-2) 2 0 0 0 0 0 0 0 0 0;
T 0 (-20) 4 (-1) (-2) (-2) (-2) 0 0 0 0 0 0 0 0 0;
T 0 20 4 (-1) 2 0 2 0 0 0 0 0 0 0 0 0;
T 0 (-20) 4 1 2 0 2 0 0 0 0 0 0 0 0 0;
T 20 0 2 0 (-1) (-1) (-2) 0 0 (-1) 0 2 0 0 0 0;
T 0 20 2 0 4 (-4) 2 0 0 0 0 0 0 0 0 0;
T 0 20 1 (-2) (-2) 2 (-1) 0 0 0 0 0 0 0 0 0;
T 0 20 2 (-1) (-2) 2 (-1) 0 0 0 0 0 0 0 0 0;
T 0 20 2 0 2 (-6) 1 0 0 0 0 0 0 0 0 0;
T 0 20 1 0 0 (-3) 0 0 0 0 0 0 0 0 0 0;
T 0 20 3 0 0 2 (-1) 0 0 0 0 0 0 0 0 0;
T 0 20 1 (-1) (-4) 2 (-2) 0 0 0 0 0 0 0 0 0;
T 0 (-20) 2 0 0 (-2) (-1) 0 0 (-2) 0 3 (-1) 0 0 0;
T 10 (-10) 1 (-2) 0 (-2) 0 0 0 0 0 0 0 0 0 0;
T 0 20 1 0 0 (-1) (-1) 0 0 (-3) 4 0 0 0 0 0;
T 0 20 2 (-1) 0 2 (-1) 0 0 0 0 0 0 0 0 0;
T 20 0 0 0 2 (-2) 1 0 0 (-4) 8 (-3) 0 0 0 0;
T 20 0 0 0 2 (-2) 1 0 0 4 (-8) 3 0 0 0 0;
T 0 20 2 0 (-4) 2 (-1) 0 0 0 0 0 0 0 0 0;
T 0 (-20) 1 0 0 (-2) 1 0 0 (-2) 0 2 0 0 0 0;
T 0 20 1 0 0 (-2) (-1) 0 0 (-2) 0 2 0 0 0 0;
T 0 (-20) 2 0 0 (-2) 1 0 0 (-5) 6 0 0 0 0 0;
T 0 20 1 2 0 0 1 0 0 0 0 0 0 0 0 0;
T 0 (-20) 2 0 0 (-1) 1 0 0 0 0 0 0 0 0 0;
T 0 20 1 1 0 1 (-1) 0 0 0 0 0 0 0 0 0;
T 0 (-20) 1 1 0 1 1 0 0 0 0 0 0 0 0 0;
T 0 (-20) 2 0 0 (-3) 1 0 0 0 0 0 0 0 0 0;
T 0 (-20) 1 0 0 (-1) 1 0 0 (-1) 0 1 0 0 0 0;
T 0 (-20) 2 0 (-2) (-2) 1 0 0 0 0 0 0 0 0 0;
T 0 (-20) 1 2 0 (-2) 0 0 0 0 0 0 0 0 0 0;
T 0 20 1 0 (-2) 1 1 0 0 0 0 0 0 0 0 0;
T 0 20 0 0 1 (-1) 2 0 0 (-1) 0 0 1 0 0 0;
T 0 20 1 0 2 (-4) (-1) 0 0 0 0 0 0 0 0 0;
T 0 (-20) 2 0 2 (-2) (-1) 0 0 0 0 0 0 0 0 0;
T 0 20 1 0 0 (-3) (-1) 0 0 0 0 0 0 0 0 0;
T 20 0 2 0 2 (-4) 0 0 0 0 0 0 0 0 0 0;
T 0 20 2 0 (-2) (-2) 0 0 0 0 0 0 0 0 0 0;
T 0 20 0 3 0 0 0 0 0 0 0 0 0 0 0 0;
T 0 (-20) 3 0 0 2 0 0 0 0 0 0 0 0 0 0;
T 20 0 0 0 0 0 1 0 (-3) 4 0 0 0 0 0 0;
T 0 (-20) 0 1 0 (-4) 0 0 0 0 0 0 0 0 0 0;
T 0 (-20) 0 0 0 0 1 0 0 (-2) 2 0 0 0 0 0;
T 0 (-20) 3 0 2 0 0 0 0 0 0 0 0 0 0 0;
T 0 (-20) 0 0 0 0 1 0 (-2) 2 0 0 0 0 0 0;
T 0 20 2 0 2 (-2) 0 0 0 0 0 0 0 0 0 0;
T 0 (-21) 0 1 2 (-2) 3 0 0 0 0 0 0 0 0 0;
T 0 (-30) 1 1 2 (-4) 2 0 0 0 0 0 0 0 0 0;
T 0 (-30) 0 0 0 0 1 0 2 (-2) 0 0 0 0 0 0;
T (-20) (-10) 0 0 0 0 1 0 0 1 0 (-2) 0 0 0 0;
T 0 (-30) 0 1 0 (-2) 2 0 0 0 0 0 0 0 0 0;
T 0 (-30) 0 0 2 0 (-2) 0 0 0 0 0 0 0 0 0;
T 0 30 0 0 0 1 (-2) 0 0 0 0 0 0 0 0 0;
T (-30) 0 0 0 0 0 2 0 0 (-4) 8 (-3) 0 0 0 0;
T (-30) 0 0 0 0 0 2 0 0 4 (-8) 3 0 0 0 0;
T 0 30 0 0 1 (-1) 2 0 0 0 (-2) 0 0 0 0 0;
T 0 (-30) 2 0 2 1 1 0 0 0 0 0 0 0 0 0;
T 0 (-30) 2 0 (-4) (-2) (-1) 0 0 0 0 0 0 0 0 0;
T 0 30 2 0 (-2) (-6) (-1) 0 0 0 0 0 0 0 0 0;
T 0 (-30) 2 (-1) 2 (-2) 1 0 0 0 0 0 0 0 0 0;
T 0 30 1 (-2) 2 0 1 0 0 0 0 0 0 0 0 0;
T 30 0 0 0 1 (-1) 2 0 0 (-1) 0 1 0 0 0 0;
T 0 (-30) 0 0 2 3 1 0 0 0 0 0 0 0 0 0;
T 0 (-30) 2 0 4 (-2) 1 0 0 0 0 0 0 0 0 0;
T 0 (-30) 0 1 4 (-2) 1 0 0 0 0 0 0 0 0 0;
T 0 (-30) 1 (-2) (-2) (-2) (-1) 0 0 0 0 0 0 0 0 0;
T 30 0 0 0 0 0 1 0 5 (-8) 0 0 0 0 0 0;
T 0 (-30) 3 0 0 (-2) 1 0 0 0 0 0 0 0 0 0;
T 0 30 1 0 0 4 (-1) 0 0 0 0 0 0 0 0 0;
T 0 (-30) 1 (-1) 0 (-4) (-1) 0 0 0 0 0 0 0 0 0;
T 0 30 1 0 0 (-6) (-1) 0 0 0 0 0 0 0 0 0;
T 30 0 2 0 (-1) (-1) (-1) 0 0 (-1) 0 2 0 0 0 0;
T 0 (-30) 2 (-1) 2 (-1) 2 0 0 0 0 0 0 0 0 0;
T 0 (-30) 1 0 0 (-1) (-1) 0 0 (-2) 2 0 0 0 0 0;
T 0 30 0 0 0 0 0 0 0 0 0 0 0 0 2 2;
T 30 0 0 0 0 0 0 0 0 0 0 0 0 2 0 1;
T 0 30 0 0 0 0 0 0 0 0 0 0 0 2 0 2;
T 0 30 0 0 0 0 0 0 0 0 0 0 5 0 0 2;
T 0 (-30) 0 0 0 0 0 0 0 0 0 4 (-5) 0 0 2;
T 30 0 0 0 0 0 0 0 0 1 (-6) 0 0 0 0 (-2);
T 30 0 0 0 0 0 0 0 0 1 0 (-3) 0 0 0 (-1);
T 30 0 0 0 0 0 0 0 0 1 0 (-1) 0 0 0 1;
T (-30) 0 0 0 0 0 0 0 0 3 0 0 (-2) 0 0 2;
T 30 0 0 0 0 0 0 0 0 4 (-8) 1 5 0 0 (-2);
T 0 30 0 0 0 0 0 0 0 4 0 0 (-2) 0 0 2;
T (-30) 0 0 0 0 0 0 0 0 6 (-7) 0 0 0 0 2;
T 30 0 0 0 0 0 0 0 0 6 0 0 0 0 0 1;
T (-30) 0 0 0 0 0 0 0 5 (-3) 0 0 0 0 0 1;
T 0 30 0 0 0 0 0 0 8 (-16) 0 0 0 0 0 (-2);
T (-30) 0 0 0 0 0 0 0 9 (-11) 0 0 0 0 0 (-1);
T 30 0 0 0 1 (-1) 1 0 (-2) 1 0 0 0 0 0 0;
T 30 0 0 0 1 (-1) 1 0 1 (-2) 0 0 0 0 0 0;
T 0 (-30) 0 0 2 (-2) 1 0 0 (-1) 0 1 0 0 0 0;
T 0 30 0 1 2 3 2 0 0 0 0 0 0 0 0 0;
T 0 30 0 2 (-2) (-4) (-2) 0 0 0 0 0 0 0 0 0;
T 0 (-30) 0 2 2 2 2 0 0 0 0 0 0 0 0 0;
T 0 (-30) 1 0 (-2) (-2) (-2) 0 (-3) 3 0 0 0 0 0 0;
T 0 (-30) 1 0 (-1) (-1) (-1) 0 20 (-20) 0 0 0 0 0 0;
T 30 0 1 0 (-1) 1 (-1) 0 (-18) 17 0 0 0 0 0 0;
T 30 0 1 0 1 (-1) 1 0 0 (-1) 0 0 0 0 0 0;
T 0 30 1 0 2 (-2) 2 0 0 (-2) 0 2 0 0 0 0;
T 0 (-30) 1 0 2 3 2 0 0 0 0 0 0 0 0 0;
T 30 0 2 0 (-1) (-1) (-1) 0 0 (-1) 0 0 0 0 0 0;
T 0 (-30) 2 0 0 (-2) (-2) 0 (-3) 3 0 0 0 0 0 0;
T 0 30 2 0 0 (-2) (-1) 0 0 (-2) 0 4 (-5) 0 0 0;
T 0 30 2 1 2 1 2 0 0 0 0 0 0 0 0 0;
T 0 (-30) 2 2 2 (-2) 2 0 0 0 0 0 0 0 0 0;
T 0 30 4 0 2 (-4) 2 0 0 0 0 0 0 0 0 0;
T 20 10 0 0 0 0 0 0 0 2 (-6) 0 0 0 0 (-2);
T 20 (-10) 0 0 0 0 0 0 0 3 (-5) 0 0 0 0 (-1);
T (-10) (-20) 0 0 0 0 0 0 0 5 (-8) 0 0 0 0 (-2);
T (-20) (-10) 0 0 0 0 0 0 0 6 (-10) 0 0 0 0 (-2);
T 20 (-10) 0 0 0 0 0 0 1 (-4) 0 0 0 0 0 (-2);
T 20 10 0 0 0 0 0 0 1 (-2) 0 0 0 0 0 (-2);
T (-10) (-20) 0 0 0 0 0 0 2 (-3) 0 0 0 0 0 1;
T 20 (-10) 0 0 2 (-2) 1 0 0 (-7) 9 0 0 0 0 0;
T (-10) 20 1 0 (-2) 0 (-2) 0 (-10) 3 0 0 0 0 0 0;
T (-10) (-20) 2 0 2 0 1 0 0 1 0 0 0 0 0 0;
T 0 (-30) 1 1 4 (-2) 2 0 0 0 0 0 0 0 0 0;
T (-20) 10 0 0 0 0 1 0 0 (-9) 17 0 0 0 0 0;
T 0 30 0 1 0 (-4) 1 0 0 0 0 0 0 0 0 0;
T 0 30 0 0 2 0 2 0 0 1 0 (-1) 0 0 0 0;
T 0 (-30) 0 0 2 0 2 0 0 (-1) 0 1 0 0 0 0;
T 0 30 0 0 2 0 2 0 (-1) 1 0 0 0 0 0 0;
T 0 30 2 (-1) (-2) 0 (-2) 0 0 0 0 0 0 0 0 0;
T 10 (-20) 1 0 0 (-1) 1 0 0 (-3) 4 0 0 0 0 0;
T 0 (-30) 2 1 2 (-4) 1 0 0 0 0 0 0 0 0 0;
T (-10) (-20) 2 0 (-1) (-1) 1 0 0 3 (-7) 0 0 0 0 0;
T (-20) 10 2 0 0 (-2) (-1) 0 0 (-6) 8 0 0 0 0 0;
T 0 (-30) 2 1 (-2) 0 1 0 0 0 0 0 0 0 0 0;
T 0 30 2 0 0 (-3) (-1) 0 0 0 0 0 0 0 0 0;
T 30 0 0 0 0 0 1 0 0 0 0 0 (-1) 0 0 0;
T 0 30 1 (-2) 0 0 (-1) 0 0 0 0 0 0 0 0 0;
T 0 (-30) 1 (-2) 0 (-2) 1 0 0 0 0 0 0 0 0 0;
T 20 10 0 0 1 (-1) (-1) 0 0 (-1) 0 (-1) 0 0 0 0;
T 0 30 2 0 0 (-2) (-1) 0 (-3) 3 0 0 0 0 0 0;
T 0 30 0 0 0 4 2 0 0 0 0 0 0 0 0 0;
T 0 (-30) 2 (-2) 0 (-2) 1 0 0 0 0 0 0 0 0 0;
T (-30) 0 0 0 2 (-2) (-1) 0 (-5) 6 0 0 0 0 0 0;
T 0 30 2 0 (-4) 2 (-2) 0 0 0 0 0 0 0 0 0;
T 21 10 0 0 1 (-1) 2 0 0 (-1) 0 (-2) 5 0 0 0;
T 0 40 0 0 2 (-2) (-2) 0 0 0 0 0 0 0 0 0;
T 40 0 0 0 1 (-1) 2 0 0 (-1) 0 2 0 0 0 0;
T 0 (-40) 2 0 0 2 2 0 0 0 0 0 0 0 0 0;
T 0 40 2 0 2 (-1) 1 0 0 0 0 0 0 0 0 0;
T 0 40 3 (-1) 2 0 1 0 0 0 0 0 0 0 0 0;
T 0 40 1 1 2 1 1 0 0 0 0 0 0 0 0 0;
T (-10) 30 0 2 (-2) 0 (-1) 0 0 0 0 0 0 0 0 0;
T 0 (-40) 3 1 2 0 1 0 0 0 0 0 0 0 0 0;
T 0 (-40) 0 2 2 0 1 0 0 0 0 0 0 0 0 0;
T 0 (-40) 1 2 2 (-2) 1 0 0 0 0 0 0 0 0 0;
T 0 (-40) 1 (-2) (-2) 0 (-2) 0 0 0 0 0 0 0 0 0;
T 0 (-40) 4 0 0 0 0 0 0 0 0 0 0 0 0 0;
T 40 0 0 0 0 0 0 0 0 0 0 0 1 0 0 2;
T 0 40 0 0 0 0 0 0 0 5 (-3) 0 0 0 0 2;
T (-40) 0 0 0 0 0 0 0 0 5 (-2) 0 0 0 0 2;
T 0 (-40) 0 0 0 0 0 0 0 6 0 0 0 0 0 0;
T 40 0 0 0 0 0 0 0 0 8 (-15) 0 0 0 0 (-1);
T 0 40 0 0 0 0 0 0 2 (-6) 0 0 0 0 0 (-2);
T 0 40 0 0 0 0 0 0 3 (-6) 0 0 0 0 0 (-1);
T 0 (-40) 0 0 0 0 0 0 3 (-4) 0 0 0 0 0 (-1);
T 40 0 0 0 0 0 0 0 4 (-3) 0 0 0 0 0 2;
T (-40) 0 0 0 0 0 0 0 4 (-2) 0 0 0 0 0 1;
T 0 (-40) 0 0 0 0 0 0 4 (-2) 0 0 0 0 0 2;
T 0 (-40) 0 0 0 0 0 0 5 (-9) 0 0 0 0 0 (-2);
T 0 40 0 0 0 0 0 0 5 (-5) 0 0 0 0 0 2;
T (-40) 0 0 0 0 0 0 0 8 (-10) 0 0 0 0 0 (-1);
T (-40) 0 0 0 0 0 0 0 8 (-8) 0 0 0 0 0 (-1);
T (-40) 0 0 0 1 (-1) 1 0 0 (-1) 0 (-1) 2 0 0 0;
T 40 0 0 0 2 (-2) 1 0 0 (-8) 11 0 0 0 0 0;
T 0 (-40) 0 0 2 (-2) 1 0 0 (-2) 0 0 2 0 0 0;
T 0 (-40) 0 0 2 (-2) 1 0 0 (-2) 0 3 0 0 0 0;
T 0 40 0 0 4 (-1) 2 0 0 0 0 0 0 0 0 0;
T 0 40 1 (-1) (-2) (-3) (-2) 0 0 0 0 0 0 0 0 0;
T 0 40 1 2 (-2) (-4) (-2) 0 0 0 0 0 0 0 0 0;
T 0 40 3 0 2 (-1) 2 0 0 0 0 0 0 0 0 0;
T 0 (-40) 5 0 2 (-2) 2 0 0 0 0 0 0 0 0 0;
T (-10) 30 0 0 0 0 0 0 0 2 0 (-2) 0 0 0 2;
T 10 30 0 0 0 0 0 0 0 6 (-5) 0 0 0 0 2;
T (-30) 10 0 0 0 0 0 0 6 (-10) 0 0 0 0 0 (-1);
T (-10) 30 2 (-2) 2 (-2) 2 0 0 0 0 0 0 0 0 0;
T 20 20 0 0 0 0 0 0 0 2 2 0 0 0 0 2;
T 20 (-20) 0 0 1 (-1) 1 0 0 (-1) 0 (-2) 4 0 0 0;
T (-20) (-20) 0 0 1 (-1) 1 0 0 (-1) 0 0 (-2) 0 0 0;
T 0 40 2 (-2) 2 0 2 0 0 0 0 0 0 0 0 0;
T 0 (-40) 1 1 0 2 (-1) 0 0 0 0 0 0 0 0 0;
T 0 (-40) 0 0 2 0 2 0 1 (-1) 0 0 0 0 0 0;
T 0 (-40) 1 1 0 (-1) 1 0 0 0 0 0 0 0 0 0;
T 0 40 1 0 4 (-4) 2 0 0 0 0 0 0 0 0 0;
T (-10) 30 0 0 0 0 1 0 0 (-8) 15 0 0 0 0 0;
T 0 40 1 (-2) 0 (-2) (-1) 0 0 0 0 0 0 0 0 0;
T 0 40 4 0 0 0 (-1) 0 0 0 0 0 0 0 0 0;
T 0 (-40) 1 0 0 (-3) 1 0 0 0 0 0 0 0 0 0;
T 0 (-40) 0 2 0 (-2) 0 0 0 0 0 0 0 0 0 0;
T 40 0 1 0 (-1) 0 1 0 0 0 0 0 0 0 0 0;
T 0 (-40) 1 0 0 4 0 0 0 0 0 0 0 0 0 0;
T (-10) 30 1 1 0 2 0 0 0 0 0 0 0 0 0 0;
T (-20) 20 0 0 0 0 2 0 0 (-1) 2 0 0 0 0 0;
T 0 (-40) 1 0 2 2 0 0 0 0 0 0 0 0 0 0;
T 0 50 1 0 (-2) 2 0 0 0 0 0 0 0 0 0 0;
T 0 (-50) 1 0 0 2 (-2) 0 0 0 0 0 0 0 0 0;
T 50 0 0 0 2 (-2) 2 0 (-5) 6 0 0 0 0 0 0;
T 0 (-50) 1 1 0 0 2 0 0 0 0 0 0 0 0 0;
T 0 50 1 0 0 (-1) 2 0 0 0 0 0 0 0 0 0;
T 0 50 0 0 2 (-2) 2 0 (-3) 3 0 0 0 0 0 0;
T 0 (-50) 2 1 (-2) (-2) (-1) 0 0 0 0 0 0 0 0 0;
T 0 50 2 0 (-4) 0 (-1) 0 0 0 0 0 0 0 0 0;
T (-50) 0 0 0 3 0 2 0 0 0 0 0 0 0 0 0;
T 10 40 0 0 0 0 0 0 0 0 0 4 0 0 0 2;
T 10 40 0 0 0 0 0 0 0 5 0 (-3) 0 0 0 2;
T (-40) 10 0 0 0 0 0 0 5 (-10) 0 0 0 0 0 (-2);
T 40 (-10) 0 0 0 0 0 0 5 (-6) 0 0 0 0 0 2;
T (-40) (-10) 0 0 1 (-1) 1 0 0 (-1) 0 0 0 2 0 0;
T 40 10 0 0 2 (-2) 1 (-1) 0 2 0 0 0 0 0 0;
T 0 50 0 0 0 0 0 0 0 1 (-3) 0 0 0 0 (-2);
T (-50) 0 0 0 0 0 0 0 0 6 (-11) 0 0 0 0 (-2);
T (-50) 0 0 0 0 0 0 0 4 (-4) 0 0 0 0 0 1;
T 0 (-50) 0 0 0 0 0 0 6 (-9) 0 0 0 0 0 (-1);
T 50 0 0 0 0 0 0 0 9 (-12) 0 0 0 0 0 (-2);
T (-50) 0 0 0 1 (-1) 1 0 0 1 0 0 0 0 0 0;
T 0 50 0 0 2 6 2 0 0 0 0 0 0 0 0 0;
T 0 50 3 (-1) (-2) (-1) (-2) 0 0 0 0 0 0 0 0 0;
T 0 50 3 (-1) 2 2 2 0 0 0 0 0 0 0 0 0;
T (-30) 20 0 0 0 0 0 0 0 1 0 3 0 0 0 2;
T 20 30 0 0 0 0 0 0 0 2 (-5) 0 0 0 0 (-2);
T (-30) 20 0 0 0 0 0 0 0 7 (-13) 0 0 0 0 (-2);
T 30 20 0 0 0 0 0 0 1 0 0 0 0 0 0 2;
T 0 (-50) 3 (-1) 2 (-2) 2 0 0 0 0 0 0 0 0 0;
T 0 (-50) 0 1 (-2) (-1) (-2) 0 0 0 0 0 0 0 0 0;
T 40 10 0 0 2 0 2 0 0 4 (-8) 3 0 0 0 0;
T 40 (-10) 0 0 2 0 2 0 0 (-4) 8 (-3) 0 0 0 0;
T 20 30 2 0 (-1) (-1) (-1) 0 0 3 (-7) 0 0 0 0 0;
T (-20) 30 2 0 0 (-2) (-1) 0 0 (-5) 6 0 0 0 0 0;
T 30 (-20) 2 0 0 (-2) 1 0 0 (-6) 8 0 0 0 0 0;
T 0 (-50) 1 (-2) 0 0 1 0 0 0 0 0 0 0 0 0;
T 0 50 2 1 0 (-4) 1 0 0 0 0 0 0 0 0 0;
T 0 50 1 (-2) 2 (-2) 2 0 0 0 0 0 0 0 0 0;
T 10 40 0 0 0 0 1 0 3 (-5) 0 0 0 0 0 0;
T 0 (-50) 0 1 0 2 2 0 0 0 0 0 0 0 0 0;
T 10 40 2 1 0 (-2) 0 0 0 0 0 0 0 0 0 0;
T 0 50 2 0 2 0 (-1) 0 0 0 0 0 0 0 0 0;
T 0 (-50) 1 1 0 (-4) 0 0 0 0 0 0 0 0 0 0;
T 0 (-60) 2 0 (-2) 2 (-2) 0 0 0 0 0 0 0 0 0;
T 0 (-60) 1 1 0 (-2) 2 0 0 0 0 0 0 0 0 0;
T 0 (-60) 0 0 0 1 2 0 0 0 0 0 0 0 0 0;
T 0 60 1 1 0 (-4) (-1) 0 0 0 0 0 0 0 0 0;
T 0 60 3 0 0 2 1 0 0 0 0 0 0 0 0 0;
T 0 (-60) 0 0 0 3 1 0 0 0 0 0 0 0 0 0;
T 0 60 4 0 (-2) (-2) (-1) 0 0 0 0 0 0 0 0 0;
T (-20) (-40) 0 0 0 0 0 0 0 0 0 0 3 0 0 1;
T 40 20 0 0 0 0 0 0 0 1 (-5) 0 0 0 0 (-2);
T 0 60 0 0 0 0 0 0 0 1 0 0 1 0 0 2;
T 0 60 0 0 0 0 0 0 0 1 1 0 0 0 0 2;
T (-40) (-20) 0 0 0 0 0 0 0 6 (-6) 0 0 0 0 2;
T 40 (-20) 0 0 0 0 0 0 0 6 0 0 0 0 0 2;
T 30 30 0 0 0 0 0 0 8 (-13) 0 0 0 0 0 1;
T (-40) 20 0 0 0 0 0 1 0 (-4) 0 0 0 0 0 (-2);
T 20 40 0 0 1 (-1) 1 0 0 (-1) 0 0 3 0 0 0;
T 0 (-60) 0 0 2 (-2) 1 0 (-2) 2 0 0 0 0 0 0;
T 60 0 0 0 2 (-2) 2 0 (-8) 11 0 0 0 0 0 0;
T 0 (-60) 1 0 (-2) (-2) (-2) 0 0 (-2) 0 2 0 0 0 0;
T (-40) 20 2 0 (-1) (-1) (-1) 0 0 (-1) 0 3 0 0 0 0;
T 0 (-60) 2 0 0 (-2) (-1) 0 0 (-2) 0 0 5 0 0 0;
T (-10) 50 0 0 0 0 0 0 0 3 (-6) 0 0 0 0 (-1);
T 50 (-10) 0 0 0 0 0 0 0 5 0 (-2) 0 0 0 2;
T 10 50 0 0 0 0 0 0 1 (-2) 0 0 0 0 0 1;
T (-10) (-50) 0 0 0 0 0 0 4 (-4) 0 0 0 0 0 2;
T (-50) (-10) 0 0 0 0 0 0 7 (-7) 0 0 0 0 0 (-1);
T 50 10 0 0 1 (-1) 1 0 (-2) 3 0 0 0 0 0 0;
T 0 (-60) 1 (-1) 2 (-4) 1 0 0 0 0 0 0 0 0 0;
T 0 (-60) 0 1 0 1 0 0 0 0 0 0 0 0 0 0;
T 0 60 1 1 0 (-4) 1 0 0 0 0 0 0 0 0 0;
T 0 (-60) 2 1 0 (-4) (-1) 0 0 0 0 0 0 0 0 0;
T 0 60 1 0 0 (-4) (-2) 0 0 0 0 0 0 0 0 0;
T 40 20 0 0 0 0 1 0 0 2 (-4) 0 0 0 0 0;
T 0 60 2 1 0 0 0 0 0 0 0 0 0 0 0 0;
T 10 (-50) 0 0 1 (-1) (-1) 0 0 0 (-2) 0 0 0 0 0;
T 0 60 0 0 2 2 (-1) 0 0 0 0 0 0 0 0 0;
T 0 (-60) 0 0 0 0 1 0 0 (-1) 0 1 0 0 0 0;
T 0 70 1 (-1) 0 0 2 0 0 0 0 0 0 0 0 0;
T 0 70 0 1 (-2) (-4) (-1) 0 0 0 0 0 0 0 0 0;
T 0 70 2 (-1) 2 2 1 0 0 0 0 0 0 0 0 0;
T 70 0 0 0 1 (-1) 2 0 0 (-2) 2 0 0 0 0 0;
T 0 70 1 0 0 1 0 0 0 0 0 0 0 0 0 0;
T 40 30 0 0 0 0 0 0 0 4 (-8) 0 0 0 0 (-2);
T 60 (-10) 0 0 0 0 0 0 3 (-3) 0 0 0 0 0 1;
T (-60) (-10) 0 0 0 0 0 0 3 (-1) 0 0 0 0 0 1;
T 70 0 0 0 0 0 0 0 0 0 0 0 3 0 0 2;
T 0 (-70) 0 0 0 0 0 0 0 2 0 (-4) 0 0 0 (-2);
T 0 (-70) 0 0 0 0 0 0 0 3 (-5) 0 0 0 0 (-2);
T (-50) 20 0 0 0 0 0 0 0 3 0 1 0 0 0 2;
T 50 (-20) 0 0 0 0 0 0 0 3 0 2 (-5) 0 0 2;
T (-20) (-50) 0 0 0 0 0 0 0 6 (-15) 0 0 0 0 (-2);
T 20 50 0 0 0 0 0 0 0 11 0 0 0 0 0 2;
T 50 (-20) 0 0 0 0 0 0 2 (-3) 0 0 0 0 0 (-2);
T (-20) (-50) 0 0 0 0 0 0 9 (-9) 0 0 0 0 0 (-1);
T (-50) 20 0 0 1 (-1) 1 0 0 (-1) 0 3 0 0 0 0;
T (-70) 0 0 0 1 (-1) 1 0 2 (-4) 0 (-3) 0 0 0 0;
T 0 (-70) 2 0 (-2) (-3) (-2) 0 0 0 0 0 0 0 0 0;
T 0 70 4 0 2 2 2 0 0 0 0 0 0 0 0 0;
T 0 (-70) 0 1 2 4 2 0 0 0 0 0 0 0 0 0;
T 0 (-70) 0 0 0 0 1 0 3 (-5) 0 2 0 0 0 0;
T 70 0 0 0 1 (-1) 1 0 0 (-1) 0 (-1) 1 0 0 0;
T 0 70 0 1 (-4) 2 (-2) 0 0 0 0 0 0 0 0 0;
T 10 (-60) 2 0 0 (-2) (-1) 0 (-6) 8 0 0 0 0 0 0;
T 0 70 3 0 0 (-4) 1 0 0 0 0 0 0 0 0 0;
T 0 76 1 0 2 0 3 0 0 0 0 0 0 0 0 0;
T 0 (-80) 0 0 0 0 1 0 0 1 0 (-1) 0 0 0 0;
T 0 80 1 1 0 (-2) (-2) 0 0 0 0 0 0 0 0 0;
T 0 80 1 2 (-2) (-2) (-1) 0 0 0 0 0 0 0 0 0;
T 0 (-80) 0 1 (-2) 1 (-1) 0 0 0 0 0 0 0 0 0;
T 0 (-80) 1 0 (-2) (-3) (-1) 0 0 0 0 0 0 0 0 0;
T 0 (-80) 3 0 (-2) 0 (-2) 0 0 0 0 0 0 0 0 0;
T 0 80 0 1 0 (-4) (-1) 0 0 0 0 0 0 0 0 0;
T (-30) (-50) 0 0 0 0 1 0 3 (-7) 4 0 0 0 0 0;
T (-30) 50 0 0 0 0 1 0 (-3) 7 (-4) 0 0 0 0 0;
T (-30) (-50) 0 0 0 0 0 0 0 2 0 (-2) 5 0 0 2;
T (-80) 0 0 0 0 0 0 0 0 2 0 0 1 0 0 2;
T (-30) 50 0 0 0 0 0 0 0 2 0 2 (-5) 0 0 2;
T 0 (-80) 0 0 0 0 0 0 0 3 (-1) 0 0 0 0 2;
T (-50) (-30) 0 0 0 0 0 0 0 5 (-9) 0 0 0 0 (-2);
T (-50) (-30) 0 0 0 0 0 0 0 5 (-5) 0 0 0 0 2;
T (-50) 30 0 0 0 0 0 0 3 (-5) 0 0 0 0 0 1;
T 0 80 0 0 4 (-4) 1 0 0 0 0 0 0 0 0 0;
T 20 60 0 0 0 0 0 0 4 (-7) 0 0 0 0 0 (-1);
T (-60) 20 0 0 0 0 0 0 7 (-9) 0 0 0 0 0 (-1);
T (-70) 10 0 0 0 0 0 0 2 (-2) 0 0 0 0 0 1;
T 10 70 0 0 0 0 0 0 7 (-11) 0 0 0 0 0 (-2);
T 0 (-80) 2 (-1) (-2) (-4) (-2) 0 0 0 0 0 0 0 0 0;
T 0 80 3 0 0 (-2) (-1) 0 0 0 0 0 0 0 0 0;
T 0 (-80) 2 (-1) 0 0 0 0 0 0 0 0 0 0 0 0;
T 0 (-90) 1 (-1) 0 (-1) 0 0 0 0 0 0 0 0 0 0;
T 0 (-90) 4 0 2 (-2) 1 0 0 0 0 0 0 0 0 0;
T 0 90 2 1 (-2) (-4) (-1) 0 0 0 0 0 0 0 0 0;
T 0 90 1 0 (-2) 4 (-1) 0 0 0 0 0 0 0 0 0;
T 0 (-90) 1 (-1) 2 (-1) 2 0 0 0 0 0 0 0 0 0;
T (-90) 0 0 0 0 0 0 0 0 2 0 0 (-1) 0 0 2;
T (-50) (-40) 0 0 0 0 0 0 0 3 0 (-3) 0 0 0 2;
T 0 (-90) 0 0 1 (-1) 1 0 (-2) 2 0 0 0 0 0 0;
T 0 90 3 0 (-2) (-6) (-2) 0 0 0 0 0 0 0 0 0;
T 0 90 5 0 2 0 2 0 0 0 0 0 0 0 0 0;
T (-30) 60 0 0 0 0 0 0 0 8 (-15) 0 0 0 0 (-2);
T 70 (-20) 0 0 0 0 0 0 1 2 0 0 0 0 0 2;
T (-70) (-20) 0 0 0 0 0 0 6 (-6) 0 0 0 0 0 (-1);
T 0 (-90) 1 2 2 0 2 0 0 0 0 0 0 0 0 0;
T 0 (-90) 2 0 0 (-2) 1 0 (-3) 3 0 0 0 0 0 0;
T 0 90 0 1 0 (-2) (-2) 0 0 0 0 0 0 0 0 0;
T 0 90 1 0 (-2) (-2) 1 0 0 0 0 0 0 0 0 0;
T 10 80 1 (-1) 0 (-2) 0 0 0 0 0 0 0 0 0 0;
T 0 91 1 0 2 (-2) 0 0 0 0 0 0 0 0 0 0;
T 0 (-100) 1 0 0 2 2 0 0 0 0 0 0 0 0 0;
T 0 100 2 0 (-2) 0 2 0 0 0 0 0 0 0 0 0;
T 0 100 0 2 (-2) (-2) (-1) 0 0 0 0 0 0 0 0 0;
T 0 100 1 0 (-4) 2 (-1) 0 0 0 0 0 0 0 0 0;
T 0 100 0 1 2 (-4) 1 0 0 0 0 0 0 0 0 0;
T 0 (-100) 1 0 4 0 2 0 0 0 0 0 0 0 0 0;
T (-40) (-60) 0 0 0 0 0 0 3 (-9) 4 0 0 0 0 (-2);
T 40 60 0 0 0 0 0 0 3 (-5) 4 0 0 0 0 2;
T (-80) (-20) 0 0 0 0 0 0 2 0 0 0 0 0 0 1;
T 100 0 0 0 0 0 0 0 7 (-10) 0 0 0 0 0 (-2);
T 100 0 0 0 1 (-1) 1 0 0 (-9) 15 0 0 0 0 0;
T 0 100 1 (-1) 2 4 2 0 0 0 0 0 0 0 0 0;
T (-100) 0 1 0 1 (-2) 1 0 0 0 0 0 0 0 0 0;
T 0 (-100) 3 0 0 (-4) (-1) 0 0 0 0 0 0 0 0 0;
T 0 100 0 2 0 (-2) 1 0 0 0 0 0 0 0 0 0;
T 0 100 1 0 0 1 1 0 0 0 0 0 0 0 0 0;
T 80 (-20) 0 0 0 0 1 0 0 0 0 (-1) 0 0 0 0;
T 100 0 0 0 0 0 1 0 (-2) 3 0 0 0 0 0 0;
T 0 100 0 0 0 0 1 0 (-1) 1 0 0 0 0 0 0;
T 0 (-110) 1 (-1) (-2) 2 (-2) 0 0 0 0 0 0 0 0 0;
T 0 110 3 0 2 2 1 0 0 0 0 0 0 0 0 0;
T (-50) 60 1 (-2) 2 (-2) 1 0 0 0 0 0 0 0 0 0;
T (-40) (-70) 0 0 0 0 0 0 0 4 (-7) 0 0 0 0 (-2);
T (-90) (-20) 0 0 0 0 0 0 5 (-5) 0 0 0 0 0 (-1);
T 60 (-50) 0 0 0 0 0 0 0 0 0 0 0 0 2 1;
T 0 110 0 0 0 0 0 0 0 7 (-8) 3 0 0 0 2;
T 0 110 3 0 2 (-4) 2 0 0 0 0 0 0 0 0 0;
T 0 110 2 (-1) (-2) (-2) (-2) 0 0 0 0 0 0 0 0 0;
T (-110) 0 1 0 1 0 1 0 0 0 0 0 0 0 0 0;
T 0 (-110) 2 1 2 2 2 0 0 0 0 0 0 0 0 0;
T (-110) 0 0 0 3 0 3 0 0 0 0 0 0 0 0 0;
T (-20) 90 2 0 0 (-2) 1 0 (-6) 8 0 0 0 0 0 0;
T 0 110 2 1 0 0 1 0 0 0 0 0 0 0 0 0;
T 0 115 0 0 0 0 3 0 0 0 0 0 0 0 0 0;
T 0 (-120) 1 1 2 2 1 0 0 0 0 0 0 0 0 0;
T (-40) 80 0 0 0 0 0 0 0 0 3 0 0 0 0 2;
T 40 80 0 0 0 0 0 0 0 1 (-4) 0 0 0 0 (-2);
T 20 (-100) 0 0 0 0 0 0 2 1 0 0 0 0 0 1;
T (-100) 20 0 0 0 0 0 0 2 1 0 0 0 0 0 2;
T (-100) 20 0 0 0 0 0 0 6 (-8) 0 0 0 0 0 (-1);
T (-70) (-50) 0 0 1 (-1) 1 0 0 (-3) 4 0 0 0 0 0;
T 120 0 0 0 0 0 0 0 3 (-6) 0 0 0 0 0 (-2);
T 0 120 2 0 2 4 2 0 0 0 0 0 0 0 0 0;
T (-40) (-80) 0 0 0 0 1 0 0 8 (-15) 0 0 0 0 0;
T 0 (-120) 2 1 0 0 (-1) 0 0 0 0 0 0 0 0 0;
T 0 120 1 2 0 (-2) 1 0 0 0 0 0 0 0 0 0;
T 0 (-129) 0 0 2 (-4) 2 0 0 0 0 0 0 0 0 0;
T 0 (-130) 0 0 0 0 0 0 0 3 0 0 (-1) 0 0 2;
T 0 (-130) 0 0 0 0 0 0 3 (-1) 0 0 0 0 0 2;
T 0 (-130) 1 0 (-4) (-2) (-2) 0 0 0 0 0 0 0 0 0;
T 0 (-130) 3 1 2 (-2) 2 0 0 0 0 0 0 0 0 0;
T 110 20 0 0 0 0 0 0 0 2 0 (-2) 0 0 0 1;
T (-20) (-110) 0 0 0 0 0 0 6 (-10) 0 0 0 0 0 (-2);
T (-80) 50 0 0 1 (-1) 1 0 3 (-6) 0 0 0 0 0 0;
T (-70) (-60) 0 0 1 (-1) 1 0 8 (-14) 0 0 0 0 0 0;
T 0 130 1 (-2) 2 2 2 0 0 0 0 0 0 0 0 0;
T 0 (-130) 1 (-1) (-2) (-4) (-2) 0 0 0 0 0 0 0 0 0;
T (-130) 0 1 0 0 (-1) (-1) 0 (-3) 4 0 0 0 0 0 0;
T 20 120 2 (-1) 0 (-2) 0 0 0 0 0 0 0 0 0 0;
T (-30) 110 0 0 0 0 1 0 (-3) 5 0 0 0 0 0 0;
T 140 0 0 0 1 0 2 0 0 0 0 0 0 0 0 0;
T 0 140 1 0 2 4 1 0 0 0 0 0 0 0 0 0;
T 0 (-140) 3 0 (-2) (-2) (-1) 0 0 0 0 0 0 0 0 0;
T 110 (-30) 0 0 1 (-1) 1 0 (-1) 0 0 0 0 0 0 0;
T 0 (-140) 0 0 2 (-2) 1 0 (-4) 4 0 0 0 0 0 0;
T 0 140 1 0 (-2) (-6) (-2) 0 0 0 0 0 0 0 0 0;
T 0 (-140) 1 (-2) (-2) (-2) (-2) 0 0 0 0 0 0 0 0 0;
T 0 (-140) 0 0 2 (-3) 1 0 0 0 0 0 0 0 0 0;
T 0 141 0 1 0 2 0 0 0 0 0 0 0 0 0 0;
T 0 (-141) 2 0 2 0 0 0 0 0 0 0 0 0 0 0;
T 0 149 2 0 2 (-4) 2 0 0 0 0 0 0 0 0 0;
T 0 150 0 0 0 0 1 0 1 (-1) 0 0 0 0 0 0;
T 0 150 1 0 0 (-1) (-2) 0 0 0 0 0 0 0 0 0;
T 0 150 1 1 (-2) (-4) (-1) 0 0 0 0 0 0 0 0 0;
T 20 (-130) 0 0 0 0 0 0 0 1 0 (-4) 0 0 0 (-2);
T (-50) 100 0 0 0 0 0 0 0 1 (-8) 3 0 0 0 (-2);
T (-50) 100 0 0 2 0 2 0 0 1 0 0 0 0 0 0;
T (-140) 10 0 0 0 0 0 0 0 4 0 (-1) 0 0 0 2;
T (-120) (-30) 0 0 0 0 0 0 1 1 0 0 0 0 0 1;
T 0 (-150) 0 0 0 0 0 0 9 (-11) 0 0 0 0 0 (-2);
T 130 (-20) 0 0 0 0 1 0 0 0 0 0 1 0 0 0;
T 0 (-150) 0 1 4 (-2) 2 0 0 0 0 0 0 0 0 0;
T 150 0 1 0 0 (-1) 1 0 (-3) 4 0 0 0 0 0 0;
T 0 (-150) 1 2 0 (-2) (-1) 0 0 0 0 0 0 0 0 0;
T 0 (-150) 1 0 0 1 (-1) 0 0 0 0 0 0 0 0 0;
T 0 150 2 (-1) 0 0 (-1) 0 0 0 0 0 0 0 0 0;
T 0 (-150) 0 1 2 (-2) (-1) 0 0 0 0 0 0 0 0 0;
T 0 (-150) 1 (-1) 0 2 0 0 0 0 0 0 0 0 0 0;
T 110 (-50) 0 0 1 (-1) 2 0 0 (-1) 0 0 2 0 0 0;
T 0 (-160) 0 0 4 0 1 0 0 0 0 0 0 0 0 0;
T 0 (-160) 1 1 0 2 1 0 0 0 0 0 0 0 0 0;
T 0 160 1 0 0 4 1 0 0 0 0 0 0 0 0 0;
T 30 (-130) 0 0 0 0 0 0 0 1 (-2) 0 0 0 0 1;
T (-130) (-30) 0 0 0 0 0 0 4 (-4) 0 0 0 0 0 (-1);
T 60 100 0 0 0 0 0 0 0 3 (-6) 0 0 0 0 (-2);
T (-50) (-110) 2 0 2 0 2 0 0 2 0 (-3) 0 0 0 0;
T 120 (-40) 0 0 0 0 0 0 0 0 0 3 0 0 0 1;
T 0 (-160) 0 0 2 3 2 0 0 0 0 0 0 0 0 0;
T 0 (-160) 2 0 4 (-2) 2 0 0 0 0 0 0 0 0 0;
T 0 160 0 1 (-2) 2 1 0 0 0 0 0 0 0 0 0;
T (-170) 0 0 0 0 0 1 0 2 (-3) 0 0 0 0 0 0;
T (-110) 60 0 0 0 0 1 0 0 (-2) 4 0 0 0 0 0;
T (-60) (-110) 0 0 0 0 0 0 0 4 (-3) 0 0 0 0 2;
T 60 110 1 0 (-2) 0 (-1) 0 0 (-1) 0 0 0 0 0 0;
T (-60) (-110) 1 0 2 0 1 0 0 (-2) 0 3 0 0 0 0;
T 150 20 0 0 1 1 1 0 0 1 0 0 0 0 0 0;
T (-120) (-50) 0 0 2 (-2) 1 0 0 (-9) 13 0 0 0 0 0;
T 0 (-171) 0 0 2 2 0 0 0 0 0 0 0 0 0 0;
T 0 180 2 0 (-2) (-6) (-2) 0 0 0 0 0 0 0 0 0;
T 20 (-160) 0 0 0 0 0 0 2 (-3) 0 0 0 0 0 (-1);
T (-110) 70 0 0 0 0 0 0 0 2 (-4) 0 0 0 0 (-1);
T 0 (-180) 2 0 (-4) (-2) (-2) 0 0 0 0 0 0 0 0 0;
T 0 (-180) 2 (-1) 0 0 1 0 0 0 0 0 0 0 0 0;
T 0 190 1 (-1) 0 2 1 0 0 0 0 0 0 0 0 0;
T 0 190 0 0 0 4 (-1) 0 0 0 0 0 0 0 0 0;
T (-30) 160 0 0 0 0 0 0 0 4 0 (-3) 0 0 0 2;
T 0 (-190) 2 0 2 1 2 0 0 0 0 0 0 0 0 0;
T (-100) 90 0 0 1 (-1) 1 0 0 (-1) 0 0 0 0 2 0;
T (-140) (-50) 0 0 1 (-1) 1 0 0 (-1) 0 (-4) 10 0 0 0;
T (-150) (-40) 0 0 0 0 0 0 0 2 0 0 0 0 0 1;
T 150 40 0 0 1 (-1) 1 0 (-4) 5 0 0 0 0 0 0;
T 0 190 2 (-1) 0 (-2) 1 0 0 0 0 0 0 0 0 0;
T 0 (-190) 3 0 (-2) (-2) (-2) 0 0 0 0 0 0 0 0 0;
T 0 190 0 0 4 (-4) 2 0 0 0 0 0 0 0 0 0;
T 0 (-190) 0 0 0 4 0 0 0 0 0 0 0 0 0 0;
T 0 (-191) 1 0 (-2) (-2) 0 0 0 0 0 0 0 0 0 0;
T 160 (-40) 0 0 0 0 0 0 1 (-3) 0 0 0 0 0 (-1);
T 110 (-90) 0 0 0 0 0 0 0 0 0 2 (-5) 0 0 (-2);
T 200 0 0 0 0 0 0 0 6 (-9) 0 0 0 0 0 (-2);
T 0 (-200) 1 2 2 (-2) 2 0 0 0 0 0 0 0 0 0;
T 0 200 2 (-2) 0 (-2) (-1) 0 0 0 0 0 0 0 0 0;
T 0 200 1 (-1) 0 2 (-1) 0 0 0 0 0 0 0 0 0;
T 0 200 1 0 (-2) 2 1 0 0 0 0 0 0 0 0 0;
T 0 (-200) 1 0 2 (-2) (-1) 0 0 0 0 0 0 0 0 0;
T 0 210 1 0 2 (-1) 1 0 0 0 0 0 0 0 0 0;
T 0 (-210) 2 1 2 (-2) 1 0 0 0 0 0 0 0 0 0;
T 0 (-210) 1 0 4 (-2) 1 0 0 0 0 0 0 0 0 0;
T 0 210 1 (-1) 2 (-2) 1 0 0 0 0 0 0 0 0 0;
T 0 210 1 0 (-2) 1 (-2) 0 0 0 0 0 0 0 0 0;
T (-130) (-80) 0 0 0 0 0 0 0 4 (-4) 0 0 0 0 2;
T (-80) (-130) 0 0 0 0 0 0 0 5 (-4) 0 0 0 0 2;
T (-170) 40 0 0 0 0 0 0 1 (-1) 0 0 0 0 0 1;
T 0 220 4 0 2 0 1 0 0 0 0 0 0 0 0 0;
T 0 220 0 1 2 1 1 0 0 0 0 0 0 0 0 0;
T (-180) (-40) 0 0 0 0 0 0 3 (-3) 0 0 0 0 0 (-1);
T 0 220 0 0 0 0 0 0 0 2 (-4) 0 0 0 0 (-2);
T 0 220 1 1 2 1 2 0 0 0 0 0 0 0 0 0;
T 0 (-220) 2 (-1) 2 (-2) 2 0 0 0 0 0 0 0 0 0;
T 0 220 1 (-2) 2 0 2 0 0 0 0 0 0 0 0 0;
T (-20) (-200) 0 0 0 1 0 0 0 0 0 0 0 0 0 0;
T (-10) (-220) 0 0 0 0 0 0 8 (-10) 0 0 0 0 0 (-2);
T (-140) 90 0 0 0 0 0 0 0 0 4 0 0 0 0 2;
T 0 (-230) 3 1 2 0 2 0 0 0 0 0 0 0 0 0;
T 0 230 1 1 2 (-4) 1 0 0 0 0 0 0 0 0 0;
T (-10) (-230) 2 0 0 (-4) 0 0 0 0 0 0 0 0 0 0;
T (-190) 50 0 0 0 0 0 0 5 (-7) 0 0 0 0 0 (-1);
T 0 240 1 0 2 (-3) 1 0 0 0 0 0 0 0 0 0;
T 0 (-240) 1 1 (-2) 2 (-1) 0 0 0 0 0 0 0 0 0;
T 0 240 2 0 0 2 (-1) 0 0 0 0 0 0 0 0 0;
T 0 (-240) 2 0 0 2 0 0 0 0 0 0 0 0 0 0;
T 0 (-250) 2 0 0 0 (-2) 0 0 0 0 0 0 0 0 0;
T 190 (-60) 0 0 0 0 0 0 0 6 (-16) 4 5 0 0 (-2);
T 80 170 0 0 0 0 0 0 0 0 0 0 1 0 0 (-1);
T 0 250 0 1 0 1 (-1) 0 0 0 0 0 0 0 0 0;
T 210 50 0 0 1 (-1) 1 0 (-3) 4 0 0 0 0 0 0;
T 0 260 3 (-1) 2 0 2 0 0 0 0 0 0 0 0 0;
T 0 (-260) 0 1 0 2 (-1) 0 0 0 0 0 0 0 0 0;
T 0 (-260) 0 1 0 1 1 0 0 0 0 0 0 0 0 0;
T 270 0 1 0 (-1) 0 (-3) 0 0 0 0 0 0 0 0 0;
T 0 (-270) 0 0 2 (-2) 1 0 0 (-2) 0 2 0 0 0 0;
T (-250) (-30) 0 0 0 0 0 0 0 1 (-2) 0 0 0 0 (-1);
T (-250) 30 0 0 1 (-1) 1 0 0 (-1) 0 1 0 0 0 0;
T 0 (-280) 2 1 (-2) (-2) (-2) 0 0 0 0 0 0 0 0 0;
T 0 289 0 1 (-2) 2 0 0 0 0 0 0 0 0 0 0;
T 0 (-290) 1 0 2 1 1 0 0 0 0 0 0 0 0 0;
T 40 (-250) 0 0 0 0 0 0 0 0 0 0 1 0 0 1;
T (-250) 40 0 0 1 (-1) 1 0 0 (-2) 2 0 0 0 0 0;
T 0 (-290) 2 0 0 (-2) 1 0 0 (-2) 0 2 0 0 0 0;
T (-290) (-10) 0 0 0 0 0 0 4 (-7) 0 0 0 0 0 (-2);
T (-160) 140 1 0 0 (-1) 1 0 0 (-1) 0 2 0 0 0 0;
T 0 300 2 0 2 (-1) 2 0 0 0 0 0 0 0 0 0;
T 0 (-308) 1 0 2 (-4) 2 0 0 0 0 0 0 0 0 0;
T (-70) (-240) 0 0 0 0 0 0 3 (-3) 0 0 0 0 0 2;
T 8 305 0 0 2 (-2) 3 0 0 0 0 0 0 0 0 0;
T 290 (-30) 0 0 0 0 0 0 0 0 0 1 0 0 0 1;
T 0 320 0 0 0 0 0 0 0 0 2 0 0 0 0 2;
T 0 (-320) 0 0 0 0 0 0 7 (-9) 0 0 0 0 0 (-2);
T 0 (-320) 0 2 2 0 2 0 0 0 0 0 0 0 0 0;
T 0 320 1 (-1) 2 (-2) 2 0 0 0 0 0 0 0 0 0;
T 0 323 0 2 0 0 (-1) 0 0 0 0 0 0 0 0 0;
T 0 330 1 1 (-2) 0 (-1) 0 0 0 0 0 0 0 0 0;
T 0 (-330) 2 1 2 0 1 0 0 0 0 0 0 0 0 0;
T 100 (-230) 0 0 0 0 0 0 0 0 0 1 0 0 0 2;
T 260 (-70) 0 0 0 0 0 0 3 (-5) 0 0 0 0 0 (-1);
T 50 280 2 0 0 (-2) (-1) 0 0 (-2) 0 3 0 0 0 0;
T 0 336 0 0 2 0 3 0 0 0 0 0 0 0 0 0;
T 0 340 2 0 (-4) 0 (-2) 0 0 0 0 0 0 0 0 0;
T 0 (-340) 1 (-1) 0 (-2) 1 0 0 0 0 0 0 0 0 0;
T (-290) (-60) 0 0 0 0 0 0 2 (-2) 0 0 0 0 0 (-1);
T 0 (-350) 0 0 0 0 0 0 0 2 0 0 0 0 0 0;
T (-280) 70 0 0 0 0 0 0 0 0 0 1 0 0 0 (-1);
T 70 280 0 0 0 0 0 0 3 (-7) 0 0 0 0 0 (-2);
T 0 (-360) 1 1 (-2) 1 (-1) 0 0 0 0 0 0 0 0 0;
T (-210) 150 0 0 0 0 0 0 0 1 0 2 0 0 0 2;
T 0 (-360) 1 0 (-2) (-1) (-2) 0 0 0 0 0 0 0 0 0;
T (-20) 351 1 1 0 0 0 0 0 0 0 0 0 0 0 0;
T 0 380 0 0 0 0 0 0 0 2 0 0 0 0 0 2;
T 0 390 2 0 0 0 2 0 0 0 0 0 0 0 0 0;
T 0 390 2 (-1) 2 0 1 0 0 0 0 0 0 0 0 0;
T 310 (-80) 0 0 0 0 0 0 2 (-4) 0 0 0 0 0 (-1);
T 0 (-390) 1 0 (-2) (-3) (-2) 0 0 0 0 0 0 0 0 0;
T 0 390 0 1 (-2) (-4) (-2) 0 0 0 0 0 0 0 0 0;
T 0 390 2 (-1) 2 2 2 0 0 0 0 0 0 0 0 0;
T 190 200 0 0 0 0 1 0 0 1 (-2) 0 0 0 0 0;
T 0 (-391) 1 0 0 (-4) 0 0 0 0 0 0 0 0 0 0;
T 0 (-400) 0 1 (-2) 1 (-2) 0 0 0 0 0 0 0 0 0;
T 0 400 1 0 (-4) 2 (-2) 0 0 0 0 0 0 0 0 0;
T 0 410 3 0 (-2) 0 (-1) 0 0 0 0 0 0 0 0 0;
T (-60) 350 0 0 1 (-1) 1 0 0 (-1) 0 0 1 0 0 0;
T 20 400 0 2 (-2) 0 (-2) 0 0 0 0 0 0 0 0 0;
T 20 403 1 0 (-2) 0 0 0 0 0 0 0 0 0 0 0;
T 0 (-430) 0 1 2 2 1 0 0 0 0 0 0 0 0 0;
T 0 430 2 0 (-2) 2 (-1) 0 0 0 0 0 0 0 0 0;
T 0 (-430) 3 0 0 0 1 0 0 0 0 0 0 0 0 0;
T 0 439 2 0 0 (-2) 2 0 0 0 0 0 0 0 0 0;
T 0 (-440) 1 (-1) (-2) (-2) (-1) 0 0 0 0 0 0 0 0 0;
T 0 440 1 2 (-2) (-2) (-2) 0 0 0 0 0 0 0 0 0;
T 30 (-411) 1 (-1) 0 0 0 0 0 0 0 0 0 0 0 0;
T 0 (-450) 2 (-1) (-2) 0 (-1) 0 0 0 0 0 0 0 0 0;
T (-150) (-300) 1 0 0 0 1 0 (-18) 16 0 0 0 0 0 0;
T 0 (-450) 2 1 0 (-2) 1 0 0 0 0 0 0 0 0 0;
T 0 471 1 0 2 0 (-1) 0 0 0 0 0 0 0 0 0;
T 0 (-472) 0 2 2 (-2) 1 0 0 0 0 0 0 0 0 0;
T (-370) (-110) 0 0 0 0 1 0 0 0 0 1 0 0 0 0;
T 0 480 2 1 (-2) (-4) (-2) 0 0 0 0 0 0 0 0 0;
T 90 390 0 0 0 0 1 0 0 0 0 2 (-5) 0 0 0;
T 0 (-490) 0 0 0 0 0 0 1 (-3) 0 0 0 0 0 (-2);
T 490 0 0 0 0 0 0 0 2 (-5) 0 0 0 0 0 (-2);
T 0 (-490) 4 0 2 (-2) 2 0 0 0 0 0 0 0 0 0;
T 0 (-500) 1 (-1) (-2) 0 (-1) 0 0 0 0 0 0 0 0 0;
T 0 500 1 (-1) 2 2 1 0 0 0 0 0 0 0 0 0;
T 0 (-500) 3 0 0 0 0 0 0 0 0 0 0 0 0 0;
T (-500) 0 0 0 0 0 0 0 3 (-2) 0 0 0 0 0 2;
T 90 (-410) 0 0 0 0 1 0 0 0 0 (-2) 5 0 0 0;
T 0 507 0 2 0 0 1 0 0 0 0 0 0 0 0 0;
T 0 (-510) 0 0 0 0 0 0 6 (-8) 0 0 0 0 0 (-2);
T 300 210 0 0 0 0 1 0 (-8) 13 0 0 0 0 0 0;
T 0 (-519) 0 0 0 2 (-2) 0 0 0 0 0 0 0 0 0;
T 0 (-520) 0 0 0 0 0 0 0 1 0 (-3) 0 0 0 (-2);
T 0 (-530) 0 0 1 (-1) 1 0 0 (-5) 8 (-3) 0 0 0 0;
T 0 530 1 (-1) 0 (-2) (-2) 0 0 0 0 0 0 0 0 0;
T 180 360 1 0 0 0 (-1) 0 (-18) 16 0 0 0 0 0 0;
T 0 (-540) 0 0 0 0 0 0 0 8 (-16) 4 5 0 0 2;
T 0 (-540) 2 0 2 (-4) 1 0 0 0 0 0 0 0 0 0;
T 0 550 0 2 (-2) (-2) (-2) 0 0 0 0 0 0 0 0 0;
T (-40) (-510) 1 1 0 (-2) 0 0 0 0 0 0 0 0 0 0;
T (-90) (-470) 0 0 0 0 0 0 5 (-8) 0 0 0 0 0 (-1);
T 20 (-540) 2 1 (-2) 0 (-1) 0 0 0 0 0 0 0 0 0;
T 0 560 1 0 0 (-4) 1 0 0 0 0 0 0 0 0 0;
T 0 560 2 0 0 (-4) 1 0 0 0 0 0 0 0 0 0;
T 0 570 2 0 0 2 1 0 0 0 0 0 0 0 0 0;
T 0 570 0 0 0 0 0 0 0 0 0 0 2 0 0 2;
T 10 560 3 0 2 2 2 0 0 0 0 0 0 0 0 0;
T 0 570 1 (-1) (-2) 2 (-1) 0 0 0 0 0 0 0 0 0;
T (-90) (-480) 2 0 0 (-2) 1 0 0 (-2) 0 3 0 0 0 0;
T 0 590 1 (-1) 0 (-2) (-1) 0 0 0 0 0 0 0 0 0;
T 0 600 0 0 2 4 1 0 0 0 0 0 0 0 0 0;
T 350 (-250) 0 0 0 0 1 0 8 (-13) 0 0 0 0 0 0;
T 0 610 0 0 2 (-1) 1 0 0 0 0 0 0 0 0 0;
T 0 610 0 0 1 (-1) 1 0 0 3 (-8) 3 0 0 0 0;
T 0 (-610) 1 1 2 2 2 0 0 0 0 0 0 0 0 0;
T (-10) (-620) 0 0 0 0 0 0 0 4 (-2) 0 0 0 0 2;
T 0 (-630) 0 0 2 (-2) 1 0 (-3) 3 0 0 0 0 0 0;
T 90 550 0 0 0 0 0 0 0 0 0 3 0 0 0 2;
T 0 (-640) 2 0 0 (-4) (-1) 0 0 0 0 0 0 0 0 0;
T 110 (-539) 1 0 0 (-1) 1 0 0 0 0 0 0 0 0 0;
T (-310) (-350) 0 0 0 0 0 0 0 3 (-2) 0 0 0 0 2;
T 0 660 3 0 0 0 (-1) 0 0 0 0 0 0 0 0 0;
T (-390) (-290) 0 0 0 0 0 0 0 3 0 (-2) 0 0 0 2;
T (-310) 370 0 0 0 0 0 0 0 1 2 0 0 0 0 2;
T 0 690 1 1 (-2) 0 (-2) 0 0 0 0 0 0 0 0 0;
T 420 (-270) 0 0 0 0 0 0 8 (-15) 0 0 0 0 0 (-2);
T 0 690 2 1 0 (-2) (-1) 0 0 0 0 0 0 0 0 0;
T (-570) (-130) 0 0 0 0 0 0 1 (-1) 0 0 0 0 0 (-1);
T (-560) 140 0 0 0 0 0 0 4 (-6) 0 0 0 0 0 (-1);
T 10 690 1 0 2 4 2 0 0 0 0 0 0 0 0 0;
T 0 (-720) 0 0 4 (-2) 1 0 0 0 0 0 0 0 0 0;
T 0 (-749) 2 0 0 (-2) (-2) 0 0 0 0 0 0 0 0 0;
T 0 (-750) 3 0 2 (-2) 1 0 0 0 0 0 0 0 0 0;
T 0 750 1 1 (-2) (-4) (-2) 0 0 0 0 0 0 0 0 0;
T 490 270 0 0 0 0 0 0 8 (-11) 0 0 0 0 0 (-2);
T (-50) (-720) 0 0 0 0 0 0 0 2 0 1 0 0 0 2;
T (-750) (-20) 0 0 0 0 0 0 2 (-1) 0 0 0 0 0 2;
T 0 780 0 0 0 4 1 0 0 0 0 0 0 0 0 0;
T 0 (-790) 0 0 4 0 2 0 0 0 0 0 0 0 0 0;
T (-130) 670 0 0 0 0 0 0 0 2 0 (-1) 0 0 0 2;
T 0 809 0 1 0 (-2) (-1) 0 0 0 0 0 0 0 0 0;
T (-10) 800 0 0 0 0 0 0 0 4 0 (-2) 0 0 0 2;
T 420 (-400) 0 0 0 0 0 0 0 8 (-16) 4 5 0 0 (-2);
T 270 550 1 0 (-2) 0 (-2) 0 0 4 (-8) 3 0 0 0 0;
T 0 830 0 0 2 (-3) 2 0 0 0 0 0 0 0 0 0;
T (-260) (-570) 1 0 2 0 2 0 0 1 0 0 0 0 0 0;
T (-20) (-811) 0 1 0 (-2) 0 0 0 0 0 0 0 0 0 0;
T 0 840 0 0 2 (-4) 1 0 0 0 0 0 0 0 0 0;
T (-590) 260 0 0 1 (-1) 1 0 0 (-1) 0 0 2 0 0 0;
T 0 (-870) 0 0 0 0 0 0 5 (-7) 0 0 0 0 0 (-2);
T 610 (-270) 0 0 0 0 0 0 0 0 0 0 2 0 0 1;
T 140 (-750) 0 0 1 (-1) 1 0 (-5) 7 0 0 0 0 0 0;
T (-770) 140 0 0 1 (-1) 1 0 0 (-1) 0 2 0 0 0 0;
T (-760) 170 0 0 0 0 0 0 8 (-13) 0 0 0 0 0 (-2);
T 10 940 2 0 2 2 1 0 0 0 0 0 0 0 0 0;
T 0 960 1 0 0 (-4) (-1) 0 0 0 0 0 0 0 0 0;
T 0 (-1000) 1 0 (-4) 0 (-1) 0 0 0 0 0 0 0 0 0;
T 0 (-1020) 0 1 0 2 1 0 0 0 0 0 0 0 0 0;
T 0 1040 0 1 2 1 2 0 0 0 0 0 0 0 0 0;
T 0 (-1040) 1 0 4 (-2) 2 0 0 0 0 0 0 0 0 0;
T 0 1050 2 0 (-2) (-4) (-1) 0 0 0 0 0 0 0 0 0;
T (-20) 1047 2 0 (-2) 0 0 0 0 0 0 0 0 0 0 0;
T 0 (-1080) 2 1 2 (-2) 2 0 0 0 0 0 0 0 0 0;
T 10 (-1077) 1 0 2 0 0 0 0 0 0 0 0 0 0 0;
T 10 1090 4 0 2 0 2 0 0 0 0 0 0 0 0 0;
T 0 (-1120) 1 1 0 0 (-1) 0 0 0 0 0 0 0 0 0;
T 0 1140 0 0 0 0 0 0 0 1 0 1 0 0 0 2;
T 1130 50 0 0 0 0 0 0 5 (-8) 0 0 0 0 0 (-2);
T 0 (-1200) 2 0 (-2) (-2) (-1) 0 0 0 0 0 0 0 0 0;
T 1170 80 0 0 0 0 0 0 0 0 0 2 (-5) 0 0 1;
T 0 (-1280) 1 1 2 (-2) 1 0 0 0 0 0 0 0 0 0;
T 0 1280 1 0 (-2) 1 (-1) 0 0 0 0 0 0 0 0 0;
T 1030 270 0 0 1 (-1) 1 0 0 (-1) 0 (-1) 0 0 0 0;
T (-10) 1310 1 0 (-2) (-4) (-1) 0 0 0 0 0 0 0 0 0;
T 0 (-1338) 1 0 0 (-2) 2 0 0 0 0 0 0 0 0 0;
T (-1380) 0 0 0 1 0 1 0 0 0 0 0 0 0 0 0;
T 450 (-930) 0 0 1 (-1) 1 0 0 (-1) 0 0 (-1) 0 0 0;
T 0 (-1381) 1 0 (-2) 0 1 0 0 0 0 0 0 0 0 0;
T 0 (-1440) 0 0 2 1 1 0 0 0 0 0 0 0 0 0;
T (-10) (-1430) 1 0 2 1 2 0 0 0 0 0 0 0 0 0;
T 0 1440 1 0 2 (-1) 2 0 0 0 0 0 0 0 0 0;
T 0 1470 0 0 0 0 0 0 1 1 0 0 0 0 0 2;
T 0 (-1510) 2 0 0 (-2) (-1) 0 0 (-2) 0 2 0 0 0 0;
T 0 (-1531) 1 0 (-2) 2 (-2) 0 0 0 0 0 0 0 0 0;
T 0 (-1600) 0 0 0 0 0 0 2 0 0 0 0 0 0 2;
T 0 1621 1 (-1) 0 0 (-1) 0 0 0 0 0 0 0 0 0;
T 0 1708 1 0 0 (-2) (-2) 0 0 0 0 0 0 0 0 0;
T 1450 (-270) 0 0 0 0 0 0 0 0 0 2 0 0 0 1;
T 0 (-1741) 0 0 0 1 (-1) 0 0 0 0 0 0 0 0 0;
T (-130) (-1626) 0 0 2 (-2) 0 0 0 0 0 0 0 0 0 0;
T (-1760) 0 1 0 (-1) 0 (-2) 0 0 0 0 0 0 0 0 0;
T (-10) (-1760) 2 1 2 0 2 0 0 0 0 0 0 0 0 0;
T 100 1681 0 2 0 0 0 0 0 0 0 0 0 0 0 0;
T 0 1810 0 3 2 (-2) 2 0 0 0 0 0 0 0 0 0;
T (-10) 1840 0 1 0 (-2) 1 0 0 0 0 0 0 0 0 0;
T (-10) (-1850) 1 1 2 0 1 0 0 0 0 0 0 0 0 0;
T 430 (-1460) 0 0 1 (-1) 1 0 0 0 (-2) 0 0 0 0 0;
T 0 1891 1 1 0 0 1 0 0 0 0 0 0 0 0 0;
T 0 1980 0 0 0 0 0 0 2 (-4) 0 0 0 0 0 (-2);
T 0 (-2000) 1 (-1) (-2) 0 (-2) 0 0 0 0 0 0 0 0 0;
T 1560 440 0 0 0 0 1 0 0 4 (-8) 3 0 0 0 0;
T 0 2011 0 0 0 2 2 0 0 0 0 0 0 0 0 0;
T 20 (-1994) 1 0 0 2 0 0 0 0 0 0 0 0 0 0;
T 1590 (-450) 0 0 0 0 1 0 0 (-4) 8 (-3) 0 0 0 0;
T 0 2051 0 0 0 1 1 0 0 0 0 0 0 0 0 0;
T 70 (-2010) 0 0 0 0 0 0 0 3 0 (-1) 0 0 0 2;
T 10 2070 2 (-1) 2 0 2 0 0 0 0 0 0 0 0 0;
T 0 (-2130) 0 0 0 0 0 0 4 (-6) 0 0 0 0 0 (-2);
T 10 2160 1 (-1) 2 0 1 0 0 0 0 0 0 0 0 0;
T (-10) 2250 0 1 (-2) (-2) (-1) 0 0 0 0 0 0 0 0 0;
T (-10) (-2280) 0 1 2 2 2 0 0 0 0 0 0 0 0 0;
T (-1800) (-530) 0 0 0 0 0 0 0 6 (-8) 3 0 0 0 2;
T (-10) 2400 1 1 (-2) (-2) (-1) 0 0 0 0 0 0 0 0 0;
T (-2330) 90 0 0 2 (-2) 1 0 (-5) 6 0 0 0 0 0 0;
T 10 (-2440) 1 (-1) (-2) (-2) (-2) 0 0 0 0 0 0 0 0 0;
T (-10) 2440 1 0 2 (-4) 1 0 0 0 0 0 0 0 0 0;
T 20 2500 3 0 2 0 1 0 0 0 0 0 0 0 0 0;
T 0 (-2531) 0 1 0 0 (-2) 0 0 0 0 0 0 0 0 0;
T 20 2520 1 (-1) 2 2 2 0 0 0 0 0 0 0 0 0;
T 0 2580 1 (-1) 0 (-1) (-2) 0 0 0 0 0 0 0 0 0;
T 1990 590 0 0 0 0 0 0 0 2 (-8) 3 0 0 0 (-2);
T (-2570) (-170) 0 0 1 (-1) 1 0 0 (-1) 0 2 (-5) 0 0 0;
T 10 2750 1 0 0 2 (-1) 0 0 0 0 0 0 0 0 0;
T 0 (-2791) 1 (-1) 0 0 1 0 0 0 0 0 0 0 0 0;
T 20 2940 0 0 2 4 2 0 0 0 0 0 0 0 0 0;
T 0 3040 0 0 2 (-1) 2 0 0 0 0 0 0 0 0 0;
T (-10) 3161 1 1 0 (-2) 1 0 0 0 0 0 0 0 0 0;
T 20 (-3255) 0 1 0 0 2 0 0 0 0 0 0 0 0 0;
T (-10) 3459 0 1 (-2) 0 (-1) 0 0 0 0 0 0 0 0 0;
T 10 3695 0 0 2 0 (-1) 0 0 0 0 0 0 0 0 0;
T (-10) (-3892) 2 0 (-2) 0 1 0 0 0 0 0 0 0 0 0;
T 0 (-3911) 1 1 0 (-2) (-1) 0 0 0 0 0 0 0 0 0;
T (-10) (-3950) 0 0 4 (-2) 2 0 0 0 0 0 0 0 0 0;
T (-10) (-3990) 3 0 2 (-2) 2 0 0 0 0 0 0 0 0 0;
T 1330 2690 0 0 0 0 0 0 8 (-13) 0 0 0 0 0 (-1);
T (-10) (-4219) 0 1 2 0 1 0 0 0 0 0 0 0 0 0;
T (-10) (-4404) 0 0 2 (-2) (-1) 0 0 0 0 0 0 0 0 0;
T 40 4650 2 0 2 2 2 0 0 0 0 0 0 0 0 0;
T (-2320) 2460 0 0 0 0 1 0 0 (-1) 2 0 0 0 0 0;
T 10 (-4900) 1 0 (-4) 0 (-2) 0 0 0 0 0 0 0 0 0;
T 10 4959 1 0 0 2 1 0 0 0 0 0 0 0 0 0;
T 250 4770 2 0 0 (-2) 0 0 0 0 0 0 0 0 0 0;
T 0 5050 0 0 0 0 0 0 0 0 0 2 0 0 0 2;
T 100 (-4951) 1 0 0 (-1) (-1) 0 0 0 0 0 0 0 0 0;
T (-20) 5180 2 0 (-2) (-4) (-2) 0 0 0 0 0 0 0 0 0;
T (-10) (-5269) 2 0 2 (-2) 1 0 0 0 0 0 0 0 0 0;
T 0 (-5560) 1 1 2 (-2) 2 0 0 0 0 0 0 0 0 0;
T 110 (-5555) 0 0 2 0 0 0 0 0 0 0 0 0 0 0;
T 20 (-5920) 2 0 (-2) (-2) (-2) 0 0 0 0 0 0 0 0 0;
T (-20) (-6092) 1 0 0 0 (-2) 0 0 0 0 0 0 0 0 0;
T 130 (-6090) 2 0 0 0 0 0 0 0 0 0 0 0 0 0;
T (-40) 6470 1 0 (-2) (-4) (-2) 0 0 0 0 0 0 0 0 0;
T 40 6629 1 0 2 2 1 0 0 0 0 0 0 0 0 0;
T 0 6725 0 2 (-2) 2 (-1) 0 0 0 0 0 0 0 0 0;
T 1390 (-5530) 1 0 0 (-1) 0 0 0 0 0 0 0 0 0 0;
T 0 (-7001) 1 (-1) 0 (-1) (-1) 0 0 0 0 0 0 0 0 0;
T (-20) (-7100) 0 0 2 1 2 0 0 0 0 0 0 0 0 0;
T 0 8532 1 0 0 0 2 0 0 0 0 0 0 0 0 0;
T 8910 0 1 0 (-1) 0 (-1) 0 0 0 0 0 0 0 0 0;
T 0 8950 0 0 0 0 0 0 3 (-5) 0 0 0 0 0 (-2);
T 3190 (-6410) 0 0 1 (-1) 1 0 (-8) 12 0 0 0 0 0 0;
T (-30) (-10620) 1 1 2 0 2 0 0 0 0 0 0 0 0 0;
T 20 10731 1 0 (-2) 2 (-1) 0 0 0 0 0 0 0 0 0;
T (-20) (-11294) 2 0 0 0 1 0 0 0 0 0 0 0 0 0;
T (-50) 11290 0 1 (-2) (-2) (-2) 0 0 0 0 0 0 0 0 0;
T (-30) 12070 1 1 (-2) (-2) (-2) 0 0 0 0 0 0 0 0 0;
T 40 12320 1 (-1) 2 0 2 0 0 0 0 0 0 0 0 0;
T 70 12320 3 0 2 0 2 0 0 0 0 0 0 0 0 0;
T 290 (-12228) 0 0 0 2 0 0 0 0 0 0 0 0 0 0;
T 40 12664 2 0 0 0 (-1) 0 0 0 0 0 0 0 0 0;
T 10 13104 2 0 (-2) 0 (-2) 0 0 0 0 0 0 0 0 0;
T (-820) (-12348) 1 0 0 (-2) 0 0 0 0 0 0 0 0 0 0;
T 16790 0 0 1 (-1) 1 (-1) 0 0 0 0 0 0 0 0 0;
T 10 (-19079) 0 1 2 (-2) 1 0 0 0 0 0 0 0 0 0;
T 12860 (-7710) 0 0 0 0 0 0 0 0 0 2 (-5) 0 0 (-1);
T 10 (-22067) 2 0 0 (-2) 1 0 0 0 0 0 0 0 0 0;
T 120 26945 2 0 2 0 1 0 0 0 0 0 0 0 0 0;
T 30 27222 0 1 (-2) 2 (-1) 0 0 0 0 0 0 0 0 0;
T 90 27205 0 0 0 2 (-1) 0 0 0 0 0 0 0 0 0;
T (-40) (-27681) 2 0 2 (-2) 2 0 0 0 0 0 0 0 0 0;
T (-10) (-30446) 1 0 2 (-2) 1 0 0 0 0 0 0 0 0 0;
T 50 30417 2 0 0 (-2) (-1) 0 0 0 0 0 0 0 0 0;
T (-40) 30703 0 1 (-2) 0 (-2) 0 0 0 0 0 0 0 0 0;
T (-50) (-32503) 0 1 2 0 2 0 0 0 0 0 0 0 0 0;
T 40 32711 0 0 0 2 1 0 0 0 0 0 0 0 0 0;
T 190 32660 1 0 2 2 2 0 0 0 0 0 0 0 0 0;
T 140 33524 0 0 2 2 1 0 0 0 0 0 0 0 0 0;
T 27350 16470 0 0 1 (-1) 1 0 0 (-1) 0 (-2) 5 0 0 0;
T (-150) 52211 1 0 (-2) (-2) (-1) 0 0 0 0 0 0 0 0 0;
T (-262) 64375 0 1 0 0 (-1) 0 0 0 0 0 0 0 0 0;
T (-50) 68499 0 2 2 (-2) 2 0 0 0 0 0 0 0 0 0;
T (-140) 69554 1 0 0 (-2) 1 0 0 0 0 0 0 0 0 0;
T 3580 (-67499) 1 0 0 0 0 0 0 0 0 0 0 0 0 0;
T 10 (-80034) 1 0 0 (-2) (-1) 0 0 0 0 0 0 0 0 0;
T (-448) 85285 0 1 0 0 1 0 0 0 0 0 0 0 0 0;
T 30 (-107560) 1 0 (-2) 0 (-1) 0 0 0 0 0 0 0 0 0;
T (-30) (-123389) 1 0 2 (-2) 2 0 0 0 0 0 0 0 0 0;
T 590 132381 2 0 2 0 2 0 0 0 0 0 0 0 0 0;
T 0 (-138700) 0 2 (-2) 2 (-2) 0 0 0 0 0 0 0 0 0;
T 680 164501 0 0 2 2 2 0 0 0 0 0 0 0 0 0;
T (-200) (-242359) 2 0 (-2) 0 (-1) 0 0 0 0 0 0 0 0 0;
T (-660) 255451 1 0 (-2) (-2) (-2) 0 0 0 0 0 0 0 0 0;
T 780 263613 1 0 2 0 1 0 0 0 0 0 0 0 0 0;
T 750 314398 1 0 0 0 (-1) 0 0 0 0 0 0 0 0 0;
T (-90) (-332389) 1 0 0 0 1 0 0 0 0 0 0 0 0 0;
T 40 (-533113) 1 0 (-2) 0 (-2) 0 0 0 0 0 0 0 0 0;
T 392 (-691822) 0 0 2 (-2) 1 0 0 0 0 0 0 0 0 0;
T (-19240) 738702 0 1 0 0 0 0 0 0 0 0 0 0 0 0;
T (-1320) (-959272) 0 1 (-2) 2 (-2) 0 0 0 0 0 0 0 0 0;
T 3670 1290266 1 0 2 0 2 0 0 0 0 0 0 0 0 0;
T 3180 2006950 0 0 2 0 1 0 0 0 0 0 0 0 0 0;
T (-1740) 2243842 0 1 2 (-2) 2 0 0 0 0 0 0 0 0 0;
T (-2905) (-8961824) 0 0 0 0 2 0 0 0 0 0 0 0 0 0;
T 13741 9784669 0 0 2 0 2 0 0 0 0 0 0 0 0 0;
T (-45866) 57303342 0 0 2 (-2) 2 0 0 0 0 0 0 0 0 0;
T 153818 920523626 0 0 0 0 1 0 0 0 0 0 0 0 0 0].

(** ycip06a.cpp:1015-1293 *)
Definition Y1 : list row := [
T 10 0 0 0 0 0 0 0 1 (-3) 0 0 0 0 0 (-2);
T (-10) 0 1 (-1) 0 (-2) (-1) 0 0 0 0 0 0 0 0 0;
T 10 0 2 0 0 2 1 0 0 0 0 0 0 0 0 0;
T (-10) 0 4 0 2 (-2) 2 0 0 0 0 0 0 0 0 0;
T 0 10 0 0 0 0 0 0 2 (-5) 0 0 0 0 0 (-2);
T 0 10 0 0 0 0 0 0 3 (-2) 0 0 0 0 0 2;
T 10 0 0 0 1 (-1) 1 0 0 3 (-8) 3 0 0 0 0;
T 10 0 2 1 0 (-4) 0 0 0 0 0 0 0 0 0 0;
T 10 0 0 0 0 0 0 0 6 (-8) 0 0 0 0 0 (-2);
T (-10) 0 0 0 2 (-2) 1 0 (-3) 3 0 0 0 0 0 0;
T 10 0 0 0 0 0 0 0 0 1 0 (-3) 0 0 0 (-2);
T (-11) 0 3 0 0 0 (-1) 0 0 0 0 0 0 0 0 0;
T 11 0 0 0 0 2 (-2) 0 0 0 0 0 0 0 0 0;
T 11 0 0 0 2 4 1 0 0 0 0 0 0 0 0 0;
T 7 (-4) 0 0 0 0 0 0 0 3 (-4) 0 0 0 0 0;
T 11 0 2 0 0 (-4) (-1) 0 0 0 0 0 0 0 0 0;
T (-11) 0 0 2 (-2) (-2) (-2) 0 0 0 0 0 0 0 0 0;
T 0 (-12) 1 0 0 (-1) 0 0 (-3) 4 0 0 0 0 0 0;
T 2 (-9) 0 0 0 0 0 0 1 (-1) 0 0 0 0 0 (-1);
T (-2) (-9) 0 0 0 0 0 0 4 (-6) 0 0 0 0 0 (-1);
T (-12) 0 2 1 0 (-2) (-1) 0 0 0 0 0 0 0 0 0;
T 12 0 0 0 0 0 0 0 0 0 0 0 2 0 0 2;
T 12 0 3 0 2 2 2 0 0 0 0 0 0 0 0 0;
T (-12) 0 2 0 0 (-2) 0 0 (-3) 3 0 0 0 0 0 0;
T (-13) 0 0 0 4 (-2) 1 0 0 0 0 0 0 0 0 0;
T (-13) 0 1 1 2 2 2 0 0 0 0 0 0 0 0 0;
T (-13) 0 0 0 0 0 0 0 0 4 (-2) 0 0 0 0 2;
T (-13) 0 3 0 2 (-2) 1 0 0 0 0 0 0 0 0 0;
T 11 (-2) 0 0 0 0 0 0 0 0 0 3 0 0 0 2;
T (-7) 6 0 0 0 0 0 0 0 3 (-2) 0 0 0 0 2;
T 13 0 1 1 0 (-4) 0 0 0 0 0 0 0 0 0 0;
T 14 0 0 0 2 (-4) 1 0 0 0 0 0 0 0 0 0;
T 14 0 0 0 0 4 1 0 0 0 0 0 0 0 0 0;
T 8 6 0 0 0 0 0 0 0 1 2 0 0 0 0 2;
T (-14) 0 0 1 0 (-2) (-1) 0 0 0 0 0 0 0 0 0;
T 5 9 0 0 0 0 0 0 8 (-15) 0 0 0 0 0 (-2);
T (-6) 8 0 0 0 0 0 0 0 3 0 (-2) 0 0 0 2;
T 4 10 0 0 1 (-1) 1 0 0 (-1) 0 0 2 0 0 0;
T (-14) 0 1 1 (-2) 0 (-2) 0 0 0 0 0 0 0 0 0;
T 14 0 3 0 0 (-4) 0 0 0 0 0 0 0 0 0 0;
T 0 14 0 0 1 0 1 0 0 0 0 0 0 0 0 0;
T (-9) 5 1 0 0 (-2) 0 0 19 (-21) 3 0 0 0 0 0;
T 14 0 1 0 2 4 2 0 0 0 0 0 0 0 0 0;
T (-5) (-10) 0 0 0 0 0 0 0 0 0 0 2 0 0 1;
T (-12) (-2) 0 0 1 (-1) 1 0 (-5) 7 0 0 0 0 0 0;
T (-11) 4 0 0 0 0 0 0 0 8 (-16) 4 5 0 0 2;
T 2 13 0 0 1 (-1) 1 0 0 (-1) 0 2 0 0 0 0;
T 5 10 0 0 0 0 0 0 0 8 (-16) 4 5 0 0 (-2);
T (-6) 10 0 0 0 0 0 0 8 (-11) 0 0 0 0 0 (-2);
T 16 0 2 0 0 (-2) (-2) 0 0 0 0 0 0 0 0 0;
T (-14) 1 0 0 0 0 0 0 0 2 0 1 0 0 0 2;
T (-15) 0 1 1 (-2) (-4) (-2) 0 0 0 0 0 0 0 0 0;
T 0 15 0 0 0 0 0 0 2 (-1) 0 0 0 0 0 2;
T 14 3 0 0 0 0 0 0 0 2 0 (-1) 0 0 0 2;
T (-14) 2 1 0 0 (-1) 1 0 0 0 0 0 0 0 0 0;
T (-17) 0 1 0 0 (-4) (-1) 0 0 0 0 0 0 0 0 0;
T 16 0 0 0 0 0 0 0 0 4 0 (-2) 0 0 0 2;
T (-17) 0 0 0 4 0 2 0 0 0 0 0 0 0 0 0;
T 17 0 0 0 2 (-3) 2 0 0 0 0 0 0 0 0 0;
T (-11) 6 1 0 (-2) 0 (-2) 0 0 4 (-8) 3 0 0 0 0;
T 13 (-4) 0 0 0 0 0 0 3 (-5) 0 0 0 0 0 0;
T (-12) 6 1 0 2 0 2 0 0 1 0 0 0 0 0 0;
T 17 0 2 0 2 2 1 0 0 0 0 0 0 0 0 0;
T 18 0 1 0 (-4) 0 (-1) 0 0 0 0 0 0 0 0 0;
T (-18) 0 0 1 0 2 1 0 0 0 0 0 0 0 0 0;
T 18 0 0 0 0 0 0 0 5 (-7) 0 0 0 0 0 (-2);
T (-19) 0 2 0 (-2) (-4) (-1) 0 0 0 0 0 0 0 0 0;
T 19 0 1 1 0 0 (-1) 0 0 0 0 0 0 0 0 0;
T 19 0 0 2 0 (-2) 0 0 0 0 0 0 0 0 0 0;
T (-4) (-16) 0 0 0 0 0 0 8 (-13) 0 0 0 0 0 (-2);
T (-20) 0 2 (-2) 0 (-2) 0 0 0 0 0 0 0 0 0 0;
T (-20) 0 1 0 (-2) 1 (-1) 0 0 0 0 0 0 0 0 0;
T 21 0 2 0 (-2) (-2) (-1) 0 0 0 0 0 0 0 0 0;
T (-1) 19 0 0 0 0 0 0 0 0 0 2 (-5) 0 0 1;
T 8 (-14) 0 0 0 0 0 0 0 2 (-4) 0 0 0 0 0;
T (-1) (-21) 0 0 2 (-2) 0 0 (-5) 6 0 0 0 0 0 0;
T 4 (-17) 0 0 1 (-1) 1 0 0 (-1) 0 (-1) 0 0 0 0;
T (-22) 0 1 0 4 (-2) 2 0 0 0 0 0 0 0 0 0;
T (-22) 0 1 1 2 (-2) 1 0 0 0 0 0 0 0 0 0;
T 22 0 0 1 2 1 2 0 0 0 0 0 0 0 0 0;
T (-22) 0 2 1 2 (-2) 2 0 0 0 0 0 0 0 0 0;
T (-23) 0 1 0 (-2) 0 1 0 0 0 0 0 0 0 0 0;
T (-15) (-7) 0 0 1 (-1) 1 0 0 (-1) 0 0 (-1) 0 0 0;
T 23 0 4 0 2 0 2 0 0 0 0 0 0 0 0 0;
T 23 0 0 0 0 0 0 0 0 1 0 1 0 0 0 2;
T (-23) 0 1 0 (-2) (-4) (-1) 0 0 0 0 0 0 0 0 0;
T (-1) 23 0 0 0 0 0 0 5 (-8) 0 0 0 0 0 (-2);
T (-25) 0 0 3 0 0 0 0 0 0 0 0 0 0 0 0;
T 25 0 1 2 0 (-2) 0 0 0 0 0 0 0 0 0 0;
T (-25) 0 0 0 2 1 1 0 0 0 0 0 0 0 0 0;
T 25 0 2 0 0 (-2) (-1) 0 0 (-2) 0 2 0 0 0 0;
T 25 0 2 1 0 0 0 0 0 0 0 0 0 0 0 0;
T (-27) 0 1 (-1) 0 0 (-1) 0 0 0 0 0 0 0 0 0;
T (-19) (-8) 1 0 0 0 0 0 (-10) 3 0 0 0 0 0 0;
T (-27) 0 1 0 0 (-2) 2 0 0 0 0 0 0 0 0 0;
T 29 0 0 0 0 1 (-1) 0 0 0 0 0 0 0 0 0;
T (-5) (-24) 0 0 0 0 0 0 0 0 0 2 0 0 0 1;
T 29 0 1 0 0 1 0 0 0 0 0 0 0 0 0 0;
T 20 (-9) 1 0 0 0 0 0 (-18) 16 0 0 0 0 0 0;
T 0 (-29) 1 0 (-1) 0 0 0 0 0 0 0 0 0 0 0;
T 0 (-29) 0 0 0 0 0 0 3 (-4) 0 0 0 0 0 0;
T 30 0 1 0 2 (-1) 2 0 0 0 0 0 0 0 0 0;
T 30 0 0 1 0 (-2) 1 0 0 0 0 0 0 0 0 0;
T (-30) 0 2 0 2 0 0 0 0 0 0 0 0 0 0 0;
T (-30) 0 1 0 2 1 2 0 0 0 0 0 0 0 0 0;
T 8 (-22) 0 0 0 0 0 0 0 0 0 1 0 0 0 0;
T 30 0 0 0 0 0 0 0 1 1 0 0 0 0 0 2;
T 24 7 0 0 1 (-1) 0 0 0 0 (-2) 0 0 0 0 0;
T (-24) (-7) 0 0 1 (-1) 1 0 0 0 (-2) 0 0 0 0 0;
T 32 0 1 0 (-2) 2 (-2) 0 0 0 0 0 0 0 0 0;
T (-32) 0 1 1 2 0 1 0 0 0 0 0 0 0 0 0;
T 32 0 1 1 0 0 1 0 0 0 0 0 0 0 0 0;
T 0 (-32) 1 0 (-1) 0 (-2) 0 0 0 0 0 0 0 0 0;
T 33 0 0 0 0 0 0 0 0 2 (-2) 0 0 0 0 0;
T 7 (-26) 0 0 0 0 1 0 0 4 (-8) 3 0 0 0 0;
T (-33) 0 2 (-1) 0 0 0 0 0 0 0 0 0 0 0 0;
T (-33) 1 0 0 0 0 0 0 2 0 0 0 0 0 0 2;
T (-7) (-27) 0 0 0 0 1 0 0 (-4) 8 (-3) 0 0 0 0;
T 35 0 0 0 0 1 1 0 0 0 0 0 0 0 0 0;
T (-35) 0 1 0 0 (-2) (-2) 0 0 0 0 0 0 0 0 0;
T (-31) 6 2 0 0 (-2) 0 0 0 (-2) 0 3 0 0 0 0;
T (-37) 0 2 1 2 0 2 0 0 0 0 0 0 0 0 0;
T (-37) 0 0 0 2 2 0 0 0 0 0 0 0 0 0 0;
T 37 0 1 (-1) 2 0 1 0 0 0 0 0 0 0 0 0;
T (-37) (-1) 0 0 0 0 0 0 0 2 0 (-2) 0 0 0 0;
T 15 (-24) 0 0 0 0 0 0 0 1 0 (-2) 0 0 0 0;
T 39 0 0 3 2 (-2) 2 0 0 0 0 0 0 0 0 0;
T (-39) 0 2 0 0 (-2) 0 0 0 (-2) 0 2 0 0 0 0;
T (-40) 0 0 1 (-2) (-2) (-1) 0 0 0 0 0 0 0 0 0;
T 40 0 1 0 2 (-4) 1 0 0 0 0 0 0 0 0 0;
T 2 39 0 0 2 (-2) 1 0 (-5) 6 0 0 0 0 0 0;
T (-41) 0 0 0 0 0 0 0 2 (-4) 0 0 0 0 0 (-2);
T 41 0 1 (-1) (-2) 0 (-2) 0 0 0 0 0 0 0 0 0;
T (-42) 0 1 1 (-2) (-2) (-1) 0 0 0 0 0 0 0 0 0;
T 42 0 0 0 0 2 2 0 0 0 0 0 0 0 0 0;
T 44 0 0 0 0 0 0 0 4 (-6) 0 0 0 0 0 (-2);
T 43 0 2 (-1) 2 0 2 0 0 0 0 0 0 0 0 0;
T (-44) 0 1 (-1) 0 2 0 0 0 0 0 0 0 0 0 0;
T (-44) 0 1 0 0 2 (-1) 0 0 0 0 0 0 0 0 0;
T (-44) 0 0 0 0 4 0 0 0 0 0 0 0 0 0 0;
T 45 0 3 0 2 0 1 0 0 0 0 0 0 0 0 0;
T (-3) 43 0 0 1 (-1) 1 0 0 (-1) 0 2 (-5) 0 0 0;
T (-47) 0 1 (-1) 0 0 1 0 0 0 0 0 0 0 0 0;
T (-46) (-1) 0 0 0 0 0 0 0 3 0 (-1) 0 0 0 2;
T (-48) 0 0 1 2 2 2 0 0 0 0 0 0 0 0 0;
T (-11) 37 0 0 0 0 0 0 0 6 (-8) 3 0 0 0 2;
T (-11) 37 0 0 0 0 0 0 0 2 (-8) 3 0 0 0 (-2);
T (-50) 0 0 1 0 1 0 0 0 0 0 0 0 0 0 0;
T (-21) (-30) 0 0 0 0 0 0 8 (-13) 0 0 0 0 0 0;
T 51 0 1 (-1) (-2) (-2) (-2) 0 0 0 0 0 0 0 0 0;
T 51 0 1 0 (-2) 2 0 0 0 0 0 0 0 0 0 0;
T 52 0 1 1 0 (-2) 1 0 0 0 0 0 0 0 0 0;
T 53 0 0 1 0 0 (-2) 0 0 0 0 0 0 0 0 0;
T (-52) 0 2 0 0 2 0 0 0 0 0 0 0 0 0 0;
T 52 0 1 (-1) 2 2 2 0 0 0 0 0 0 0 0 0;
T (-53) 0 1 (-1) 0 (-1) (-2) 0 0 0 0 0 0 0 0 0;
T 53 0 0 0 0 0 0 0 2 (-2) 0 0 0 0 0 0;
T 44 (-11) 0 0 0 0 0 0 0 0 0 2 (-5) 0 0 0;
T (-1) (-55) 0 0 0 0 0 0 2 (-3) 0 0 0 0 0 0;
T 38 (-19) 0 0 0 0 0 0 8 (-13) 0 0 0 0 0 (-1);
T 57 0 1 0 (-2) (-2) 0 0 0 0 0 0 0 0 0 0;
T 59 0 0 1 2 (-2) 0 0 0 0 0 0 0 0 0 0;
T (-59) 0 0 1 (-2) 0 (-1) 0 0 0 0 0 0 0 0 0;
T (-59) 0 0 0 2 0 (-1) 0 0 0 0 0 0 0 0 0;
T 60 0 0 1 0 2 0 0 0 0 0 0 0 0 0 0;
T 62 0 0 0 2 4 2 0 0 0 0 0 0 0 0 0;
T 63 0 0 0 2 (-1) 2 0 0 0 0 0 0 0 0 0;
T (-63) 0 0 1 0 0 2 0 0 0 0 0 0 0 0 0;
T (-64) 0 2 0 (-2) 0 1 0 0 0 0 0 0 0 0 0;
T 66 0 1 1 0 (-2) (-1) 0 0 0 0 0 0 0 0 0;
T 68 0 1 0 2 (-2) 0 0 0 0 0 0 0 0 0 0;
T (-73) 0 0 1 2 0 1 0 0 0 0 0 0 0 0 0;
T 74 0 0 0 2 (-2) (-1) 0 0 0 0 0 0 0 0 0;
T 78 0 0 1 (-2) 2 0 0 0 0 0 0 0 0 0 0;
T 40 (-38) 0 0 0 0 0 0 0 1 (-2) 0 0 0 0 0;
T 41 39 0 0 0 0 1 0 0 (-1) 2 0 0 0 0 0;
T (-82) 0 0 0 4 (-2) 2 0 0 0 0 0 0 0 0 0;
T (-83) 0 3 0 2 (-2) 2 0 0 0 0 0 0 0 0 0;
T (-84) 0 1 (-1) 0 (-2) 0 0 0 0 0 0 0 0 0 0;
T 86 0 1 0 0 2 1 0 0 0 0 0 0 0 0 0;
T (-90) 0 2 1 0 (-2) 0 0 0 0 0 0 0 0 0 0;
T (-91) 0 2 0 2 (-2) 1 0 0 0 0 0 0 0 0 0;
T 0 93 1 0 (-1) 0 (-1) 0 0 0 0 0 0 0 0 0;
T 91 2 1 0 0 (-1) (-1) 0 0 0 0 0 0 0 0 0;
T 98 (-1) 2 0 2 2 2 0 0 0 0 0 0 0 0 0;
T 102 0 1 0 (-4) 0 (-2) 0 0 0 0 0 0 0 0 0;
T 104 0 0 0 0 0 0 0 0 0 0 2 0 0 0 2;
T (-108) 0 2 0 (-2) (-4) (-2) 0 0 0 0 0 0 0 0 0;
T 109 3 0 0 0 0 0 0 0 1 0 (-1) 0 0 0 0;
T (-114) 0 0 2 (-2) 2 (-1) 0 0 0 0 0 0 0 0 0;
T 114 0 2 0 0 (-4) 0 0 0 0 0 0 0 0 0 0;
T (-115) 0 1 1 2 (-2) 2 0 0 0 0 0 0 0 0 0;
T 117 0 1 (-1) 0 (-1) (-1) 0 0 0 0 0 0 0 0 0;
T 118 (-1) 1 0 2 2 1 0 0 0 0 0 0 0 0 0;
T 119 0 1 0 0 (-4) 0 0 0 0 0 0 0 0 0 0;
T 123 0 2 0 (-2) (-2) (-2) 0 0 0 0 0 0 0 0 0;
T 124 0 1 0 0 0 (-2) 0 0 0 0 0 0 0 0 0;
T (-128) 0 0 0 0 0 0 0 0 8 (-16) 4 5 0 0 0;
T (-132) 0 0 0 0 0 0 0 1 (-1) 0 0 0 0 0 0;
T (-135) (-1) 1 0 (-2) (-4) (-2) 0 0 0 0 0 0 0 0 0;
T (-140) 1 3 0 0 0 0 0 0 0 0 0 0 0 0 0;
T (-148) 0 0 0 2 1 2 0 0 0 0 0 0 0 0 0;
T (-107) (-53) 0 0 1 (-1) 1 0 (-8) 12 0 0 0 0 0 0;
T 176 0 1 0 0 0 2 0 0 0 0 0 0 0 0 0;
T 0 177 0 1 (-1) 1 (-1) 0 0 0 0 0 0 0 0 0;
T (-177) 1 1 0 (-2) 2 (-1) 0 0 0 0 0 0 0 0 0;
T (-184) 0 0 0 0 0 0 0 3 (-5) 0 0 0 0 0 (-2);
T 41 (-143) 0 0 0 0 0 0 0 4 (-8) 3 0 0 0 0;
T (-194) 0 2 0 0 0 1 0 0 0 0 0 0 0 0 0;
T (-204) 1 2 0 0 0 (-1) 0 0 0 0 0 0 0 0 0;
T (-221) 1 1 1 2 0 2 0 0 0 0 0 0 0 0 0;
T (-235) (-1) 0 1 (-2) (-2) (-2) 0 0 0 0 0 0 0 0 0;
T (-251) (-1) 1 1 (-2) (-2) (-2) 0 0 0 0 0 0 0 0 0;
T 256 (-1) 1 (-1) 2 0 2 0 0 0 0 0 0 0 0 0;
T 258 (-1) 3 0 2 0 2 0 0 0 0 0 0 0 0 0;
T (-273) 0 2 0 (-2) 0 (-2) 0 0 0 0 0 0 0 0 0;
T 291 0 1 (-1) 0 (-1) 0 0 0 0 0 0 0 0 0 0;
T (-297) 1 1 0 2 0 0 0 0 0 0 0 0 0 0 0;
T 301 0 1 1 0 0 0 0 0 0 0 0 0 0 0 0;
T (-318) 0 0 1 2 (-2) 1 0 0 0 0 0 0 0 0 0;
T (-128) (-214) 0 0 0 0 0 0 0 0 0 2 (-5) 0 0 (-1);
T (-361) 0 1 0 (-2) 0 0 0 0 0 0 0 0 0 0 0;
T (-362) 0 2 0 0 (-2) 1 0 0 0 0 0 0 0 0 0;
T 376 0 0 0 0 1 0 0 0 0 0 0 0 0 0 0;
T 387 1 0 1 0 (-2) 0 0 0 0 0 0 0 0 0 0;
T 358 31 1 0 0 (-1) 0 0 0 0 0 0 0 0 0 0;
T (-420) 1 1 (-1) 0 0 0 0 0 0 0 0 0 0 0 0;
T (-422) 0 0 1 (-2) 2 (-1) 0 0 0 0 0 0 0 0 0;
T (-440) 2 0 0 0 2 (-1) 0 0 0 0 0 0 0 0 0;
T 476 (-2) 2 0 2 0 1 0 0 0 0 0 0 0 0 0;
T (-514) 1 2 0 0 (-2) (-1) 0 0 0 0 0 0 0 0 0;
T (-516) 0 1 0 2 (-2) 1 0 0 0 0 0 0 0 0 0;
T 560 0 0 0 0 2 1 0 0 0 0 0 0 0 0 0;
T (-573) 1 2 0 2 (-2) 2 0 0 0 0 0 0 0 0 0;
T (-585) 2 1 0 0 2 0 0 0 0 0 0 0 0 0 0;
T 590 (-2) 0 0 2 2 1 0 0 0 0 0 0 0 0 0;
T (-635) (-1) 0 1 (-2) 0 (-2) 0 0 0 0 0 0 0 0 0;
T 654 1 1 1 0 (-2) 0 0 0 0 0 0 0 0 0 0;
T (-673) 1 0 1 2 0 2 0 0 0 0 0 0 0 0 0;
T 684 (-4) 1 0 2 2 2 0 0 0 0 0 0 0 0 0;
T 274 (-456) 0 0 1 (-1) 1 0 0 (-1) 0 (-2) 5 0 0 0;
T (-908) (-2) 1 0 (-2) (-2) (-1) 0 0 0 0 0 0 0 0 0;
T (-981) 1 2 0 (-2) 0 0 0 0 0 0 0 0 0 0 0;
T (-1133) (-6) 0 1 0 0 (-1) 0 0 0 0 0 0 0 0 0;
T 1146 3 1 0 0 (-2) 1 0 0 0 0 0 0 0 0 0;
T 1244 (-27) 0 1 0 0 1 0 0 0 0 0 0 0 0 0;
T 1349 (-1) 1 0 0 (-2) (-1) 0 0 0 0 0 0 0 0 0;
T (-1486) (-9) 0 2 0 0 0 0 0 0 0 0 0 0 0 0;
T 1818 (-1) 1 0 (-2) 0 (-1) 0 0 0 0 0 0 0 0 0;
T 1405 (-419) 0 2 2 (-2) 2 0 0 0 0 0 0 0 0 0;
T 1937 (-1) 0 0 2 (-2) 0 0 0 0 0 0 0 0 0 0;
T (-2302) 6 0 0 2 0 0 0 0 0 0 0 0 0 0 0;
T (-2601) 7 2 0 0 0 0 0 0 0 0 0 0 0 0 0;
T (-2543) 100 1 0 2 (-2) 2 0 0 0 0 0 0 0 0 0;
T 2761 (-122) 2 0 2 0 2 0 0 0 0 0 0 0 0 0;
T 2889 0 0 2 (-2) 2 (-2) 0 0 0 0 0 0 0 0 0;
T 3430 (-125) 0 0 2 2 2 0 0 0 0 0 0 0 0 0;
T 4082 (-102) 2 0 (-2) 0 (-1) 0 0 0 0 0 0 0 0 0;
T (-4245) 2 2 0 0 (-2) 0 0 0 0 0 0 0 0 0 0;
T 4591 (-12) 1 0 2 0 1 0 0 0 0 0 0 0 0 0;
T (-5160) 16 1 0 0 0 (-1) 0 0 0 0 0 0 0 0 0;
T (-5305) (-124) 1 0 (-2) (-2) (-2) 0 0 0 0 0 0 0 0 0;
T (-5617) (-1) 1 0 0 0 1 0 0 0 0 0 0 0 0 0;
T (-5637) 13 0 0 0 2 0 0 0 0 0 0 0 0 0 0;
T 10981 320 1 0 (-2) 0 (-2) 0 0 0 0 0 0 0 0 0;
T (-11394) (-104) 0 0 2 (-2) 1 0 0 0 0 0 0 0 0 0;
T 13964 15 1 0 0 (-2) 0 0 0 0 0 0 0 0 0 0;
T 19206 2983 0 1 (-2) 2 (-2) 0 0 0 0 0 0 0 0 0;
T 26814 (-706) 1 0 2 0 2 0 0 0 0 0 0 0 0 0;
T 34450 141 0 0 2 0 1 0 0 0 0 0 0 0 0 0;
T 45968 (-6730) 0 1 2 (-2) 2 0 0 0 0 0 0 0 0 0;
T (-63254) 78 1 0 0 0 0 0 0 0 0 0 0 0 0 0;
T (-131221) (-2893) 0 1 0 0 0 0 0 0 0 0 0 0 0 0;
T (-183732) 4800 0 0 0 0 2 0 0 0 0 0 0 0 0 0;
T 202468 (-5126) 0 0 2 0 2 0 0 0 0 0 0 0 0 0;
T 1171449 (-29091) 0 0 2 (-2) 2 0 0 0 0 0 0 0 0 0;
T 15304179 85332 0 0 0 0 1 0 0 0 0 0 0 0 0 0].

(** ycip06a.cpp:1300-1331 *)
Definition Y2 : list row := [
T 2 8 0 1 2 0 2 0 0 0 0 0 0 0 0 0;
T (-7) (-4) 0 0 1 (-1) 1 0 0 (-1) 0 (-2) 5 0 0 0;
T 0 (-13) 1 0 (-2) (-2) (-1) 0 0 0 0 0 0 0 0 0;
T 1 (-16) 0 1 0 0 (-1) 0 0 0 0 0 0 0 0 0;
T 1 (-17) 1 0 0 (-2) 1 0 0 0 0 0 0 0 0 0;
T 1 20 1 0 0 (-2) (-1) 0 0 0 0 0 0 0 0 0;
T 2 (-21) 0 1 0 0 1 0 0 0 0 0 0 0 0 0;
T 7 17 1 0 0 0 0 0 0 0 0 0 0 0 0 0;
T (-7) (-17) 0 2 2 (-2) 2 0 0 0 0 0 0 0 0 0;
T 1 27 1 0 (-2) 0 (-1) 0 0 0 0 0 0 0 0 0;
T 1 31 1 0 2 (-2) 2 0 0 0 0 0 0 0 0 0;
T (-1) (-33) 2 0 2 0 2 0 0 0 0 0 0 0 0 0;
T (-1) 35 0 2 (-2) 2 (-2) 0 0 0 0 0 0 0 0 0;
T (-1) (-41) 0 0 2 2 2 0 0 0 0 0 0 0 0 0;
T 4 61 2 0 (-2) 0 (-1) 0 0 0 0 0 0 0 0 0;
T 0 (-64) 1 0 (-2) (-2) (-2) 0 0 0 0 0 0 0 0 0;
T 3 (-66) 1 0 2 0 1 0 0 0 0 0 0 0 0 0;
T (-5) (-79) 1 0 0 0 (-1) 0 0 0 0 0 0 0 0 0;
T (-4) 83 1 0 0 0 1 0 0 0 0 0 0 0 0 0;
T (-2) 133 1 0 (-2) 0 (-2) 0 0 0 0 0 0 0 0 0;
T (-10) 173 0 0 2 (-2) 1 0 0 0 0 0 0 0 0 0;
T (-48) 240 0 1 (-2) 2 (-2) 0 0 0 0 0 0 0 0 0;
T (-4) (-323) 1 0 2 0 2 0 0 0 0 0 0 0 0 0;
T 24 (-502) 0 0 2 0 1 0 0 0 0 0 0 0 0 0;
T 357 (-183) 0 1 0 0 0 0 0 0 0 0 0 0 0 0;
T (-119) (-561) 0 1 2 (-2) 2 0 0 0 0 0 0 0 0 0;
T 24 2241 0 0 0 0 2 0 0 0 0 0 0 0 0 0;
T (-28) (-2446) 0 0 2 0 2 0 0 0 0 0 0 0 0 0;
T (-103) (-14327) 0 0 2 (-2) 2 0 0 0 0 0 0 0 0 0;
T 12056 (-230127) 0 0 0 0 1 0 0 0 0 0 0 0 0 0].

(** ycip06a.cpp:1338-1344 *)
Definition Y3 : list row := [
T 13 0 0 1 0 0 0 0 0 0 0 0 0 0 0 0;
T 18 0 0 0 0 0 2 0 0 0 0 0 0 0 0 0;
T (-20) 0 0 0 2 0 2 0 0 0 0 0 0 0 0 0;
T (-116) (-1) 0 0 2 (-2) 2 0 0 0 0 0 0 0 0 0;
T (-1522) (-161) 0 0 0 0 1 0 0 0 0 0 0 0 0 0].

(** ycip06a.cpp:1346-1348 *)
Definition Y4 : list row := [
T (-2) 11 0 0 0 0 1 0 0 0 0 0 0 0 0 0].
