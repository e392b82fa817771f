(** Tables of src/lib/iau/s06.cpp. Coefficients in units of 0.01 microarcseconds. *)
From Coq Require Import ZArith List.
From Verif Require Import CipRow.
Import ListNotations.
Open Scope Z_scope.

(** s06.cpp:45-145; 38 elements, of which 5 have no initialiser *)
Definition C0 : list row := [
T (-11) 0 1 0 (-2) 0 (-1) 0 0 0 0 0 0 0 0 0;
T (-11) 0 1 0 (-2) 0 (-3) 0 0 0 0 0 0 0 0 0;
T 11 0 0 0 2 (-2) 4 0 0 0 0 0 0 0 0 0;
T (-13) 0 0 0 4 (-2) 4 0 0 0 0 0 0 0 0 0;
T (-14) 0 1 0 0 (-2) (-1) 0 0 0 0 0 0 0 0 0;
T (-14) 0 1 0 0 (-2) 1 0 0 0 0 0 0 0 0 0;
T 14 0 0 1 2 (-2) 2 0 0 0 0 0 0 0 0 0;
T 14 0 2 0 (-2) 0 (-1) 0 0 0 0 0 0 0 0 0;
T (-15) 0 0 0 0 2 0 0 0 0 0 0 0 0 0 0;
T 10 (-5) 0 0 0 0 0 0 8 (-13) 0 0 0 0 0 (-1);
T (-18) 0 0 1 (-2) 2 (-1) 0 0 0 0 0 0 0 0 0;
T (-19) 0 0 1 (-2) 2 (-3) 0 0 0 0 0 0 0 0 0;
T 21 0 0 0 2 (-2) 0 0 0 0 0 0 0 0 0 0;
T (-26) 0 1 0 2 0 1 0 0 0 0 0 0 0 0 0;
T (-27) 0 1 0 2 0 3 0 0 0 0 0 0 0 0 0;
T (-28) 0 0 0 2 0 2 0 0 0 0 0 0 0 0 0;
T (-32) 0 0 0 2 0 0 0 0 0 0 0 0 0 0 0;
T 24 12 0 0 1 (-1) 1 0 (-8) 12 0 0 0 0 0 0;
T (-36) 0 0 0 4 (-4) 4 0 0 0 0 0 0 0 0 0;
T (-45) 0 0 1 2 (-2) 1 0 0 0 0 0 0 0 0 0;
T (-46) 0 0 1 2 (-2) 3 0 0 0 0 0 0 0 0 0;
T 63 0 1 0 0 0 1 0 0 0 0 0 0 0 0 0;
T 63 0 1 0 0 0 (-1) 0 0 0 0 0 0 0 0 0;
T 126 1 0 1 0 0 (-1) 0 0 0 0 0 0 0 0 0;
T 141 1 0 1 0 0 1 0 0 0 0 0 0 0 0 0;
T 172 0 0 0 0 0 3 0 0 0 0 0 0 0 0 0;
T (-198) 0 0 0 2 0 1 0 0 0 0 0 0 0 0 0;
T (-202) 0 0 0 2 0 3 0 0 0 0 0 0 0 0 0;
T 457 0 0 0 2 (-2) 2 0 0 0 0 0 0 0 0 0;
T (-1121) (-1) 0 0 2 (-2) 1 0 0 0 0 0 0 0 0 0;
T (-1175) (-1) 0 0 2 (-2) 3 0 0 0 0 0 0 0 0 0;
T (-6353) 2 0 0 0 0 2 0 0 0 0 0 0 0 0 0;
T (-264073) 39 0 0 0 0 1 0 0 0 0 0 0 0 0 0;
T 0 0 0 0 0 0 0 0 0 0 0 0 0 0 0 0;
T 0 0 0 0 0 0 0 0 0 0 0 0 0 0 0 0;
T 0 0 0 0 0 0 0 0 0 0 0 0 0 0 0 0;
T 0 0 0 0 0 0 0 0 0 0 0 0 0 0 0 0;
T 0 0 0 0 0 0 0 0 0 0 0 0 0 0 0 0].

(** s06.cpp:152-162 *)
Definition C1 : list row := [
T 0 48 0 0 2 (-2) 3 0 0 0 0 0 0 0 0 0;
T 173 (-3) 0 0 0 0 1 0 0 0 0 0 0 0 0 0;
T (-7) 357 0 0 0 0 2 0 0 0 0 0 0 0 0 0].

(** s06.cpp:169-245 *)
Definition C2 : list row := [
T (-11) 0 0 0 2 0 0 0 0 0 0 0 0 0 0 0;
T (-12) 0 1 0 2 (-2) 2 0 0 0 0 0 0 0 0 0;
T (-13) 0 2 0 0 0 0 0 0 0 0 0 0 0 0 0;
T 13 0 2 0 2 0 2 0 0 0 0 0 0 0 0 0;
T 17 0 0 0 2 2 2 0 0 0 0 0 0 0 0 0;
T 20 0 2 0 (-2) 0 (-1) 0 0 0 0 0 0 0 0 0;
T (-21) 0 2 0 0 (-2) 0 0 0 0 0 0 0 0 0 0;
T 22 0 1 0 2 0 1 0 0 0 0 0 0 0 0 0;
T (-25) 0 1 0 0 0 (-1) 0 0 0 0 0 0 0 0 0;
T (-26) 0 1 0 (-2) (-2) (-2) 0 0 0 0 0 0 0 0 0;
T (-27) 0 1 0 0 0 1 0 0 0 0 0 0 0 0 0;
T (-27) 0 0 0 0 2 0 0 0 0 0 0 0 0 0 0;
T 53 0 1 0 (-2) 0 (-2) 0 0 0 0 0 0 0 0 0;
T (-55) 0 0 0 2 (-2) 1 0 0 0 0 0 0 0 0 0;
T 68 0 1 0 0 (-2) 0 0 0 0 0 0 0 0 0 0;
T 93 0 0 1 (-2) 2 (-2) 0 0 0 0 0 0 0 0 0;
T 130 0 1 0 2 0 2 0 0 0 0 0 0 0 0 0;
T 167 0 0 0 2 0 1 0 0 0 0 0 0 0 0 0;
T 223 0 0 1 2 (-2) 2 0 0 0 0 0 0 0 0 0;
T (-307) 0 1 0 0 0 0 0 0 0 0 0 0 0 0 0;
T (-638) (-5) 0 1 0 0 0 0 0 0 0 0 0 0 0 0;
T (-885) 1 0 0 0 0 2 0 0 0 0 0 0 0 0 0;
T 984 (-1) 0 0 2 0 2 0 0 0 0 0 0 0 0 0;
T 5691 6 0 0 2 (-2) 2 0 0 0 0 0 0 0 0 0;
T 74352 (-17) 0 0 0 0 1 0 0 0 0 0 0 0 0 0].

(** s06.cpp:252-265 *)
Definition C3 : list row := [
T 0 23 0 0 0 0 2 0 0 0 0 0 0 0 0 0;
T (-1) (-25) 0 0 2 0 2 0 0 0 0 0 0 0 0 0;
T (-3) (-146) 0 0 2 (-2) 2 0 0 0 0 0 0 0 0 0;
T 30 (-2342) 0 0 0 0 1 0 0 0 0 0 0 0 0 0].

(** s06.cpp:267-271 *)
Definition C4 : list row := [
T (-26) (-1) 0 0 0 0 1 0 0 0 0 0 0 0 0 0].
