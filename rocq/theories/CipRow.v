(** Rows of the series of the celestial intermediate pole and origin: src/lib/iau/s06.cpp:12-18,
    src/lib/iau/xcip06a.cpp:12-18, src/lib/iau/ycip06a.cpp:12-18, src/lib/iau/xycip06a_xy.cpp:16-44.
    Coefficients are whole multiples of 0.01 microarcseconds and are kept as such. *)
From Coq Require Import ZArith List.
Import ListNotations.
Open Scope Z_scope.

(** sine and cosine coefficient, the fourteen multipliers l l' F D Om L_Me L_Ve L_E L_Ma L_J L_Sa L_U L_Ne p_A *)
Record row := mkRow { csin : Z; ccos : Z; mult : list Z }.
Definition T (s c l l' f d o me ve e ma j sa u ne pa : Z) : row := mkRow s c [l; l'; f; d; o; me; ve; e; ma; j; sa; u; ne; pa].
(** xycip06a_xy.cpp:16-22: five multipliers, number of rows for X and for Y *)
Record freq := mkFreq { fmult : list Z; fnx : Z; fny : Z }.
Definition Q (l l' f d o nx ny : Z) : freq := mkFreq [l; l'; f; d; o] nx ny.
(** xycip06a_xy.cpp:34-44: sum of the planetary multipliers, the nine of them, the coefficients, power of t *)
Record plrow := mkPl { sumpl : Z; pmult : list Z; psin : Z; pcos : Z; ppow : Z }.
Definition P (n me ve e ma j sa u ne pa s c p : Z) : plrow := mkPl n [me; ve; e; ma; j; sa; u; ne; pa] s c p.
