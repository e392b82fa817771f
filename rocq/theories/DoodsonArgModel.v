(** Doodson variables and tidal arguments over the reals; include/doodson.hpp:292-296, 340-349 *)
From Coq Require Import Reals ZArith.
From Verif Require Import Angles DoodsonModel.
Open Scope R_scope.

(** l, l', F, D, Omega *)
Record delaunay := mkDel { el : R; elp : R; ef : R; ed : R; eom : R }.
(** tau, s, h, p, N', ps *)
Record variables := mkVar { vtau : R; vs : R; vh : R; vp : R; vn : R; vps : R }.

(** include/doodson.hpp:340-349 delaunay2doodson *)
Definition delaunay2doodson (F : delaunay) (gmst : R) : variables :=
  let d1 := anp (ef F + eom F) in
  let d2 := anp (ef F + eom F - ed F) in
  let d3 := anp (ef F + eom F - el F) in
  let d4 := anp (- eom F) in
  let d5 := anp (ef F + eom F - ed F - elp F) in
  let d0 := anp (gmst + PI - d1) in
  mkVar d0 d1 d2 d3 d4 d5.

(** include/doodson.hpp:292-296 argument *)
Definition argument (n : doodson) (f : variables) : R :=
  anp (vtau f * IZR (n0 n) + vs f * IZR (n1 n) + vh f * IZR (n2 n) + vp f * IZR (n3 n) +
       vn f * IZR (n4 n) + vps f * IZR (n5 n)).
