(** Newtonian attraction by a point mass, in a frame whose origin is attracted as well. *)
From Coq Require Import Reals.
From Verif Require Import Vec.
Open Scope R_scope.

(** attraction at [r] by a body at [b] *)
Definition newton (GM : R) (b r : v3) : v3 := vmul (GM / len (vminus b r) ^ 3) (vminus b r).
(** disturbing potential *)
Definition disturbing (GM : R) (b r : v3) : R := GM * (1 / len (vminus r b) - dot r b / len b ^ 3).
