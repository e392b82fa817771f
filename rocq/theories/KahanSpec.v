(** What C51 talks about: real numbers. *)
From Coq Require Import Reals List.
Import ListNotations.
Open Scope R_scope.

Definition exact_sum (l : list R) : R := fold_right Rplus 0 l.
Definition abs_sum (l : list R) : R := exact_sum (map Rabs l).
(** unit roundoff of binary64 *)
Definition unit_roundoff : R := / 2 ^ 53.
