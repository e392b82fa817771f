(** What C99 talks about. *)
From Coq Require Import Reals.
From Flocq Require Import Core.Core.
Open Scope R_scope.

Definition double (x : R) : Prop := generic_format radix2 (FLT_exp (-1074) 53) x.
(** one second, in seconds and in microseconds *)
Definition usual (x c : R) : Prop := double x /\ Rabs x <= 1 /\ Rabs c <= 10 ^ 6.
(** the correction c in microseconds, in seconds: two roundings *)
Definition correction (c d : R) : Prop := Rabs (d - c / 10 ^ 6) <= 3 * / 2 ^ 53 * Rabs (c / 10 ^ 6) + 2 * / 2 ^ 1074 * (1 + Rabs c).
