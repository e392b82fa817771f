(** Bounds of the rounding errors of acceleration and gradient, in units of 2^-53 GM / Re^2 and 2^-53 GM / Re^3; r: distance from the
    centre in units of Re. *)
From Coq Require Import Reals.
From Verif Require Import CunSpec.
Open Scope R_scope.

(** 2^-199 stands for the loss of products below the range of normal numbers *)
Definition coefficient (C S : nat -> nat -> R) (n m : nat) : R := Rabs (C n m) + Rabs (S n m) + / 2 ^ 199.
(** m D: the number of terms still to be added, about *)
Definition acceleration_error (r : R) (D O : nat) (C S : nat -> nat -> R) : R :=
  upto_sum (fun n => upto_sum (fun m => (217 * INR (n + 2) ^ 2 + 1.01 * INR (m * D)) * (2 * INR (n + 1)) * (sqrt (INR (2 * n + 1)) / r ^ (n + 2)) * coefficient C S n m) (min n O)) D.
Definition gradient_error (r : R) (D O : nat) (C S : nat -> nat -> R) : R :=
  upto_sum (fun n => upto_sum (fun m => (213 * INR (n + 3) ^ 2 + 1.01 * INR (m * D)) * (4 * INR (n + 1) * INR (n + 2)) * (sqrt (INR (2 * n + 1)) / r ^ (n + 3)) * coefficient C S n m) (min n O)) D.
