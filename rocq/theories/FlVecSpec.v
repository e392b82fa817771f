(** What C78 talks about besides Newton's attraction (PmSpec.v) and IERS Conventions (10.12) (RelSpec.v). *)
From Coq Require Import Reals.
From Verif Require Import Vec.
Open Scope R_scope.

Definition comp (i : nat) (v : v3) : R := match i with O => p1 v | S O => p2 v | _ => p3 v end.
(** second derivatives of GM / |r - b| with respect to r *)
Definition tidal (GM : R) (b r : v3) (i j : nat) : R :=
  let d := vminus r b in GM * (3 * comp i d * comp j d / len d ^ 5 - (if Nat.eqb i j then 1 else 0) / len d ^ 3).
(** sum of the sizes of the two attractions; of the terms of (10.12), V and W: bounds of the speeds of the satellite and of the Sun, J: of the angular momentum *)
Definition pm_size (GM : R) (b r : v3) : R := Rabs GM * (/ len (vminus r b) ^ 2 + / len b ^ 2).
Definition rel_size (GM GMsun c beta gamma J V W r s : R) : R :=
  / c ^ 2 * (GM / r ^ 2 * (2 * (beta + gamma) * GM / r + (2 + 3 * gamma) * V ^ 2) + 4 * (1 + gamma) * GM * V * J / r ^ 3 + 2 * (1 + 2 * gamma) * GMsun * W * V / s ^ 2).
