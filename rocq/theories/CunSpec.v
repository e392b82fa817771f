(** Exterior solid harmonics and the geopotential, independent of the program. *)
From Coq Require Import Reals List Lia Lra.
From Verif Require Import Poly AlfSpec.
Import ListNotations.
Open Scope R_scope.

Definition rad (x y z : R) : R := sqrt (x * x + y * y + z * z).
(** (x + i y)^m *)
Fixpoint cpow (m : nat) (x y : R) : R * R :=
  match m with O => (1, 0) | S k => let (a, b) := cpow k x y in (x * a - y * b, y * a + x * b) end.
(** (1/r)^(n+1) P(n,m)(z/r) cos(m lambda), sin(m lambda): without normalisation *)
Definition radial (n m : nat) (x y z : R) : R := legendre n m (z / rad x y z) / rad x y z ^ (n + m + 1).
Definition solid_v (n m : nat) (x y z : R) : R := fst (cpow m x y) * radial n m x y z.
Definition solid_w (n m : nat) (x y z : R) : R := snd (cpow m x y) * radial n m x y z.
(** fully normalised *)
Definition Vn (n m : nat) (x y z : R) : R := norm n m * solid_v n m x y z.
Definition Wn (n m : nat) (x y z : R) : R := norm n m * solid_w n m x y z.

(** sums over 0 <= n <= N *)
Fixpoint upto_sum (f : nat -> R) (n : nat) : R := match n with O => f O | S k => upto_sum f k + f n end.
(** potential of degree N and order O; C, S: normalised coefficients *)
Definition geopotential (GM Re : R) (N O : nat) (C S : nat -> nat -> R) (x y z : R) : R :=
  GM / Re * upto_sum (fun n => upto_sum (fun m => C n m * Vn n m (x / Re) (y / Re) (z / Re) + S n m * Wn n m (x / Re) (y / Re) (z / Re)) (min n O)) N.
(** partial derivatives *)
Definition d_dx (f : R -> R -> R -> R) (x y z v : R) : Prop := derivable_pt_lim (fun s => f s y z) x v.
Definition d_dy (f : R -> R -> R -> R) (x y z v : R) : Prop := derivable_pt_lim (fun s => f x s z) y v.
Definition d_dz (f : R -> R -> R -> R) (x y z v : R) : Prop := derivable_pt_lim (fun s => f x y s) z v.
(** mixed second derivatives: first [d], at every point but the origin, then along one axis *)
Definition away (x y z : R) : Prop := 0 < x * x + y * y + z * z.
Definition then_dx (d : (R -> R -> R -> R) -> R -> R -> R -> R -> Prop) (f : R -> R -> R -> R) (x y z v : R) : Prop :=
  exists g, (forall x y z, away x y z -> d f x y z (g x y z)) /\ d_dx g x y z v.
Definition then_dy (d : (R -> R -> R -> R) -> R -> R -> R -> R -> Prop) (f : R -> R -> R -> R) (x y z v : R) : Prop :=
  exists g, (forall x y z, away x y z -> d f x y z (g x y z)) /\ d_dy g x y z v.
Definition then_dz (d : (R -> R -> R -> R) -> R -> R -> R -> R -> Prop) (f : R -> R -> R -> R) (x y z v : R) : Prop :=
  exists g, (forall x y z, away x y z -> d f x y z (g x y z)) /\ d_dz g x y z v.
