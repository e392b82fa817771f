(** Fully normalised associated Legendre functions, from Rodrigues' formula. *)
From Coq Require Import Reals List Lia Lra.
From Verif Require Import Poly.
Import ListNotations.
Open Scope R_scope.

(** derivative of a polynomial *)
Fixpoint pd (c : list R) : list R :=
  match c with [] => [] | [_] => [] | _ :: r => padd r (0 :: pd r) end.
Definition pscale (k : R) (c : list R) : list R := map (Rmult k) c.
Fixpoint pmul (a b : list R) : list R := match a with [] => [] | x :: r => padd (pscale x b) (0 :: pmul r b) end.
Fixpoint ppow (a : list R) (n : nat) : list R := match n with O => [1] | S k => pmul a (ppow a k) end.
Fixpoint iterate (k : nat) (f : list R -> list R) (c : list R) : list R := match k with O => c | S j => f (iterate j f c) end.
(** (x^2 - 1)^n / (2^n n!) *)
Definition rod (n : nat) : list R := pscale (/ (2 ^ n * INR (fact n))) (ppow [-1; 0; 1] n).
(** its (n+m)-th derivative: the m-th derivative of the Legendre polynomial of degree n *)
Definition legendre (n m : nat) (x : R) : R := peval (iterate (n + m) pd (rod n)) x.
Definition norm (n m : nat) : R := sqrt ((if Nat.eqb m 0 then 1 else 2) * INR (2 * n + 1) * INR (fact (n - m)) / INR (fact (n + m))).
(** at latitude theta *)
Definition Pbar (n m : nat) (theta : R) : R := norm n m * cos theta ^ m * legendre n m (sin theta).
