(** IERS Conventions 2010, Section 6: theta_f = m (theta_g + pi) - sum N_j F_j; the Delaunay
    multipliers N_j of a constituent in terms of its Doodson multipliers. *)
From Coq Require Import Reals ZArith.
From Verif Require Import Angles DoodsonModel DoodsonArgModel.
Open Scope R_scope.

Definition nl (n : doodson) : Z := n3 n.
Definition nlp (n : doodson) : Z := n5 n.
Definition nF (n : doodson) : Z := (n0 n - n1 n - n2 n - n3 n - n5 n)%Z.
Definition nD (n : doodson) : Z := (n2 n + n5 n)%Z.
Definition nOm (n : doodson) : Z := (n0 n - n1 n - n2 n - n3 n + n4 n - n5 n)%Z.

Definition iers_argument (n : doodson) (F : delaunay) (gmst : R) : R :=
  IZR (n0 n) * (gmst + PI) -
  (IZR (nl n) * el F + IZR (nlp n) * elp F + IZR (nF n) * ef F + IZR (nD n) * ed F + IZR (nOm n) * eom F).

Definition dadd (a b : doodson) : doodson :=
  mkD (n0 a + n0 b) (n1 a + n1 b) (n2 a + n2 b) (n3 a + n3 b) (n4 a + n4 b) (n5 a + n5 b) (pifac a + pifac b).
