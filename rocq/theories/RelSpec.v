(** What C49 talks about: IERS Conventions (2010), (10.12). *)
From Coq Require Import Reals.
From Verif Require Import Vec.
Open Scope R_scope.

(** [r], [v]: satellite with respect to the Earth; [Rr], [Rv]: Earth with respect to the Sun; [J]: angular momentum of the Earth per unit mass *)
Definition schwarzschild_term (GM c beta gamma : R) (r v : v3) : v3 :=
  vmul (GM / (c ^ 2 * len r ^ 3)) (vplus (vmul (2 * (beta + gamma) * (GM / len r) - gamma * dot v v) r) (vmul (2 * (1 + gamma) * dot r v) v)).
Definition lense_thirring_term (GM c gamma : R) (J r v : v3) : v3 :=
  vmul ((1 + gamma) * (GM / (c ^ 2 * len r ^ 3))) (vplus (vmul (3 / len r ^ 2 * dot r J) (cross r v)) (cross v J)).
Definition de_sitter_term (GMsun c gamma : R) (Rr Rv v : v3) : v3 :=
  vmul (1 + 2 * gamma) (cross (cross Rv (vmul (- GMsun / (c ^ 2 * len Rr ^ 3)) Rr)) v).
Definition acceleration_10_12 (GM GMsun c beta gamma : R) (J r v Rr Rv : v3) : v3 :=
  vplus (vplus (schwarzschild_term GM c beta gamma r v) (lense_thirring_term GM c gamma J r v)) (de_sitter_term GMsun c gamma Rr Rv v).
(** rotations of the frame about the z axis *)
Definition turn_z (a : R) (v : v3) : v3 := mk3 (cos a * p1 v - sin a * p2 v) (sin a * p1 v + cos a * p2 v) (p3 v).
