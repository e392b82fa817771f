(** What C43 to C45 talk about: IERS Conventions (2010), chapter 5. *)
From Coq Require Import Reals.
From Verif Require Import Vec.
Open Scope R_scope.

(** rotations of the axes *)
Definition R1 (t : R) : m33 := mkM (mk3 1 0 0) (mk3 0 (cos t) (sin t)) (mk3 0 (- sin t) (cos t)).
Definition R2 (t : R) : m33 := mkM (mk3 (cos t) 0 (- sin t)) (mk3 0 1 0) (mk3 (sin t) 0 (cos t)).
Definition R3 (t : R) : m33 := mkM (mk3 (cos t) (sin t) 0) (mk3 (- sin t) (cos t) 0) (mk3 0 0 1).
Definition proper (A : m33) : Prop := mmul A (transp A) = ident /\ mmul (transp A) A = ident /\ det A = 1.
(** (5.3), (5.5), (5.6): GCRS = QQ R W ITRS *)
Definition WW (xp yp sp : R) : m33 := mmul (mmul (R3 (- sp)) (R2 xp)) (R1 yp).
Definition RR (era : R) : m33 := R3 (- era).
Definition QQ (d e s : R) : m33 := mmul (mmul (mmul (R3 (- e)) (R2 (- d))) (R3 e)) (R3 s).
Definition crs_from_trs (era s sp d e xp yp : R) : m33 := mmul (mmul (QQ d e s) (RR era)) (WW xp yp sp).
(** direction of the celestial pole: (5.7) *)
Definition pole_dir (d e : R) : v3 := mk3 (sin d * cos e) (sin d * sin e) (cos d).
Definition ez : v3 := mk3 0 0 1.
(** derivative of a matrix depending on time *)
Definition mat_lim (M : R -> m33) (t : R) (D : m33) : Prop :=
  curve_lim (fun x => row1 (M x)) t (row1 D) /\ curve_lim (fun x => row2 (M x)) t (row2 D) /\ curve_lim (fun x => row3 (M x)) t (row3 D).
