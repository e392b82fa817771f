(** Theorems about the program earth_quaternion.cpp: claim C98. *)
From Coq Require Import Reals Lra.
From Verif Require Import Vec RotModel RotSpec QuatTestModel QuatTestProofs.
Open Scope R_scope.

(** SOFA's matrix is that of the conventions, and the quaternion gives the same *)
Theorem c98_sofa era s sp x y xp yp : sofa era s sp x y xp yp = let '(d, e) := xycip2spherical x y in transp (crs_from_trs era s sp d e xp yp).
Proof. exact (sofa_crs era s sp x y xp yp). Qed.
Theorem c98_program era s sp x y xp yp : x * x + y * y < 1 -> fromq era s sp x y xp yp = sofa era s sp x y xp yp.
Proof. exact (fromq_sofa era s sp x y xp yp). Qed.
(** fromq is the function of the library *)
Theorem c98_library era s sp x y xp yp : fromq era s sp x y xp yp = qmat (gcrs2itrs_quaternion era s sp x y xp yp).
Proof. exact (fromq_same era s sp x y xp yp). Qed.
(** compare_pom: the rotation by sp is missing from the quaternion *)
Theorem c98_pom xp yp : pom_matrix xp yp = transp (WW xp yp 0).
Proof. exact (pom_matrix_W xp yp). Qed.
Theorem c98_pom_difference xp yp sp : iauPom00 xp yp sp = mmul (pom_matrix xp yp) (R3 sp).
Proof. exact (pom_difference xp yp sp). Qed.
Theorem c98_pom_equal xp yp sp : pom_matrix xp yp = iauPom00 xp yp sp <-> cos sp = 1.
Proof. exact (pom_equal xp yp sp). Qed.
Theorem c98_pom_refuted : ~ forall xp yp sp, pom_matrix xp yp = iauPom00 xp yp sp.
Proof. intros H. specialize (H 0 0 PI). apply pom_equal in H. rewrite cos_PI in H. lra. Qed.

Example c98_nonvacuous : (3 / 5) * (3 / 5) + 0 * 0 < 1 /\ pom_matrix 0 0 = iauPom00 0 0 0.
Proof. split; [lra|]. apply pom_equal. exact cos_0. Qed.
Print Assumptions c98_sofa.
Print Assumptions c98_program.
Print Assumptions c98_library.
Print Assumptions c98_pom.
Print Assumptions c98_pom_difference.
Print Assumptions c98_pom_equal.
Print Assumptions c98_pom_refuted.
