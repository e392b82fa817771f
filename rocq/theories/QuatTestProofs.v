(** Proofs about earth_quaternion.cpp. *)
From Coq Require Import Reals Lra.
From Verif Require Import Vec RotModel RotSpec RotProofs QuatTestModel.
Open Scope R_scope.

Lemma rx_R1 t A : iauRx t A = mmul (R1 t) A. Proof. reflexivity. Qed.
Lemma ry_R2 t A : iauRy t A = mmul (R2 t) A. Proof. reflexivity. Qed.
Lemma rz_R3 t A : iauRz t A = mmul (R3 t) A. Proof. reflexivity. Qed.
Lemma pom_W xp yp sp : iauPom00 xp yp sp = transp (WW xp yp sp).
Proof.
  unfold iauPom00, iauIr, WW. rewrite rx_R1, ry_R2, rz_R3, mmul_ident, !transp_mmul, transp_R1, transp_R2, transp_R3, Ropp_involutive. reflexivity.
Qed.
Lemma c2ixys_Q x y s : iauC2ixys x y s = let '(d, e) := xycip2spherical x y in transp (QQ d e s).
Proof.
  unfold iauC2ixys, xycip2spherical, iauIr, QQ. cbv zeta. set (e := if Rlt_dec 0 _ then _ else _). set (d := atan _).
  rewrite !rz_R3, ry_R2, mmul_ident, !transp_mmul, !transp_R3, transp_R2, !Ropp_involutive, <- mmul_assoc, <- mmul_assoc, R3_add, mmul_assoc.
  f_equal. f_equal. ring.
Qed.
Lemma sofa_crs era s sp x y xp yp : sofa era s sp x y xp yp = let '(d, e) := xycip2spherical x y in transp (crs_from_trs era s sp d e xp yp).
Proof.
  unfold sofa, iauRxr. rewrite rz_R3, pom_W, c2ixys_Q. destruct (xycip2spherical x y) as [d e]. unfold crs_from_trs, RR.
  rewrite (transp_mmul (mmul _ _) _), (transp_mmul (QQ d e s) _), transp_R3, Ropp_involutive. reflexivity.
Qed.
Lemma fromq_same era s sp x y xp yp : fromq era s sp x y xp yp = qmat (gcrs2itrs_quaternion era s sp x y xp yp).
Proof. reflexivity. Qed.
Lemma fromq_sofa era s sp x y xp yp : x * x + y * y < 1 -> fromq era s sp x y xp yp = sofa era s sp x y xp yp.
Proof.
  intros H. rewrite fromq_same, bz_spherical by exact H. rewrite sofa_crs. destruct (xycip2spherical x y) as [d e]. apply mat_c2i.
Qed.
Lemma R3_0 : R3 0 = ident.
Proof. unfold R3, ident. rewrite cos_0, sin_0, Ropp_0. reflexivity. Qed.
Lemma pom_matrix_W xp yp : pom_matrix xp yp = transp (WW xp yp 0).
Proof.
  rewrite <- mat_tirs2i. unfold pom_matrix. f_equal. unfold tirs2i, qmul, aaX, aaY, aaZ. cbn [qw qx qy qz].
  replace (-0 / 2) with 0 by lra. replace (0 / 2) with 0 by lra. rewrite ?cos_0, ?sin_0.
  replace (- xp / 2) with (- (xp / 2)) by lra. replace (- yp / 2) with (- (yp / 2)) by lra. rewrite ?cos_neg, ?sin_neg. f_equal; ring.
Qed.
Lemma pom_difference xp yp sp : iauPom00 xp yp sp = mmul (pom_matrix xp yp) (R3 sp).
Proof.
  rewrite pom_matrix_W, <- pom_W. unfold iauPom00, iauIr. rewrite !rx_R1, !ry_R2, !rz_R3, !mmul_ident, R3_0, mmul_ident, mmul_assoc. reflexivity.
Qed.
Lemma pom_WtW xp yp : mmul (WW xp yp 0) (transp (WW xp yp 0)) = ident.
Proof.
  rewrite <- pom_matrix_W. assert (E : WW xp yp 0 = transp (pom_matrix xp yp)) by (rewrite pom_matrix_W, transp_transp; reflexivity). rewrite E.
  rewrite pom_matrix_W, <- pom_W. unfold iauPom00, iauIr. rewrite rx_R1, ry_R2, rz_R3, R3_0, !mmul_ident, transp_mmul, transp_R1, transp_R2, !Ropp_involutive.
  rewrite mmul_assoc, <- (mmul_assoc (R1 yp)). replace (mmul (R1 yp) (R1 (- yp))) with ident.
  2:{ pose proof (sin2_cos2 yp) as S. unfold Rsqr in S. comps; cbv [R1]; open; rewrite ?cos_neg, ?sin_neg; nra. }
  rewrite ident_mmul. pose proof (sin2_cos2 xp) as S. unfold Rsqr in S. comps; cbv [R2]; open; rewrite ?cos_neg, ?sin_neg; nra.
Qed.
Lemma pom_equal xp yp sp : pom_matrix xp yp = iauPom00 xp yp sp <-> cos sp = 1.
Proof.
  rewrite pom_difference. split.
  - intros E. apply (f_equal (mmul (WW xp yp 0))) in E. rewrite <- mmul_assoc, pom_matrix_W, pom_WtW, ident_mmul in E.
    apply (f_equal (fun A => p1 (row1 A))) in E. cbn in E. symmetry. exact E.
  - intros E. replace (R3 sp) with ident; [rewrite mmul_ident; reflexivity|]. unfold R3, ident. rewrite E.
    assert (S : sin sp = 0) by (pose proof (sin2_cos2 sp) as H; unfold Rsqr in H; rewrite E in H; nra). rewrite S, Ropp_0. reflexivity.
Qed.
