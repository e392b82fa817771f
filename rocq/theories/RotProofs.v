(** Proofs about Earth rotation. *)
From Coq Require Import Reals Lra Nsatz.
From Verif Require Import Vec RotModel RotSpec.
Open Scope R_scope.

Lemma m33_eq A B : row1 A = row1 B -> row2 A = row2 B -> row3 A = row3 B -> A = B.
Proof. destruct A, B; cbn; intros; subst; reflexivity. Qed.
Lemma quat_eq a b : qw a = qw b -> qx a = qx b -> qy a = qy b -> qz a = qz b -> a = b.
Proof. destruct a, b; cbn; intros; subst; reflexivity. Qed.
Ltac comps := apply m33_eq; apply v3_eq.
Ltac open := cbv [qmat qmul mmul rowapp app3 transp dot row1 row2 row3 p1 p2 p3 qw qx qy qz ident det cross].

Lemma cs1 t : cos t * cos t + sin t * sin t = 1.
Proof. pose proof (sin2_cos2 t). unfold Rsqr in *. lra. Qed.
Lemma half_cos t : cos t = 1 - 2 * (sin (t / 2) * sin (t / 2)).
Proof. replace t with (2 * (t / 2)) at 1 by field. rewrite cos_2a_sin. ring. Qed.
Lemma half_cos' t : cos t = 2 * (cos (t / 2) * cos (t / 2)) - 1.
Proof. rewrite half_cos. pose proof (cs1 (t / 2)). lra. Qed.
Lemma half_sin t : sin t = 2 * sin (t / 2) * cos (t / 2).
Proof. replace t with (2 * (t / 2)) at 1 by field. apply sin_2a. Qed.

(** ** quaternions *)
Definition unit_q (a : quat) : Prop := qw a * qw a + qx a * qx a + qy a * qy a + qz a * qz a = 1.
Lemma unit_mul a b : unit_q a -> unit_q b -> unit_q (qmul a b).
Proof. unfold unit_q. destruct a as [a1 a2 a3 a4], b as [b1 b2 b3 b4]. cbn [qmul qw qx qy qz]. intros A B.
  transitivity ((a1 * a1 + a2 * a2 + a3 * a3 + a4 * a4) * (b1 * b1 + b2 * b2 + b3 * b3 + b4 * b4)); [ring|]. rewrite A, B. ring. Qed.
Lemma unit_X t : unit_q (aaX t). Proof. unfold unit_q; cbn [aaX qw qx qy qz]. pose proof (cs1 (t / 2)). lra. Qed.
Lemma unit_Y t : unit_q (aaY t). Proof. unfold unit_q; cbn [aaY qw qx qy qz]. pose proof (cs1 (t / 2)). lra. Qed.
Lemma unit_Z t : unit_q (aaZ t). Proof. unfold unit_q; cbn [aaZ qw qx qy qz]. pose proof (cs1 (t / 2)). lra. Qed.
(** the homogeneous form is multiplicative *)
Definition hmat (q : quat) : m33 :=
  let w := qw q in let x := qx q in let y := qy q in let z := qz q in
  mkM (mk3 (w * w + x * x - y * y - z * z) (2 * (x * y - w * z)) (2 * (x * z + w * y)))
      (mk3 (2 * (x * y + w * z)) (w * w - x * x + y * y - z * z) (2 * (y * z - w * x)))
      (mk3 (2 * (x * z - w * y)) (2 * (y * z + w * x)) (w * w - x * x - y * y + z * z)).
Lemma qmat_hmat q : unit_q q -> qmat q = hmat q.
Proof. destruct q as [w x y z]. unfold unit_q. cbn [qw qx qy qz]. intros U. comps; cbv [hmat]; open; nra. Qed.
Lemma hmat_mul a b : hmat (qmul a b) = mmul (hmat a) (hmat b).
Proof. destruct a as [a1 a2 a3 a4], b as [b1 b2 b3 b4]. comps; cbv [hmat]; open; ring. Qed.
Lemma qmat_mul a b : unit_q a -> unit_q b -> qmat (qmul a b) = mmul (qmat a) (qmat b).
Proof. intros A B. rewrite !qmat_hmat by auto using unit_mul. apply hmat_mul. Qed.
Lemma qmat_proper q : unit_q q -> proper (qmat q).
Proof.
  intros U. rewrite qmat_hmat by exact U. destruct q as [w x y z]. unfold unit_q in U. cbn [qw qx qy qz] in U.
  set (n := w * w + x * x + y * y + z * z) in U.
  assert (N2 : n * n = 1) by (rewrite U; ring). assert (N3 : n * n * n = 1) by (rewrite U; ring).
  split; [|split].
  - comps; cbv [hmat]; open; first [transitivity (n * n); [unfold n; ring|exact N2] | ring].
  - comps; cbv [hmat]; open; first [transitivity (n * n); [unfold n; ring|exact N2] | ring].
  - cbv [hmat]; open. transitivity (n * n * n); [unfold n; ring|exact N3].
Qed.
Lemma qapp_mat q v : qapp q v = app3 (qmat q) v.
Proof. destruct q as [w x y z], v as [a b c]. apply v3_eq; cbv [qapp vplus vmul]; open; ring. Qed.
Lemma qmul_assoc a b c : qmul (qmul a b) c = qmul a (qmul b c).
Proof. destruct a as [a1 a2 a3 a4], b as [b1 b2 b3 b4], c as [c1 c2 c3 c4]. apply quat_eq; cbn [qmul qw qx qy qz]; ring. Qed.
Lemma aaZ_add a b : qmul (aaZ a) (aaZ b) = aaZ (a + b).
Proof. apply quat_eq; cbn [qmul aaZ qw qx qy qz]; replace ((a + b) / 2) with (a / 2 + b / 2) by field; rewrite ?cos_plus, ?sin_plus; ring. Qed.
Lemma matX t : qmat (aaX t) = R1 (- t).
Proof. comps; cbv [aaX R1]; open; rewrite ?cos_neg, ?sin_neg; try ring; rewrite ?(half_cos t), ?(half_sin t); ring. Qed.
Lemma matY t : qmat (aaY t) = R2 (- t).
Proof. comps; cbv [aaY R2]; open; rewrite ?cos_neg, ?sin_neg; try ring; rewrite ?(half_cos t), ?(half_sin t); ring. Qed.
Lemma matZ t : qmat (aaZ t) = R3 (- t).
Proof. comps; cbv [aaZ R3]; open; rewrite ?cos_neg, ?sin_neg; try ring; rewrite ?(half_cos t), ?(half_sin t); ring. Qed.
Lemma conj_mat q : qmat (qconj q) = transp (qmat q).
Proof. destruct q as [w x y z]. comps; cbv [qconj]; open; ring. Qed.

(** ** matrices *)
Lemma mmul_assoc A B D : mmul (mmul A B) D = mmul A (mmul B D).
Proof. destruct A as [[a1 a2 a3] [a4 a5 a6] [a7 a8 a9]], B as [[b1 b2 b3] [b4 b5 b6] [b7 b8 b9]], D as [[d1 d2 d3] [d4 d5 d6] [d7 d8 d9]]. comps; open; ring. Qed.
Lemma transp_mmul A B : transp (mmul A B) = mmul (transp B) (transp A).
Proof. destruct A as [[a1 a2 a3] [a4 a5 a6] [a7 a8 a9]], B as [[b1 b2 b3] [b4 b5 b6] [b7 b8 b9]]. comps; open; ring. Qed.
Lemma app3_mmul A B v : app3 (mmul A B) v = app3 A (app3 B v).
Proof. destruct A as [[a1 a2 a3] [a4 a5 a6] [a7 a8 a9]], B as [[b1 b2 b3] [b4 b5 b6] [b7 b8 b9]], v as [v1 v2 v3]. apply v3_eq; open; ring. Qed.
Lemma mmul_ident A : mmul A ident = A.
Proof. destruct A as [[a1 a2 a3] [a4 a5 a6] [a7 a8 a9]]. comps; open; ring. Qed.
Lemma ident_mmul A : mmul ident A = A.
Proof. destruct A as [[a1 a2 a3] [a4 a5 a6] [a7 a8 a9]]. comps; open; ring. Qed.
Lemma app3_ident v : app3 ident v = v.
Proof. destruct v as [v1 v2 v3]. apply v3_eq; open; ring. Qed.
Lemma transp_transp A : transp (transp A) = A.
Proof. destruct A as [[a1 a2 a3] [a4 a5 a6] [a7 a8 a9]]. reflexivity. Qed.
Lemma transp_R1 t : transp (R1 t) = R1 (- t). Proof. comps; cbv [R1]; open; rewrite ?cos_neg, ?sin_neg; ring. Qed.
Lemma transp_R2 t : transp (R2 t) = R2 (- t). Proof. comps; cbv [R2]; open; rewrite ?cos_neg, ?sin_neg; ring. Qed.
Lemma transp_R3 t : transp (R3 t) = R3 (- t). Proof. comps; cbv [R3]; open; rewrite ?cos_neg, ?sin_neg; ring. Qed.
Lemma R3_add a b : mmul (R3 a) (R3 b) = R3 (a + b).
Proof. comps; cbv [R3]; open; rewrite ?cos_plus, ?sin_plus; ring. Qed.

(** ** spherical angles of the pole *)
Lemma atan2_spec x y : 0 < x * x + y * y -> x = sqrt (x * x + y * y) * cos (atan2 y x) /\ y = sqrt (x * x + y * y) * sin (atan2 y x).
Proof.
  intros P. set (r := sqrt (x * x + y * y)).
  assert (Rp : 0 < r) by (apply sqrt_lt_R0, P). assert (Rr : r * r = x * x + y * y) by (apply sqrt_sqrt; lra).
  assert (K : x <> 0 -> sqrt (1 + (y / x)²) = r / Rabs x).
  { intros N. assert (0 < Rabs x) by (apply Rabs_pos_lt, N). apply Rsqr_inj; [apply sqrt_pos| |].
    - apply Rlt_le. unfold Rdiv. apply Rmult_lt_0_compat; [exact Rp|]. apply Rinv_0_lt_compat; assumption.
    - rewrite Rsqr_sqrt by (pose proof (Rle_0_sqr (y / x)); lra). unfold Rsqr.
      replace (r / Rabs x * (r / Rabs x)) with (r * r / (Rabs x * Rabs x)) by (field; lra). rewrite Rr.
      replace (Rabs x * Rabs x) with (x * x) by (rewrite <- Rabs_mult; symmetry; apply Rabs_pos_eq; nra). field. exact N. }
  unfold atan2. destruct (Rlt_dec 0 x) as [X|X].
  - rewrite cos_atan, sin_atan, K, Rabs_pos_eq by lra. split; field; lra.
  - destruct (Rlt_dec x 0) as [X'|X'].
    + destruct (Rle_dec 0 y).
      * rewrite neg_cos, neg_sin, cos_atan, sin_atan, K, Rabs_left by lra. split; field; lra.
      * unfold Rminus. rewrite cos_plus, sin_plus, cos_neg, sin_neg, cos_PI, sin_PI, cos_atan, sin_atan, K, Rabs_left by lra. split; field; lra.
    + assert (x = 0) as -> by lra. destruct (Rlt_dec 0 y).
      * rewrite cos_PI2, sin_PI2. assert (y = r) by nra. lra.
      * destruct (Rlt_dec y 0); [|exfalso; nra]. rewrite cos_neg, sin_neg, cos_PI2, sin_PI2. assert (y = - r) by nra. lra.
Qed.
Lemma spherical_d r2 : 0 <= r2 < 1 -> let d := atan (sqrt (r2 / (1 - r2))) in cos d = sqrt (1 - r2) /\ sin d = sqrt r2 /\ 0 <= d < PI / 2.
Proof.
  intros H d. unfold d.
  assert (Q0 : 0 <= r2 / (1 - r2)) by (apply Rmult_le_pos; [lra|apply Rlt_le, Rinv_0_lt_compat; lra]).
  assert (S1 : 1 + (sqrt (r2 / (1 - r2)))² = 1 / (1 - r2)) by (rewrite Rsqr_sqrt by exact Q0; field; lra).
  assert (P : 0 < sqrt (1 - r2)) by (apply sqrt_lt_R0; lra).
  assert (S2 : sqrt (1 / (1 - r2)) = 1 / sqrt (1 - r2)) by (rewrite sqrt_div_alt by lra; rewrite sqrt_1; reflexivity).
  split; [|split].
  - rewrite cos_atan, S1, S2. field. lra.
  - rewrite sin_atan, S1, S2. rewrite sqrt_div_alt by lra. field. lra.
  - split; [|apply atan_bound]. destruct (Rle_lt_or_eq_dec _ _ (sqrt_pos (r2 / (1 - r2)))) as [L|E].
    + rewrite <- atan_0. apply Rlt_le, atan_increasing, L.
    + rewrite <- E, atan_0. lra.
Qed.
Lemma spherical_ok X Y : X * X + Y * Y < 1 -> let '(d, e) := xycip2spherical X Y in
  X = sin d * cos e /\ Y = sin d * sin e /\ sqrt (1 - (X * X + Y * Y)) = cos d /\ 0 <= d < PI / 2.
Proof.
  intros H. assert (P : 0 <= X * X + Y * Y) by nra. destruct (spherical_d (X * X + Y * Y) (conj P H)) as (A & B & D).
  cbv [xycip2spherical] in *. cbv zeta in *. rewrite A, B. destruct (Rlt_dec 0 (X * X + Y * Y)) as [L|L].
  - destruct (atan2_spec X Y L) as [U V]. refine (conj U (conj V (conj eq_refl D))).
  - assert (X = 0) as -> by nra. assert (Y = 0) as -> by nra. rewrite sin_0, cos_0. replace (0 * 0 + 0 * 0) with 0 in * by ring. rewrite sqrt_0. repeat split; try ring; lra.
Qed.

(** ** the chain *)
Lemma chain era s sp d e xp yp : c2i era s sp d e xp yp = qmul (tirs2i xp yp sp) (c2tirs era s d e).
Proof.
  unfold c2i, tirs2i, c2tirs. rewrite !qmul_assoc. do 2 f_equal. rewrite <- (qmul_assoc (aaZ (- sp))). rewrite aaZ_add. do 2 f_equal. ring.
Qed.
Lemma unit_c2tirs era s d e : unit_q (c2tirs era s d e).
Proof. unfold c2tirs. auto using unit_mul, unit_X, unit_Y, unit_Z. Qed.
Lemma unit_tirs2i xp yp sp : unit_q (tirs2i xp yp sp).
Proof. unfold tirs2i. auto using unit_mul, unit_X, unit_Y, unit_Z. Qed.
Lemma unit_c2i era s sp d e xp yp : unit_q (c2i era s sp d e xp yp).
Proof. unfold c2i. auto 10 using unit_mul, unit_X, unit_Y, unit_Z. Qed.
Lemma unit_C X Y s : unit_q (C X Y s).
Proof. unfold C. destruct (xycip2spherical X Y). auto using unit_mul, unit_X, unit_Y, unit_Z. Qed.
Lemma mat_c2tirs era s d e : qmat (c2tirs era s d e) = mmul (transp (RR era)) (transp (QQ d e s)).
Proof.
  unfold c2tirs, RR, QQ. rewrite !qmat_mul by auto using unit_mul, unit_Y, unit_Z. rewrite !matZ, matY. rewrite !transp_mmul, !transp_R3, transp_R2.
  rewrite !Ropp_involutive. rewrite <- !mmul_assoc. rewrite !R3_add. do 2 f_equal. f_equal. ring.
Qed.
Lemma mat_tirs2i xp yp sp : qmat (tirs2i xp yp sp) = transp (WW xp yp sp).
Proof.
  unfold tirs2i, WW. rewrite !qmat_mul by auto using unit_mul, unit_X, unit_Y, unit_Z. rewrite matX, matY, matZ. rewrite !transp_mmul, transp_R1, transp_R2, transp_R3.
  rewrite <- mmul_assoc. reflexivity.
Qed.
Lemma mat_c2i era s sp d e xp yp : qmat (c2i era s sp d e xp yp) = transp (crs_from_trs era s sp d e xp yp).
Proof.
  rewrite chain, qmat_mul by auto using unit_c2tirs, unit_tirs2i. rewrite mat_c2tirs, mat_tirs2i. unfold crs_from_trs. rewrite !transp_mmul. reflexivity.
Qed.
Lemma mat_C X Y s : qmat (C X Y s) = let '(d, e) := xycip2spherical X Y in transp (QQ d e s).
Proof.
  unfold C. destruct (xycip2spherical X Y) as [d e]. pose proof (mat_c2tirs 0 s d e) as H. unfold c2tirs in H. replace (- 0 + e + s) with (e + s) in H by ring.
  rewrite H. unfold RR. rewrite Ropp_0. replace (transp (R3 0)) with ident; [apply ident_mmul|]. comps; cbv [R3]; open; rewrite ?cos_0, ?sin_0; ring.
Qed.

(** ** the pole *)
Lemma pole_to_z_c2tirs era s d e : qapp (c2tirs era s d e) (pole_dir d e) = ez.
Proof.
  rewrite qapp_mat. unfold c2tirs. rewrite !qmat_mul by auto using unit_mul, unit_Y, unit_Z. rewrite !app3_mmul, !matZ, matY.
  assert (E : app3 (R3 (- - e)) (pole_dir d e) = mk3 (sin d) 0 (cos d)).
  { rewrite Ropp_involutive. pose proof (cs1 e) as K. apply v3_eq; cbv [R3 pole_dir]; open; [|ring|ring]. transitivity (sin d * (cos e * cos e + sin e * sin e)); [ring|rewrite K; ring]. }
  rewrite E.
  assert (F : app3 (R2 (- - d)) (mk3 (sin d) 0 (cos d)) = ez).
  { rewrite Ropp_involutive. pose proof (cs1 d) as K. apply v3_eq; cbv [R2 ez]; open; [ring|ring|]. lra. }
  rewrite F. apply v3_eq; cbv [R3 ez]; open; ring.
Qed.
Lemma pole_to_itrs xp yp sp : qapp (tirs2i xp yp sp) ez = mk3 (sin xp) (- sin yp * cos xp) (cos yp * cos xp).
Proof.
  rewrite qapp_mat. unfold tirs2i. rewrite !qmat_mul by auto using unit_mul, unit_X, unit_Y, unit_Z. rewrite !app3_mmul, matX, matY, matZ.
  apply v3_eq; cbv [R1 R2 R3 ez]; open; rewrite ?cos_neg, ?sin_neg; ring.
Qed.
Lemma qapp_qmul a b v : unit_q a -> unit_q b -> qapp (qmul a b) v = qapp a (qapp b v).
Proof. intros A B. rewrite !qapp_mat, qmat_mul, app3_mmul by auto. reflexivity. Qed.

(** ** the closed formulas *)
Lemma half_d d : 0 <= d < PI / 2 -> 0 < cos (d / 2).
Proof. intros H. pose proof PI_RGT_0. apply cos_gt_0; lra. Qed.
Lemma fac_ok d : 0 <= d < PI / 2 -> 1 / sqrt (2 * (1 + cos d)) = 1 / (2 * cos (d / 2)).
Proof.
  intros H. pose proof (half_d d H) as P. f_equal. rewrite (half_cos' d).
  replace (2 * (1 + (2 * (cos (d / 2) * cos (d / 2)) - 1))) with ((2 * cos (d / 2)) * (2 * cos (d / 2))) by ring. apply sqrt_square. lra.
Qed.
(** rotation about z by a, then -d about y, then -e about z *)
Lemma zyz t d e : qmul (qmul (aaZ (e - t)) (aaY (- d))) (aaZ (- e)) =
  Q (cos (d / 2) * cos (t / 2)) (sin (d / 2) * sin (e - t / 2)) (- (sin (d / 2) * cos (e - t / 2))) (- (cos (d / 2) * sin (t / 2))).
Proof.
  assert (H1 : (e - t) / 2 = e / 2 - t / 2) by field. assert (H2 : - d / 2 = - (d / 2)) by field. assert (H3 : - e / 2 = - (e / 2)) by field.
  assert (H4 : e - t / 2 = (e / 2 - t / 2) + e / 2) by field.
  assert (H5 : t / 2 = e / 2 - (e / 2 - t / 2)) by field.
  set (u := e / 2 - t / 2) in *. set (v := e / 2) in *.
  apply quat_eq; cbn [qmul aaZ aaY qw qx qy qz]; rewrite H1, H2, H3, ?H4; try rewrite H5 at 1; rewrite !cos_neg, !sin_neg, ?cos_plus, ?sin_plus, ?cos_minus, ?sin_minus; ring.
Qed.
Lemma closed_c2tirs d e : 0 <= d < PI / 2 -> let X := sin d * cos e in let Y := sin d * sin e in let pZ := 1 + cos d in let fac := 1 / sqrt (2 * pZ) in
  fac * X = sin (d / 2) * cos e /\ fac * Y = sin (d / 2) * sin e /\ fac * pZ = cos (d / 2).
Proof.
  intros H X Y pZ fac. unfold fac, pZ, X, Y. rewrite fac_ok by exact H. pose proof (half_d d H) as P. rewrite (half_sin d), (half_cos' d). repeat split; field; lra.
Qed.
Lemma bz_spherical era s sp X Y xp yp : X * X + Y * Y < 1 -> gcrs2itrs_quaternion era s sp X Y xp yp = let '(d, e) := xycip2spherical X Y in c2i era s sp d e xp yp.
Proof.
  intros H. pose proof (spherical_ok X Y H) as S. unfold gcrs2itrs_quaternion. unfold xycip2spherical in S |- *. cbv zeta in *.
  set (d := atan _) in *. set (e := if Rlt_dec _ _ then _ else _) in *. destruct S as (_ & _ & _ & D).
  destruct (closed_c2tirs d e D) as (FX & FY & FZ). cbv zeta in FX, FY, FZ. set (fac := 1 / sqrt (2 * (1 + cos d))) in *.
  set (XX := sin d * cos e) in *. set (YY := sin d * sin e) in *. set (pZ := 1 + cos d) in *.
  set (th := era + sp - s).
  assert (E : c2i era s sp d e xp yp = qmul (qmul (aaX yp) (aaY xp)) (qmul (qmul (aaZ (e - th)) (aaY (- d))) (aaZ (- e)))).
  { unfold c2i. replace (- sp - era + e + s) with (e - th) by (unfold th; ring). rewrite !qmul_assoc. reflexivity. }
  rewrite E, zyz. rewrite sin_minus, cos_minus.
  set (ct2 := cos (th / 2)). set (st2 := sin (th / 2)).
  assert (G : forall a b c a' b' c', fac * (ct2 * (XX * a + YY * b + pZ * c) + st2 * (XX * a' + YY * b' + pZ * c')) =
    ct2 * (sin (d / 2) * cos e * a + sin (d / 2) * sin e * b + cos (d / 2) * c) + st2 * (sin (d / 2) * cos e * a' + sin (d / 2) * sin e * b' + cos (d / 2) * c')).
  { intros. rewrite <- FX, <- FY, <- FZ. ring. }
  set (tw := cos (xp / 2) * cos (yp / 2)). set (aw := cos (xp / 2) * sin (yp / 2)). set (bw := cos (yp / 2) * sin (xp / 2)). set (cw := sin (xp / 2) * sin (yp / 2)).
  apply quat_eq; cbn [qmul aaX aaY qw qx qy qz].
  - transitivity (fac * (ct2 * (XX * bw + YY * (- aw) + pZ * tw) + st2 * (XX * aw + YY * bw + pZ * cw))); [ring|rewrite G; unfold tw, aw, bw, cw; ring].
  - transitivity (fac * (ct2 * (XX * cw + YY * tw + pZ * aw) + st2 * (XX * (- tw) + YY * cw + pZ * (- bw)))); [ring|rewrite G; unfold tw, aw, bw, cw; ring].
  - transitivity (fac * (ct2 * (XX * (- tw) + YY * cw + pZ * bw) + st2 * (XX * (- cw) + YY * (- tw) + pZ * aw))); [ring|rewrite G; unfold tw, aw, bw, cw; ring].
  - transitivity (fac * (ct2 * (XX * (- aw) + YY * (- bw) + pZ * cw) + st2 * (XX * bw + YY * (- aw) + pZ * (- tw)))); [ring|rewrite G; unfold tw, aw, bw, cw; ring].
Qed.
Lemma qimpl_same X Y s : X * X + Y * Y < 1 -> C_qimpl X Y s = C X Y s.
Proof.
  intros H. pose proof (spherical_ok X Y H) as S. unfold C_qimpl, C. destruct (xycip2spherical X Y) as [d e]. destruct S as (EX & EY & _ & D).
  destruct (closed_c2tirs d e D) as (FX & FY & FZ). cbv zeta in FX, FY, FZ. rewrite <- EX in FX. rewrite <- EY in FY.
  set (f := 1 / sqrt (2 * (1 + cos d))) in *. set (pZ := 1 + cos d) in *.
  replace (e + s) with (e - - s) by ring. rewrite zyz. replace (- s / 2) with (- (s / 2)) by field. rewrite cos_neg, sin_neg. unfold Rminus. rewrite Ropp_involutive, sin_plus, cos_plus.
  apply quat_eq; cbn [qw qx qy qz]; rewrite <- FZ || idtac.
  - ring.
  - transitivity (cos (s / 2) * (f * Y) + sin (s / 2) * (f * X)); [ring|rewrite FX, FY; ring].
  - transitivity (- (cos (s / 2) * (f * X)) + sin (s / 2) * (f * Y)); [ring|rewrite FX, FY; ring].
  - ring.
Qed.

(** ** IERS (5.10): the series for a *)
Lemma rxy_exact X Y s : X * X + Y * Y < 1 -> let z := sqrt (1 - (X * X + Y * Y)) in let a := 1 / (1 + z) in
  qmat (C X Y s) = mmul (aaZ_mat s) (mkM (mk3 (1 - a * X * X) (- a * X * Y) (- X)) (mk3 (- a * X * Y) (1 - a * Y * Y) (- Y)) (mk3 X Y (1 - a * (X * X + Y * Y)))).
Proof.
  intros H z a. pose proof (spherical_ok X Y H) as S. rewrite mat_C. destruct (xycip2spherical X Y) as [d e]. destruct S as (EX & EY & EZ & D).
  assert (Z0 : 0 < cos d) by (apply cos_gt_0; pose proof PI_RGT_0; lra).
  assert (R2' : X * X + Y * Y = sin d * sin d). { rewrite EX, EY. pose proof (cs1 e) as K. transitivity (sin d * sin d * (cos e * cos e + sin e * sin e)); [ring|rewrite K; ring]. }
  assert (A1 : a * (sin d * sin d) = 1 - cos d). { unfold a, z. rewrite EZ. pose proof (cs1 d). replace (sin d * sin d) with ((1 - cos d) * (1 + cos d)) by lra. field. lra. }
  clearbody a. pose proof (cs1 e) as KE. pose proof (cs1 d) as KD.
  assert (QT : transp (QQ d e s) = mmul (R3 (- s)) (mmul (R3 (- e)) (mmul (R2 d) (R3 e)))).
  { unfold QQ. rewrite !transp_mmul, !transp_R3, transp_R2, !Ropp_involutive. reflexivity. }
  rewrite QT. replace (aaZ_mat s) with (R3 (- s)) by (comps; cbv [R3 aaZ_mat]; open; rewrite ?cos_neg, ?sin_neg; ring). f_equal.
  rewrite R2', A1. rewrite EX, EY. set (ce := cos e) in *. set (se := sin e) in *. set (cd := cos d) in *. set (sd := sin d) in *.
  comps; cbv [R3 R2]; open; rewrite ?cos_neg, ?sin_neg; fold ce se cd sd; try ring.
  - transitivity (1 - a * (sd * sd) * (ce * ce)); [rewrite A1|ring]. replace 1 with (ce * ce + se * se) at 2 by exact KE. nra.
  - transitivity (- (a * (sd * sd)) * (ce * se)); [rewrite A1|]; ring.
  - transitivity (- (a * (sd * sd)) * (ce * se)); [rewrite A1|]; ring.
  - transitivity (1 - a * (sd * sd) * (se * se)); [rewrite A1|ring]. nra.
Qed.

(** ** derivatives *)
Lemma lim_scal k f t l : derivable_pt_lim f t l -> derivable_pt_lim (fun x => k * f x) t (k * l).
Proof. apply derivable_pt_lim_scal. Qed.
Lemma lim_eq f t l l' : derivable_pt_lim f t l -> l = l' -> derivable_pt_lim f t l'.
Proof. intros H <-. exact H. Qed.
Lemma lim_cos f t l : derivable_pt_lim f t l -> derivable_pt_lim (fun x => cos (f x)) t (- sin (f t) * l).
Proof. intros H. apply (derivable_pt_lim_comp f cos); [exact H|apply derivable_pt_lim_cos]. Qed.
Lemma lim_sin f t l : derivable_pt_lim f t l -> derivable_pt_lim (fun x => sin (f x)) t (cos (f t) * l).
Proof. intros H. apply (derivable_pt_lim_comp f sin); [exact H|apply derivable_pt_lim_sin]. Qed.
Lemma lim_fun f g t l : (forall x, f x = g x) -> derivable_pt_lim f t l -> derivable_pt_lim g t l.
Proof. intros E H eps P. destruct (H eps P) as [d D]. exists d. intros h N L. rewrite <- !E. auto. Qed.
Lemma rotation_rate era t omega : derivable_pt_lim era t omega -> mat_lim (fun x => R3 (era x)) t (dRdt (era t) omega).
Proof.
  intros H. repeat split; cbn [R3 dRdt row1 row2 row3 p1 p2 p3]; try apply derivable_pt_lim_const.
  - apply (lim_eq _ _ _ _ (lim_cos _ _ _ H)). ring.
  - apply (lim_eq _ _ _ _ (lim_sin _ _ _ H)). ring.
  - apply (lim_eq _ _ (- (cos (era t) * omega))); [|ring]. apply (derivable_pt_lim_opp (fun x => sin (era x))), lim_sin, H.
  - apply (lim_eq _ _ _ _ (lim_cos _ _ _ H)). ring.
Qed.
Lemma lim_lin a b c f g h t l m n : derivable_pt_lim f t l -> derivable_pt_lim g t m -> derivable_pt_lim h t n ->
  derivable_pt_lim (fun x => a * f x + b * g x + c * h x) t (a * l + b * m + c * n).
Proof.
  intros F G H. apply (derivable_pt_lim_plus (fun x => a * f x + b * g x) (fun x => c * h x)); [|apply lim_scal, H].
  apply (derivable_pt_lim_plus (fun x => a * f x) (fun x => b * g x)); apply lim_scal; assumption.
Qed.
Lemma lim_lin_r a b c f g h t l m n : derivable_pt_lim f t l -> derivable_pt_lim g t m -> derivable_pt_lim h t n ->
  derivable_pt_lim (fun x => f x * a + g x * b + h x * c) t (l * a + m * b + n * c).
Proof.
  intros F G H. apply (lim_fun (fun x => a * f x + b * g x + c * h x)); [intros; ring|]. apply (lim_eq _ _ (a * l + b * m + c * n)); [|ring]. apply lim_lin; assumption.
Qed.
Lemma mat_lim_left A M t D : mat_lim M t D -> mat_lim (fun x => mmul A (M x)) t (mmul A D).
Proof.
  intros ((a & b & c) & (d & e & f) & (g & h & i)). destruct A as [[a1 a2 a3] [a4 a5 a6] [a7 a8 a9]].
  repeat split; cbn [mmul rowapp app3 transp row1 row2 row3 p1 p2 p3]; unfold dot; cbn [row1 row2 row3 p1 p2 p3]; apply lim_lin_r; assumption.
Qed.
Lemma mat_lim_right B M t D : mat_lim M t D -> mat_lim (fun x => mmul (M x) B) t (mmul D B).
Proof.
  intros ((a & b & c) & (d & e & f) & (g & h & i)). destruct B as [[a1 a2 a3] [a4 a5 a6] [a7 a8 a9]].
  repeat split; cbn [mmul rowapp app3 transp row1 row2 row3 p1 p2 p3]; unfold dot; cbn [row1 row2 row3 p1 p2 p3]; apply lim_lin; assumption.
Qed.
Lemma curve_fun f g t l : (forall x, f x = g x) -> curve_lim f t l -> curve_lim g t l.
Proof. intros E (A & B & D). refine (conj _ (conj _ _)); [apply (lim_fun (fun s => p1 (f s)))|apply (lim_fun (fun s => p2 (f s)))|apply (lim_fun (fun s => p3 (f s)))]; auto; intros; rewrite E; reflexivity. Qed.
Lemma mat_fun M N t D : (forall x, M x = N x) -> mat_lim M t D -> mat_lim N t D.
Proof. intros E (A & B & G). refine (conj _ (conj _ _)); [apply (curve_fun (fun x => row1 (M x)))|apply (curve_fun (fun x => row2 (M x)))|apply (curve_fun (fun x => row3 (M x)))]; auto; intros; rewrite E; reflexivity. Qed.
Lemma c2i_rate era t omega X Y s sp xp yp : derivable_pt_lim era t omega ->
  mat_lim (fun x => qmat (let '(d, e) := xycip2spherical X Y in c2i (era x) s sp d e xp yp)) t (mmul (mmul (qmat (tirs2i xp yp sp)) (dRdt (era t) omega)) (qmat (C X Y s))).
Proof.
  intros H. rewrite mat_C. destruct (xycip2spherical X Y) as [d e].
  apply (mat_fun (fun x => mmul (mmul (qmat (tirs2i xp yp sp)) (R3 (era x))) (transp (QQ d e s)))).
  - intros x. rewrite chain, qmat_mul by auto using unit_c2tirs, unit_tirs2i. rewrite mat_c2tirs, mmul_assoc. unfold RR. rewrite transp_R3, Ropp_involutive. reflexivity.
  - apply mat_lim_right, mat_lim_left, rotation_rate, H.
Qed.
(** rotation vector *)
Lemma dRdt_cross era omega v : app3 (dRdt era omega) v = vmul (-1) (cross (mk3 0 0 omega) (app3 (R3 era) v)).
Proof. destruct v as [a b c]. apply v3_eq; cbv [dRdt R3 vmul]; open; ring. Qed.
(** velocity of a moving point, and back *)
Lemma curve_transform M r t D v : mat_lim M t D -> curve_lim r t v -> curve_lim (fun x => app3 (M x) (r x)) t (vplus (app3 (M t) v) (app3 D (r t))).
Proof.
  intros ((a & b & c) & (d & e & f) & (g & h & i)) (A & B & G).
  assert (K : forall f1 f2 f3 g1 g2 g3 l1 l2 l3 m1 m2 m3, derivable_pt_lim f1 t l1 -> derivable_pt_lim f2 t l2 -> derivable_pt_lim f3 t l3 ->
    derivable_pt_lim g1 t m1 -> derivable_pt_lim g2 t m2 -> derivable_pt_lim g3 t m3 ->
    derivable_pt_lim (fun x => f1 x * g1 x + f2 x * g2 x + f3 x * g3 x) t ((f1 t * m1 + f2 t * m2 + f3 t * m3) + (l1 * g1 t + l2 * g2 t + l3 * g3 t))).
  { intros * F1 F2 F3 G1 G2 G3. apply (lim_eq _ _ ((l1 * g1 t + f1 t * m1) + (l2 * g2 t + f2 t * m2) + (l3 * g3 t + f3 t * m3))); [|ring].
    apply (derivable_pt_lim_plus (fun x => f1 x * g1 x + f2 x * g2 x) (fun x => f3 x * g3 x)); [apply (derivable_pt_lim_plus (fun x => f1 x * g1 x) (fun x => f2 x * g2 x))|].
    - apply (derivable_pt_lim_mult f1 g1); assumption.
    - apply (derivable_pt_lim_mult f2 g2); assumption.
    - apply (derivable_pt_lim_mult f3 g3); assumption. }
  refine (conj _ (conj _ _)); cbn [app3 vplus p1 p2 p3]; unfold dot.
  - apply (K (fun x => p1 (row1 (M x))) (fun x => p2 (row1 (M x))) (fun x => p3 (row1 (M x))) (fun x => p1 (r x)) (fun x => p2 (r x)) (fun x => p3 (r x))); assumption.
  - apply (K (fun x => p1 (row2 (M x))) (fun x => p2 (row2 (M x))) (fun x => p3 (row2 (M x))) (fun x => p1 (r x)) (fun x => p2 (r x)) (fun x => p3 (r x))); assumption.
  - apply (K (fun x => p1 (row3 (M x))) (fun x => p2 (row3 (M x))) (fun x => p3 (row3 (M x))) (fun x => p1 (r x)) (fun x => p2 (r x)) (fun x => p3 (r x))); assumption.
Qed.
