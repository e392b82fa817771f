(** Proofs about the rotation for an epoch. *)
From Coq Require Import Reals ZArith List Lra Lia.
From Verif Require Import Angles PiBound Vec RotModel RotSpec RotProofs FundModel FundSpec FundProofs CipSpec FlModel FlProofs FlCipModel FlCipProofs2 FlCipProps FlEraModel FlEraProofs FlRotModel FlRotSpec FlRotProofs FlRotProofs2 FlRotProofs3.
Import ListNotations.
Open Scope R_scope.

(** ** the rotation taking the pole to the z axis, as a function of the coordinates of the pole *)
Definition root (X Y : R) : R := sqrt (2 * (1 + sqrt (1 - (X * X + Y * Y)))).
Definition polar (X Y : R) : quat := Q (root X Y / 2) (Y / root X Y) (- (X / root X Y)) 0.
Lemma zyz_polar d e : 0 <= d < PI / 2 -> qmul (qmul (aaZ e) (aaY (- d))) (aaZ (- e)) = polar (sin d * cos e) (sin d * sin e).
Proof.
  intros H. pose proof (zyz 0 d e) as K. replace (e - 0) with e in K by ring. rewrite K. clear K. replace (0 / 2) with 0 by field. rewrite cos_0, sin_0, Rminus_0_r.
  assert (R : sin d * cos e * (sin d * cos e) + sin d * sin e * (sin d * sin e) = sin d * sin d). { pose proof (cs1 e) as C. transitivity (sin d * sin d * (cos e * cos e + sin e * sin e)); [ring|rewrite C; ring]. }
  assert (C0 : 0 < cos d) by (apply cos_gt_0; pose proof PI_RGT_0; lra).
  assert (RT : root (sin d * cos e) (sin d * sin e) = 2 * cos (d / 2)).
  { unfold root. rewrite R. pose proof (cs1 d) as C. replace (1 - sin d * sin d) with (cos d * cos d) by lra. rewrite sqrt_square by lra. pose proof (half_d d H). rewrite (half_cos' d).
    replace (2 * (1 + (2 * (cos (d / 2) * cos (d / 2)) - 1))) with ((2 * cos (d / 2)) * (2 * cos (d / 2))) by ring. apply sqrt_square. lra. }
  unfold polar. rewrite RT. pose proof (half_d d H) as P. rewrite (half_sin d). apply quat_eq; cbn [qw qx qy qz]; field; lra.
Qed.
Lemma c2i_polar era s sp d e xp yp : 0 <= d < PI / 2 -> c2i era s sp d e xp yp = qmul (qmul (tirs2i xp yp sp) (aaZ (s - era))) (polar (sin d * cos e) (sin d * sin e)).
Proof.
  intros H. rewrite <- zyz_polar by exact H. rewrite chain. unfold c2tirs. rewrite !qmul_assoc. f_equal. rewrite <- (qmul_assoc (aaZ (s - era))), aaZ_add. do 2 f_equal. ring.
Qed.
Lemma polar_unit X Y : X * X + Y * Y < 1 -> unit_q (polar X Y).
Proof.
  intros H. pose proof (spherical_ok X Y H) as S. destruct (xycip2spherical X Y) as [d e]. destruct S as (-> & -> & _ & D). rewrite <- zyz_polar by exact D. auto using unit_mul, unit_Y, unit_Z.
Qed.
Lemma qlen_sum a : qlen a <= Rabs (qw a) + Rabs (qx a) + Rabs (qy a) + Rabs (qz a).
Proof.
  assert (S : forall z, z * z = Rabs z * Rabs z) by (intros z; rewrite <- Rabs_mult; symmetry; apply Rabs_pos_eq, Rle_0_sqr).
  pose proof (Rabs_pos (qw a)). pose proof (Rabs_pos (qx a)). pose proof (Rabs_pos (qy a)). pose proof (Rabs_pos (qz a)). apply qlen_le; [lra|]. unfold qsq. rewrite (S (qw a)), (S (qx a)), (S (qy a)), (S (qz a)).
  set (x := Rabs (qw a)) in *. set (y := Rabs (qx a)) in *. set (z := Rabs (qy a)) in *. set (w := Rabs (qz a)) in *. clearbody x y z w.
  pose proof (Rmult_le_pos x y). pose proof (Rmult_le_pos x z). pose proof (Rmult_le_pos x w). pose proof (Rmult_le_pos y z). pose proof (Rmult_le_pos y w). pose proof (Rmult_le_pos z w). lra.
Qed.
Lemma root_size X Y : Rabs X <= 0.2 -> Rabs Y <= 0.2 -> let z := sqrt (1 - (X * X + Y * Y)) in 0.95 <= z <= 1 /\ z * z = 1 - (X * X + Y * Y) /\ 1.97 <= root X Y <= 2 /\ root X Y * root X Y = 2 * (1 + z).
Proof.
  intros HX HY z. apply sq_le in HX, HY. pose proof (Rle_0_sqr X). pose proof (Rle_0_sqr Y). unfold Rsqr in *. assert (Z : 0.95 <= z <= 1).
  { unfold z. split; [rewrite <- (sqrt_square 0.95) by lra; apply sqrt_le_1_alt; lra|]. apply Rle_trans with (sqrt 1); [apply sqrt_le_1_alt; lra|rewrite sqrt_1; lra]. }
  split; [exact Z|]. split; [apply sqrt_sqrt; lra|]. unfold root. fold z. split; [|apply sqrt_sqrt; lra]. split.
  - rewrite <- (sqrt_square 1.97) by lra. apply sqrt_le_1_alt. lra.
  - apply Rle_trans with (sqrt (2 * 2)); [apply sqrt_le_1_alt; lra|rewrite sqrt_square; lra].
Qed.
Lemma abs_quot a b k m : 0 < k -> k <= b -> Rabs (a * b) <= m -> Rabs a <= m / k.
Proof.
  intros K B H. rewrite Rabs_mult, (Rabs_pos_eq b) in H by lra. pose proof (Rabs_pos a). apply (Rmult_le_reg_r k); [exact K|]. replace (m / k * k) with m by (field; lra). nra.
Qed.
Lemma polar_lip X Y X' Y' : Rabs X <= 0.2 -> Rabs Y <= 0.2 -> Rabs X' <= 0.2 -> Rabs Y' <= 0.2 -> qdist (polar X Y) (polar X' Y') <= 0.7 * (Rabs (X - X') + Rabs (Y - Y')).
Proof.
  intros HX HY HX' HY'. unfold polar. destruct (root_size X Y HX HY) as (Z & ZZ & W & WW). destruct (root_size X' Y' HX' HY') as (Z' & ZZ' & W' & WW').
  set (z := sqrt (1 - (X * X + Y * Y))) in *. set (z' := sqrt (1 - (X' * X' + Y' * Y'))) in *. set (w := root X Y) in *. set (w' := root X' Y') in *. set (a := Rabs (X - X')). set (b := Rabs (Y - Y')).
  assert (A0 : 0 <= a) by apply Rabs_pos. assert (B0 : 0 <= b) by apply Rabs_pos. clearbody z z' w w'.
  assert (DR : Rabs (z - z') <= 0.4 * (a + b) / 1.9).
  { apply (abs_quot _ (z + z')); [lra|lra|]. replace ((z - z') * (z + z')) with (- ((X - X') * (X + X') + (Y - Y') * (Y + Y'))) by (replace ((z - z') * (z + z')) with (z * z - z' * z') by ring; rewrite ZZ, ZZ'; ring).
    rewrite Rabs_Ropp. eapply Rle_trans; [apply Rabs_triang|]. rewrite !Rabs_mult. fold a b.
    assert (Rabs (X + X') <= 0.4) by (eapply Rle_trans; [apply Rabs_triang|lra]). assert (Rabs (Y + Y') <= 0.4) by (eapply Rle_trans; [apply Rabs_triang|lra]).
    assert (a * Rabs (X + X') <= a * 0.4) by (apply Rmult_le_compat_l; lra). assert (b * Rabs (Y + Y') <= b * 0.4) by (apply Rmult_le_compat_l; lra). lra. }
  assert (DW : Rabs (w - w') <= 0.12 * (a + b)).
  { apply Rle_trans with ((2 * (0.4 * (a + b) / 1.9)) / 3.9); [|lra]. apply (abs_quot _ (w + w')); [lra|lra|]. replace ((w - w') * (w + w')) with (2 * (z - z')) by (replace ((w - w') * (w + w')) with (w * w - w' * w') by ring; rewrite WW, WW'; ring).
    rewrite Rabs_mult, (Rabs_pos_eq 2) by lra. lra. }
  assert (DI : forall x x', Rabs x' <= 0.2 -> Rabs (x / w - x' / w') <= 0.51 * Rabs (x - x') + 0.01 * (a + b)).
  { intros x x' Hx. replace (x / w - x' / w') with ((x - x') / w + x' * ((w' - w) / (w * w'))) by (field; lra). eapply Rle_trans; [apply Rabs_triang|]. pose proof (Rabs_pos (x - x')). apply Rplus_le_compat.
    - unfold Rdiv. rewrite Rabs_mult, Rmult_comm. apply Rmult_le_compat_r; [lra|]. rewrite Rabs_pos_eq by (apply Rlt_le, Rinv_0_lt_compat; lra). apply (Rmult_le_reg_l w); [lra|]. rewrite Rinv_r by lra. lra.
    - rewrite Rabs_mult. assert (Q : Rabs ((w' - w) / (w * w')) <= 0.12 * (a + b) / 3.8). { apply (abs_quot _ (w * w')); [lra|nra|]. replace ((w' - w) / (w * w') * (w * w')) with (- (w - w')) by (field; lra). rewrite Rabs_Ropp. exact DW. }
      apply Rle_trans with (0.2 * (0.12 * (a + b) / 3.8)); [apply Rmult_le_compat; try apply Rabs_pos; assumption|lra]. }
  unfold qdist. eapply Rle_trans; [apply qlen_sum|]. unfold qminus; cbn [qw qx qy qz]. pose proof (DI X X' HX'). pose proof (DI Y Y' HY').
  assert (E1 : Rabs (w / 2 - w' / 2) <= 0.06 * (a + b)). { apply abs_inv in DW. apply Rabs_le. lra. }
  replace (- (X / w) - - (X' / w')) with (- (X / w - X' / w')) by ring. rewrite Rabs_Ropp, Rminus_0_r, Rabs_R0. fold a in H. fold b in H0. lra.
Qed.

(** ** arguments of the rotation that differ from the exact ones *)
Definition rot (era s sp X Y xp yp : R) : quat := qmul (qmul (tirs2i xp yp sp) (aaZ (s - era))) (polar X Y).
Lemma small_sq X Y : Rabs X <= 0.2 -> Rabs Y <= 0.2 -> X * X + Y * Y < 1.
Proof. intros A B. apply sq_le in A, B. lra. Qed.
Lemma rot_unit era s sp X Y xp yp : Rabs X <= 0.2 -> Rabs Y <= 0.2 -> unit_q (rot era s sp X Y xp yp).
Proof. intros A B. apply unit_mul; [apply unit_mul; [apply unit_tirs2i|apply unit_Z]|]. apply polar_unit, small_sq; assumption. Qed.
Lemma rot_spherical era s sp X Y xp yp : Rabs X <= 0.2 -> Rabs Y <= 0.2 -> (let '(d, e) := xycip2spherical X Y in c2i era s sp d e xp yp) = rot era s sp X Y xp yp.
Proof.
  intros A B. pose proof (spherical_ok X Y (small_sq X Y A B)) as S. destruct (xycip2spherical X Y) as [d e]. destruct S as (EX & EY & _ & D). rewrite c2i_polar by exact D. rewrite <- EX, <- EY. reflexivity.
Qed.
Lemma rot_lip era s sp X Y xp yp era' s' sp' X' Y' xp' yp' : Rabs X <= 0.2 -> Rabs Y <= 0.2 -> Rabs X' <= 0.2 -> Rabs Y' <= 0.2 ->
  qdist (rot era s sp X Y xp yp) (rot era' s' sp' X' Y' xp' yp') <= (Rabs (yp - yp') + Rabs (xp - xp') + Rabs (sp - sp') + Rabs (s - s') + Rabs (era - era')) / 2 + 0.7 * (Rabs (X - X') + Rabs (Y - Y')).
Proof.
  intros A B A' B'. unfold rot. eapply Rle_trans; [apply mul_lip; try (apply unit_mul; [apply unit_tirs2i|apply unit_Z]); apply polar_unit, small_sq; assumption|]. apply Rplus_le_compat; [|apply polar_lip; assumption].
  eapply Rle_trans; [apply mul_lip; first [apply unit_tirs2i|apply unit_Z]|]. unfold tirs2i. eapply Rle_trans; [apply Rplus_le_compat_r, mul_lip; first [apply unit_Z|apply unit_mul; first [apply unit_X|apply unit_Y]]|].
  eapply Rle_trans; [apply Rplus_le_compat_r, Rplus_le_compat_r, mul_lip; first [apply unit_X|apply unit_Y]|].
  pose proof (aaX_lip yp yp'). pose proof (aaY_lip xp xp'). pose proof (aaZ_lip (- sp) (- sp')) as P. replace (- sp - - sp') with (- (sp - sp')) in P by ring. rewrite Rabs_Ropp in P.
  pose proof (aaZ_lip (s - era) (s' - era')) as E. replace (s - era - (s' - era')) with ((s - s') + - (era - era')) in E by ring. pose proof (Rabs_triang (s - s') (- (era - era'))) as T. rewrite Rabs_Ropp in T. lra.
Qed.

(** ** the epoch *)
Lemma sec_run_error a v k : 0 <= k <= 1 -> Rabs (FundModel.sec2rad a) <= k -> sec_run a v -> Rabs (v - arcsec a) <= 4.001 * k * u + 1e-100 * u /\ Rabs (arcsec a) <= k /\ Rabs v <= 1.001 * k + 1e-100.
Proof.
  intros K H R. unfold sec_run in R. rewrite FundProofs.sec2rad_arcsec in *. pose proof usmall as (U & T & TU). assert (4 * u * Rabs (arcsec a) <= 4 * u * k) by (apply Rmult_le_compat_l; lra).
  assert (0 <= k * u) by nra. split; [lra|]. split; [exact H|]. replace v with ((v - arcsec a) + arcsec a) by ring. eapply Rle_trans; [apply Rabs_triang|]. assert (k * u <= k * 1.2e-16) by (apply Rmult_le_compat_l; lra). lra.
Qed.
Lemma sec_size a n : Rabs a <= n -> Rabs (FundModel.sec2rad a) <= n * 4.85e-6.
Proof.
  intros H. unfold FundModel.sec2rad. pose proof pi_bounds as PB. pose proof (Rabs_pos a). replace (a * PI / 648000) with (a * (PI / 648000)) by field. rewrite Rabs_mult, (Rabs_pos_eq (PI / 648000)) by lra. apply Rmult_le_compat; lra.
Qed.
Lemma uas_val x : uas x = x * (PI * 1e-6 / 648000). Proof. unfold uas. field. Qed.
Section Epoch.
  Variables (tt ut1 : epoch) (T : times) (o : eop).
  Hypotheses (HC : in_century tt ut1) (HO : handed_out tt ut1 T).
  Hypotheses (Hdx : Rabs (e_dX o) <= 100) (Hdy : Rabs (e_dY o) <= 100) (Hxp : Rabs (e_xp o) <= 1000) (Hyp : Rabs (e_yp o) <= 1000).
  Let t : R := centuries (julian_date (mjd tt)).
  Let X0 : R := series_x tt + arcsec (e_dX o).
  Let Y0 : R := series_y tt + arcsec (e_dY o).
  Let s0 : R := locator_s tt.
  Lemma the_time : Rabs t <= 1 /\ Rabs (ttt T - t) <= / 2 ^ 53 /\ Rabs (td2pi T - 2 * PI) <= / 2 ^ 50.
  Proof.
    destruct HC as (_ & A & _). destruct HO as (_ & _ & B & D & _). cbn [exact_times ttt td2pi] in B, D. replace (jcenturies_sinceJ2000 tt) with t in A, B by (unfold t, centuries, julian_date, jcenturies_sinceJ2000; lra). repeat split; assumption.
  Qed.
  Lemma pole_run_error X Y s : pole_run T o X Y s ->
    Rabs (X - X0) <= 9.8e-16 /\ Rabs (Y - Y0) <= 9.8e-16 /\ Rabs (s - s0) <= 1e-16 /\ Rabs X0 <= 0.1 /\ Rabs Y0 <= 0.1 /\ Rabs X <= 0.1 /\ Rabs Y <= 0.1 /\ Rabs s <= 0.1.
  Proof.
    intros (x & y & F & dx & dy & RX & RS & Rx & Ry & NX & NY). destruct the_time as (Ht & HT & HD). pose proof usmall as (U & Ti & TU).
    destruct (c70_pole _ _ t _ _ _ HD Ht HT RX) as [Ex Ey]. destruct (pole_size _ _ t _ _ _ HD Ht HT RX) as [Sx Sy]. fold (series_x tt) in Ex, Sx. fold (series_y tt) in Ey, Sy.
    change (uas (X_iers (iers_arguments t) t)) with (series_x tt) in *. change (uas (Y_iers (iers_arguments t) t)) with (series_y tt) in *.
    assert (UA : uas 0.0002 <= 9.7e-16). { rewrite uas_val. pose proof pi_bounds. lra. } assert (UB : uas 0.00001 <= 4.9e-17). { rewrite uas_val. pose proof pi_bounds. lra. }
    assert (Bx : Rabs x <= 0.013). { replace x with ((x - series_x tt) + series_x tt) by ring. eapply Rle_trans; [apply Rabs_triang|]. lra. }
    assert (By : Rabs y <= 0.013). { replace y with ((y - series_y tt) + series_y tt) by ring. eapply Rle_trans; [apply Rabs_triang|]. lra. }
    pose proof (c70_locator _ _ t x y s HD Ht HT ltac:(lra) ltac:(lra) RS) as Es. pose proof (locator_size _ _ t x y s HD Ht HT ltac:(lra) ltac:(lra) RS) as Ss.
    destruct (sec_run_error _ _ 0.001 ltac:(lra) ltac:(eapply Rle_trans; [apply sec_size, Hdx|lra]) Rx) as (Dx & Ax & Vx). destruct (sec_run_error _ _ 0.001 ltac:(lra) ltac:(eapply Rle_trans; [apply sec_size, Hdy|lra]) Ry) as (Dy & Ay & Vy).
    assert (K : forall a da v b db, Rabs (a - b) <= 9.7e-16 -> Rabs (da - db) <= 4.001 * 0.001 * u + 1e-100 * u -> Rabs a <= 0.013 -> Rabs da <= 0.0011 -> Rabs b <= 0.012 -> Rabs db <= 0.001 -> near (a + da) v ->
      Rabs (v - (b + db)) <= 9.8e-16 /\ Rabs (b + db) <= 0.1 /\ Rabs v <= 0.1).
    { intros a da v b db H1 H2 H3 H4 H5 H6 N. unfold near in N. pose proof (Rabs_triang a da). pose proof (Rabs_triang b db). assert (u * Rabs (a + da) <= u * 0.015) by (apply Rmult_le_compat_l; lra).
      assert (G : Rabs (v - (b + db)) <= 9.8e-16). { replace (v - (b + db)) with ((v - (a + da)) + ((a - b) + (da - db))) by ring. eapply Rle_trans; [apply Rabs_triang|]. pose proof (Rabs_triang (a - b) (da - db)). lra. }
      split; [exact G|]. split; [lra|]. replace v with ((v - (b + db)) + (b + db)) by ring. eapply Rle_trans; [apply Rabs_triang|]. lra. }
    destruct (K x dx X (series_x tt) (arcsec (e_dX o))) as (G1 & G2 & G3); try assumption; try lra. destruct (K y dy Y (series_y tt) (arcsec (e_dY o))) as (G4 & G5 & G6); try assumption; try lra.
    fold X0 in G1, G2. fold Y0 in G4, G5. split; [exact G1|]. split; [exact G4|]. split; [|repeat split; try assumption].
    - unfold s0, locator_s. fold t. change (centuries (julian_date (mjd tt))) with t. set (S := uas (S_iers (iers_arguments t) t)) in *.
      assert (P : Rabs (x * y - series_x tt * series_y tt) <= 0.013 * 9.7e-16 + 0.012 * 9.7e-16).
      { replace (x * y - series_x tt * series_y tt) with (x * (y - series_y tt) + series_y tt * (x - series_x tt)) by ring. eapply Rle_trans; [apply Rabs_triang|]. rewrite !Rabs_mult. apply Rplus_le_compat; apply Rmult_le_compat; try apply Rabs_pos; lra. }
      apply abs_inv in Es, P. apply Rabs_le. lra.
    - apply abs_inv in Es, Ss. apply Rabs_le. lra.
  Qed.
  Lemma rotation_error q : c2i06a_run T o q -> exists era, eqm era (earth_rotation_angle (julian_date (mjd ut1))) /\ Rabs X0 <= 0.2 /\ Rabs Y0 <= 0.2 /\
    qdist q (rot era s0 (arcsec (-47e-6 * t)) X0 Y0 (arcsec (e_xp o)) (arcsec (e_yp o))) <= 4.2e-13.
  Proof.
    intros (X & Y & s & d & e & era & sp & xp & yp & RP & RS & RE & RSP & RX & RY & RQ). destruct (pole_run_error X Y s RP) as (EX & EY & ES & BX0 & BY0 & BX & BY & BS).
    destruct (era_error tt ut1 T HC HO era RE) as (E7 & a & Ea & Da). pose proof (sp00_error tt ut1 T HC HO sp RSP) as ESP. fold t in ESP. change (centuries (julian_date (mjd tt))) with t in ESP. pose proof usmall as (U & Ti & TU).
    destruct (sec_run_error _ _ 0.005 ltac:(lra) ltac:(eapply Rle_trans; [apply sec_size, Hxp|lra]) RX) as (Dx & _). destruct (sec_run_error _ _ 0.005 ltac:(lra) ltac:(eapply Rle_trans; [apply sec_size, Hyp|lra]) RY) as (Dy & _).
    assert (SP : Rabs sp <= 1). { destruct the_time as (Ht & _). assert (Rabs (arcsec (-47e-6 * t)) <= 0.1). { rewrite <- FundProofs.sec2rad_arcsec. eapply Rle_trans; [apply (sec_size _ 1)|lra]. apply abs_inv in Ht. apply Rabs_le. lra. }
      replace sp with ((sp - arcsec (-47e-6 * t)) + arcsec (-47e-6 * t)) by ring. eapply Rle_trans; [apply Rabs_triang|]. lra. }
    pose proof (c2i_pole era s sp d e xp yp q X Y E7 ltac:(lra) SP ltac:(lra) ltac:(lra) RS RQ) as O. rewrite rot_spherical in O by lra.
    exists a. split; [exact Ea|]. split; [lra|]. split; [lra|]. eapply Rle_trans; [apply (qdist_tri _ (rot era s sp X Y xp yp))|].
    pose proof (rot_lip era s sp X Y xp yp a s0 (arcsec (-47e-6 * t)) X0 Y0 (arcsec (e_xp o)) (arcsec (e_yp o)) ltac:(lra) ltac:(lra) ltac:(lra) ltac:(lra)) as L.
    unfold off in O. fold u in O. lra.
  Qed.
End Epoch.
(** the rotation of the Conventions *)
Lemma rot_turns era era' s sp X Y xp yp v : Rabs X <= 0.2 -> Rabs Y <= 0.2 -> eqm era era' -> qapp (rot era s sp X Y xp yp) v = qapp (rot era' s sp X Y xp yp) v.
Proof.
  intros A B E. rewrite <- !rot_spherical by assumption. destruct (xycip2spherical X Y) as [d e]. rewrite !qapp_mat, !mat_c2i. unfold crs_from_trs, RR. do 2 f_equal. unfold R3. rewrite !cos_neg, !sin_neg, (eqm_cos _ _ E), (eqm_sin _ _ E). reflexivity.
Qed.
Lemma rot_matrix era s sp d e xp yp v : 0 <= d < PI / 2 -> qapp (rot era s sp (sin d * cos e) (sin d * sin e) xp yp) v = app3 (transp (crs_from_trs era s sp d e xp yp)) v.
Proof. intros H. unfold rot. rewrite <- c2i_polar by exact H. rewrite qapp_mat, mat_c2i. reflexivity. Qed.
