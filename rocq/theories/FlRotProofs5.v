(** Runs exist: exact evaluation, and evaluation in binary64. *)
From Coq Require Import Reals ZArith List Permutation Lra Lia.
From Flocq Require Import Core.Core IEEE754.BinarySingleNaN.
From Verif Require Import Base Angles KahanModel PiBound Vec RotModel RotSpec RotProofs FundModel FundSpec FundProofs CipSpec FlModel FlProofs FlFloatModel FlFloatProofs FlCipModel FlCipProofs FlCipProofs2 FlCipProps FlEraModel FlEraProofs FlEraProps FlRotModel FlRotSpec FlRotProofs FlRotProofs2 FlRotProofs3 FlRotProofs4.
Import ListNotations.
Open Scope R_scope.

(** ** the celestial part is the whole rotation without polar motion *)
Lemma qmul_1_l q : qmul (Q 1 0 0 0) q = q. Proof. apply quat_eq; cbn; ring. Qed.
Lemma no_motion : tirs2i 0 0 0 = Q 1 0 0 0.
Proof. unfold tirs2i. rewrite Ropp_0. apply quat_eq; cbn [qmul aaX aaY aaZ qw qx qy qz]; replace (0 / 2) with 0 by field; rewrite cos_0, sin_0; ring. Qed.
Lemma c2tirs_c2i era s d e : c2tirs era s d e = c2i era s 0 d e 0 0.
Proof. rewrite chain, no_motion, qmul_1_l. reflexivity. Qed.
Lemma c2tirs_pole era s d e q X Y : Rabs era <= 7 -> Rabs s <= 1 -> Rabs X <= 0.2 -> Rabs Y <= 0.2 -> spherical_run X Y d e -> c2tirs_run era s d e q ->
  off 43.5 q (rot era s 0 X Y 0 0).
Proof.
  intros Ha Hs HX HY S R. rewrite <- rot_spherical by assumption. pose proof (spherical_error X Y d e HX HY S) as K. destruct (xycip2spherical X Y) as [d0 e0]. destruct K as (D & E & E0 & C).
  pose proof (c2tirs_off era s d e q Ha Hs E R) as O. rewrite c2tirs_c2i in O. unfold off in *. fold u in *. pose proof usmall as (U & _).
  eapply Rle_trans; [apply (qdist_tri _ (c2i era s 0 d e 0 0))|]. assert (L : qdist (c2i era s 0 d e 0 0) (c2i era s 0 d0 e0 0 0) <= 6.3 * u); [|lra]. destruct C as [C|[-> C]].
  - eapply Rle_trans; [apply c2i_lip|]. rewrite !(Rminus_diag_eq 0 0) by reflexivity. rewrite Rabs_R0. replace (e + s - 0 - era - (e0 + s - 0 - era)) with (e - e0) by ring. lra.
  - eapply Rle_trans; [apply (qdist_tri _ (c2i era s 0 d0 0 0 0))|]. rewrite (qdist_sym _ (c2i era s 0 d0 e0 0 0)). pose proof (c2i_axis era s 0 d0 e0 0 0) as A. rewrite (Rabs_pos_eq d0) in A by lra.
    pose proof (c2i_lip era s 0 d 0 0 0 era s 0 d0 0 0 0) as B. rewrite !(Rminus_diag_eq 0 0), !(Rminus_diag_eq (0 + s - 0 - era) (0 + s - 0 - era)) in B by reflexivity. rewrite Rabs_R0 in B. lra.
Qed.

(** ** exact evaluation *)
Lemma near_self x : near x x.
Proof. unfold near. rewrite Rminus_diag_eq, Rabs_R0 by reflexivity. pose proof usmall as (U & T & _). pose proof (Rabs_pos x). nra. Qed.
Lemma dot4_self a b c d : dot_run [a; b; c; d] (fst a * snd a + fst b * snd b + fst c * snd c + fst d * snd d).
Proof.
  exists [fst a * snd a; fst b * snd b; fst c * snd c; fst d * snd d]. split; [apply Forall2_cons; [apply near_self|]; apply Forall2_cons; [apply near_self|]; apply Forall2_cons; [apply near_self|]; apply Forall2_cons; [apply near_self|]; apply Forall2_nil|].
  apply (sum_two _ [fst a * snd a; fst b * snd b; fst c * snd c] [fst d * snd d] (fst a * snd a + fst b * snd b + fst c * snd c) (fst d * snd d)); [apply Permutation_refl| |constructor|apply near_self].
  apply (sum_two _ [fst a * snd a; fst b * snd b] [fst c * snd c] (fst a * snd a + fst b * snd b) (fst c * snd c)); [apply Permutation_refl| |constructor|apply near_self].
  apply (sum_two _ [fst a * snd a] [fst b * snd b] (fst a * snd a) (fst b * snd b)); [apply Permutation_refl|constructor|constructor|apply near_self].
Qed.
Lemma qmul_self a b : qmul_run a b (qmul a b).
Proof.
  assert (E : forall l v w, v = w -> dot_run l v -> dot_run l w) by (intros l v w ->; trivial).
  repeat split; (eapply E; [|apply dot4_self]); cbn; ring.
Qed.
Lemma half_self t : half_run t (cos (t / 2)) (sin (t / 2)).
Proof. exists (t / 2). rewrite !Rminus_diag_eq, Rabs_R0 by reflexivity. pose proof usmall as (U & T & _). rewrite p52. repeat split; lra. Qed.
Lemma aaX_self t : aaX_run t (aaX t). Proof. split; [apply half_self|split; reflexivity]. Qed.
Lemma aaY_self t : aaY_run t (aaY t). Proof. split; [apply half_self|split; reflexivity]. Qed.
Lemma aaZ_self t : aaZ_run t (aaZ t). Proof. split; [apply half_self|split; reflexivity]. Qed.
Lemma c2i_self era s sp d e xp yp : c2i_run era s sp d e xp yp (c2i era s sp d e xp yp).
Proof.
  exists (- sp - era), (- sp - era + e), (- sp - era + e + s), (aaX yp), (aaY xp), (aaZ (- sp - era + e + s)), (aaY (- d)), (aaZ (- e)), (qmul (aaX yp) (aaY xp)), (qmul (qmul (aaX yp) (aaY xp)) (aaZ (- sp - era + e + s))),
    (qmul (qmul (qmul (aaX yp) (aaY xp)) (aaZ (- sp - era + e + s))) (aaY (- d))).
  repeat match goal with |- _ /\ _ => split end; first [apply near_self|apply aaX_self|apply aaY_self|apply aaZ_self|apply qmul_self].
Qed.
Lemma spherical_self X Y : let '(d, e) := xycip2spherical X Y in spherical_run X Y d e.
Proof.
  unfold xycip2spherical. exists (X * X), (Y * Y), (X * X + Y * Y), (1 - (X * X + Y * Y)), ((X * X + Y * Y) / (1 - (X * X + Y * Y))), (sqrt ((X * X + Y * Y) / (1 - (X * X + Y * Y)))).
  do 6 (split; [apply near_self|]). assert (P : forall k, 0 <= / 2 ^ k) by (intros k; apply Rlt_le, Rinv_0_lt_compat, pow_lt; lra). split; [rewrite Rminus_diag_eq, Rabs_R0 by reflexivity; apply P|].
  destruct (Rlt_dec 0 (X * X + Y * Y)); [rewrite Rminus_diag_eq, Rabs_R0 by reflexivity; apply P|reflexivity].
Qed.
Lemma sec_self a : sec_run a (FundModel.sec2rad a).
Proof. unfold sec_run. rewrite Rminus_diag_eq, Rabs_R0 by reflexivity. pose proof usmall as (U & T & _). pose proof (Rabs_pos (FundModel.sec2rad a)). nra. Qed.
Lemma arguments_exist d2pi t : exists F, arguments_run d2pi t F.
Proof.
  assert (L : forall es, exists L, Forall2 (lunisolar_run t) es L).
  { induction es as [|e es (L & IH)]; [exists []; constructor|]. exists (sec2rad (fmod (eval (tenv t) e) TURNAS) :: L). constructor; [|exact IH]. exists (eval (tenv t) e). split; [apply c70_exact_run|exact (sec_self _)]. }
  assert (P : forall es, exists L, Forall2 (planetary_run d2pi t) es L).
  { induction es as [|e es (Q & IH)]; [exists []; constructor|]. exists (fmod (eval (tenv t) e) d2pi :: Q). constructor; [|exact IH]. exists (eval (tenv t) e). split; [apply c70_exact_run|reflexivity]. }
  destruct (L lunisolare) as (L' & HL), (P planetarye) as (P' & HP). exists (L' ++ P' ++ [eval (tenv t) fapa03e]). do 3 eexists. split; [reflexivity|]. split; [exact HL|]. split; [exact HP|apply c70_exact_run].
Qed.
Lemma pole_exists T o : exists X Y s, pole_run T o X Y s.
Proof.
  destruct (arguments_exist (td2pi T) (ttt T)) as (F & A). destruct (check_some _ check_xy_ok) as (a & b & D).
  do 3 eexists. do 4 eexists. exists (FundModel.sec2rad (e_dY o)). split; [split; [exact A|]; exists a, b; split; [exact D|]; split; apply c70_exact_run|]. split; [exists F; split; [exact A|apply c70_exact_run]|].
  split; [apply sec_self|]. split; [apply sec_self|]. split; apply near_self.
Qed.
Lemma rotation_exists tt ut1 o : in_century tt ut1 -> exists q, c2i06a_run (exact_times tt ut1) o q.
Proof.
  intros C. destruct (pole_exists (exact_times tt ut1) o) as (X & Y & s & P). destruct (c71_nonvacuous tt ut1 C) as (_ & era & E). pose proof (spherical_self X Y) as S. destruct (xycip2spherical X Y) as [d e].
  eexists. exists X, Y, s, d, e, era. do 3 eexists. split; [exact P|]. split; [exact S|]. split; [exact E|]. split; [apply c70_exact_run|]. split; [apply sec_self|]. split; [apply sec_self|]. apply c2i_self.
Qed.

(** ** binary64 *)
Definition fin4 (a : quat64) : Prop := fin (w64 a) /\ fin (x64 a) /\ fin (y64 a) /\ fin (z64 a).
Definition val4 (a : quat64) : quat := Q (val (w64 a)) (val (x64 a)) (val (y64 a)) (val (z64 a)).
Lemma near_size x v m : near x v -> Rabs x <= m -> 1 <= m -> Rabs v <= 2 * m.
Proof.
  unfold near. intros H K M. pose proof usmall as (U & T & TU). replace v with ((v - x) + x) by ring. eapply Rle_trans; [apply Rabs_triang|].
  assert (u * Rabs x <= 0.1 * Rabs x) by (apply Rmult_le_compat_r; [apply Rabs_pos|lra]). lra.
Qed.
Lemma prod_size x y : Rabs x <= 2 -> Rabs y <= 2 -> Rabs (x * y) <= 4.
Proof. intros A B. rewrite Rabs_mult. replace 4 with (2 * 2) by lra. apply Rmult_le_compat; try apply Rabs_pos; assumption. Qed.
Lemma big_large : 1000 <= big.
Proof. unfold big. apply Rle_trans with (2 ^ 10); [lra|]. apply Rle_pow; [lra|lia]. Qed.
Lemma near_opp x y v : near (x * y) v -> near (- x * y) (- v).
Proof. unfold near. intros H. replace (- v - - x * y) with (- (v - x * y)) by ring. replace (- x * y) with (- (x * y)) by ring. rewrite !Rabs_Ropp. exact H. Qed.
(** ((p1 + p2) + p3) + p4, subtractions being additions of negated products *)
Lemma four a b c d x1 x2 x3 x4 s1 s2 s3 : near (fst a * snd a) x1 -> near (fst b * snd b) x2 -> near (fst c * snd c) x3 -> near (fst d * snd d) x4 ->
  near (x1 + x2) s1 -> near (s1 + x3) s2 -> near (s2 + x4) s3 -> dot_run [a; b; c; d] s3.
Proof.
  intros A B C D S1 S2 S3. exists [x1; x2; x3; x4]. split; [apply Forall2_cons; [exact A|]; apply Forall2_cons; [exact B|]; apply Forall2_cons; [exact C|]; apply Forall2_cons; [exact D|]; apply Forall2_nil|].
  apply (sum_two _ [x1; x2; x3] [x4] s2 x4); [apply Permutation_refl| |constructor|exact S3].
  apply (sum_two _ [x1; x2] [x3] s1 x3); [apply Permutation_refl| |constructor|exact S2].
  apply (sum_two _ [x1] [x2] x1 x2); [apply Permutation_refl|constructor|constructor|exact S1].
Qed.
Definition small_d (x : KahanModel.double) : Prop := fin x /\ Rabs (val x) <= 2.
Lemma sum_mmm a1 b1 a2 b2 a3 b3 a4 b4 : small_d a1 -> small_d b1 -> small_d a2 -> small_d b2 -> small_d a3 -> small_d b3 -> small_d a4 -> small_d b4 ->
  let v := dsub (dsub (dsub (dmul a1 b1) (dmul a2 b2)) (dmul a3 b3)) (dmul a4 b4) in
  fin v /\ dot_run [(val a1, val b1); (- val a2, val b2); (- val a3, val b3); (- val a4, val b4)] (val v).
Proof.
  intros [A1 A1'] [B1 B1'] [A2 A2'] [B2 B2'] [A3 A3'] [B3 B3'] [A4 A4'] [B4 B4'] v. unfold v. clear v. pose proof big_large as BG.
  destruct (dmul_ok a1 b1 A1 B1) as [F1 N1]; [lra|lra|]. destruct (dmul_ok a2 b2 A2 B2) as [F2 N2]; [lra|lra|]. destruct (dmul_ok a3 b3 A3 B3) as [F3 N3]; [lra|lra|]. destruct (dmul_ok a4 b4 A4 B4) as [F4 N4]; [lra|lra|].
  pose proof (near_size _ _ 4 N1 (prod_size _ _ A1' B1') ltac:(lra)) as M1. pose proof (near_size _ _ 4 N2 (prod_size _ _ A2' B2') ltac:(lra)) as M2. pose proof (near_size _ _ 4 N3 (prod_size _ _ A3' B3') ltac:(lra)) as M3. pose proof (near_size _ _ 4 N4 (prod_size _ _ A4' B4') ltac:(lra)) as M4.
  destruct (dsub_ok _ _ F1 F2) as [G1 S1]; [lra|lra|]. pose proof (near_size _ _ 16 S1 ltac:(apply abs_inv in M1, M2; apply Rabs_le; lra) ltac:(lra)) as K1.
  destruct (dsub_ok _ _ G1 F3) as [G2 S2]; [lra|lra|]. pose proof (near_size _ _ 40 S2 ltac:(apply abs_inv in K1, M3; apply Rabs_le; lra) ltac:(lra)) as K2.
  destruct (dsub_ok _ _ G2 F4) as [G3 S3]; [lra|lra|]. split; [exact G3|]. eapply four; cbn [fst snd]; [exact N1|apply near_opp, N2|apply near_opp, N3|apply near_opp, N4|exact S1|exact S2|exact S3].
Qed.
Lemma sum_ppm a1 b1 a2 b2 a3 b3 a4 b4 : small_d a1 -> small_d b1 -> small_d a2 -> small_d b2 -> small_d a3 -> small_d b3 -> small_d a4 -> small_d b4 ->
  let v := dsub (dadd (dadd (dmul a1 b1) (dmul a2 b2)) (dmul a3 b3)) (dmul a4 b4) in
  fin v /\ dot_run [(val a1, val b1); (val a2, val b2); (val a3, val b3); (- val a4, val b4)] (val v).
Proof.
  intros [A1 A1'] [B1 B1'] [A2 A2'] [B2 B2'] [A3 A3'] [B3 B3'] [A4 A4'] [B4 B4'] v. unfold v. clear v. pose proof big_large as BG.
  destruct (dmul_ok a1 b1 A1 B1) as [F1 N1]; [lra|lra|]. destruct (dmul_ok a2 b2 A2 B2) as [F2 N2]; [lra|lra|]. destruct (dmul_ok a3 b3 A3 B3) as [F3 N3]; [lra|lra|]. destruct (dmul_ok a4 b4 A4 B4) as [F4 N4]; [lra|lra|].
  pose proof (near_size _ _ 4 N1 (prod_size _ _ A1' B1') ltac:(lra)) as M1. pose proof (near_size _ _ 4 N2 (prod_size _ _ A2' B2') ltac:(lra)) as M2. pose proof (near_size _ _ 4 N3 (prod_size _ _ A3' B3') ltac:(lra)) as M3. pose proof (near_size _ _ 4 N4 (prod_size _ _ A4' B4') ltac:(lra)) as M4.
  destruct (dadd_ok _ _ F1 F2) as [G1 S1]; [lra|lra|]. pose proof (near_size _ _ 16 S1 ltac:(apply abs_inv in M1, M2; apply Rabs_le; lra) ltac:(lra)) as K1.
  destruct (dadd_ok _ _ G1 F3) as [G2 S2]; [lra|lra|]. pose proof (near_size _ _ 40 S2 ltac:(apply abs_inv in K1, M3; apply Rabs_le; lra) ltac:(lra)) as K2.
  destruct (dsub_ok _ _ G2 F4) as [G3 S3]; [lra|lra|]. split; [exact G3|]. eapply four; cbn [fst snd]; [exact N1|exact N2|exact N3|apply near_opp, N4|exact S1|exact S2|exact S3].
Qed.
Lemma comps_small a : fin4 a -> qlen (val4 a) <= 2 -> small_d (w64 a) /\ small_d (x64 a) /\ small_d (y64 a) /\ small_d (z64 a).
Proof.
  intros (F1 & F2 & F3 & F4) H. assert (K : forall x y, 0 <= y -> sqrt (x * x + y) <= 2 -> Rabs x <= 2). { intros x y Y L. eapply Rle_trans; [|exact L]. rewrite <- (sqrt_Rsqr_abs x). apply sqrt_le_1_alt. unfold Rsqr. lra. }
  unfold qlen, qsq, val4 in H; cbn [qw qx qy qz] in H. pose proof (Rle_0_sqr (val (w64 a))). pose proof (Rle_0_sqr (val (x64 a))). pose proof (Rle_0_sqr (val (y64 a))). pose proof (Rle_0_sqr (val (z64 a))). unfold Rsqr in *.
  repeat split; try assumption.
  - eapply K; [|eapply Rle_trans; [|exact H]; right; f_equal; rewrite !Rplus_assoc; reflexivity]. lra.
  - apply (K _ (val (w64 a) * val (w64 a) + val (y64 a) * val (y64 a) + val (z64 a) * val (z64 a))); [lra|]. eapply Rle_trans; [|exact H]. right; f_equal; ring.
  - apply (K _ (val (w64 a) * val (w64 a) + val (x64 a) * val (x64 a) + val (z64 a) * val (z64 a))); [lra|]. eapply Rle_trans; [|exact H]. right; f_equal; ring.
  - apply (K _ (val (w64 a) * val (w64 a) + val (x64 a) * val (x64 a) + val (y64 a) * val (y64 a))); [lra|]. eapply Rle_trans; [|exact H]. right; f_equal; ring.
Qed.
Lemma qmul64_run a b : fin4 a -> fin4 b -> qlen (val4 a) <= 2 -> qlen (val4 b) <= 2 -> fin4 (qmul64 a b) /\ qmul_run (val4 a) (val4 b) (val4 (qmul64 a b)).
Proof.
  intros Fa Fb Ha Hb. destruct (comps_small a Fa Ha) as (A1 & A2 & A3 & A4). destruct (comps_small b Fb Hb) as (B1 & B2 & B3 & B4).
  destruct (sum_mmm _ _ _ _ _ _ _ _ A1 B1 A2 B2 A3 B3 A4 B4) as [P1 Q1]. destruct (sum_ppm _ _ _ _ _ _ _ _ A1 B2 A2 B1 A3 B4 A4 B3) as [P2 Q2].
  destruct (sum_ppm _ _ _ _ _ _ _ _ A1 B3 A3 B1 A4 B2 A2 B4) as [P3 Q3]. destruct (sum_ppm _ _ _ _ _ _ _ _ A1 B4 A4 B1 A2 B3 A3 B2) as [P4 Q4].
  split; [repeat split; assumption|]. split; [exact Q1|]. split; [exact Q2|]. split; [exact Q3|exact Q4].
Qed.

(** ** the two parts for an epoch *)
Lemma tirs2i_lip xp yp sp xp' yp' sp' : qdist (tirs2i xp yp sp) (tirs2i xp' yp' sp') <= (Rabs (yp - yp') + Rabs (xp - xp') + Rabs (sp - sp')) / 2.
Proof.
  unfold tirs2i. eapply Rle_trans; [apply mul_lip; first [apply unit_Z|apply unit_mul; first [apply unit_X|apply unit_Y]]|].
  eapply Rle_trans; [apply Rplus_le_compat_r, mul_lip; first [apply unit_X|apply unit_Y]|].
  pose proof (aaX_lip yp yp'). pose proof (aaY_lip xp xp'). pose proof (aaZ_lip (- sp) (- sp')) as P. replace (- sp - - sp') with (- (sp - sp')) in P by ring. rewrite Rabs_Ropp in P. lra.
Qed.
Lemma rot_parts era s sp X Y xp yp : rot era s sp X Y xp yp = qmul (tirs2i xp yp sp) (rot era s 0 X Y 0 0).
Proof. unfold rot. rewrite no_motion, qmul_1_l, !qmul_assoc. reflexivity. Qed.
Section Parts.
  Variables (tt ut1 : epoch) (T : times) (o : eop).
  Hypotheses (HC : in_century tt ut1) (HO : handed_out tt ut1 T).
  Hypotheses (Hdx : Rabs (e_dX o) <= 100) (Hdy : Rabs (e_dY o) <= 100) (Hxp : Rabs (e_xp o) <= 1000) (Hyp : Rabs (e_yp o) <= 1000).
  Let t : R := centuries (julian_date (mjd tt)).
  Let X0 : R := series_x tt + arcsec (e_dX o).
  Let Y0 : R := series_y tt + arcsec (e_dY o).
  Let s0 : R := locator_s tt.
  Let T0 : quat := tirs2i (arcsec (e_xp o)) (arcsec (e_yp o)) (arcsec (-47e-6 * t)).
  Lemma parts_error qc qt : c2i06a_pq_run T o qc qt -> exists era, eqm era (earth_rotation_angle (julian_date (mjd ut1))) /\ Rabs X0 <= 0.2 /\ Rabs Y0 <= 0.2 /\
    qdist qc (rot era s0 0 X0 Y0 0 0) <= 4.1e-13 /\ qdist qt T0 <= 3.1e-15.
  Proof.
    intros (X & Y & s & d & e & era & sp & xp & yp & RP & RS & RE & RSP & RX & RY & RC & RT). destruct (pole_run_error tt ut1 T o HC HO Hdx Hdy X Y s RP) as (EX & EY & ES & BX0 & BY0 & BX & BY & BS).
    fold X0 in EX, BX0. fold Y0 in EY, BY0. fold s0 in ES.
    destruct (era_error tt ut1 T HC HO era RE) as (E7 & a & Ea & Da). pose proof (sp00_error tt ut1 T HC HO sp RSP) as ESP. change (centuries (julian_date (mjd tt))) with t in ESP. pose proof usmall as (U & Ti & TU).
    destruct (sec_run_error _ _ 0.005 ltac:(lra) ltac:(eapply Rle_trans; [apply sec_size, Hxp|lra]) RX) as (Dx & _). destruct (sec_run_error _ _ 0.005 ltac:(lra) ltac:(eapply Rle_trans; [apply sec_size, Hyp|lra]) RY) as (Dy & _).
    pose proof (c2tirs_pole era s d e qc X Y E7 ltac:(lra) ltac:(lra) ltac:(lra) RS RC) as O. pose proof (tirs2i_off _ _ _ _ RT) as OT. unfold off in O, OT. fold u in O, OT.
    exists a. split; [exact Ea|]. split; [lra|]. split; [lra|]. split.
    - eapply Rle_trans; [apply (qdist_tri _ (rot era s 0 X Y 0 0))|].
      pose proof (rot_lip era s 0 X Y 0 0 a s0 0 X0 Y0 0 0 ltac:(lra) ltac:(lra) ltac:(lra) ltac:(lra)) as L. rewrite !(Rminus_diag_eq 0 0) in L by reflexivity. rewrite !Rabs_R0 in L. lra.
    - eapply Rle_trans; [apply (qdist_tri _ (tirs2i xp yp sp))|]. pose proof (tirs2i_lip xp yp sp (arcsec (e_xp o)) (arcsec (e_yp o)) (arcsec (-47e-6 * t))) as L. fold T0 in L. lra.
  Qed.
End Parts.
Lemma len_unit q v : unit_q q -> len (qapp q v) = len v.
Proof.
  intros U. unfold len. f_equal. assert (S : qsq q = 1) by (rewrite <- qlen_sq, (qlen_unit q U); ring).
  transitivity (dot v v + 4 * (qsq q - 1) * dot (cross (mk3 (qx q) (qy q) (qz q)) v) (cross (mk3 (qx q) (qy q) (qz q)) v)); [unfold qapp, qsq, dot, cross, vplus, vmul; cbn [p1 p2 p3]; ring|rewrite S; ring].
Qed.
Lemma iso q a b : unit_q q -> vdist (qapp q a) (qapp q b) = vdist a b.
Proof. intros U. unfold vdist. rewrite <- (len_unit q (vminus a b) U). f_equal. unfold vminus, qapp, cross, vplus, vmul. cbn. f_equal; ring. Qed.
