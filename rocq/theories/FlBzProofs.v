(** Rounding of the closed formula and of the derivative matrix: errors in units of 2^-53, absolute. *)
From Coq Require Import Reals ZArith List Permutation Lra Lia.
From Verif Require Import Base Angles PiBound Vec RotModel RotSpec RotProofs FundModel FundSpec FundProofs CipSpec FlModel FlProofs FlCipModel FlEraModel FlEraProofs FlRotModel FlRotSpec FlRotProofs FlRotProofs2 FlRotProofs4 FlRotProofs5 FlBzModel.
Import ListNotations.
Open Scope R_scope.

(** ** values off by k units, of size m *)
Definition ab (k m x x0 : R) : Prop := Rabs (x - x0) <= k * u /\ Rabs x0 <= m.
Lemma ab_opp k m x x0 : ab k m x x0 -> ab k m (- x) (- x0).
Proof. intros [A B]. split; [replace (- x - - x0) with (- (x - x0)) by ring|]; rewrite Rabs_Ropp; assumption. Qed.
Lemma ab_weak k k' m m' x x0 : k <= k' -> m <= m' -> ab k m x x0 -> ab k' m' x x0.
Proof. intros K M [A B]. pose proof usmall as (U & _). split; [|lra]. eapply Rle_trans; [exact A|]. apply Rmult_le_compat_r; lra. Qed.
Lemma ab_self m x : Rabs x <= m -> ab 0 m x x.
Proof. intros H. split; [rewrite Rminus_diag_eq, Rabs_R0 by reflexivity; lra|exact H]. Qed.
Lemma prod_ab k l m n x x0 y y0 : 0 <= k <= 1e4 -> 0 <= l <= 1e4 -> m <= 10 -> n <= 10 -> ab k m x x0 -> ab l n y y0 ->
  Rabs (x * y - x0 * y0) <= (k * n + l * m + 1e-6) * u /\ Rabs x * Rabs y <= m * n + 1e-9 /\ Rabs (x0 * y0) <= m * n.
Proof.
  intros K L M N [A B] [C D]. pose proof usmall as (U & _). pose proof (Rabs_pos x0). pose proof (Rabs_pos y0). pose proof (Rabs_pos (x - x0)). pose proof (Rabs_pos (y - y0)).
  assert (KU : 0 <= k * u <= 1.2e-12) by nra. assert (LU : 0 <= l * u <= 1.2e-12) by nra.
  assert (P1 : Rabs (x - x0) * Rabs (y - y0) <= k * u * (l * u)) by (apply Rmult_le_compat; lra). assert (P2 : Rabs (x - x0) * Rabs y0 <= k * u * n) by (apply Rmult_le_compat; lra).
  assert (P3 : Rabs x0 * Rabs (y - y0) <= m * (l * u)) by (apply Rmult_le_compat; lra). assert (P4 : Rabs x0 * Rabs y0 <= m * n) by (apply Rmult_le_compat; lra).
  assert (Q : k * u * (l * u) <= 1e-6 * u). { replace (k * u * (l * u)) with (k * (l * u) * u) by ring. apply Rmult_le_compat_r; [lra|]. nra. }
  split; [|split].
  - replace (x * y - x0 * y0) with ((x - x0) * (y - y0) + (x - x0) * y0 + x0 * (y - y0)) by ring. eapply Rle_trans; [apply Rabs_triang|]. eapply Rle_trans; [apply Rplus_le_compat_r, Rabs_triang|]. rewrite !Rabs_mult. lra.
  - assert (X : Rabs x <= Rabs x0 + k * u). { replace x with ((x - x0) + x0) by ring. eapply Rle_trans; [apply Rabs_triang|]. lra. } assert (Y : Rabs y <= Rabs y0 + l * u). { replace y with ((y - y0) + y0) by ring. eapply Rle_trans; [apply Rabs_triang|]. lra. }
    apply Rle_trans with ((Rabs x0 + k * u) * (Rabs y0 + l * u)); [apply Rmult_le_compat; try apply Rabs_pos; assumption|]. nra.
  - rewrite Rabs_mult. exact P4.
Qed.
Lemma near_ab k m x x0 v K : 0 <= k <= 1e4 -> m <= 100 -> ab k m x x0 -> near x v -> k + m + 1e-6 <= K -> ab K m v x0.
Proof.
  intros HK M [A B] N HH. pose proof usmall as (U & T & TU). split; [|exact B]. unfold near in N. assert (KU : 0 <= k * u <= 1.2e-12) by nra.
  assert (X : Rabs x <= m + 1.2e-12). { replace x with ((x - x0) + x0) by ring. eapply Rle_trans; [apply Rabs_triang|]. lra. }
  assert (u * Rabs x <= u * (m + 1.2e-12)) by (apply Rmult_le_compat_l; lra). assert (K * u >= (k + m + 1e-6) * u) by (apply Rle_ge, Rmult_le_compat_r; lra).
  replace (v - x0) with ((v - x) + (x - x0)) by ring. eapply Rle_trans; [apply Rabs_triang|]. lra.
Qed.
Lemma mul_ab k l m n x x0 y y0 v K M : 0 <= k <= 1e4 -> 0 <= l <= 1e4 -> m <= 10 -> n <= 10 -> ab k m x x0 -> ab l n y y0 -> near (x * y) v ->
  k * n + l * m + m * n + 1e-5 <= K -> m * n <= M -> ab K M v (x0 * y0).
Proof.
  intros HK HL HM HN A B N HH HM'. destruct (prod_ab k l m n x x0 y y0 HK HL HM HN A B) as (E & S & S0). pose proof usmall as (U & T & TU). unfold near in N. split; [|lra]. rewrite Rabs_mult in N.
  assert (u * (Rabs x * Rabs y) <= u * (m * n + 1e-9)) by (apply Rmult_le_compat_l; lra). assert (K * u >= (k * n + l * m + m * n + 1e-5) * u) by (apply Rle_ge, Rmult_le_compat_r; lra).
  replace (v - x0 * y0) with ((v - x * y) + (x * y - x0 * y0)) by ring. eapply Rle_trans; [apply Rabs_triang|]. lra.
Qed.
Lemma dot2_ab k1 l1 m1 n1 k2 l2 m2 n2 x1 y1 x2 y2 a1 b1 a2 b2 v K M :
  0 <= k1 <= 1e4 -> 0 <= l1 <= 1e4 -> m1 <= 10 -> n1 <= 10 -> 0 <= k2 <= 1e4 -> 0 <= l2 <= 1e4 -> m2 <= 10 -> n2 <= 10 ->
  ab k1 m1 x1 a1 -> ab l1 n1 y1 b1 -> ab k2 m2 x2 a2 -> ab l2 n2 y2 b2 -> dot_run [(x1, y1); (x2, y2)] v ->
  k1 * n1 + l1 * m1 + (k2 * n2 + l2 * m2) + 4.001 * (m1 * n1 + m2 * n2) + 1e-4 <= K -> m1 * n1 + m2 * n2 <= M -> ab K M v (a1 * b1 + a2 * b2).
Proof.
  intros K1 L1 M1 N1 K2 L2 M2 N2 A1 B1 A2 B2 R HK HM. destruct (prod_ab _ _ _ _ _ _ _ _ K1 L1 M1 N1 A1 B1) as (E1 & S1 & T1). destruct (prod_ab _ _ _ _ _ _ _ _ K2 L2 M2 N2 A2 B2) as (E2 & S2 & T2).
  pose proof usmall as (U & T & TU). apply dot_run_bound in R; [|cbn; lia]. unfold dots, dmass, total in R; cbn [map fold_right fst snd] in R. rewrite ?Rplus_0_r in R. split.
  - assert (4.001 * u * (Rabs x1 * Rabs y1 + Rabs x2 * Rabs y2) <= 4.001 * u * (m1 * n1 + m2 * n2 + 2e-9)) by (apply Rmult_le_compat_l; lra).
    assert (K * u >= (k1 * n1 + l1 * m1 + (k2 * n2 + l2 * m2) + 4.001 * (m1 * n1 + m2 * n2) + 1e-4) * u) by (apply Rle_ge, Rmult_le_compat_r; lra).
    replace (v - (a1 * b1 + a2 * b2)) with ((v - (x1 * y1 + x2 * y2)) + ((x1 * y1 - a1 * b1) + (x2 * y2 - a2 * b2))) by ring. eapply Rle_trans; [apply Rabs_triang|]. pose proof (Rabs_triang (x1 * y1 - a1 * b1) (x2 * y2 - a2 * b2)). lra.
  - eapply Rle_trans; [apply Rabs_triang|]. lra.
Qed.
Lemma dot3_ab k1 l1 m1 n1 k2 l2 m2 n2 k3 l3 m3 n3 x1 y1 x2 y2 x3 y3 a1 b1 a2 b2 a3 b3 v K M :
  0 <= k1 <= 1e4 -> 0 <= l1 <= 1e4 -> m1 <= 10 -> n1 <= 10 -> 0 <= k2 <= 1e4 -> 0 <= l2 <= 1e4 -> m2 <= 10 -> n2 <= 10 -> 0 <= k3 <= 1e4 -> 0 <= l3 <= 1e4 -> m3 <= 10 -> n3 <= 10 ->
  ab k1 m1 x1 a1 -> ab l1 n1 y1 b1 -> ab k2 m2 x2 a2 -> ab l2 n2 y2 b2 -> ab k3 m3 x3 a3 -> ab l3 n3 y3 b3 -> dot_run [(x1, y1); (x2, y2); (x3, y3)] v ->
  k1 * n1 + l1 * m1 + (k2 * n2 + l2 * m2) + (k3 * n3 + l3 * m3) + 4.001 * (m1 * n1 + m2 * n2 + m3 * n3) + 1e-4 <= K -> m1 * n1 + m2 * n2 + m3 * n3 <= M -> ab K M v (a1 * b1 + a2 * b2 + a3 * b3).
Proof.
  intros K1 L1 M1 N1 K2 L2 M2 N2 K3 L3 M3 N3 A1 B1 A2 B2 A3 B3 R HK HM. destruct (prod_ab _ _ _ _ _ _ _ _ K1 L1 M1 N1 A1 B1) as (E1 & S1 & T1). destruct (prod_ab _ _ _ _ _ _ _ _ K2 L2 M2 N2 A2 B2) as (E2 & S2 & T2). destruct (prod_ab _ _ _ _ _ _ _ _ K3 L3 M3 N3 A3 B3) as (E3 & S3 & T3).
  pose proof usmall as (U & T & TU). apply dot_run_bound in R; [|cbn; lia]. unfold dots, dmass, total in R; cbn [map fold_right fst snd] in R. rewrite ?Rplus_0_r in R. split.
  - assert (4.001 * u * (Rabs x1 * Rabs y1 + (Rabs x2 * Rabs y2 + Rabs x3 * Rabs y3)) <= 4.001 * u * (m1 * n1 + m2 * n2 + m3 * n3 + 3e-9)) by (apply Rmult_le_compat_l; lra).
    assert (K * u >= (k1 * n1 + l1 * m1 + (k2 * n2 + l2 * m2) + (k3 * n3 + l3 * m3) + 4.001 * (m1 * n1 + m2 * n2 + m3 * n3) + 1e-4) * u) by (apply Rle_ge, Rmult_le_compat_r; lra).
    replace (v - (a1 * b1 + a2 * b2 + a3 * b3)) with ((v - (x1 * y1 + (x2 * y2 + x3 * y3))) + ((x1 * y1 - a1 * b1) + ((x2 * y2 - a2 * b2) + (x3 * y3 - a3 * b3)))) by ring. eapply Rle_trans; [apply Rabs_triang|].
    pose proof (Rabs_triang (x1 * y1 - a1 * b1) ((x2 * y2 - a2 * b2) + (x3 * y3 - a3 * b3))). pose proof (Rabs_triang (x2 * y2 - a2 * b2) (x3 * y3 - a3 * b3)). lra.
  - eapply Rle_trans; [apply Rabs_triang|]. pose proof (Rabs_triang (a1 * b1) (a2 * b2)). lra.
Qed.

(** ** the closed formula *)
Lemma sin_size x : Rabs (sin x) <= 1. Proof. apply Rabs_le. apply SIN_bound. Qed.
Lemma cos_size x : Rabs (cos x) <= 1. Proof. apply Rabs_le. apply COS_bound. Qed.
Lemma half_ab t T c s k : 0 <= k -> Rabs (T - t) <= k * u -> half_run T c s -> ab (k / 2 + 2.001) 1 c (cos (t / 2)) /\ ab (k / 2 + 2.001) 1 s (sin (t / 2)).
Proof.
  intros K H (h & Hh & C & S). pose proof usmall as (U & Ti & TU). rewrite p52 in C, S. assert (D : Rabs (h - t / 2) <= (k / 2 + 0.001) * u). { replace (h - t / 2) with ((h - T / 2) + (T - t) * / 2) by field. eapply Rle_trans; [apply Rabs_triang|]. rewrite Rabs_mult, (Rabs_pos_eq (/ 2)) by lra. lra. }
  split; (split; [|first [apply cos_size|apply sin_size]]).
  - replace (c - cos (t / 2)) with ((c - cos h) + (cos h - cos (t / 2))) by ring. eapply Rle_trans; [apply Rabs_triang|]. pose proof (cos_lip h (t / 2)). lra.
  - replace (s - sin (t / 2)) with ((s - sin h) + (sin h - sin (t / 2))) by ring. eapply Rle_trans; [apply Rabs_triang|]. pose proof (sin_lip h (t / 2)). lra.
Qed.
Lemma component_ab f c s x1 x2 x3 x4 x5 x6 w1 w2 w3 w4 w5 w6 f0 c0 s0 a1 a2 a3 a4 a5 a6 b1 b2 b3 b4 b5 b6 v :
  ab 2.6 0.51 f f0 -> ab 10.7 1 c c0 -> ab 10.7 1 s s0 -> ab 8.6 0.2 x1 a1 -> ab 8.6 0.2 x2 a2 -> ab 8.6 2 x3 a3 -> ab 8.6 0.2 x4 a4 -> ab 8.6 0.2 x5 a5 -> ab 8.6 2 x6 a6 ->
  ab 5.1 1 w1 b1 -> ab 5.1 1 w2 b2 -> ab 5.1 1 w3 b3 -> ab 5.1 1 w4 b4 -> ab 5.1 1 w5 b5 -> ab 5.1 1 w6 b6 ->
  component_run f c s [(x1, w1); (x2, w2); (x3, w3)] [(x4, w4); (x5, w5); (x6, w6)] v ->
  Rabs (v - f0 * (c0 * (a1 * b1 + a2 * b2 + a3 * b3) + s0 * (a4 * b4 + a5 * b5 + a6 * b6))) <= 105 * u.
Proof.
  intros F C S A1 A2 A3 A4 A5 A6 B1 B2 B3 B4 B5 B6 (a & b & g & R1 & R2 & R3 & R4).
  assert (HA : ab 48 2.4 a (a1 * b1 + a2 * b2 + a3 * b3)) by (eapply dot3_ab; [..|exact A1|exact B1|exact A2|exact B2|exact A3|exact B3|exact R1| |]; lra).
  assert (HB : ab 48 2.4 b (a4 * b4 + a5 * b5 + a6 * b6)) by (eapply dot3_ab; [..|exact A4|exact B4|exact A5|exact B5|exact A6|exact B6|exact R2| |]; lra).
  assert (HG : ab 170 4.8 g (c0 * (a1 * b1 + a2 * b2 + a3 * b3) + s0 * (a4 * b4 + a5 * b5 + a6 * b6))) by (eapply dot2_ab; [..|exact C|exact HA|exact S|exact HB|exact R3| |]; lra).
  assert (HV : ab 105 2.5 v (f0 * (c0 * (a1 * b1 + a2 * b2 + a3 * b3) + s0 * (a4 * b4 + a5 * b5 + a6 * b6)))) by (eapply mul_ab; [..|exact F|exact HG|exact R4| |]; lra). exact (proj1 HV).
Qed.
Lemma qlen_comp q c : 0 <= c -> Rabs (qw q) <= c -> Rabs (qx q) <= c -> Rabs (qy q) <= c -> Rabs (qz q) <= c -> qlen q <= 2 * c.
Proof.
  intros C W X Y Z. apply sq_le in W, X, Y, Z. unfold qlen. rewrite <- (sqrt_square (2 * c)) by lra. apply sqrt_le_1_alt. unfold qsq. lra.
Qed.
Lemma bz_off era s sp X Y xp yp q : Rabs era <= 7 -> Rabs s <= 1 -> Rabs sp <= 1 -> Rabs X <= 0.2 -> Rabs Y <= 0.2 -> bz_run era s sp X Y xp yp q ->
  off 210 q (rot era s sp X Y xp yp).
Proof.
  intros Ha Hs Hp HX HY (cx & sx & cy & sy & tw & aw & bw & cw & t1 & t2 & ct & st & d & e & sd & ce & se & Z & x & y & p & pp & r & f & HH1 & HH2 & N1 & N2 & N3 & N4 & T1 & T2 & HT & SR & Sd & Ce & Se & Cd & NX & NY & NP & NPP & NR & NF & QW & QX & QY & QZ).
  pose proof (small_sq X Y HX HY) as SQ. rewrite <- rot_spherical, <- bz_spherical by assumption. unfold gcrs2itrs_quaternion. pose proof usmall as (U & Ti & TU). rewrite p52 in Sd, Ce, Se, Cd.
  pose proof (spherical_error X Y d e HX HY SR) as SE. pose proof (spherical_ok X Y SQ) as SO. unfold xycip2spherical in SE, SO. cbv zeta.
  set (d0 := atan (sqrt ((X * X + Y * Y) / (1 - (X * X + Y * Y))))) in *. set (e0 := if Rlt_dec 0 (X * X + Y * Y) then atan2 Y X else 0) in *. destruct SE as (Dd & _ & _ & Cse). destruct SO as (EX & EY & EZ & D0).
  destruct (half_ab xp xp cx sx 0 ltac:(lra) (zero_off _) HH1) as [Acx Asx]. destruct (half_ab yp yp cy sy 0 ltac:(lra) (zero_off _) HH2) as [Acy Asy].
  assert (Atw : ab 5.1 1 tw (cos (xp / 2) * cos (yp / 2))) by (eapply mul_ab; [..|exact Acx|exact Acy|exact N1| |]; lra). assert (Aaw : ab 5.1 1 aw (cos (xp / 2) * sin (yp / 2))) by (eapply mul_ab; [..|exact Acx|exact Asy|exact N2| |]; lra).
  assert (Abw : ab 5.1 1 bw (cos (yp / 2) * sin (xp / 2))) by (eapply mul_ab; [..|exact Acy|exact Asx|exact N3| |]; lra). assert (Acw : ab 5.1 1 cw (sin (xp / 2) * sin (yp / 2))) by (eapply mul_ab; [..|exact Asx|exact Asy|exact N4| |]; lra).
  destruct (angle_off era sp 7 1 t1 era 0) as [B1 C1]; try lra; [apply zero_off|exact T1|]. destruct (angle_off t1 (- s) 8.000001 1 t2 (era + sp) 8.000001) as [B2 C2]; try lra; [rewrite Rabs_Ropp; exact Hs|exact T2|].
  destruct (half_ab (era + sp - s) t2 ct st 17.1 ltac:(lra) ltac:(eapply Rle_trans; [exact B2|apply Rmult_le_compat_r; lra]) HT) as [Act Ast]. apply (ab_weak _ 10.7 _ 1) in Act; [|lra|lra]. apply (ab_weak _ 10.7 _ 1) in Ast; [|lra|lra].
  assert (Asd : Rabs (sd - sin d0) <= 6.3 * u). { replace (sd - sin d0) with ((sd - sin d) + (sin d - sin d0)) by ring. eapply Rle_trans; [apply Rabs_triang|]. pose proof (sin_lip d d0). lra. }
  assert (CZ : 0.95 <= cos d0 <= 1). { rewrite <- EZ. apply sq_le in HX, HY. split. - apply Rle_trans with (sqrt (0.95 * 0.95)); [rewrite sqrt_square; lra|]. apply sqrt_le_1_alt. lra. - apply Rle_trans with (sqrt 1); [|rewrite sqrt_1; lra]. apply sqrt_le_1_alt. nra. }
  assert (SD : Rabs (sin d0) <= 0.32). { pose proof (sin2_cos2 d0) as P. unfold Rsqr in P. apply Rabs_le. nra. }
  assert (AZ : ab 6.3 1 Z (cos d0)). { split; [|apply cos_size]. replace (Z - cos d0) with ((Z - cos d) + (cos d - cos d0)) by ring. eapply Rle_trans; [apply Rabs_triang|]. pose proof (cos_lip d d0). lra. }
  assert (AP : ab 8.6 2 p (1 + cos d0)). { eapply (near_ab 6.3 2 (1 + Z)); [lra|lra| |exact NP|lra]. destruct AZ as [E _]. split; [replace (1 + Z - (1 + cos d0)) with (Z - cos d0) by ring; exact E|rewrite Rabs_pos_eq; lra]. }
  assert (XY : ab 8.6 0.2 x (sin d0 * cos e0) /\ ab 8.6 0.2 y (sin d0 * sin e0)).
  { destruct Cse as [He|[He Hd]].
    - assert (Ace : ab 6.001 1 ce (cos e0)). { split; [|apply cos_size]. replace (ce - cos e0) with ((ce - cos e) + (cos e - cos e0)) by ring. eapply Rle_trans; [apply Rabs_triang|]. pose proof (cos_lip e e0). fold u in He. lra. }
      assert (Ase : ab 6.001 1 se (sin e0)). { split; [|apply sin_size]. replace (se - sin e0) with ((se - sin e) + (sin e - sin e0)) by ring. eapply Rle_trans; [apply Rabs_triang|]. pose proof (sin_lip e e0). fold u in He. lra. }
      assert (As : ab 6.3 0.32 sd (sin d0)) by (split; assumption).
      assert (R1 : ab 8.6 0.32 x (sin d0 * cos e0)) by (eapply mul_ab; [..|exact As|exact Ace|exact NX| |]; lra). assert (R2 : ab 8.6 0.32 y (sin d0 * sin e0)) by (eapply mul_ab; [..|exact As|exact Ase|exact NY| |]; lra).
      split; (split; [first [apply R1|apply R2]|first [rewrite <- EX; exact HX|rewrite <- EY; exact HY]]).
    - fold u in Hd. assert (S1 : Rabs (sin d0) <= u). { pose proof (sin_lip d0 0) as L. rewrite sin_0, !Rminus_0_r, (Rabs_pos_eq d0) in L by lra. lra. }
      assert (S2 : Rabs sd <= 7.3 * u). { replace sd with ((sd - sin d0) + sin d0) by ring. eapply Rle_trans; [apply Rabs_triang|]. lra. }
      assert (K : forall c c0 v, Rabs c <= 1.001 -> Rabs c0 <= 1 -> near (sd * c) v -> Rabs (v - sin d0 * c0) <= 8.6 * u).
      { intros c c0 v Hc Hc0 N. unfold near in N. assert (P1 : Rabs (sd * c) <= 7.4 * u). { rewrite Rabs_mult. apply Rle_trans with (7.3 * u * 1.001); [apply Rmult_le_compat; try apply Rabs_pos; assumption|lra]. }
        assert (P2 : Rabs (sin d0 * c0) <= u). { rewrite Rabs_mult. apply Rle_trans with (u * 1); [apply Rmult_le_compat; try apply Rabs_pos; assumption|lra]. }
        assert (u * Rabs (sd * c) <= 1e-6 * u) by nra. replace (v - sin d0 * c0) with ((v - sd * c) + (sd * c - sin d0 * c0)) by ring. eapply Rle_trans; [apply Rabs_triang|]. pose proof (Rabs_triang (sd * c) (- (sin d0 * c0))) as TR. rewrite Rabs_Ropp in TR. unfold Rminus at 2. lra. }
      assert (Sz : forall v w, Rabs (v - w) <= 2 * u -> Rabs w <= 1 -> Rabs v <= 1.001). { intros v w A B. replace v with ((v - w) + w) by ring. eapply Rle_trans; [apply Rabs_triang|]. lra. }
      split; (split; [|first [rewrite <- EX; exact HX|rewrite <- EY; exact HY]]); (eapply K; [| |eassumption]); first [apply cos_size|apply sin_size|eapply Sz; [eassumption|first [apply cos_size|apply sin_size]]]. }
  destruct XY as [AX AY].
  set (r0 := sqrt (2 * (1 + cos d0))). assert (R0 : 1.97 <= r0 <= 2 /\ r0 * r0 = 2 * (1 + cos d0)). { unfold r0. split; [|apply sqrt_sqrt; lra]. split. - apply Rle_trans with (sqrt (1.97 * 1.97)); [rewrite sqrt_square; lra|]. apply sqrt_le_1_alt. lra. - apply Rle_trans with (sqrt (2 * 2)); [|rewrite sqrt_square; lra]. apply sqrt_le_1_alt. lra. }
  assert (APP : Rabs (pp - r0 * r0) <= 21.3 * u /\ 3.88 <= pp). { rewrite (proj2 R0). assert (A2 : ab 21.3 4 pp (2 * (1 + cos d0))). { eapply (near_ab 17.2 4 (2 * p)); [lra|lra| |exact NPP|lra]. destruct AP as [E _]. split; [replace (2 * p - 2 * (1 + cos d0)) with (2 * (p - (1 + cos d0))) by ring; rewrite Rabs_mult, (Rabs_pos_eq 2) by lra; lra|rewrite Rabs_pos_eq; lra]. }
    destruct A2 as [E _]. split; [exact E|]. apply abs_inv in E. lra. }
  destruct APP as [EPP BPP]. set (r1 := sqrt pp) in *. assert (R1 : 1.96 <= r1 /\ r1 * r1 = pp). { unfold r1. split; [|apply sqrt_sqrt; lra]. apply Rle_trans with (sqrt (1.96 * 1.96)); [rewrite sqrt_square; lra|]. apply sqrt_le_1_alt. lra. }
  assert (E1 : Rabs (r1 - r0) <= 5.6 * u). { eapply Rle_trans; [apply (abs_quot _ (r1 + r0) 3.92 (21.3 * u)); [lra|lra|]|lra]. replace ((r1 - r0) * (r1 + r0)) with (r1 * r1 - r0 * r0) by ring. rewrite (proj2 R1). exact EPP. }
  assert (AR : ab 7.7 2 r r0) by (eapply (near_ab 5.6 2 r1); [lra|lra| |exact NR|lra]; split; [exact E1|rewrite Rabs_pos_eq; lra]).
  assert (RR : 1.96 <= r) by (destruct AR as [E _]; apply abs_inv in E; lra).
  assert (AF : ab 2.6 0.51 f (1 / r0)).
  { eapply (near_ab 2.05 0.51 (1 / r)); [lra|lra| |exact NF|lra]. split.
    - eapply Rle_trans; [apply (abs_quot _ (r * r0) 3.84 (7.7 * u)); [lra|nra|]|lra]. replace ((1 / r - 1 / r0) * (r * r0)) with (- (r - r0)) by (field; lra). rewrite Rabs_Ropp. apply AR.
    - unfold Rdiv. rewrite Rmult_1_l, Rabs_pos_eq by (apply Rlt_le, Rinv_0_lt_compat; lra). apply (Rmult_le_reg_l r0); [lra|]. rewrite Rinv_r by lra. lra. }
  pose proof (ab_opp _ _ _ _ AX) as AX'. pose proof (ab_opp _ _ _ _ AY) as AY'. pose proof (ab_opp _ _ _ _ AP) as AP'.
  apply (component_ab _ _ _ _ _ _ _ _ _ _ _ _ _ _ _ _ _ _ _ _ _ _ _ _ _ _ _ _ _ _ _ AF Act Ast AX AY' AP AX AY AP Abw Aaw Atw Aaw Abw Acw) in QW.
  apply (component_ab _ _ _ _ _ _ _ _ _ _ _ _ _ _ _ _ _ _ _ _ _ _ _ _ _ _ _ _ _ _ _ AF Act Ast AX AY AP AX' AY AP' Acw Atw Aaw Atw Acw Abw) in QX.
  apply (component_ab _ _ _ _ _ _ _ _ _ _ _ _ _ _ _ _ _ _ _ _ _ _ _ _ _ _ _ _ _ _ _ AF Act Ast AX' AY AP AX' AY' AP Atw Acw Abw Acw Atw Aaw) in QY.
  apply (component_ab _ _ _ _ _ _ _ _ _ _ _ _ _ _ _ _ _ _ _ _ _ _ _ _ _ _ _ _ _ _ _ AF Act Ast AX' AY' AP AX AY' AP' Aaw Abw Acw Abw Aaw Atw) in QZ.
  unfold off. fold u. replace (210 * u) with (2 * (105 * u)) by ring. apply qlen_comp; [lra| | | |]; unfold qminus; cbn [qw qx qy qz].
  - eapply Rle_trans; [|exact QW]. right. f_equal. ring.
  - eapply Rle_trans; [|exact QX]. right. f_equal. ring.
  - eapply Rle_trans; [|exact QY]. right. f_equal. ring.
  - eapply Rle_trans; [|exact QZ]. right. f_equal. ring.
Qed.
