(** Proofs about rounding errors of rotated vectors and of the spherical angles of the pole. *)
From Coq Require Import Reals List Permutation Lra Lia.
From Verif Require Import PiBound Vec RotModel RotSpec RotProofs FlModel FlProofs FlRotModel FlRotSpec FlRotProofs.
Import ListNotations.
Open Scope R_scope.

(** ** vectors as quaternions *)
Definition qv (v : v3) : quat := Q 0 (p1 v) (p2 v) (p3 v).
Lemma qv_len v : qlen (qv v) = len v.
Proof. unfold qlen, len, qsq, qv, dot; cbn [qw qx qy qz]. f_equal. ring. Qed.
Lemma len_nonneg v : 0 <= len v. Proof. apply sqrt_pos. Qed.
Lemma len_add a b : len (vplus a b) <= len a + len b.
Proof. rewrite <- !qv_len. replace (qv (vplus a b)) with (qadd (qv a) (qv b)) by (apply quat_eq; cbn; ring). apply qlen_add. Qed.
Lemma vdist_tri a b c : vdist a c <= vdist a b + vdist b c.
Proof. unfold vdist. replace (vminus a c) with (vplus (vminus a b) (vminus b c)) by (apply v3_eq; cbn; ring). apply len_add. Qed.
Lemma len_dist a b : len a <= len b + vdist a b.
Proof. unfold vdist. replace a with (vplus b (vminus a b)) at 1 by (apply v3_eq; cbn; ring). apply len_add. Qed.
Lemma len_mul k a : len (vmul k a) = Rabs k * len a.
Proof. unfold len. replace (dot (vmul k a) (vmul k a)) with (k * k * dot a a) by (unfold dot, vmul; cbn; ring). rewrite sqrt_mult by (apply Rle_0_sqr || apply dot_nonneg). f_equal. apply sqrt_Rsqr_abs. Qed.
Lemma len_cross a b : len (cross a b) <= len a * len b.
Proof.
  rewrite <- (qv_len a), <- (qv_len b), <- qlen_mul. unfold len, qlen. apply sqrt_le_1_alt. unfold qsq, dot, qmul, qv, cross; cbn [qw qx qy qz p1 p2 p3].
  set (w := 0 * 0 - p1 a * p1 b - p2 a * p2 b - p3 a * p3 b). pose proof (Rle_0_sqr w). unfold Rsqr in *. nra.
Qed.
Lemma comp_len v : Rabs (p1 v) <= len v /\ Rabs (p2 v) <= len v /\ Rabs (p3 v) <= len v.
Proof.
  assert (K : forall x y, 0 <= y -> Rabs x <= sqrt (x * x + y)) by (intros x y H; rewrite <- (sqrt_Rsqr_abs x); apply sqrt_le_1_alt; unfold Rsqr; lra).
  unfold len, dot. repeat split.
  - rewrite Rplus_assoc. apply K. nra.
  - replace (p1 v * p1 v + p2 v * p2 v + p3 v * p3 v) with (p2 v * p2 v + (p1 v * p1 v + p3 v * p3 v)) by ring. apply K. nra.
  - rewrite Rplus_comm. apply K. nra.
Qed.
Lemma len_comp v c : 0 <= c -> Rabs (p1 v) <= c -> Rabs (p2 v) <= c -> Rabs (p3 v) <= c -> len v <= 2 * c.
Proof. intros. rewrite <- qv_len. apply qlen_comp; cbn; try assumption. rewrite Rabs_R0. assumption. Qed.
(** larger components *)
Lemma len_mono a b : Rabs (p1 a) <= p1 b -> Rabs (p2 a) <= p2 b -> Rabs (p3 a) <= p3 b -> len a <= len b.
Proof. intros A B C. unfold len. apply sqrt_le_1_alt. unfold dot. apply sq_le in A, B, C. lra. Qed.

(** ** a quaternion applied to a vector, exactly *)
Lemma sandwich q v : qv (qapp q v) = qadd (qmul (qmul q (qv v)) (qconj q)) (qv (vmul (1 - qsq q) v)).
Proof. apply quat_eq; unfold qsq, qv, qapp, qadd, qmul, qconj, vmul, vplus, cross; cbn [qw qx qy qz p1 p2 p3]; ring. Qed.
Lemma conj_len q : qlen (qconj q) = qlen q.
Proof. unfold qlen, qsq, qconj; cbn [qw qx qy qz]. f_equal. ring. Qed.
Lemma qapp_lip a b v : unit_q b -> vdist (qapp a v) (qapp b v) <= 2 * qdist a b * (2 + qdist a b) * len v.
Proof.
  intros Hb. pose proof (qlen_unit b Hb) as Lb. assert (Sb : qsq b = 1) by (rewrite <- qlen_sq, Lb; ring). set (D := qdist a b). pose proof (qdist_nonneg a b) as D0. fold D in D0.
  assert (La : qlen a <= 1 + D) by (pose proof (qlen_dist a b) as K; fold D in K; lra). assert (La' : 1 <= qlen a + D) by (pose proof (qlen_dist b a) as K; rewrite qdist_sym in K; fold D in K; lra).
  pose proof (qlen_nonneg a) as A0. pose proof (len_nonneg v) as V0. unfold vdist. rewrite <- qv_len.
  set (P := fun q => qmul (qmul q (qv v)) (qconj q)).
  replace (qv (vminus (qapp a v) (qapp b v))) with (qadd (qminus (P a) (P b)) (qv (vmul (1 - qsq a) v))).
  2:{ transitivity (qminus (qv (qapp a v)) (qv (qapp b v))); [|apply quat_eq; cbn; ring]. rewrite !sandwich, Sb. apply quat_eq; cbn; ring. }
  eapply Rle_trans; [apply qlen_add|]. rewrite qv_len, len_mul. fold (qdist (P a) (P b)).
  assert (E1 : qdist (P a) (P b) <= D * (2 + D) * len v).
  { eapply Rle_trans; [apply (qdist_tri _ (qmul (qmul b (qv v)) (qconj a)))|]. unfold P. rewrite qdist_right, qdist_right, qdist_left, qlen_mul, conj_len, qv_len, Lb. fold D.
    replace (qdist (qconj a) (qconj b)) with D by (unfold D, qdist, qlen, qsq, qminus, qconj; cbn [qw qx qy qz]; f_equal; ring).
    assert (D * len v * qlen a <= D * len v * (1 + D)) by (apply Rmult_le_compat_l; [apply Rmult_le_pos; lra|lra]). lra. }
  assert (E2 : Rabs (1 - qsq a) <= D * (2 + D)).
  { rewrite <- qlen_sq. replace (1 - qlen a * qlen a) with ((1 - qlen a) * (1 + qlen a)) by ring. rewrite Rabs_mult, (Rabs_pos_eq (1 + qlen a)) by lra. apply Rmult_le_compat; [apply Rabs_pos|lra|apply Rabs_le; lra|lra]. }
  assert (Rabs (1 - qsq a) * len v <= D * (2 + D) * len v) by (apply Rmult_le_compat_r; lra). lra.
Qed.
Lemma off_app k a b v : unit_q b -> 0 <= k <= 1e6 -> off k a b -> vdist (qapp a v) (qapp b v) <= 4.001 * k * u * len v.
Proof.
  intros Hb Hk O. pose proof usmall as (U & _). unfold off in O. fold u in O. eapply Rle_trans; [apply qapp_lip, Hb|]. pose proof (qdist_nonneg a b). pose proof (len_nonneg v).
  apply Rmult_le_compat_r; [lra|]. set (D := qdist a b) in *. assert (k * u <= 1.2e-10) by nra. assert (D * D <= D * 1.2e-10) by (apply Rmult_le_compat_l; lra). nra.
Qed.

(** ** with rounding *)
Lemma two_sum a b c d x y : Rabs a <= x -> Rabs b <= x -> 0 <= y -> a * a + b * b <= x * x -> c * c + d * d <= y * y -> Rabs a * Rabs c + Rabs b * Rabs d <= x * y.
Proof.
  intros A B Y H K. assert (X : 0 <= x) by (pose proof (Rabs_pos a); lra). pose proof (cauchy (Q (Rabs a) (Rabs b) 0 0) (Q (Rabs c) (Rabs d) 0 0)) as C.
  assert (S : forall z, Rabs z * Rabs z = z * z) by (intros z; rewrite <- Rabs_mult; apply Rabs_pos_eq, Rle_0_sqr).
  assert (L1 : qlen (Q (Rabs a) (Rabs b) 0 0) <= x) by (apply qlen_le; [exact X|]; unfold qsq; cbn [qw qx qy qz]; rewrite !S; lra).
  assert (L2 : qlen (Q (Rabs c) (Rabs d) 0 0) <= y) by (apply qlen_le; [exact Y|]; unfold qsq; cbn [qw qx qy qz]; rewrite !S; lra).
  unfold qdot in C; cbn [qw qx qy qz] in C. pose proof (Rmult_le_compat _ _ _ _ (qlen_nonneg _) (qlen_nonneg _) L1 L2). lra.
Qed.
Lemma cross_run_error a b c : cross_run a b c -> vdist c (cross a b) <= 8.002 * u * (len a * len b) + 32 * tiny.
Proof.
  intros (X & Y & Z). pose proof usmall as (U & T & _). pose proof (len_nonneg a) as LA. pose proof (len_nonneg b) as LB. pose proof (len_sq a) as SA. pose proof (len_sq b) as SB. unfold dot in SA, SB.
  pose proof (Rmult_le_pos _ _ LA LB) as LP. destruct (comp_len a) as (A1 & A2 & A3).
  apply dot_run_bound in X, Y, Z; [|cbn; lia ..]. unfold dots, dmass, total in *; cbn [map fold_right fst snd] in *. rewrite ?Rabs_Ropp, ?Rplus_0_r in *.
  unfold vdist. replace (8.002 * u * (len a * len b) + 32 * tiny) with (2 * (4.001 * u * (len a * len b) + 16 * tiny)) by lra.
  assert (P : forall m, m <= len a * len b -> 4.001 * u * m + 16 * tiny <= 4.001 * u * (len a * len b) + 16 * tiny) by (intros m H; apply Rplus_le_compat_r, Rmult_le_compat_l; lra).
  apply len_comp; [nra|..]; cbn [vminus cross p1 p2 p3].
  - eapply Rle_trans; [|eapply Rle_trans; [exact X|apply P, two_sum; try assumption; nra]]. right; f_equal; ring.
  - eapply Rle_trans; [|eapply Rle_trans; [exact Y|apply P, two_sum; try assumption; nra]]. right; f_equal; ring.
  - eapply Rle_trans; [|eapply Rle_trans; [exact Z|apply P, two_sum; try assumption; nra]]. right; f_equal; ring.
Qed.
Lemma vnear_error x v : vnear x v -> vdist v x <= u * len x + 2 * tiny.
Proof.
  intros (A & B & C). unfold near in *. pose proof usmall as (U & T & _). unfold vdist.
  eapply Rle_trans; [apply (len_mono _ (vplus (vmul u (mk3 (Rabs (p1 x)) (Rabs (p2 x)) (Rabs (p3 x)))) (mk3 tiny tiny tiny))); cbn; assumption|].
  eapply Rle_trans; [apply len_add|]. rewrite len_mul, Rabs_pos_eq by lra. apply Rplus_le_compat.
  - right. f_equal. unfold len, dot; cbn [p1 p2 p3]. assert (S : forall z, Rabs z * Rabs z = z * z) by (intros z; rewrite <- Rabs_mult; apply Rabs_pos_eq, Rle_0_sqr). rewrite !S. reflexivity.
  - apply len_comp; cbn; rewrite ?Rabs_pos_eq; lra.
Qed.
Lemma qapp_run_error q v r : qlen q <= 1.001 -> qapp_run q v r -> vdist r (qapp q v) <= 60 * u * len v + 1000 * tiny.
Proof.
  intros Lq (uv & c & a & b & CU & NA & NB & CC & NR). set (w := mk3 (qx q) (qy q) (qz q)) in *. pose proof usmall as (U & T & TU). pose proof (len_nonneg v) as V0. set (V := len v) in *.
  assert (Lw : len w <= 1.001). { eapply Rle_trans; [|exact Lq]. unfold len, qlen. apply sqrt_le_1_alt. unfold dot, qsq, w; cbn [p1 p2 p3]. nra. }
  assert (Lqw : Rabs (qw q) <= 1.001). { eapply Rle_trans; [|exact Lq]. unfold qlen. rewrite <- (sqrt_Rsqr_abs (qw q)). apply sqrt_le_1_alt. unfold Rsqr, qsq. nra. }
  pose proof (len_nonneg w) as W0. pose proof (Rabs_pos (qw q)) as Q0. assert (UV : u * V <= 1.2e-16 * V) by (apply Rmult_le_compat_r; lra). assert (UV0 : 0 <= u * V) by (apply Rmult_le_pos; lra). assert (UT : 0 <= u * tiny <= tiny * 1e-9) by nra.
  set (x := cross w v) in *. assert (Lx : len x <= 1.001 * V). { eapply Rle_trans; [apply len_cross|]. apply Rmult_le_compat; try apply len_nonneg; fold V; lra. }
  pose proof (cross_run_error _ _ _ CU) as E1. fold x V in E1.
  assert (E1' : vdist uv x <= 8.02 * u * V + 32 * tiny). { assert (u * (len w * V) <= u * (1.001 * V)) by (apply Rmult_le_compat_l; [lra|]; apply Rmult_le_compat_r; lra). lra. }
  clear E1. set (e1 := vdist uv x) in *.
  assert (D2 : vdist (vplus uv uv) (vplus x x) <= 2 * e1). { unfold vdist. replace (vminus (vplus uv uv) (vplus x x)) with (vplus (vminus uv x) (vminus uv x)) by (apply v3_eq; cbn; ring). eapply Rle_trans; [apply len_add|]. fold (vdist uv x). fold e1. lra. }
  assert (L2 : len (vplus x x) <= 2.002 * V). { eapply Rle_trans; [apply len_add|]. lra. }
  assert (L2' : len (vplus uv uv) <= 2.003 * V + 64 * tiny). { pose proof (len_dist (vplus uv uv) (vplus x x)). lra. }
  set (y := vplus uv uv) in *. set (z := vplus x x) in *. pose proof (len_nonneg y) as Y0.
  (* w * uv *)
  pose proof (vnear_error _ _ NA) as E2. rewrite len_mul in E2.
  assert (Dm : vdist (vmul (qw q) y) (vmul (qw q) z) <= 1.001 * (2 * e1)). { unfold vdist. replace (vminus (vmul (qw q) y) (vmul (qw q) z)) with (vmul (qw q) (vminus y z)) by (apply v3_eq; cbn; ring). rewrite len_mul. fold (vdist y z). apply Rmult_le_compat; try lra; apply len_nonneg. }
  assert (Lm : Rabs (qw q) * len y <= 2.006 * V + 65 * tiny). { apply Rle_trans with (1.001 * (2.003 * V + 64 * tiny)); [apply Rmult_le_compat; lra|lra]. }
  assert (Um : u * (Rabs (qw q) * len y) <= u * (2.006 * V + 65 * tiny)) by (apply Rmult_le_compat_l; lra).
  assert (Da : vdist a (vmul (qw q) z) <= 18.1 * u * V + 70 * tiny). { pose proof (vdist_tri a (vmul (qw q) y) (vmul (qw q) z)). lra. }
  assert (La : len a <= 2.1 * V + 100 * tiny). { pose proof (len_dist a (vmul (qw q) y)) as K. rewrite len_mul in K. lra. }
  (* v + w uv *)
  pose proof (vnear_error _ _ NB) as E3. pose proof (len_add v a) as Lva. fold V in Lva.
  assert (Uva : u * len (vplus v a) <= u * (3.1 * V + 100 * tiny)) by (apply Rmult_le_compat_l; lra).
  assert (Dva : vdist (vplus v a) (vplus v (vmul (qw q) z)) = vdist a (vmul (qw q) z)). { unfold vdist. f_equal. apply v3_eq; cbn; ring. }
  assert (Db : vdist b (vplus v (vmul (qw q) z)) <= 21.3 * u * V + 80 * tiny). { pose proof (vdist_tri b (vplus v a) (vplus v (vmul (qw q) z))). lra. }
  assert (Lb : len b <= 3.2 * V + 110 * tiny). { pose proof (len_dist b (vplus v a)). lra. }
  (* u x uv *)
  pose proof (cross_run_error _ _ _ CC) as E4. assert (Lwy : len w * len y <= 2.006 * V + 65 * tiny). { apply Rle_trans with (1.001 * (2.003 * V + 64 * tiny)); [apply Rmult_le_compat; lra|lra]. }
  assert (Uwy : u * (len w * len y) <= u * (2.006 * V + 65 * tiny)) by (apply Rmult_le_compat_l; lra).
  assert (Dwy : vdist (cross w y) (cross w z) <= 1.001 * (2 * e1)). { unfold vdist. replace (vminus (cross w y) (cross w z)) with (cross w (vminus y z)) by (apply v3_eq; cbn; ring). eapply Rle_trans; [apply len_cross|]. fold (vdist y z). apply Rmult_le_compat; try lra; apply len_nonneg. }
  assert (Dc : vdist c (cross w z) <= 32.2 * u * V + 120 * tiny). { pose proof (vdist_tri c (cross w y) (cross w z)). lra. }
  assert (Lc : len c <= 2.1 * V + 120 * tiny). { pose proof (len_dist c (cross w y)). pose proof (len_cross w y). lra. }
  (* the sum *)
  pose proof (vnear_error _ _ NR) as E5. pose proof (len_add b c) as Lbc. assert (Ubc : u * len (vplus b c) <= u * (5.3 * V + 230 * tiny)) by (apply Rmult_le_compat_l; lra).
  assert (Dbc : vdist (vplus b c) (qapp q v) <= vdist b (vplus v (vmul (qw q) z)) + vdist c (cross w z)).
  { unfold vdist. replace (vminus (vplus b c) (qapp q v)) with (vplus (vminus b (vplus v (vmul (qw q) z))) (vminus c (cross w z))). 2:{ unfold qapp. fold w x z. apply v3_eq; cbn; ring. } apply len_add. }
  pose proof (vdist_tri r (vplus b c) (qapp q v)). lra.
Qed.

(** ** the spherical angles of the pole *)
Lemma atan_lip x y : Rabs (atan x - atan y) <= Rabs (x - y).
Proof.
  assert (K : forall a b, a < b -> atan b - atan a <= b - a).
  { intros a b H. destruct (MVT_cor2 atan (fun x => / (1 + x ^ 2)) a b H) as (c & E & _); [intros c _; exact (derivable_pt_lim_atan c)|]. rewrite E.
    assert (/ (1 + c ^ 2) <= 1). { rewrite <- Rinv_1. pose proof (pow2_ge_0 c). apply Rinv_le_contravar; lra. } nra. }
  destruct (Rtotal_order x y) as [H|[->|H]].
  - pose proof (K x y H). pose proof (atan_increasing x y H). rewrite Rabs_left1, (Rabs_left1 (x - y)) by lra. lra.
  - rewrite !Rminus_diag_eq by reflexivity. lra.
  - pose proof (K y x H). pose proof (atan_increasing y x H). rewrite Rabs_pos_eq, (Rabs_pos_eq (x - y)) by lra. lra.
Qed.
Lemma atan2_bound y x : Rabs (atan2 y x) <= PI.
Proof.
  pose proof PI_RGT_0. unfold atan2. pose proof (atan_bound (y / x)). apply Rabs_le. destruct (Rlt_dec 0 x); [lra|]. destruct (Rlt_dec x 0).
  - assert (I : / x < 0) by (apply Rinv_lt_0_compat; assumption). destruct (Rle_dec 0 y).
    + assert (atan (y / x) <= 0). { rewrite <- atan_0. destruct (Rle_lt_or_eq_dec (y / x) 0) as [L|E]; [unfold Rdiv; nra|apply Rlt_le, atan_increasing, L|rewrite E; lra]. } lra.
    + assert (0 <= atan (y / x)). { rewrite <- atan_0. apply Rlt_le, atan_increasing. unfold Rdiv. nra. } lra.
  - destruct (Rlt_dec 0 y); [lra|]. destruct (Rlt_dec y 0); lra.
Qed.
Lemma sqrt_rel a b k m : 0 <= b -> 0 <= k <= 1 -> 0 <= m -> Rabs (a - b) <= k * b + m * m -> Rabs (sqrt a - sqrt b) <= k * sqrt b + m.
Proof.
  intros B K M H. apply abs_inv in H. pose proof (sqrt_pos a) as SA. pose proof (sqrt_pos b) as SB. pose proof (sqrt_sqrt b B) as EB.
  assert (K1 : 0 <= k * sqrt b) by (apply Rmult_le_pos; lra). assert (K2 : 0 <= sqrt b * m) by (apply Rmult_le_pos; lra). assert (K3 : 0 <= k * (sqrt b * m)) by (apply Rmult_le_pos; lra).
  apply Rabs_le. split.
  - (* sqrt b (1 - k) <= sqrt a + m *)
    assert (L : (1 - k) * sqrt b <= sqrt (Rmax a 0) + m).
    { pose proof (Rmax_l a 0). pose proof (Rmax_r a 0) as R0. pose proof (sqrt_pos (Rmax a 0)). pose proof (sqrt_sqrt (Rmax a 0) R0) as EM.
      apply Rsqr_incr_0_var; [unfold Rsqr|lra]. assert ((1 - k) * (1 - k) * b <= (1 - k) * b) by (apply Rmult_le_compat_r; [lra|nra]). nra. }
    assert (sqrt (Rmax a 0) = sqrt a). { destruct (Rle_lt_dec 0 a) as [P|N]; [rewrite Rmax_left by lra; reflexivity|]. rewrite Rmax_right by lra. rewrite sqrt_0. symmetry. apply sqrt_neg_0. lra. }
    lra.
  - assert (L : sqrt a <= sqrt b + (k * sqrt b + m)); [|lra]. destruct (Rle_lt_dec 0 a) as [P|N].
    + apply Rsqr_incr_0_var; [|lra]. unfold Rsqr. rewrite sqrt_sqrt by exact P.
      replace ((sqrt b + (k * sqrt b + m)) * (sqrt b + (k * sqrt b + m))) with ((1 + 2 * k + k * k) * (sqrt b * sqrt b) + 2 * (sqrt b * m) + 2 * (k * (sqrt b * m)) + m * m) by ring. rewrite EB.
      assert (0 <= k * b) by (apply Rmult_le_pos; lra). assert (0 <= k * k * b) by (apply Rmult_le_pos; [apply Rmult_le_pos; lra|lra]). lra.
    + rewrite (sqrt_neg_0 a) by lra. lra.
Qed.
Lemma tiny_sqrt : exists m, 0 <= m /\ 16 * tiny <= m * m /\ m <= u * 1e-40.
Proof.
  exists (/ 2 ^ 535). pose proof usmall as (U & _). assert (P : 0 < / 2 ^ 535) by (apply Rinv_0_lt_compat, pow_lt; lra). split; [lra|]. split.
  - right. unfold tiny. rewrite <- Rinv_mult, <- pow_add. replace 1074%nat with (4 + 1070)%nat by reflexivity. rewrite pow_add, Rinv_mult, <- Rmult_assoc. replace (16 * / 2 ^ 4) with 1 by lra. rewrite Rmult_1_l. reflexivity.
  - unfold u. replace 535%nat with (53 + 482)%nat by reflexivity. rewrite pow_add, Rinv_mult. apply Rmult_le_compat_l; [apply Rlt_le, Rinv_0_lt_compat, pow_lt; lra|].
    apply Rle_trans with (/ (2 ^ 4) ^ 40). { apply Rinv_le_contravar; [apply pow_lt, pow_lt; lra|]. rewrite <- pow_mult. apply Rle_pow; [lra|lia]. }
    apply Rle_trans with (/ 10 ^ 40); [apply Rinv_le_contravar; [apply pow_lt; lra|apply pow_incr; lra]|].
    right. replace (10 ^ 40) with (IZR (10 ^ 40)); [lra|]. change (10 ^ 40)%Z with (10 ^ Z.of_nat 40)%Z. rewrite <- pow_IZR. reflexivity.
Qed.
(** d and e are accurate, or the pole is so close to the z axis that its direction is not resolved *)
Lemma spherical_error X Y d e : Rabs X <= 0.2 -> Rabs Y <= 0.2 -> spherical_run X Y d e ->
  let '(d0, e0) := xycip2spherical X Y in
  Rabs (d - d0) <= 4.3 * u /\ Rabs e <= 4 /\ Rabs e0 <= 4 /\ (Rabs (e - e0) <= 4 * u \/ (e = 0 /\ 0 <= d0 <= u)).
Proof.
  intros HX HY (xx & yy & r2 & n & q & r & N1 & N2 & N3 & N4 & N5 & N6 & Hd & He). pose proof usmall as (U & T & TU). unfold near in *.
  pose proof (sq_le _ _ HX) as SX. pose proof (sq_le _ _ HY) as SY. pose proof (Rle_0_sqr X) as PX. pose proof (Rle_0_sqr Y) as PY. unfold Rsqr in PX, PY.
  rewrite (Rabs_pos_eq (X * X)) in N1 by lra. rewrite (Rabs_pos_eq (Y * Y)) in N2 by lra. unfold xycip2spherical. set (R2 := X * X + Y * Y). assert (HR : 0 <= R2 <= 0.08) by (unfold R2; lra). assert (UR0 : 0 <= u * R2) by (apply Rmult_le_pos; lra).
  apply abs_inv in N1, N2.
  assert (A3 : Rabs (xx + yy - R2) <= u * R2 + 2 * tiny) by (apply Rabs_le; unfold R2; lra).
  assert (M3 : Rabs (xx + yy) <= 1.001 * R2 + 3 * tiny). { apply abs_inv in A3. apply Rabs_le. assert (u * R2 <= 0.0001 * R2) by (apply Rmult_le_compat_r; lra). lra. }
  assert (A4 : Rabs (r2 - R2) <= 2.002 * u * R2 + 4 * tiny).
  { replace (r2 - R2) with ((r2 - (xx + yy)) + (xx + yy - R2)) by ring. eapply Rle_trans; [apply Rabs_triang|]. assert (u * Rabs (xx + yy) <= u * (1.001 * R2 + 3 * tiny)) by (apply Rmult_le_compat_l; lra). assert (u * (3 * tiny) <= tiny) by nra. lra. }
  assert (B4 : Rabs r2 <= 1.001 * R2 + 5 * tiny). { apply abs_inv in A4. apply Rabs_le. assert (u * R2 <= 0.0001 * R2) by (apply Rmult_le_compat_r; lra). lra. }
  assert (A5 : Rabs (n - (1 - R2)) <= 1.2 * u).
  { apply abs_inv in A4, B4. replace (n - (1 - R2)) with ((n - (1 - r2)) - (r2 - R2)) by ring. assert (Rabs (1 - r2) <= 1.001) by (apply Rabs_le; split; nra). apply abs_inv in N4.
    assert (u * Rabs (1 - r2) <= u * 1.001) by (apply Rmult_le_compat_l; lra). assert (u * R2 <= u * 0.08) by (apply Rmult_le_compat_l; lra). apply Rabs_le. lra. }
  assert (Hn : 0.91 <= n <= 1.01) by (apply abs_inv in A5; lra).
  set (Q0 := R2 / (1 - R2)). assert (HQ : 0 <= Q0 <= 1.1 * R2).
  { unfold Q0. split; [apply Rmult_le_pos; [lra|apply Rlt_le, Rinv_0_lt_compat; lra]|]. unfold Rdiv. rewrite Rmult_comm. apply Rmult_le_compat_r; [lra|]. apply (Rmult_le_reg_l (1 - R2)); [lra|]. rewrite Rinv_r by lra. lra. }
  assert (In : 0 < / n <= 1.1). { split; [apply Rinv_0_lt_compat; lra|]. apply (Rmult_le_reg_l n); [lra|]. rewrite Rinv_r by lra. lra. }
  assert (A6 : Rabs (r2 / n - Q0) <= 4 * u * Q0 + 5 * tiny).
  { replace (r2 / n - Q0) with (((r2 - R2) - Q0 * (n - (1 - R2))) * / n) by (unfold Q0; field; lra). rewrite Rabs_mult, (Rabs_pos_eq (/ n)) by lra.
    assert (E : R2 = Q0 * (1 - R2)) by (unfold Q0; field; lra). assert (RQ : R2 <= Q0) by nra.
    assert (Z : Rabs (r2 - R2 - Q0 * (n - (1 - R2))) <= 3.3 * u * Q0 + 4 * tiny).
    { eapply Rle_trans; [apply Rabs_triang|]. rewrite Rabs_Ropp, Rabs_mult, (Rabs_pos_eq Q0) by lra. assert (Q0 * Rabs (n - (1 - R2)) <= Q0 * (1.2 * u)) by (apply Rmult_le_compat_l; lra). assert (u * R2 <= u * Q0) by (apply Rmult_le_compat_l; lra). lra. }
    apply Rle_trans with ((3.3 * u * Q0 + 4 * tiny) * 1.1); [apply Rmult_le_compat; [apply Rabs_pos|lra|exact Z|lra]|]. assert (0 <= u * Q0) by (apply Rmult_le_pos; lra). lra. }
  assert (A7 : Rabs (q - Q0) <= 6 * u * Q0 + 8 * tiny).
  { replace (q - Q0) with ((q - r2 / n) + (r2 / n - Q0)) by ring. eapply Rle_trans; [apply Rabs_triang|]. assert (M : Rabs (r2 / n) <= 1.001 * Q0 + 5 * tiny). { apply abs_inv in A6. apply Rabs_le. assert (u * Q0 <= 0.0001 * Q0) by (apply Rmult_le_compat_r; lra). lra. }
    assert (u * Rabs (r2 / n) <= u * (1.001 * Q0 + 5 * tiny)) by (apply Rmult_le_compat_l; lra). assert (u * (5 * tiny) <= tiny) by nra. assert (0 <= u * Q0) by (apply Rmult_le_pos; lra). lra. }
  destruct tiny_sqrt as (m & M0 & M1 & M2).
  assert (A8 : Rabs (sqrt q - sqrt Q0) <= 6 * u * sqrt Q0 + m) by (apply sqrt_rel; lra).
  assert (S0 : 0 <= sqrt Q0 <= 0.3). { split; [apply sqrt_pos|]. rewrite <- (sqrt_square 0.3) by lra. apply sqrt_le_1_alt. lra. }
  assert (US : u * sqrt Q0 <= u * 0.3) by (apply Rmult_le_compat_l; lra).
  assert (A9 : Rabs (r - sqrt Q0) <= 0.4 * u + 6 * (u * sqrt Q0)).
  { replace (r - sqrt Q0) with ((r - sqrt q) + (sqrt q - sqrt Q0)) by ring. eapply Rle_trans; [apply Rabs_triang|]. pose proof (sqrt_pos q). rewrite (Rabs_pos_eq (sqrt q)) in N6 by lra. apply abs_inv in A8. assert (sqrt q <= 0.35) by nra.
    assert (u * sqrt q <= u * 0.35) by (apply Rmult_le_compat_l; lra). assert (Rabs (sqrt q - sqrt Q0) <= 6 * u * sqrt Q0 + m) by (apply Rabs_le; lra). lra. }
  rewrite p52 in Hd. rewrite p51 in He.
  split. { replace (d - atan (sqrt Q0)) with ((d - atan r) + (atan r - atan (sqrt Q0))) by ring. eapply Rle_trans; [apply Rabs_triang|]. pose proof (atan_lip r (sqrt Q0)). lra. }
  pose proof pi_bounds as PB. pose proof (atan2_bound Y X) as AB. pose proof PI_RGT_0.
  assert (D0 : 0 <= atan (sqrt Q0) <= sqrt Q0). { pose proof (atan_lip (sqrt Q0) 0) as L. rewrite atan_0, !Rminus_0_r, (Rabs_pos_eq (sqrt Q0)) in L by lra. apply abs_inv in L. split; [|lra]. destruct (Rle_lt_or_eq_dec 0 (sqrt Q0)) as [P|E]; [lra| |rewrite <- E, atan_0; lra]. rewrite <- atan_0. apply Rlt_le, atan_increasing, P. }
  destruct (Rlt_dec 0 r2) as [P|P].
  - assert (R2p : 0 < R2 \/ R2 = 0) by lra. split.
    { replace e with ((e - atan2 Y X) + atan2 Y X) by ring. eapply Rle_trans; [apply Rabs_triang|]. lra. }
    destruct (Rlt_dec 0 R2) as [P'|P'].
    + split; [lra|]. left. exact He.
    + assert (R0 : R2 = 0) by lra. assert (X = 0) by (unfold R2 in R0; nra). assert (Y = 0) by (unfold R2 in R0; nra). subst X Y. split; [rewrite Rabs_R0; lra|]. left. replace (atan2 0 0) with 0 in He; [exact He|].
      unfold atan2. repeat (destruct (Rlt_dec _ _); try lra).
  - subst e. rewrite Rabs_R0. split; [lra|]. split; [destruct (Rlt_dec 0 R2); [lra|rewrite Rabs_R0; lra]|]. right. split; [reflexivity|]. split; [lra|].
    apply abs_inv in A4. assert (u * R2 <= 0.0001 * R2) by (apply Rmult_le_compat_r; lra). assert (RT : R2 <= 5 * tiny) by nra.
    assert (Q0 <= m * m) by lra. assert (sqrt Q0 <= m). { rewrite <- (sqrt_square m) by exact M0. apply sqrt_le_1_alt. assumption. } lra.
Qed.
(** the direction of a pole next to the z axis does not matter *)
Lemma c2i_axis era s sp d e xp yp : qdist (c2i era s sp d e xp yp) (c2i era s sp d 0 xp yp) <= Rabs d.
Proof.
  assert (K : forall e, qdist (c2i era s sp d e xp yp) (qmul (qmul (aaX yp) (aaY xp)) (aaZ (- sp - era + s))) <= Rabs d / 2).
  { intros e1. unfold c2i. rewrite !qmul_assoc. rewrite !qdist_left, (qlen_unit _ (unit_X yp)), (qlen_unit _ (unit_Y xp)), !Rmult_1_l.
    replace (aaZ (- sp - era + s)) with (qmul (aaZ (- sp - era + e1 + s)) (qmul (aaY 0) (aaZ (- e1)))).
    - rewrite qdist_left, (qlen_unit _ (unit_Z _)), Rmult_1_l, qdist_right, (qlen_unit _ (unit_Z _)), Rmult_1_r. eapply Rle_trans; [apply aaY_lip|]. rewrite Rminus_0_r, Rabs_Ropp. lra.
    - replace (qmul (aaY 0) (aaZ (- e1))) with (aaZ (- e1)). { rewrite aaZ_add. f_equal. ring. } apply quat_eq; cbn [qmul aaY aaZ qw qx qy qz]; replace (0 / 2) with 0 by field; rewrite cos_0, sin_0; ring. }
  pose proof (K e). pose proof (K 0) as K0. rewrite qdist_sym in K0. eapply Rle_trans; [apply (qdist_tri _ (qmul (qmul (aaX yp) (aaY xp)) (aaZ (- sp - era + s))))|]. lra.
Qed.
Lemma c2i_pole era s sp d e xp yp q X Y : Rabs era <= 7 -> Rabs s <= 1 -> Rabs sp <= 1 -> Rabs X <= 0.2 -> Rabs Y <= 0.2 -> spherical_run X Y d e -> c2i_run era s sp d e xp yp q ->
  off 70 q (let '(d0, e0) := xycip2spherical X Y in c2i era s sp d0 e0 xp yp).
Proof.
  intros Ha Hs Hp HX HY S R. pose proof (spherical_error X Y d e HX HY S) as K. destruct (xycip2spherical X Y) as [d0 e0]. destruct K as (D & E & E0 & C).
  pose proof (c2i_off era s sp d e xp yp q Ha Hs Hp E R) as O. unfold off in *. fold u in *. pose proof usmall as (U & _).
  eapply Rle_trans; [apply (qdist_tri _ (c2i era s sp d e xp yp))|]. assert (L : qdist (c2i era s sp d e xp yp) (c2i era s sp d0 e0 xp yp) <= 6.5 * u); [|lra]. destruct C as [C|[-> C]].
  - eapply Rle_trans; [apply c2i_lip|]. rewrite !(Rminus_diag_eq yp yp), !(Rminus_diag_eq xp xp) by reflexivity. rewrite Rabs_R0. replace (e + s - sp - era - (e0 + s - sp - era)) with (e - e0) by ring. lra.
  - eapply Rle_trans; [apply (qdist_tri _ (c2i era s sp d0 0 xp yp))|]. rewrite (qdist_sym _ (c2i era s sp d0 e0 xp yp)). pose proof (c2i_axis era s sp d0 e0 xp yp) as A. rewrite (Rabs_pos_eq d0) in A by lra.
    pose proof (c2i_lip era s sp d 0 xp yp era s sp d0 0 xp yp) as B. rewrite !(Rminus_diag_eq yp yp), !(Rminus_diag_eq xp xp), !(Rminus_diag_eq (0 + s - sp - era) (0 + s - sp - era)), !(Rminus_diag_eq 0 0) in B by reflexivity. rewrite Rabs_R0 in B. lra.
Qed.
