(** Proofs about rounding errors of quaternions. *)
From Coq Require Import Reals List Permutation Lra Lia.
From Verif Require Import Vec RotModel RotSpec RotProofs FlModel FlProofs FlRotModel FlRotSpec.
Import ListNotations.
Open Scope R_scope.

Lemma usmall : 0 < u <= 1.2e-16 /\ 0 < tiny /\ tiny <= u * 1e-100.
Proof.
  split; [unfold u; split; [apply Rinv_0_lt_compat, pow_lt; lra|]|].
  - apply Rle_trans with (/ IZR 9007199254740992); [|lra]. replace (2 ^ 53) with (IZR 9007199254740992); [apply Rle_refl|]. change 9007199254740992%Z with (2 ^ Z.of_nat 53)%Z. rewrite <- pow_IZR. reflexivity.
  - split; [unfold tiny; apply Rinv_0_lt_compat, pow_lt; lra|]. unfold tiny, u. replace 1074%nat with (53 + 1021)%nat by reflexivity. rewrite pow_add, Rinv_mult.
    apply Rmult_le_compat_l; [apply Rlt_le, Rinv_0_lt_compat, pow_lt; lra|].
    apply Rle_trans with (/ 2 ^ 400). { apply Rinv_le_contravar; [apply pow_lt; lra|apply Rle_pow; [lra|lia]]. }
    apply Rle_trans with (/ (2 ^ 4) ^ 100); [rewrite <- pow_mult; apply Rle_refl|]. apply Rle_trans with (/ 10 ^ 100).
    + apply Rinv_le_contravar; [apply pow_lt; lra|apply pow_incr; lra].
    + right. replace (10 ^ 100) with (IZR (10 ^ 100)). { lra. } change (10 ^ 100)%Z with (10 ^ Z.of_nat 100)%Z. rewrite <- pow_IZR. reflexivity.
Qed.
Lemma p52 : / 2 ^ 52 = 2 * u. Proof. unfold u. replace 53%nat with (S 52) by reflexivity. rewrite <- tech_pow_Rmult, Rinv_mult. lra. Qed.
Lemma p51 : / 2 ^ 51 = 4 * u. Proof. unfold u. replace 53%nat with (S (S 51)) by reflexivity. rewrite <- !tech_pow_Rmult, !Rinv_mult. lra. Qed.
Lemma abs_inv x y : Rabs x <= y -> - y <= x <= y.
Proof. intros H. pose proof (Rle_abs x). pose proof (Rle_abs (- x)) as K. rewrite Rabs_Ropp in K. lra. Qed.

Lemma sq_le x y : Rabs x <= y -> x * x <= y * y.
Proof. intros H. apply abs_inv in H. nra. Qed.

(** ** sums *)
Definition total (l : list R) : R := fold_right Rplus 0 l.
Definition mass (l : list R) : R := total (map Rabs l).
Lemma total_app a b : total (a ++ b) = total a + total b.
Proof. unfold total. induction a as [|x a IH]; cbn; [lra|rewrite IH; lra]. Qed.
Lemma total_perm a b : Permutation a b -> total a = total b.
Proof. unfold total. induction 1; cbn in *; lra. Qed.
Lemma mass_app a b : mass (a ++ b) = mass a + mass b.
Proof. unfold mass. rewrite map_app. apply total_app. Qed.
Lemma mass_perm a b : Permutation a b -> mass a = mass b.
Proof. intros H. apply total_perm, Permutation_map, H. Qed.
Lemma mass_pos l : 0 <= mass l. Proof. induction l as [|x l IH]; [cbn; lra|]. change (mass (x :: l)) with (Rabs x + mass l). pose proof (Rabs_pos x). lra. Qed.
Lemma mass_total l : Rabs (total l) <= mass l.
Proof. induction l as [|x l IH]; [cbn; rewrite Rabs_R0; lra|]. change (total (x :: l)) with (x + total l). change (mass (x :: l)) with (Rabs x + mass l). eapply Rle_trans; [apply Rabs_triang|]. lra. Qed.
Lemma sum_run_bound l v : sum_run l v -> (1 <= length l)%nat /\ Rabs (v - total l) <= ((1 + u) ^ (length l - 1) - 1) * mass l + INR (length l - 1) * ((1 + u) ^ (length l - 1) * tiny).
Proof.
  pose proof usmall as (U & T & _). induction 1 as [x|l l1 l2 a b v P H1 IH1 H2 IH2 N].
  - cbn. split; [lia|]. rewrite Rplus_0_r, Rminus_diag_eq, Rabs_R0 by reflexivity. lra.
  - destruct IH1 as [L1 E1], IH2 as [L2 E2]. pose proof (Permutation_length P) as LL. rewrite app_length in LL.
    rewrite (total_perm _ _ P), (mass_perm _ _ P), total_app, mass_app, LL. split; [lia|].
    set (n1 := (length l1 - 1)%nat) in *. set (n2 := (length l2 - 1)%nat) in *. replace (length l1 + length l2 - 1)%nat with (S (n1 + n2)) by lia.
    set (G := (1 + u) ^ (n1 + n2)). rewrite <- tech_pow_Rmult, S_INR, plus_INR. fold G.
    assert (G0 : 1 <= G) by (apply pow_R1_Rle; lra).
    assert (G1 : (1 + u) ^ n1 <= G) by (apply Rle_pow; [lra|lia]). assert (G2 : (1 + u) ^ n2 <= G) by (apply Rle_pow; [lra|lia]).
    pose proof (mass_pos l1) as M1. pose proof (mass_pos l2) as M2. pose proof (pos_INR n1) as I1. pose proof (pos_INR n2) as I2.
    assert (F1 : Rabs (a - total l1) <= (G - 1) * mass l1 + INR n1 * (G * tiny)).
    { eapply Rle_trans; [exact E1|]. apply Rplus_le_compat; [apply Rmult_le_compat_r; lra|]. apply Rmult_le_compat_l; [lra|]. apply Rmult_le_compat_r; lra. }
    assert (F2 : Rabs (b - total l2) <= (G - 1) * mass l2 + INR n2 * (G * tiny)).
    { eapply Rle_trans; [exact E2|]. apply Rplus_le_compat; [apply Rmult_le_compat_r; lra|]. apply Rmult_le_compat_l; [lra|]. apply Rmult_le_compat_r; lra. }
    clear E1 E2. pose proof (mass_total l1) as T1. pose proof (mass_total l2) as T2. unfold near in N.
    set (e1 := Rabs (a - total l1)) in *. set (e2 := Rabs (b - total l2)) in *.
    assert (AB : Rabs (a + b) <= mass l1 + mass l2 + (e1 + e2)).
    { replace (a + b) with ((total l1 + total l2) + ((a - total l1) + (b - total l2))) by ring. eapply Rle_trans; [apply Rabs_triang|].
      pose proof (Rabs_triang (total l1) (total l2)). pose proof (Rabs_triang (a - total l1) (b - total l2)) as TT. fold e1 e2 in TT. lra. }
    assert (V : Rabs (v - (total l1 + total l2)) <= Rabs (v - (a + b)) + (e1 + e2)).
    { replace (v - (total l1 + total l2)) with ((v - (a + b)) + ((a - total l1) + (b - total l2))) by ring. eapply Rle_trans; [apply Rabs_triang|].
      pose proof (Rabs_triang (a - total l1) (b - total l2)) as TT. fold e1 e2 in TT. lra. }
    assert (W : u * Rabs (a + b) <= u * (mass l1 + mass l2 + (e1 + e2))) by (apply Rmult_le_compat_l; lra).
    assert (E : (1 + u) * (e1 + e2) <= (1 + u) * ((G - 1) * (mass l1 + mass l2) + (INR n1 + INR n2) * (G * tiny))) by (apply Rmult_le_compat_l; lra).
    assert (K : tiny <= (1 + u) * G * tiny). { rewrite <- (Rmult_1_l tiny) at 1. apply Rmult_le_compat_r; [lra|]. nra. }
    nra.
Qed.
Definition dots (l : list (R * R)) : R := total (map (fun p => fst p * snd p) l).
Definition dmass (l : list (R * R)) : R := total (map (fun p => Rabs (fst p) * Rabs (snd p)) l).
Lemma products l ps : Forall2 (fun p x => near (fst p * snd p) x) l ps ->
  length ps = length l /\ Rabs (total ps - dots l) <= u * dmass l + INR (length l) * tiny /\ mass ps <= (1 + u) * dmass l + INR (length l) * tiny /\ 0 <= dmass l.
Proof.
  induction 1 as [|[x y] z l ps H F IH]; [cbn; rewrite Rminus_0_r, Rabs_R0; repeat split; lra|]. destruct IH as (L & E & M & P). unfold near in H. cbn [fst snd] in H.
  pose proof (Rabs_mult x y) as XY. rewrite XY in H. pose proof (Rmult_le_pos _ _ (Rabs_pos x) (Rabs_pos y)) as P'.
  change (dmass ((x, y) :: l)) with (Rabs x * Rabs y + dmass l). change (dots ((x, y) :: l)) with (x * y + dots l). change (total (z :: ps)) with (z + total ps). change (mass (z :: ps)) with (Rabs z + mass ps).
  change (length ((x, y) :: l)) with (S (length l)). rewrite S_INR. split; [cbn; lia|]. split; [|split; [|lra]].
  - replace (z + total ps - (x * y + dots l)) with ((z - x * y) + (total ps - dots l)) by ring. eapply Rle_trans; [apply Rabs_triang|]. lra.
  - assert (Rabs z <= Rabs (x * y) + Rabs (z - x * y)) by (replace z with (x * y + (z - x * y)) at 1 by ring; apply Rabs_triang). lra.
Qed.
Lemma dot_run_bound l v : (length l <= 4)%nat -> dot_run l v -> Rabs (v - dots l) <= 4.001 * u * dmass l + 16 * tiny.
Proof.
  intros L4 (ps & F & S). destruct (products l ps F) as (L & E & M & P). destruct (sum_run_bound ps v S) as [L1 B]. rewrite L in *. pose proof usmall as (U & T & _).
  set (G := (1 + u) ^ (length l - 1)) in *. assert (G3 : G <= (1 + u) ^ 3) by (apply Rle_pow; [lra|lia]). assert (G0 : 1 <= G) by (apply pow_R1_Rle; lra).
  assert (G3' : (1 + u) ^ 3 <= 1 + 3.0001 * u). { replace ((1 + u) ^ 3) with (1 + 3 * u + 3 * (u * u) + u * (u * u)) by ring. assert (u * u <= 1.2e-16 * u) by nra. nra. }
  assert (GE : G <= 1 + 3.0001 * u) by lra. clearbody G. clear G3 G3'.
  assert (I : INR (length l - 1) <= 3) by (replace 3 with (INR 3) by (cbn; lra); apply le_INR; lia). assert (I' : INR (length l) <= 4) by (replace 4 with (INR 4) by (cbn; lra); apply le_INR; lia).
  pose proof (pos_INR (length l - 1)). pose proof (pos_INR (length l)). pose proof (mass_pos ps).
  replace (v - dots l) with ((v - total ps) + (total ps - dots l)) by ring. eapply Rle_trans; [apply Rabs_triang|].
  assert (B1 : (G - 1) * mass ps <= 3.0001 * u * ((1 + u) * dmass l + 4 * tiny)). { apply Rmult_le_compat; [lra|lra|lra|]. nra. }
  assert (B2 : INR (length l - 1) * (G * tiny) <= 3 * (2 * tiny)). { apply Rmult_le_compat; [lra| |lra|]; nra. }
  assert (B3 : INR (length l) * tiny <= 4 * tiny) by (apply Rmult_le_compat_r; lra).
  assert (B4 : 3.0001 * u * ((1 + u) * dmass l + 4 * tiny) <= 3.0009 * u * dmass l + tiny). { assert (u * dmass l * u <= u * dmass l * 1.2e-16) by (apply Rmult_le_compat_l; [nra|lra]). nra. }
  nra.
Qed.

(** ** lengths of quaternions *)
Lemma qsq_nonneg a : 0 <= qsq a. Proof. unfold qsq. nra. Qed.
Lemma qlen_nonneg a : 0 <= qlen a. Proof. apply sqrt_pos. Qed.
Lemma qlen_sq a : qlen a * qlen a = qsq a. Proof. apply sqrt_sqrt, qsq_nonneg. Qed.
Lemma qlen_mul a b : qlen (qmul a b) = qlen a * qlen b.
Proof. unfold qlen. rewrite <- sqrt_mult by apply qsq_nonneg. f_equal. unfold qsq, qmul; cbn [qw qx qy qz]. ring. Qed.
Lemma qlen_unit a : unit_q a -> qlen a = 1.
Proof. unfold unit_q, qlen, qsq. intros H. transitivity (sqrt 1); [f_equal; lra|apply sqrt_1]. Qed.
Lemma qlen_le a k : 0 <= k -> qsq a <= k * k -> qlen a <= k.
Proof. intros K H. unfold qlen. rewrite <- (sqrt_square k K). apply sqrt_le_1_alt, H. Qed.
Definition qdot (a b : quat) : R := qw a * qw b + qx a * qx b + qy a * qy b + qz a * qz b.
Lemma cauchy a b : qdot a b <= qlen a * qlen b.
Proof.
  pose proof (qlen_nonneg a). pose proof (qlen_nonneg b). pose proof (qlen_sq a) as A. pose proof (qlen_sq b) as B.
  assert (S : qdot a b * qdot a b <= (qlen a * qlen b) * (qlen a * qlen b)).
  { replace ((qlen a * qlen b) * (qlen a * qlen b)) with (qsq a * qsq b) by (rewrite <- A, <- B; ring). unfold qdot, qsq. destruct a as [a1 a2 a3 a4], b as [b1 b2 b3 b4]; cbn [qw qx qy qz].
    assert (I : (a1 * a1 + a2 * a2 + a3 * a3 + a4 * a4) * (b1 * b1 + b2 * b2 + b3 * b3 + b4 * b4) - (a1 * b1 + a2 * b2 + a3 * b3 + a4 * b4) * (a1 * b1 + a2 * b2 + a3 * b3 + a4 * b4) =
      (a1 * b2 - a2 * b1) * (a1 * b2 - a2 * b1) + (a1 * b3 - a3 * b1) * (a1 * b3 - a3 * b1) + (a1 * b4 - a4 * b1) * (a1 * b4 - a4 * b1) +
      (a2 * b3 - a3 * b2) * (a2 * b3 - a3 * b2) + (a2 * b4 - a4 * b2) * (a2 * b4 - a4 * b2) + (a3 * b4 - a4 * b3) * (a3 * b4 - a4 * b3)) by ring.
    pose proof (Rle_0_sqr (a1 * b2 - a2 * b1)). pose proof (Rle_0_sqr (a1 * b3 - a3 * b1)). pose proof (Rle_0_sqr (a1 * b4 - a4 * b1)). pose proof (Rle_0_sqr (a2 * b3 - a3 * b2)). pose proof (Rle_0_sqr (a2 * b4 - a4 * b2)). pose proof (Rle_0_sqr (a3 * b4 - a4 * b3)).
    unfold Rsqr in *. lra. }
  assert (0 <= qlen a * qlen b) by (apply Rmult_le_pos; assumption). set (x := qdot a b) in *. set (y := qlen a * qlen b) in *.
  destruct (Rle_lt_dec x y); [assumption|]. nra.
Qed.
Definition qadd (a b : quat) : quat := Q (qw a + qw b) (qx a + qx b) (qy a + qy b) (qz a + qz b).
Lemma qlen_add a b : qlen (qadd a b) <= qlen a + qlen b.
Proof.
  pose proof (qlen_nonneg a). pose proof (qlen_nonneg b). apply qlen_le; [lra|]. pose proof (cauchy a b). pose proof (qlen_sq a). pose proof (qlen_sq b).
  replace (qsq (qadd a b)) with (qsq a + 2 * qdot a b + qsq b) by (unfold qsq, qdot, qadd; cbn [qw qx qy qz]; ring). nra.
Qed.
Lemma qdist_tri a b c : qdist a c <= qdist a b + qdist b c.
Proof. unfold qdist. replace (qminus a c) with (qadd (qminus a b) (qminus b c)); [apply qlen_add|]. apply quat_eq; cbn; ring. Qed.
Lemma qdist_refl a : qdist a a = 0.
Proof. unfold qdist, qlen, qsq, qminus; cbn [qw qx qy qz]. rewrite !Rminus_diag_eq by reflexivity. rewrite Rmult_0_l, !Rplus_0_r. apply sqrt_0. Qed.
Lemma qdist_sym a b : qdist a b = qdist b a.
Proof. unfold qdist, qlen. f_equal. unfold qsq, qminus; cbn [qw qx qy qz]. ring. Qed.
Lemma qdist_nonneg a b : 0 <= qdist a b. Proof. apply qlen_nonneg. Qed.
Lemma qdist_left a b c : qdist (qmul a b) (qmul a c) = qlen a * qdist b c.
Proof. unfold qdist. rewrite <- qlen_mul. f_equal. apply quat_eq; cbn; ring. Qed.
Lemma qdist_right a b c : qdist (qmul b a) (qmul c a) = qdist b c * qlen a.
Proof. unfold qdist. rewrite <- qlen_mul. f_equal. apply quat_eq; cbn; ring. Qed.
Lemma qlen_dist a b : qlen a <= qlen b + qdist a b.
Proof. unfold qdist. replace a with (qadd b (qminus a b)) at 1; [apply qlen_add|]. apply quat_eq; cbn; ring. Qed.
(** four components within c *)
Lemma qlen_comp a c : 0 <= c -> Rabs (qw a) <= c -> Rabs (qx a) <= c -> Rabs (qy a) <= c -> Rabs (qz a) <= c -> qlen a <= 2 * c.
Proof.
  intros C A B D E. apply qlen_le; [lra|]. unfold qsq. assert (S : forall x, Rabs x <= c -> x * x <= c * c).
  { intros x H. rewrite <- (Rabs_pos_eq (x * x)) by nra. rewrite Rabs_mult. pose proof (Rabs_pos x). nra. }
  pose proof (S _ A). pose proof (S _ B). pose proof (S _ D). pose proof (S _ E). lra.
Qed.
Definition qabs (a : quat) : quat := Q (Rabs (qw a)) (Rabs (qx a)) (Rabs (qy a)) (Rabs (qz a)).
Lemma qabs_len a : qlen (qabs a) = qlen a.
Proof.
  assert (S : forall x, Rabs x * Rabs x = x * x) by (intros x; rewrite <- Rabs_mult; apply Rabs_pos_eq; nra).
  unfold qlen, qsq, qabs; cbn [qw qx qy qz]. rewrite !S. reflexivity.
Qed.

(** ** products *)
Lemma qmul_run_error a b q : qmul_run a b q -> qdist q (qmul a b) <= 8.002 * u * (qlen a * qlen b) + 32 * tiny.
Proof.
  intros (W & X & Y & Z). pose proof usmall as (U & T & _). pose proof (Rmult_le_pos _ _ (qlen_nonneg a) (qlen_nonneg b)) as LP.
  apply dot_run_bound in W, X, Y, Z; [|cbn; lia ..]. unfold dots, dmass, total in *; cbn [map fold_right fst snd] in *. rewrite ?Rabs_Ropp, ?Rplus_0_r in *.
  unfold qdist. replace (8.002 * u * (qlen a * qlen b) + 32 * tiny) with (2 * (4.001 * u * (qlen a * qlen b) + 16 * tiny)) by lra.
  assert (P : forall m, m <= qlen a * qlen b -> 4.001 * u * m + 16 * tiny <= 4.001 * u * (qlen a * qlen b) + 16 * tiny) by (intros m H; apply Rplus_le_compat_r, Rmult_le_compat_l; lra).
  pose proof (qabs_len a) as QA. pose proof (qabs_len b) as QB.
  apply qlen_comp; [nra|..]; cbn [qminus qmul qw qx qy qz].
  - eapply Rle_trans; [|eapply Rle_trans; [exact W|apply P]]; [right; f_equal; ring|].
    pose proof (cauchy (qabs a) (qabs b)) as C. rewrite QA, QB in C. unfold qdot in C; cbn [qabs qw qx qy qz] in C. lra.
  - eapply Rle_trans; [|eapply Rle_trans; [exact X|apply P]]; [right; f_equal; ring|].
    pose proof (cauchy (qabs a) (qabs (Q (qx b) (qw b) (qz b) (qy b)))) as C. rewrite QA, qabs_len in C. replace (qlen (Q (qx b) (qw b) (qz b) (qy b))) with (qlen b) in C by (unfold qlen, qsq; cbn [qw qx qy qz]; f_equal; ring). unfold qdot in C; cbn [qabs qw qx qy qz] in C. lra.
  - eapply Rle_trans; [|eapply Rle_trans; [exact Y|apply P]]; [right; f_equal; ring|].
    pose proof (cauchy (qabs a) (qabs (Q (qy b) (qz b) (qw b) (qx b)))) as C. rewrite QA, qabs_len in C. replace (qlen (Q (qy b) (qz b) (qw b) (qx b))) with (qlen b) in C by (unfold qlen, qsq; cbn [qw qx qy qz]; f_equal; ring). unfold qdot in C; cbn [qabs qw qx qy qz] in C. lra.
  - eapply Rle_trans; [|eapply Rle_trans; [exact Z|apply P]]; [right; f_equal; ring|].
    pose proof (cauchy (qabs a) (qabs (Q (qz b) (qy b) (qx b) (qw b)))) as C. rewrite QA, qabs_len in C. replace (qlen (Q (qz b) (qy b) (qx b) (qw b))) with (qlen b) in C by (unfold qlen, qsq; cbn [qw qx qy qz]; f_equal; ring). unfold qdot in C; cbn [qabs qw qx qy qz] in C. lra.
Qed.
Lemma off_mul j k a b a' b' q : unit_q a -> unit_q b -> off j a' a -> off k b' b -> qmul_run a' b' q -> 0 <= j <= 1e6 -> 0 <= k <= 1e6 -> off (j + k + 8.1) q (qmul a b).
Proof.
  intros Ha Hb Oa Ob R Hj Hk. unfold off in *. fold u in *. pose proof usmall as (U & T & TU). pose proof (qmul_run_error _ _ _ R) as E. apply qlen_unit in Ha, Hb.
  pose proof (qlen_dist a' a) as La. pose proof (qlen_dist b' b) as Lb. rewrite Ha in La. rewrite Hb in Lb. pose proof (qlen_nonneg a'). pose proof (qlen_nonneg b').
  pose proof (qdist_tri q (qmul a' b') (qmul a b)) as T1. pose proof (qdist_tri (qmul a' b') (qmul a b') (qmul a b)) as T2. rewrite qdist_left, qdist_right, Ha in T2.
  set (da := qdist a' a) in *. set (db := qdist b' b) in *. assert (0 <= da) by apply qdist_nonneg. assert (0 <= db) by apply qdist_nonneg.
  assert (JU : j * u <= 1.2e-10) by nra. assert (KU : k * u <= 1.2e-10) by nra.
  assert (E1 : da * qlen b' <= j * u * (1 + 1.2e-10)) by (apply Rmult_le_compat; lra).
  assert (E2 : qlen a' * qlen b' <= (1 + 1.2e-10) * (1 + 1.2e-10)) by (apply Rmult_le_compat; lra).
  assert (E3 : 8.002 * u * (qlen a' * qlen b') <= 8.002 * u * ((1 + 1.2e-10) * (1 + 1.2e-10))) by (apply Rmult_le_compat_l; lra).
  assert (J2 : j * u * 1.2e-10 <= 1e6 * u * 1.2e-10) by nra. lra.
Qed.

(** ** rotations about the axes *)
Lemma chord a b : (cos a - cos b) * (cos a - cos b) + (sin a - sin b) * (sin a - sin b) <= (a - b) * (a - b).
Proof.
  pose proof (cs1 a) as A. pose proof (cs1 b) as B. pose proof (cos_minus a b) as M. pose proof (half_cos (a - b)) as Hc.
  assert (S : sin ((a - b) / 2) * sin ((a - b) / 2) <= ((a - b) / 2) * ((a - b) / 2)).
  { pose proof (sin_lip ((a - b) / 2) 0) as L. rewrite sin_0, !Rminus_0_r in L. apply Rsqr_le_abs_1 in L. exact L. }
  nra.
Qed.
Lemma half_off t T c s k : 0 <= k -> Rabs (T - t) <= k * u -> half_run T c s ->
  sqrt ((c - cos (t / 2)) * (c - cos (t / 2)) + (s - sin (t / 2)) * (s - sin (t / 2))) <= (k / 2 + 2.9) * u.
Proof.
  intros K HT (h & Hh & Hc & Hs). rewrite p52 in *. pose proof usmall as (U & Ti & TU).
  pose proof (qlen_add (Q (c - cos h) (s - sin h) 0 0) (Q (cos h - cos (t / 2)) (sin h - sin (t / 2)) 0 0)) as A.
  assert (E1 : qlen (Q (c - cos h) (s - sin h) 0 0) <= 2.85 * u).
  { apply qlen_le; [lra|]. unfold qsq; cbn [qw qx qy qz]. apply sq_le in Hc, Hs. nra. }
  assert (E2 : qlen (Q (cos h - cos (t / 2)) (sin h - sin (t / 2)) 0 0) <= k / 2 * u + tiny).
  { assert (D : Rabs (h - t / 2) <= k / 2 * u + tiny).
    { replace (h - t / 2) with ((h - T / 2) + (T - t) / 2) by field. eapply Rle_trans; [apply Rabs_triang|]. assert (Rabs ((T - t) / 2) <= k / 2 * u) by (apply abs_inv in HT; apply Rabs_le; lra). lra. }
    pose proof (Rabs_pos (h - t / 2)). apply qlen_le; [lra|]. unfold qsq; cbn [qw qx qy qz]. pose proof (chord h (t / 2)).
    assert ((h - t / 2) * (h - t / 2) <= (k / 2 * u + tiny) * (k / 2 * u + tiny)) by (apply sq_le; exact D). lra. }
  eapply Rle_trans; [|eapply Rle_trans; [exact A|]]. 2: lra. right. unfold qlen, qsq, qadd; cbn [qw qx qy qz]. f_equal. ring.
Qed.
Lemma aaX_off t T q k : 0 <= k -> Rabs (T - t) <= k * u -> aaX_run T q -> off (k / 2 + 2.9) q (aaX t).
Proof. intros K H (R & A & B). pose proof (half_off t T _ _ k K H R). unfold off, qdist, qlen, qsq, qminus; cbn [aaX qw qx qy qz]. rewrite A, B. fold u. eapply Rle_trans; [|eassumption]. right. f_equal. ring. Qed.
Lemma aaY_off t T q k : 0 <= k -> Rabs (T - t) <= k * u -> aaY_run T q -> off (k / 2 + 2.9) q (aaY t).
Proof. intros K H (R & A & B). pose proof (half_off t T _ _ k K H R). unfold off, qdist, qlen, qsq, qminus; cbn [aaY qw qx qy qz]. rewrite A, B. fold u. eapply Rle_trans; [|eassumption]. right. f_equal. ring. Qed.
Lemma aaZ_off t T q k : 0 <= k -> Rabs (T - t) <= k * u -> aaZ_run T q -> off (k / 2 + 2.9) q (aaZ t).
Proof. intros K H (R & A & B). pose proof (half_off t T _ _ k K H R). unfold off, qdist, qlen, qsq, qminus; cbn [aaZ qw qx qy qz]. rewrite A, B. fold u. eapply Rle_trans; [|eassumption]. right. f_equal. ring. Qed.
Lemma chord_half s t : sqrt ((cos (s / 2) - cos (t / 2)) * (cos (s / 2) - cos (t / 2)) + (sin (s / 2) - sin (t / 2)) * (sin (s / 2) - sin (t / 2))) <= Rabs (s - t) / 2.
Proof.
  pose proof (Rabs_pos (s - t)). rewrite <- (sqrt_square (Rabs (s - t) / 2)) by lra. apply sqrt_le_1_alt. pose proof (chord (s / 2) (t / 2)).
  replace (Rabs (s - t) / 2 * (Rabs (s - t) / 2)) with (Rabs (s - t) * Rabs (s - t) / 4) by field. rewrite <- Rabs_mult. rewrite (Rabs_pos_eq ((s - t) * (s - t))) by (apply Rle_0_sqr). eapply Rle_trans; [eassumption|]. right. field.
Qed.
Lemma aaX_lip s t : qdist (aaX s) (aaX t) <= Rabs (s - t) / 2.
Proof. eapply Rle_trans; [|apply chord_half]. right. unfold qdist, qlen, qsq, qminus; cbn [aaX qw qx qy qz]. f_equal. ring. Qed.
Lemma aaY_lip s t : qdist (aaY s) (aaY t) <= Rabs (s - t) / 2.
Proof. eapply Rle_trans; [|apply chord_half]. right. unfold qdist, qlen, qsq, qminus; cbn [aaY qw qx qy qz]. f_equal. ring. Qed.
Lemma aaZ_lip s t : qdist (aaZ s) (aaZ t) <= Rabs (s - t) / 2.
Proof. eapply Rle_trans; [|apply chord_half]. right. unfold qdist, qlen, qsq, qminus; cbn [aaZ qw qx qy qz]. f_equal. ring. Qed.
Lemma mul_lip a b c d : unit_q a -> unit_q b -> unit_q c -> unit_q d -> qdist (qmul a b) (qmul c d) <= qdist a c + qdist b d.
Proof. intros A B C D. eapply Rle_trans; [apply (qdist_tri _ (qmul c b))|]. rewrite qdist_left, qdist_right, (qlen_unit b B), (qlen_unit c C). lra. Qed.

(** ** c2i, c2tirs, tirs2i for the same arguments *)
Lemma near_abs x v : near x v -> Rabs (v - x) <= u * Rabs x + tiny. Proof. exact (fun H => H). Qed.
Lemma angle_off a b M N v x k : 0 <= k -> Rabs (a - x) <= k * u -> Rabs a <= M -> M <= 100 -> Rabs b <= N -> N <= 100 -> near (a + b) v ->
  Rabs (v - (x + b)) <= (k + (M + N) + 1e-6) * u /\ Rabs v <= M + N + 1e-6.
Proof.
  intros K A HM M1 HB N1 H. unfold near in H. pose proof usmall as (U & T & TU). pose proof (Rabs_triang a b). pose proof (Rabs_pos a). pose proof (Rabs_pos b).
  assert (UB : u * Rabs (a + b) <= u * (M + N)) by (apply Rmult_le_compat_l; lra).
  assert (L : u * (M + N) <= u * 200) by (apply Rmult_le_compat_l; lra). split.
  - replace (v - (x + b)) with ((v - (a + b)) + (a - x)) by ring. eapply Rle_trans; [apply Rabs_triang|]. lra.
  - replace v with ((v - (a + b)) + (a + b)) by ring. eapply Rle_trans; [apply Rabs_triang|]. lra.
Qed.
Lemma zero_off t : Rabs (t - t) <= 0 * u. Proof. rewrite Rminus_diag_eq, Rabs_R0 by reflexivity. lra. Qed.
Lemma off_weak j k a b : j <= k -> off j a b -> off k a b.
Proof. unfold off. fold u. pose proof usmall as (U & _). intros H O. eapply Rle_trans; [exact O|]. apply Rmult_le_compat_r; lra. Qed.
Lemma c2i_off era s sp d e xp yp q : Rabs era <= 7 -> Rabs s <= 1 -> Rabs sp <= 1 -> Rabs e <= 4 -> c2i_run era s sp d e xp yp q -> off 63.5 q (c2i era s sp d e xp yp).
Proof.
  intros He Hs Hsp Hee (t1 & t2 & t3 & a1 & a2 & a3 & a4 & a5 & q1 & q2 & q3 & N1 & N2 & N3 & A1 & A2 & A3 & A4 & A5 & Q1 & Q2 & Q3 & Q4).
  destruct (angle_off (- sp) (- era) 1 7 t1 (- sp) 0) as [B1 C1]; try lra; [apply zero_off|rewrite Rabs_Ropp; lra|rewrite Rabs_Ropp; lra|exact N1|].
  destruct (angle_off t1 e (8.000001) 4 t2 (- sp + - era) 8.000001) as [B2 C2]; try lra; [exact N2|].
  destruct (angle_off t2 s 12.000002 1 t3 (- sp + - era + e) 20.000003) as [B3 C3]; try lra; [exact N3|].
  apply (aaX_off yp yp a1 0 ltac:(lra) (zero_off _)) in A1. apply (aaY_off xp xp a2 0 ltac:(lra) (zero_off _)) in A2. apply (aaY_off _ _ _ 0 ltac:(lra) (zero_off _)) in A4. apply (aaZ_off _ _ _ 0 ltac:(lra) (zero_off _)) in A5.
  apply (aaZ_off (- sp - era + e + s) t3 a3 33.1 ltac:(lra)) in A3; [|eapply Rle_trans; [exact B3|apply Rmult_le_compat_r; pose proof usmall; lra]].
  pose proof (off_mul _ _ _ _ _ _ _ (unit_X yp) (unit_Y xp) A1 A2 Q1 ltac:(lra) ltac:(lra)) as P1.
  pose proof (off_mul _ _ _ _ _ _ _ (unit_mul _ _ (unit_X yp) (unit_Y xp)) (unit_Z _) P1 A3 Q2 ltac:(lra) ltac:(lra)) as P2.
  pose proof (off_mul _ _ _ _ _ _ _ (unit_mul _ _ (unit_mul _ _ (unit_X yp) (unit_Y xp)) (unit_Z _)) (unit_Y _) P2 A4 Q3 ltac:(lra) ltac:(lra)) as P3.
  pose proof (off_mul _ _ _ _ _ _ _ (unit_mul _ _ (unit_mul _ _ (unit_mul _ _ (unit_X yp) (unit_Y xp)) (unit_Z _)) (unit_Y _)) (unit_Z _) P3 A5 Q4 ltac:(lra) ltac:(lra)) as P4.
  eapply off_weak; [|exact P4]. lra.
Qed.
Lemma c2tirs_off era s d e q : Rabs era <= 7 -> Rabs s <= 1 -> Rabs e <= 4 -> c2tirs_run era s d e q -> off 37 q (c2tirs era s d e).
Proof.
  intros He Hs Hee (t2 & t3 & a3 & a4 & a5 & q1 & N2 & N3 & A3 & A4 & A5 & Q1 & Q2).
  destruct (angle_off (- era) e 7 4 t2 (- era) 0) as [B2 C2]; try lra; [apply zero_off|rewrite Rabs_Ropp; lra|exact N2|].
  destruct (angle_off t2 s 11.000001 1 t3 (- era + e) 11.000001) as [B3 C3]; try lra; [exact N3|].
  apply (aaY_off _ _ _ 0 ltac:(lra) (zero_off _)) in A4. apply (aaZ_off _ _ _ 0 ltac:(lra) (zero_off _)) in A5.
  apply (aaZ_off (- era + e + s) t3 a3 23.1 ltac:(lra)) in A3; [|eapply Rle_trans; [exact B3|apply Rmult_le_compat_r; pose proof usmall; lra]].
  pose proof (off_mul _ _ _ _ _ _ _ (unit_Z _) (unit_Y _) A3 A4 Q1 ltac:(lra) ltac:(lra)) as P1.
  pose proof (off_mul _ _ _ _ _ _ _ (unit_mul _ _ (unit_Z _) (unit_Y _)) (unit_Z _) P1 A5 Q2 ltac:(lra) ltac:(lra)) as P2.
  eapply off_weak; [|exact P2]. lra.
Qed.
Lemma tirs2i_off xp yp sp q : tirs2i_run xp yp sp q -> off 25 q (tirs2i xp yp sp).
Proof.
  intros (a1 & a2 & a3 & q1 & A1 & A2 & A3 & Q1 & Q2).
  apply (aaX_off yp yp a1 0 ltac:(lra) (zero_off _)) in A1. apply (aaY_off xp xp a2 0 ltac:(lra) (zero_off _)) in A2. apply (aaZ_off _ _ _ 0 ltac:(lra) (zero_off _)) in A3.
  pose proof (off_mul _ _ _ _ _ _ _ (unit_X yp) (unit_Y xp) A1 A2 Q1 ltac:(lra) ltac:(lra)) as P1.
  pose proof (off_mul _ _ _ _ _ _ _ (unit_mul _ _ (unit_X yp) (unit_Y xp)) (unit_Z _) P1 A3 Q2 ltac:(lra) ltac:(lra)) as P2.
  eapply off_weak; [|exact P2]. lra.
Qed.
(** sensitivity to the arguments *)
Lemma c2i_lip era s sp d e xp yp era' s' sp' d' e' xp' yp' :
  qdist (c2i era s sp d e xp yp) (c2i era' s' sp' d' e' xp' yp') <= (Rabs (yp - yp') + Rabs (xp - xp') + Rabs ((e + s - sp - era) - (e' + s' - sp' - era')) + Rabs (d - d') + Rabs (e - e')) / 2.
Proof.
  unfold c2i. eapply Rle_trans; [apply mul_lip; repeat apply unit_mul; first [apply unit_X|apply unit_Y|apply unit_Z]|].
  eapply Rle_trans; [apply Rplus_le_compat_r, mul_lip; repeat apply unit_mul; first [apply unit_X|apply unit_Y|apply unit_Z]|].
  eapply Rle_trans; [apply Rplus_le_compat_r, Rplus_le_compat_r, mul_lip; repeat apply unit_mul; first [apply unit_X|apply unit_Y|apply unit_Z]|].
  eapply Rle_trans; [apply Rplus_le_compat_r, Rplus_le_compat_r, Rplus_le_compat_r, mul_lip; repeat apply unit_mul; first [apply unit_X|apply unit_Y|apply unit_Z]|].
  pose proof (aaX_lip yp yp'). pose proof (aaY_lip xp xp'). pose proof (aaZ_lip (- sp - era + e + s) (- sp' - era' + e' + s')). pose proof (aaY_lip (- d) (- d')) as D. pose proof (aaZ_lip (- e) (- e')) as E.
  replace (- d - - d') with (- (d - d')) in D by ring. replace (- e - - e') with (- (e - e')) in E by ring. rewrite Rabs_Ropp in D, E.
  replace (e + s - sp - era - (e' + s' - sp' - era')) with (- sp - era + e + s - (- sp' - era' + e' + s')) by ring. lra.
Qed.
