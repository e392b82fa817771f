(** The recurrence of the normalised Legendre functions in symmetric form, and its growth at the pole. *)
From Coq Require Import Reals ZArith Lia Lra Psatz.
From Verif Require Import Poly AlfSpec AlfMath AlfStable AlfError.
Open Scope R_scope.

Definition beta2 (m n : nat) : R := (INR n ^ 2 - INR m ^ 2) / (4 * INR n ^ 2 - 1).
Definition beta (m n : nat) : R := sqrt (beta2 m n).
Lemma four_pos n : (1 <= n)%nat -> 0 < 4 * INR n ^ 2 - 1.
Proof. intros H. pose proof (le_INR 1 n H) as P. cbn [INR] in P. nra. Qed.
Lemma beta2_nonneg m n : (m <= n)%nat -> 0 <= beta2 m n.
Proof.
  intros H. unfold beta2. destruct n as [|n].
  - replace m with 0%nat by lia. cbn [INR]. replace ((0 ^ 2 - 0 ^ 2) / (4 * 0 ^ 2 - 1)) with 0 by field. lra.
  - apply Rle_mult_inv_pos; [|apply four_pos; lia]. pose proof (le_INR m (S n) H). pose proof (pos_INR m). nra.
Qed.
Lemma beta_sq m n : (m <= n)%nat -> beta m n ^ 2 = beta2 m n.
Proof. intros H. unfold beta. cbn [pow]. rewrite Rmult_1_r. apply sqrt_sqrt, beta2_nonneg, H. Qed.
Lemma beta_m m : beta m m = 0.
Proof. unfold beta, beta2. replace (INR m ^ 2 - INR m ^ 2) with 0 by ring. unfold Rdiv. rewrite Rmult_0_l. apply sqrt_0. Qed.
Lemma beta_pos m n : (m < n)%nat -> 0 < beta m n.
Proof. intros H. apply sqrt_lt_R0. unfold beta2. apply Rdiv_lt_0_compat; [|apply four_pos; lia]. pose proof (lt_INR m n H). pose proof (pos_INR m). nra. Qed.
Lemma beta_inc m n : (1 <= m)%nat -> (m <= n)%nat -> beta m n < beta m (S n).
Proof.
  intros M H. apply sqrt_lt_1_alt. split; [apply beta2_nonneg, H|]. unfold beta2. pose proof (four_pos n ltac:(lia)) as P1. pose proof (four_pos (S n) ltac:(lia)) as P2. pose proof (four_pos m M) as P0.
  apply (Rmult_lt_reg_r ((4 * INR n ^ 2 - 1) * (4 * INR (S n) ^ 2 - 1))); [apply Rmult_lt_0_compat; assumption|].
  replace ((INR n ^ 2 - INR m ^ 2) / (4 * INR n ^ 2 - 1) * ((4 * INR n ^ 2 - 1) * (4 * INR (S n) ^ 2 - 1))) with ((INR n ^ 2 - INR m ^ 2) * (4 * INR (S n) ^ 2 - 1)) by (field; lra).
  replace ((INR (S n) ^ 2 - INR m ^ 2) / (4 * INR (S n) ^ 2 - 1) * ((4 * INR n ^ 2 - 1) * (4 * INR (S n) ^ 2 - 1))) with ((INR (S n) ^ 2 - INR m ^ 2) * (4 * INR n ^ 2 - 1)) by (field; lra).
  rewrite S_INR. pose proof (pos_INR n). nra.
Qed.
(** order 0 *)
Lemma zonal_beta2 n : (1 <= n)%nat -> beta2 0 n = / 4 + / (4 * (4 * INR n ^ 2 - 1)).
Proof. intros H. unfold beta2. cbn [INR]. pose proof (four_pos n H). field. lra. Qed.
Lemma zonal_beta_dec n : (1 <= n)%nat -> beta 0 (S n) <= beta 0 n.
Proof.
  intros H. apply sqrt_le_1_alt. rewrite !zonal_beta2 by lia. pose proof (four_pos n H). apply Rplus_le_compat_l, Rinv_le_contravar; [lra|]. rewrite S_INR. pose proof (pos_INR n). nra.
Qed.
Lemma zonal_beta_half n : (1 <= n)%nat -> / 2 < beta 0 n /\ / (16 * INR n ^ 2) <= beta 0 n ^ 2 - / 4.
Proof.
  intros H. pose proof (four_pos n H) as P. split.
  - rewrite <- (sqrt_Rsqr (/ 2)) by lra. apply sqrt_lt_1_alt. rewrite zonal_beta2 by exact H. assert (0 < / (4 * (4 * INR n ^ 2 - 1))) by (apply Rinv_0_lt_compat; lra). unfold Rsqr. split; lra.
  - rewrite beta_sq, zonal_beta2 by lia. assert (/ (16 * INR n ^ 2) <= / (4 * (4 * INR n ^ 2 - 1))) by (apply Rinv_le_contravar; lra). lra.
Qed.
Lemma zonal_beta_max n : (1 <= n)%nat -> beta 0 n ^ 2 <= / 3.
Proof.
  intros H. rewrite beta_sq, zonal_beta2 by lia. pose proof (four_pos n H). pose proof (le_INR 1 n H) as L. cbn [INR] in L.
  assert (/ (4 * (4 * INR n ^ 2 - 1)) <= / 12) by (apply Rinv_le_contravar; nra). lra.
Qed.

(** ** the factors of the code *)
Definition afac (n m : nat) : R := sqrt (INR (2 * n + 1) * INR (2 * n + 3) / (INR (S n - m) * INR (S n + m))).
Definition bfac (n m : nat) : R := sqrt (INR (2 * n + 5) * INR (n + m + 1) * INR (S n - m) / (INR (S (S n) - m) * INR (S (S n) + m) * INR (2 * n + 1))).
Lemma afac_beta n m : (m <= n)%nat -> afac n m = / beta m (S n).
Proof.
  intros M. unfold afac, beta. rewrite <- sqrt_inv. f_equal. unfold beta2. pose proof (le_INR m n M). pose proof (pos_INR m). pose proof (four_pos (S n) ltac:(lia)) as P. rewrite minus_INR, plus_INR by lia. rewrite !plus_INR, !mult_INR, !S_INR in *. cbn [INR] in *.
  field. repeat split; nra.
Qed.
Lemma bfac_beta n m : (m <= n)%nat -> bfac n m = beta m (S n) / beta m (S (S n)).
Proof.
  intros M. unfold beta. rewrite <- sqrt_div_alt.
  - unfold bfac. f_equal. unfold beta2. pose proof (le_INR m n M). pose proof (pos_INR m). pose proof (four_pos (S n) ltac:(lia)) as P. pose proof (four_pos (S (S n)) ltac:(lia)) as P2. rewrite !minus_INR, !plus_INR by lia. rewrite !mult_INR, !S_INR in *. cbn [INR] in *.
    field. repeat split; nra.
  - unfold beta2. apply Rdiv_lt_0_compat; [|apply four_pos; lia]. pose proof (lt_INR m (S (S n)) ltac:(lia)). pose proof (pos_INR m). nra.
Qed.
Lemma Pbar_before n m th : (n < m)%nat -> Pbar n m th = 0.
Proof. intros H. unfold Pbar. rewrite legendre_vanishes by exact H. ring. Qed.
Lemma Pbar_step n m th : (m <= n)%nat -> beta m (S n) * Pbar (S n) m th = sin th * Pbar n m th - beta m n * Pbar (pred n) m th.
Proof.
  intros M. pose proof (beta_pos m (S n) ltac:(lia)) as B. assert (Q : n = m \/ (m < n)%nat) by lia. destruct Q as [-> | Q].
  - rewrite beta_m, Pbar_column_first. fold (afac m m). rewrite (afac_beta m m) by lia. field. lra.
  - destruct n as [|n]; [lia|]. cbn [pred]. rewrite (Pbar_column n m th) by lia. replace (INR (2 * n + 3) * INR (2 * n + 5)) with (INR (2 * S n + 1) * INR (2 * S n + 3)) by (f_equal; f_equal; lia).
    fold (afac (S n) m). fold (bfac n m). rewrite (afac_beta (S n) m), (bfac_beta n m) by lia. field. lra.
Qed.

(** ** growth at the pole: an upper bound of the rising solution *)
Section Grow.
  Variables (m : nat) (t : R).
  Hypothesis m1 : (1 <= m)%nat.
  Hypothesis t1 : t <= 1.
  Fixpoint cc (k : nat) : R := match k with O => 1 | S j => (INR (2 * m + S j) / (INR (2 * (m + j) + 1) * beta m (m + S j))) * cc j end.
  Definition c (n : nat) : R := cc (n - m).
  Lemma c_S n : (m <= n)%nat -> beta m (S n) * c (S n) = INR (S n + m) / INR (2 * n + 1) * c n.
  Proof.
    intros H. unfold c. replace (S n - m)%nat with (S (n - m)) by lia. cbn [cc]. replace (m + S (n - m))%nat with (S n) by lia. replace (m + (n - m))%nat with n by lia. replace (2 * m + S (n - m))%nat with (S n + m)%nat by lia.
    pose proof (beta_pos m (S n) ltac:(lia)). pose proof (INR_pos (2 * n + 1) ltac:(lia)). field. split; lra.
  Qed.
  Lemma c_pos n : 0 < c n.
  Proof.
    unfold c. generalize (n - m)%nat. induction n0 as [|k IH]; cbn [cc]; [lra|]. apply Rmult_lt_0_compat; [|exact IH]. apply Rdiv_lt_0_compat; [apply lt_0_INR; lia|]. apply Rmult_lt_0_compat; [apply lt_0_INR; lia|apply beta_pos; lia].
  Qed.
  Lemma c_back n : (m <= n)%nat -> beta m (S n) * c n = INR (S n - m) / INR (2 * n + 3) * c (S n).
  Proof.
    intros H. pose proof (c_S n H) as E. pose proof (beta_pos m (S n) ltac:(lia)) as B. pose proof (beta_sq m (S n) ltac:(lia)) as B2.
    apply (Rmult_eq_reg_l (beta m (S n))); [|lra]. transitivity (beta m (S n) ^ 2 * c n); [ring|]. rewrite B2. transitivity (INR (S n - m) / INR (2 * n + 3) * (beta m (S n) * c (S n))); [|ring]. rewrite E.
    unfold beta2. pose proof (four_pos (S n) ltac:(lia)) as P. rewrite minus_INR by lia. rewrite !plus_INR, !mult_INR, !S_INR in *. cbn [INR] in *. pose proof (pos_INR n). field. split; [lra|split; lra].
  Qed.
  Lemma c_rec n : (m <= n)%nat -> beta m (S n) * c (S n) = c n - (if Nat.eqb n m then 0 else beta m n * c (pred n)).
  Proof.
    intros H. destruct (Nat.eqb_spec n m) as [-> | Q].
    - rewrite c_S by lia. replace (S m + m)%nat with (2 * m + 1)%nat by lia. pose proof (INR_pos (2 * m + 1) ltac:(lia)). field. lra.
    - destruct n as [|n]; [lia|]. cbn [pred]. rewrite c_S, c_back by lia. replace (2 * S n + 1)%nat with (2 * n + 3)%nat by lia. pose proof (INR_pos (2 * n + 3) ltac:(lia)) as P.
      replace (INR (2 * n + 3)) with (INR (S (S n) + m) + INR (S n - m)) in * by (rewrite <- plus_INR; f_equal; lia). field. lra.
  Qed.
  Variable w : nat -> R.
  Hypothesis Hw : response (beta m) t m w.
  Lemma w_le_c n : (m <= n)%nat -> rising w m n -> w n <= c n /\ 0 <= c (S n) * w n - w (S n) * c n.
  Proof.
    intros H. induction H as [|n H IH]; intros Rw.
    - destruct Hw as (_ & A & B). rewrite A. assert (C1 : c m = 1) by (unfold c; rewrite Nat.sub_diag; reflexivity). split; [lra|]. specialize (B m ltac:(lia)). rewrite A, beta_m in B. pose proof (c_rec m ltac:(lia)) as R1. rewrite Nat.eqb_refl in R1.
      pose proof (beta_pos m (S m) ltac:(lia)) as P. rewrite C1 in *. assert (0 <= beta m (S m) * (c (S m) * 1 - w (S m) * 1)) by nra. nra.
    - destruct (IH ltac:(intros k K; apply Rw; lia)) as (A & B). pose proof (c_pos n) as Cn. pose proof (c_pos (S n)) as Cs. pose proof (rising_pos m (beta m) t m1 w m (S n) n Hw Rw ltac:(lia)) as Wn. pose proof (rising_pos m (beta m) t m1 w m (S n) (S n) Hw Rw ltac:(lia)) as Ws.
      split.
      + apply (Rmult_le_reg_r (c n)); [exact Cn|]. apply Rle_trans with (c (S n) * w n); [lra|]. apply Rmult_le_compat_l; lra.
      + pose proof (c_rec (S n) ltac:(lia)) as R1. rewrite (proj2 (Nat.eqb_neq (S n) m)) in R1 by lia. cbn [pred] in R1. pose proof (proj2 (proj2 Hw) (S n) ltac:(lia)) as R2. cbn [pred] in R2. pose proof (beta_pos m (S (S n)) ltac:(lia)) as P. pose proof (beta_pos m (S n) ltac:(lia)) as P1.
        apply (Rmult_le_reg_l (beta m (S (S n)))); [exact P|]. rewrite Rmult_0_r.
        replace (beta m (S (S n)) * (c (S (S n)) * w (S n) - w (S (S n)) * c (S n))) with ((beta m (S (S n)) * c (S (S n))) * w (S n) - (beta m (S (S n)) * w (S (S n))) * c (S n)) by ring. rewrite R1, R2.
        replace ((c (S n) - beta m (S n) * c n) * w (S n) - (t * w (S n) - beta m (S n) * w n) * c (S n)) with ((1 - t) * (c (S n) * w (S n)) + beta m (S n) * (c (S n) * w n - w (S n) * c n)) by ring.
        assert (0 <= (1 - t) * (c (S n) * w (S n))) by (apply Rmult_le_pos; [lra|apply Rmult_le_pos; lra]). assert (0 <= beta m (S n) * (c (S n) * w n - w (S n) * c n)) by (apply Rmult_le_pos; lra). lra.
  Qed.
End Grow.

(** binomial coefficients (n+m over 2m) *)
Definition bin (n m : nat) : R := INR (fact (n + m)) / (INR (fact (2 * m)) * INR (fact (n - m))).
Lemma bin_nn n : bin n n = 1.
Proof. unfold bin. replace (n + n)%nat with (2 * n)%nat by lia. rewrite Nat.sub_diag. cbn [fact INR]. pose proof (fact_pos (2 * n)). field. lra. Qed.
Lemma bin_le n : forall m, (m <= n)%nat -> bin n m <= 3 ^ n.
Proof.
  induction n as [|n IH]; intros m H.
  - replace m with 0%nat by lia. rewrite bin_nn. cbn. lra.
  - assert (Q : m = S n \/ m = 0%nat \/ (1 <= m <= n)%nat) by lia. destruct Q as [-> | [-> | Q]].
    + rewrite bin_nn. apply pow_R1_Rle. lra.
    + unfold bin. replace (S n + 0)%nat with (S n) by lia. replace (S n - 0)%nat with (S n) by lia. replace (INR (fact (2 * 0))) with 1 by reflexivity. pose proof (fact_pos (S n)) as P.
      replace (INR (fact (S n)) / (1 * INR (fact (S n)))) with 1 by (field; lra). apply pow_R1_Rle. lra.
    + destruct m as [|m]; [lia|]. pose proof (IH (S m) ltac:(lia)) as I1. pose proof (IH m ltac:(lia)) as I0.
      assert (S1 : bin (S n) (S m) <= 2 * bin n (S m) + bin n m); [|cbn [pow]; lra]. clear IH I1 I0 H. unfold bin.
      replace (S n + S m)%nat with (S (S (n + m))) by lia. replace (n + S m)%nat with (S (n + m)) by lia. replace (2 * S m)%nat with (S (S (2 * m))) by lia. replace (S n - S m)%nat with (S (n - S m)) by lia. replace (n - m)%nat with (S (n - S m)) by lia.
      rewrite !fact_S. pose proof (fact_pos (n + m)) as F1. pose proof (fact_pos (2 * m)) as F2. pose proof (fact_pos (n - S m)) as F3.
      assert (E1 : INR (S (n - S m)) = INR n - INR m) by (rewrite S_INR, minus_INR, S_INR by lia; ring). rewrite E1. rewrite !S_INR, !plus_INR, !mult_INR. cbn [INR].
      pose proof (le_INR (S m) n ltac:(lia)) as L. rewrite S_INR in L. pose proof (pos_INR m) as M0. set (x := INR n) in *. set (y := INR m) in *. set (f1 := INR (fact (n + m))) in *. set (f2 := INR (fact (2 * m))) in *. set (f3 := INR (fact (n - S m))) in *.
      set (k := f1 / (f2 * f3 * ((1 + 1) * y + 1) * ((1 + 1) * y + 1 + 1) * (x - y))). assert (K : 0 < k). { unfold k. apply Rdiv_lt_0_compat; [exact F1|]. repeat apply Rmult_lt_0_compat; lra. }
      assert (P1 : (1 + 1) * y + 1 <> 0) by lra. assert (P2 : (1 + 1) * y + 1 + 1 <> 0) by lra. assert (P3 : x - y <> 0) by lra.
      replace ((x + y + 1 + 1) * ((x + y + 1) * f1) / (((1 + 1) * y + 1 + 1) * (((1 + 1) * y + 1) * f2) * ((x - y) * f3))) with ((x + y + 1 + 1) * (x + y + 1) * k) by (unfold k; field; repeat split; lra).
      replace ((x + y + 1) * f1 / (((1 + 1) * y + 1 + 1) * (((1 + 1) * y + 1) * f2) * f3)) with ((x + y + 1) * (x - y) * k) by (unfold k; field; repeat split; lra).
      replace (f1 / (f2 * ((x - y) * f3))) with (((1 + 1) * y + 1) * ((1 + 1) * y + 1 + 1) * k) by (unfold k; field; repeat split; lra).
      assert (0 <= ((x - y) ^ 2 - (x - y)) * k) by (apply Rmult_le_pos; [nra|lra]). nra.
Qed.
Lemma c_square m n : (1 <= m)%nat -> (m <= n)%nat -> c m n ^ 2 * INR (2 * m + 1) = INR (2 * n + 1) * bin n m.
Proof.
  intros m1 H. induction H as [|n H IH].
  - unfold c. rewrite Nat.sub_diag, bin_nn. cbn [cc]. ring.
  - pose proof (c_S m m1 n H) as E. pose proof (beta_pos m (S n) ltac:(lia)) as B. pose proof (beta_sq m (S n) ltac:(lia)) as B2.
    assert (E2 : beta m (S n) ^ 2 * c m (S n) ^ 2 = (INR (S n + m) / INR (2 * n + 1)) ^ 2 * c m n ^ 2) by (rewrite <- Rpow_mult_distr, E; ring).
    assert (N : bin (S n) m = bin n m * INR (S n + m) / INR (S n - m)).
    { unfold bin. replace (S n + m)%nat with (S (n + m)) by lia. replace (S n - m)%nat with (S (n - m)) by lia. rewrite !fact_S. pose proof (fact_pos (n - m)). pose proof (fact_pos (2 * m)). pose proof (INR_pos (S (n - m)) ltac:(lia)). field. repeat split; lra. }
    rewrite N. apply (Rmult_eq_reg_l (beta m (S n) ^ 2)); [|apply pow_nonzero; lra]. rewrite <- Rmult_assoc, E2, Rmult_assoc, IH, B2. unfold beta2. pose proof (four_pos (S n) ltac:(lia)) as P. pose proof (le_INR m n H). pose proof (pos_INR m).
    rewrite minus_INR by lia. rewrite !plus_INR, !mult_INR, !S_INR in *. cbn [INR] in *. field. repeat split; nra.
Qed.
Lemma c_le m n N : (1 <= m)%nat -> (m <= n <= N)%nat -> c m n <= sqrt (INR (2 * N + 1) * 3 ^ N).
Proof.
  intros m1 H. pose proof (c_square m n m1 ltac:(lia)) as E. pose proof (bin_le n m ltac:(lia)) as B. pose proof (c_pos m m1 n) as C. rewrite <- (sqrt_Rsqr (c m n)) by lra. apply sqrt_le_1_alt. unfold Rsqr.
  pose proof (le_INR 1 (2 * m + 1) ltac:(lia)) as M1. change (INR 1) with 1 in M1. pose proof (pow2_ge_0 (c m n)) as C2. pose proof (pos_INR (2 * n + 1)). pose proof (le_INR (2 * n + 1) (2 * N + 1) ltac:(lia)).
  assert (P : 3 ^ n <= 3 ^ N) by (apply Rle_pow; [lra|lia]). assert (P0 : 0 < 3 ^ n) by (apply pow_lt; lra).
  apply Rle_trans with (c m n ^ 2 * INR (2 * m + 1)); [nra|]. rewrite E. apply Rle_trans with (INR (2 * n + 1) * 3 ^ N); [apply Rmult_le_compat_l; lra|apply Rmult_le_compat_r; lra].
Qed.
