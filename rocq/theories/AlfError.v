(** Accumulated error of the three term recurrence from bounds of the local errors. *)
From Coq Require Import Reals Lia Lra Psatz.
From Verif Require Import AlfStable.
Open Scope R_scope.

(** ** responses and superposition *)
Section Superposition.
  Variables (m : nat) (b : nat -> R) (t : R).
  Hypothesis b0 : b O = 0 \/ (1 <= m)%nat.
  Hypothesis bnz : forall n, (m < n)%nat -> b n <> 0.
  Fixpoint kp (j n : nat) : R * R :=
    match n with
    | O => ((if Nat.eqb j 0 then 1 else 0), 0)
    | S k => let (a, c) := kp j k in
        ((if Nat.ltb (S k) j then 0 else if Nat.eqb (S k) j then 1 else (t * a - b k * c) / b (S k)), a)
    end.
  Definition K (j n : nat) : R := fst (kp j n).
  Lemma kp_snd j n : snd (kp j (S n)) = K j n.
  Proof. unfold K. cbn [kp]. destruct (kp j n). reflexivity. Qed.
  Lemma K_response j : (m <= j)%nat -> response b t j (K j).
  Proof.
    intros M. split; [|split].
    - intros [|n] H; unfold K; cbn [kp]; [destruct (Nat.eqb_spec j 0); [lia|reflexivity]|]. destruct (kp j n). rewrite (proj2 (Nat.ltb_lt (S n) j)) by lia. reflexivity.
    - destruct j as [|j]; [reflexivity|]. unfold K. cbn [kp]. destruct (kp (S j) j). rewrite (proj2 (Nat.ltb_ge (S j) (S j))), Nat.eqb_refl by lia. reflexivity.
    - intros n H. assert (E : K j (S n) = (t * K j n - b n * snd (kp j n)) / b (S n)).
      { unfold K. cbn [kp]. destruct (kp j n) as (a, c). rewrite (proj2 (Nat.ltb_ge (S n) j)), (proj2 (Nat.eqb_neq (S n) j)) by lia. reflexivity. }
      rewrite E. assert (Q : b n * snd (kp j n) = b n * K j (pred n)). { destruct n as [|n]; [destruct b0 as [Z | Z]; [rewrite Z; ring|lia]|]. rewrite kp_snd. reflexivity. }
      rewrite Q. field. apply bnz. lia.
  Qed.
  Lemma sum_ext F H n : (forall j, (j <= n)%nat -> F j = H j) -> sum_f_R0 F n = sum_f_R0 H n.
  Proof. intros E. apply sum_eq. exact E. Qed.
  Variables e ze : nat -> R.
  Hypothesis e_before : forall n, (n < m)%nat -> e n = 0.
  Hypothesis ze_before : forall n, (n < m)%nat -> ze n = 0.
  Hypothesis e_start : e m = ze m.
  Hypothesis e_step : forall n, (m <= n)%nat -> e (S n) = (t * e n - b n * e (pred n)) / b (S n) + ze (S n).
  Definition g (n : nat) : R := sum_f_R0 (fun j => ze j * K j n) n.
  Lemma g_pred n : (1 <= n)%nat -> (m <= n)%nat -> sum_f_R0 (fun j => ze j * K j (pred n)) n = g (pred n).
  Proof.
    intros H M. destruct n as [|n]; [lia|]. cbn [pred sum_f_R0]. unfold g. rewrite (proj1 (K_response (S n) M) n) by lia. ring.
  Qed.
  Lemma g_before n : (n < m)%nat -> g n = 0.
  Proof.
    intros H. unfold g. assert (Q : forall k, (k <= n)%nat -> sum_f_R0 (fun j => ze j * K j n) k = 0).
    { induction k as [|k IH]; intros Hk; cbn [sum_f_R0]; [rewrite ze_before by lia; ring|]. rewrite IH, ze_before by lia. ring. }
    apply Q. lia.
  Qed.
  Lemma g_start : g m = ze m.
  Proof.
    unfold g. assert (Q : forall k, (k < m)%nat -> sum_f_R0 (fun j => ze j * K j m) k = 0).
    { induction k as [|k IH]; intros Hk; cbn [sum_f_R0]; [rewrite ze_before by lia; ring|]. rewrite IH, ze_before by lia. ring. }
    pose proof (proj1 (proj2 (K_response m ltac:(lia)))) as K1. destruct m as [|k]; cbn [sum_f_R0]; [rewrite K1; ring|]. rewrite (Q k) by lia. rewrite K1. ring.
  Qed.
  Lemma g_step n : (m <= n)%nat -> g (S n) = (t * g n - b n * g (pred n)) / b (S n) + ze (S n).
  Proof.
    intros M. unfold g at 1. cbn [sum_f_R0]. rewrite (proj1 (proj2 (K_response (S n) ltac:(lia)))), Rmult_1_r. f_equal.
    assert (E : sum_f_R0 (fun j => ze j * K j (S n)) n = / b (S n) * (t * sum_f_R0 (fun j => ze j * K j n) n - b n * sum_f_R0 (fun j => ze j * K j (pred n)) n)).
    { rewrite scal_sum. rewrite (scal_sum (fun j => ze j * K j (pred n)) n (b n)). rewrite <- minus_sum. rewrite scal_sum. apply sum_ext. intros j J.
      destruct (Nat.le_gt_cases m j) as [Mj | Mj]; [|rewrite ze_before by lia; ring]. pose proof (proj2 (proj2 (K_response j Mj)) n J) as R1. pose proof (bnz (S n) ltac:(lia)) as B.
      apply (Rmult_eq_reg_l (b (S n))); [|exact B]. transitivity (ze j * (b (S n) * K j (S n))); [ring|]. rewrite R1. field. exact B. }
    rewrite E. fold (g n). destruct (Nat.eq_dec n 0) as [-> | N0].
    - destruct b0 as [Z | Z]; [|lia]. rewrite Z. unfold Rdiv. ring.
    - rewrite g_pred by lia. unfold Rdiv. ring.
  Qed.
  Lemma superposition n : e n = sum_f_R0 (fun j => ze j * K j n) n.
  Proof.
    change (e n = g n). assert (Q : forall k, e k = g k /\ e (S k) = g (S k)); [|apply Q].
    assert (Z : forall k, (k <= m)%nat -> e k = g k). { intros k Hk. assert (Q : (k < m)%nat \/ k = m) by lia. destruct Q as [Q | ->]; [rewrite e_before, g_before by lia; reflexivity|rewrite e_start, g_start; reflexivity]. }
    induction k as [|k (A & B)].
    - split; [apply Z; lia|]. destruct (Nat.le_gt_cases m 0) as [Q | Q]; [|apply Z; lia]. rewrite e_step, g_step by lia. cbn [pred]. rewrite (Z 0%nat) by lia. reflexivity.
    - split; [exact B|]. destruct (Nat.le_gt_cases m (S k)) as [Q | Q]; [|apply Z; lia]. rewrite e_step, g_step by lia. cbn [pred]. rewrite A, B. reflexivity.
  Qed.
  Lemma sum_abs F n : Rabs (sum_f_R0 F n) <= sum_f_R0 (fun j => Rabs (F j)) n.
  Proof. apply Rsum_abs. Qed.
  Lemma sum_count F c d n : (forall j, (j <= n)%nat -> (j < m)%nat -> F j <= 0) -> (forall j, (j <= n)%nat -> (m < j)%nat -> F j <= c) -> F m <= d -> 0 <= c -> 0 <= d -> (m <= n)%nat ->
    sum_f_R0 F n <= INR n * c + d.
  Proof.
    intros A B C P1 P2 M. assert (Q1 : forall k, (k <= n)%nat -> (k < m)%nat -> sum_f_R0 F k <= 0).
    { induction k as [|k IH]; intros H1 H2; cbn [sum_f_R0]; [apply A; lia|]. pose proof (IH ltac:(lia) ltac:(lia)). pose proof (A (S k) ltac:(lia) ltac:(lia)). lra. }
    assert (Q2 : forall k, (m <= k <= n)%nat -> sum_f_R0 F k <= INR k * c + d).
    { induction k as [|k IH]; intros H; cbn [sum_f_R0].
      - replace m with 0%nat in C by lia. cbn [INR]. lra.
      - rewrite S_INR. destruct (Nat.eq_dec (S k) m) as [E | E].
        + rewrite E. pose proof (Q1 k ltac:(lia) ltac:(lia)). pose proof (pos_INR k). nra.
        + pose proof (IH ltac:(lia)). pose proof (B (S k) ltac:(lia) ltac:(lia)). lra. }
    apply Q2. lia.
  Qed.
  Lemma error_le n c d : (m <= n)%nat -> (forall j, (m < j <= n)%nat -> Rabs (ze j) * Rabs (K j n) <= c) -> Rabs (ze m) * Rabs (K m n) <= d -> 0 <= c -> 0 <= d -> Rabs (e n) <= INR n * c + d.
  Proof.
    intros M A B P1 P2. rewrite superposition. eapply Rle_trans; [apply sum_abs|]. apply sum_count; try assumption.
    - intros j J1 J2. rewrite ze_before, Rmult_0_l, Rabs_R0 by lia. lra.
    - intros j J1 J2. rewrite Rabs_mult. apply A. lia.
    - rewrite Rabs_mult. exact B.
  Qed.
End Superposition.

(** ** increasing coefficients *)
Section Total.
  Variables (m : nat) (b : nat -> R) (t : R).
  Hypothesis m1 : (1 <= m)%nat.
  Hypothesis bm : b m = 0.
  Hypothesis binc : forall n, (m <= n)%nat -> b n < b (S n).
  Hypothesis t0 : 0 <= t.
  Variables y e ze : nat -> R.
  Hypothesis y_before : forall n, (n < m)%nat -> y n = 0.
  Hypothesis y_step : forall n, (m <= n)%nat -> b (S n) * y (S n) = t * y n - b n * y (pred n).
  Hypothesis e_before : forall n, (n < m)%nat -> e n = 0.
  Hypothesis ze_before : forall n, (n < m)%nat -> ze n = 0.
  Hypothesis e_start : e m = ze m.
  Hypothesis e_step : forall n, (m <= n)%nat -> e (S n) = (t * e n - b n * e (pred n)) / b (S n) + ze (S n).
  Variables (N : nat) (ep ka rho k0 Y W : R).
  Hypothesis ep0 : 0 <= ep.
  Hypothesis ka0 : 0 <= ka.
  Hypothesis rho0 : 0 <= rho.
  Hypothesis k00 : 0 <= k0.
  Hypothesis W1 : 1 <= W.
  Hypothesis small : 100 * (ep * INR N ^ 2) <= 1.
  Hypothesis yY : forall n, (n <= N)%nat -> Rabs (y n) <= Y.
  Let w := K b t m.
  Hypothesis wW : forall n, (m <= n <= N)%nat -> rising w m n -> w n <= W.
  Hypothesis start : Rabs (ze m) <= rho * Rabs (y m) + k0.
  Definition X := rho * Y + k0 * W + INR N ^ 2 * (3 * ep * Y + ka * W).
  Hypothesis local : forall j, (m <= j < N)%nat -> Rabs (e j) <= 2 * X -> Rabs (e (pred j)) <= 2 * X ->
    Rabs (ze (S j)) <= ep * (t / b (S j) * (Rabs (y j) + Rabs (e j)) + b j / b (S j) * (Rabs (y (pred j)) + Rabs (e (pred j)))) + ka.

  Lemma bnz n : (m < n)%nat -> b n <> 0.
  Proof. intros M. pose proof (b_pos m b m1 bm binc n M). lra. Qed.
  Lemma wR : response b t m w.
  Proof. apply (K_response m b t (or_intror m1) bnz). lia. Qed.
  Lemma y_w n : (m <= n)%nat -> y n = y m * w n.
  Proof.
    intros M. destruct wR as (Wb & W0 & Ws).
    assert (Q : forall k, (m <= k)%nat -> y k = y m * w k /\ y (S k) = y m * w (S k)).
    { intros k H. induction H as [|k H (A & B)].
      - rewrite W0. split; [ring|]. pose proof (bnz (S m) ltac:(lia)) as B. apply (Rmult_eq_reg_l (b (S m))); [|exact B]. rewrite y_step by lia. transitivity (y m * (b (S m) * w (S m))); [|ring]. rewrite (Ws m), bm, W0 by lia. ring.
      - split; [exact B|]. pose proof (bnz (S (S k)) ltac:(lia)) as Bn. apply (Rmult_eq_reg_l (b (S (S k)))); [|exact Bn]. rewrite y_step by lia. cbn [pred].
        transitivity (y m * (b (S (S k)) * w (S (S k)))); [|ring]. rewrite (Ws (S k)) by lia. cbn [pred]. rewrite A, B. ring. }
    apply Q, M.
  Qed.
  Definition M := Rabs (y m).
  Definition Omega := 2 * ((rho * M + k0) + INR N ^ 2 * (3 * ep * M + ka)).
  Definition Lam := 3 * ep * (M + Omega) + ka.
  Lemma M0 : 0 <= M. Proof. apply Rabs_pos. Qed.
  Lemma N2 : 0 <= INR N ^ 2. Proof. apply pow2_ge_0. Qed.
  Lemma epM : 0 <= ep * M. Proof. apply Rmult_le_pos; [exact ep0|exact M0]. Qed.
  Lemma rhoM : 0 <= rho * M. Proof. apply Rmult_le_pos; [exact rho0|exact M0]. Qed.
  Lemma Omega0 : 0 <= Omega.
  Proof. unfold Omega. pose proof epM. pose proof rhoM. pose proof (Rmult_le_pos _ _ N2 (Rplus_le_le_0_compat (3 * ep * M) ka ltac:(lra) ka0)). lra. Qed.
  Lemma Lam0 : 0 <= Lam.
  Proof. unfold Lam. pose proof M0. pose proof Omega0. assert (0 <= ep * (M + Omega)) by (apply Rmult_le_pos; lra). lra. Qed.
  Lemma Omega_enough : (rho * M + k0) + INR N ^ 2 * Lam <= Omega.
  Proof.
    unfold Lam. pose proof N2. pose proof Omega0. pose proof M0. pose proof rhoM. pose proof epM.
    assert (A : INR N ^ 2 * (3 * ep * (M + Omega) + ka) = INR N ^ 2 * (3 * ep * M + ka) + 3 * (ep * INR N ^ 2) * Omega) by ring. rewrite A.
    assert (B : 3 * (ep * INR N ^ 2) * Omega <= 3 / 100 * Omega) by (apply Rmult_le_compat_r; lra).
    assert (C : Omega = 2 * ((rho * M + k0) + INR N ^ 2 * (3 * ep * M + ka))) by reflexivity. 
    assert (Dd : 0 <= INR N ^ 2 * (3 * ep * M + ka)) by (apply Rmult_le_pos; lra). lra.
  Qed.
  Lemma ze_m : Rabs (ze m) <= rho * M + k0. Proof. exact start. Qed.
  (** local errors on the rising part *)
  Lemma rising_prefix n k : rising w m n -> (k <= n)%nat -> rising w m k.
  Proof. intros Rw H i I. apply Rw. lia. Qed.
  Lemma wpred j n : rising w m n -> (m <= j <= n)%nat -> 0 <= w (pred j) <= w j.
  Proof.
    intros Rw J. pose proof (rising_pos m b t m1 w m n j wR Rw ltac:(lia)) as P. assert (Q : j = m \/ (m < j)%nat) by lia. destruct Q as [-> | Q].
    - rewrite (proj1 wR (pred m)) by lia. lra.
    - pose proof (rising_pos m b t m1 w m n (pred j) wR Rw ltac:(lia)). pose proof (rising_le m m1 w m n (pred j) j Rw ltac:(lia) ltac:(lia) ltac:(lia)). lra.
  Qed.
  Lemma Y0 : 0 <= Y. Proof. eapply Rle_trans; [apply Rabs_pos|]. apply (yY 0%nat). lia. Qed.
  Lemma scaled q : (m <= q <= N)%nat -> rising w m q -> w q * M <= Y /\ w q * Omega <= 2 * X /\ w q * (rho * M + k0) <= rho * Y + k0 * W.
  Proof.
    intros Q Rw. pose proof (rising_pos m b t m1 w m q q wR Rw ltac:(lia)) as Wq. pose proof (wW q Q Rw) as Wl. pose proof (yY q ltac:(lia)) as Yq. rewrite (y_w q) in Yq by lia. rewrite Rabs_mult, (Rabs_pos_eq (w q)) in Yq by lra.
    assert (A : w q * M <= Y) by (unfold M; lra). pose proof N2. pose proof M0.
    assert (A1 : rho * (w q * M) <= rho * Y) by (apply Rmult_le_compat_l; assumption). assert (A2 : k0 * w q <= k0 * W) by (apply Rmult_le_compat_l; lra).
    assert (A3 : 3 * ep * (w q * M) <= 3 * ep * Y) by (apply Rmult_le_compat_l; lra). assert (A4 : ka * w q <= ka * W) by (apply Rmult_le_compat_l; lra).
    split; [exact A|]. split; [|lra]. unfold Omega, X. assert (A5 : INR N ^ 2 * (3 * ep * (w q * M) + ka * w q) <= INR N ^ 2 * (3 * ep * Y + ka * W)) by (apply Rmult_le_compat_l; lra). nra.
  Qed.
  Lemma X0 : 0 <= X.
  Proof.
    pose proof Y0. pose proof N2. unfold X. assert (0 <= rho * Y) by (apply Rmult_le_pos; assumption). assert (0 <= k0 * W) by (apply Rmult_le_pos; lra). assert (0 <= ep * Y) by (apply Rmult_le_pos; assumption). assert (0 <= ka * W) by (apply Rmult_le_pos; lra).
    assert (0 <= INR N ^ 2 * (3 * ep * Y + ka * W)) by (apply Rmult_le_pos; lra). lra.
  Qed.
  Lemma local_rising j : (m <= j < N)%nat -> rising w m (S j) -> Rabs (e j) <= w j * Omega -> Rabs (e (pred j)) <= w (pred j) * Omega -> Rabs (ze (S j)) <= w (S j) * Lam.
  Proof.
    intros J Rw E1 E2. pose proof X0 as X0.
    assert (L1 : Rabs (e j) <= 2 * X) by (eapply Rle_trans; [exact E1|]; apply (scaled j); [lia|apply (rising_prefix (S j)); [exact Rw|lia]]).
    assert (L2 : Rabs (e (pred j)) <= 2 * X). { assert (Q : j = m \/ (m < j)%nat) by lia. destruct Q as [-> | Q]; [rewrite e_before, Rabs_R0 by lia; lra|]. eapply Rle_trans; [exact E2|]. apply (scaled (pred j)); [lia|apply (rising_prefix (S j)); [exact Rw|lia]]. }
    pose proof (local j J L1 L2) as L. clear L1 L2. pose proof (b_pos m b m1 bm binc (S j) ltac:(lia)) as B1. pose proof (b_nonneg m b m1 bm binc j ltac:(lia)) as B0. pose proof (binc j ltac:(lia)) as Bi.
    pose proof (wpred j (S j) Rw ltac:(lia)) as Wp. pose proof (Rw j ltac:(lia)) as Wi. pose proof (rising_pos m b t m1 w m (S j) (S j) wR Rw ltac:(lia)) as W1'.
    pose proof (rising_pos m b t m1 w m (S j) j wR Rw ltac:(lia)) as Wj.
    assert (Yj : Rabs (y j) = w j * M) by (rewrite (y_w j) by lia; rewrite Rabs_mult, (Rabs_pos_eq (w j)) by lra; unfold M; ring).
    assert (Yp : Rabs (y (pred j)) = w (pred j) * M).
    { assert (Q : j = m \/ (m < j)%nat) by lia. destruct Q as [-> | Q].
      - rewrite y_before, (proj1 wR (pred m)), Rabs_R0 by lia. ring.
      - rewrite (y_w (pred j)) by lia. rewrite Rabs_mult, (Rabs_pos_eq (w (pred j))) by lra. unfold M. ring. }
    rewrite Yj, Yp in L. pose proof (proj2 (proj2 wR) j ltac:(lia)) as Rc. pose proof M0. pose proof Omega0.
    assert (T0 : 0 <= t / b (S j)) by (apply Rle_mult_inv_pos; lra). assert (T1 : 0 <= b j / b (S j) <= 1). { split; [apply Rle_mult_inv_pos; lra|]. apply (Rmult_le_reg_r (b (S j))); [lra|]. unfold Rdiv. rewrite Rmult_assoc, Rinv_l by lra. lra. }
    assert (Tw : t / b (S j) * w j = w (S j) + b j / b (S j) * w (pred j)). { apply (Rmult_eq_reg_l (b (S j))); [|lra]. transitivity (t * w j); [field; lra|]. rewrite Rmult_plus_distr_l, Rc. field. lra. }
    assert (Tb : b j / b (S j) * w (pred j) <= w (S j)). { apply Rle_trans with (1 * w (pred j)); [apply Rmult_le_compat_r; lra|lra]. }
    assert (X1 : t / b (S j) * (w j * M + Rabs (e j)) <= 2 * w (S j) * (M + Omega)).
    { apply Rle_trans with (t / b (S j) * (w j * (M + Omega))); [apply Rmult_le_compat_l; lra|]. rewrite <- Rmult_assoc. apply Rmult_le_compat_r; lra. }
    assert (X2 : b j / b (S j) * (w (pred j) * M + Rabs (e (pred j))) <= w (S j) * (M + Omega)).
    { apply Rle_trans with (b j / b (S j) * (w (pred j) * (M + Omega))); [apply Rmult_le_compat_l; lra|]. rewrite <- Rmult_assoc. apply Rmult_le_compat_r; lra. }
    eapply Rle_trans; [exact L|]. unfold Lam. assert (X3 : ep * (t / b (S j) * (w j * M + Rabs (e j)) + b j / b (S j) * (w (pred j) * M + Rabs (e (pred j)))) <= ep * (3 * w (S j) * (M + Omega))) by (apply Rmult_le_compat_l; lra).
    assert (ka <= w (S j) * ka) by nra. lra.
  Qed.
  (** the error on the rising part *)
  Lemma error_rising n : (m <= n <= N)%nat -> rising w m n -> Rabs (e n) <= w n * Omega /\ forall j, (m < j <= n)%nat -> Rabs (ze j) <= w j * Lam.
  Proof.
    revert n. assert (Q : forall k n, (n <= k)%nat -> (m <= n <= N)%nat -> rising w m n -> Rabs (e n) <= w n * Omega /\ forall j, (m < j <= n)%nat -> Rabs (ze j) <= w j * Lam); [|intros n; apply (Q n); lia].
    induction k as [|k IH]; intros n Hk Hn Rw; [lia|].
    assert (Ze : forall j, (m < j <= n)%nat -> Rabs (ze j) <= w j * Lam).
    { intros j J. destruct j as [|j]; [lia|]. apply local_rising; [lia|apply (rising_prefix n); [exact Rw|lia]| |].
      - apply IH; [lia|lia|apply (rising_prefix n); [exact Rw|lia]].
      - assert (E : j = m \/ (m < j)%nat) by lia. destruct E as [-> | E].
        + rewrite e_before, (proj1 wR (pred m)), Rabs_R0 by lia. lra.
        + apply IH; [lia|lia|apply (rising_prefix n); [exact Rw|lia]]. }
    split; [|exact Ze]. pose proof (rising_pos m b t m1 w m n n wR Rw ltac:(lia)) as Wn. pose proof Lam0. pose proof rhoM.
    assert (Nn : INR n <= INR N) by (apply le_INR; lia). pose proof (pos_INR n) as N0.
    eapply Rle_trans; [apply (error_le m b t (or_intror m1) bnz e ze e_before ze_before e_start e_step n (INR n * w n * Lam) ((rho * M + k0) * w n))|].
    - lia.
    - intros j J. pose proof (K_response m b t (or_intror m1) bnz j ltac:(lia)) as Kr. destruct (quotient m b t m1 bm binc w j (K b t j) wR Kr ltac:(lia) n ltac:(lia) Rw) as (A & B & C).
      pose proof (Ze j J) as Zj. pose proof (rising_pos m b t m1 w m n j wR Rw ltac:(lia)) as Wj. pose proof (rising_pos m b t m1 _ j n n Kr C ltac:(lia)) as Kp. rewrite (Rabs_pos_eq (K b t j n)) by lra.
      apply Rle_trans with (w j * Lam * K b t j n); [apply Rmult_le_compat_r; lra|]. assert (I : INR (n - j + 1) <= INR n) by (apply le_INR; lia).
      assert (X : K b t j n * w j <= INR n * w n) by nra. replace (w j * Lam * K b t j n) with (K b t j n * w j * Lam) by ring. apply Rmult_le_compat_r; lra.
    - change (K b t m n) with (w n). rewrite (Rabs_pos_eq (w n)) by lra. apply Rmult_le_compat_r; [lra|apply ze_m].
    - apply Rmult_le_pos; [apply Rmult_le_pos|]; lra.
    - apply Rmult_le_pos; lra.
    - pose proof Omega_enough as OE. assert (X : INR n * (INR n * w n * Lam) <= INR N ^ 2 * Lam * w n). { replace (INR n * (INR n * w n * Lam)) with (INR n ^ 2 * (Lam * w n)) by ring. replace (INR N ^ 2 * Lam * w n) with (INR N ^ 2 * (Lam * w n)) by ring. apply Rmult_le_compat_r; [apply Rmult_le_pos; lra|]. apply pow_incr. lra. }
      assert (X2 : w n * (rho * M + k0 + INR N ^ 2 * Lam) <= w n * Omega) by (apply Rmult_le_compat_l; lra). lra.
  Qed.
  (** ** the bound *)
  Theorem error_bound n : (m <= n <= N)%nat -> Rabs (e n) <= 2 * X.
  Proof.
    assert (Q : forall k n, (n <= k)%nat -> (m <= n <= N)%nat -> Rabs (e n) <= 2 * X); [|intros H; apply (Q n); lia]. clear n.
    pose proof Y0 as Y0. pose proof N2 as N2. pose proof Lam0 as L0. pose proof rhoM as R0.
    pose proof X0 as X0.
    induction k as [|k IH]; intros n Hk Hn; [lia|].
    destruct (rises_or_peaks m m1 w m n ltac:(lia)) as [Rn | (p & Pn & Pk)].
    { destruct (error_rising n Hn Rn) as (E & _). destruct (scaled n Hn Rn) as (_ & S & _). lra. }
    pose proof Pk as (Mp & Rp & _). destruct (error_rising p ltac:(lia) Rp) as (Ep & Zp). destruct (scaled p ltac:(lia) Rp) as (S1 & S2 & S3).
    pose proof (rising_pos m b t m1 w m p p wR Rp ltac:(lia)) as Wp. pose proof (wW p ltac:(lia) Rp) as WpW. destruct (peak_turn m b t m1 bm binc m w ltac:(lia) wR p Pk) as (_ & T2).
    set (L2 := 3 * ep * (Y + 2 * X) + ka * W). assert (L20 : 0 <= L2). { unfold L2. assert (0 <= ep * (Y + 2 * X)) by (apply Rmult_le_pos; lra). assert (0 <= ka * W) by (apply Rmult_le_pos; lra). lra. }
    assert (Lp : w p * Lam <= L2). { unfold Lam, L2. assert (3 * ep * (w p * M + w p * Omega) <= 3 * ep * (Y + 2 * X)) by (apply Rmult_le_compat_l; lra). assert (ka * w p <= ka * W) by (apply Rmult_le_compat_l; lra). lra. }
    assert (Li : forall i, (i < n)%nat -> Rabs (e i) <= 2 * X). { intros i I. destruct (Nat.le_gt_cases m i) as [Mi | Mi]; [apply IH; lia|]. rewrite (e_before i Mi), Rabs_R0. lra. }
    assert (Le : forall i, (i < n)%nat -> Rabs (y i) + Rabs (e i) <= Y + 2 * X). { intros i I. pose proof (yY i ltac:(lia)). pose proof (Li i I). lra. }
    assert (Late : forall j, (p < j <= n)%nat -> Rabs (ze j) <= L2).
    { intros j J. destruct j as [|j]; [lia|]. pose proof (local j ltac:(lia) (Li j ltac:(lia)) (Li (pred j) ltac:(lia))) as L. pose proof (b_le m b m1 binc (S p) (S j) ltac:(lia) ltac:(lia)) as Bl. pose proof (b_pos m b m1 bm binc (S j) ltac:(lia)) as B1. pose proof (b_nonneg m b m1 bm binc j ltac:(lia)) as B0. pose proof (binc j ltac:(lia)) as Bi.
      pose proof (Le j ltac:(lia)) as L1. pose proof (Le (pred j) ltac:(lia)) as Lq.
      assert (T1 : 0 <= t / b (S j) <= 2). { split; [apply Rle_mult_inv_pos; lra|]. apply (Rmult_le_reg_r (b (S j))); [lra|]. unfold Rdiv. rewrite Rmult_assoc, Rinv_l by lra. lra. }
      assert (T3 : 0 <= b j / b (S j) <= 1). { split; [apply Rle_mult_inv_pos; lra|]. apply (Rmult_le_reg_r (b (S j))); [lra|]. unfold Rdiv. rewrite Rmult_assoc, Rinv_l by lra. lra. }
      pose proof (Rabs_pos (y j)). pose proof (Rabs_pos (e j)). pose proof (Rabs_pos (y (pred j))). pose proof (Rabs_pos (e (pred j))).
      assert (U1 : t / b (S j) * (Rabs (y j) + Rabs (e j)) <= 2 * (Y + 2 * X)) by (apply Rmult_le_compat; lra).
      assert (U2 : b j / b (S j) * (Rabs (y (pred j)) + Rabs (e (pred j))) <= 1 * (Y + 2 * X)) by (apply Rmult_le_compat; lra).
      eapply Rle_trans; [exact L|]. unfold L2. assert (ep * (t / b (S j) * (Rabs (y j) + Rabs (e j)) + b j / b (S j) * (Rabs (y (pred j)) + Rabs (e (pred j)))) <= ep * (3 * (Y + 2 * X))) by (apply Rmult_le_compat_l; lra).
      assert (ka * 1 <= ka * W) by (apply Rmult_le_compat_l; lra). lra. }
    pose proof (sqrt_pos 2) as Q0. assert (Q2 : sqrt 2 <= 1.42) by (rewrite <- (sqrt_Rsqr 1.42) by lra; apply sqrt_le_1_alt; unfold Rsqr; lra).
    assert (Nn : INR n <= INR N) by (apply le_INR; lia). pose proof (pos_INR n) as N0.
    eapply Rle_trans; [apply (error_le m b t (or_intror m1) bnz e ze e_before ze_before e_start e_step n (sqrt 2 * INR n * L2) (sqrt 2 * (rho * Y + k0 * W)))|].
    - lia.
    - intros j J. pose proof (K_response m b t (or_intror m1) bnz j ltac:(lia)) as Kr. destruct (Nat.le_gt_cases j p) as [Jp | Jp].
      + destruct (later_bound m b t m1 bm binc t0 w j (K b t j) wR Kr ltac:(lia) p n Pk ltac:(lia)) as [B | B]; [|lia]. pose proof (Zp j ltac:(lia)) as Zj.
        apply Rle_trans with (w j * Lam * Rabs (K b t j n)); [apply Rmult_le_compat_r; [apply Rabs_pos|exact Zj]|].
        replace (w j * Lam * Rabs (K b t j n)) with (w j * Rabs (K b t j n) * Lam) by ring. apply Rle_trans with (sqrt 2 * INR n * w p * Lam); [apply Rmult_le_compat_r; lra|].
        replace (sqrt 2 * INR n * w p * Lam) with (sqrt 2 * INR n * (w p * Lam)) by ring. apply Rmult_le_compat_l; [apply Rmult_le_pos; lra|exact Lp].
      + pose proof (late_bound m b t m1 bm binc t0 w j (K b t j) wR Kr ltac:(lia) p n Pk Jp ltac:(lia)) as B. pose proof (Late j ltac:(lia)) as Zj. rewrite Rmult_comm. apply Rmult_le_compat; try apply Rabs_pos; assumption.
    - change (K b t m n) with (w n). pose proof (after_peak_le m b t m1 bm binc t0 m w ltac:(lia) wR p n Pk ltac:(lia)) as B. pose proof ze_m as Zm.
      apply Rle_trans with ((rho * M + k0) * (sqrt 2 * w p)); [apply Rmult_le_compat; try apply Rabs_pos; assumption|]. replace ((rho * M + k0) * (sqrt 2 * w p)) with (sqrt 2 * (w p * (rho * M + k0))) by ring. apply Rmult_le_compat_l; assumption.
    - apply Rmult_le_pos; [apply Rmult_le_pos|]; lra.
    - apply Rmult_le_pos; [lra|]. assert (0 <= rho * Y) by (apply Rmult_le_pos; assumption). assert (0 <= k0 * W) by (apply Rmult_le_pos; lra). lra.
    - assert (A : INR n * (sqrt 2 * INR n * L2) <= sqrt 2 * (INR N ^ 2 * L2)). { replace (INR n * (sqrt 2 * INR n * L2)) with (sqrt 2 * (INR n ^ 2 * L2)) by ring. apply Rmult_le_compat_l; [lra|]. apply Rmult_le_compat_r; [lra|]. apply pow_incr. lra. }
      assert (B : INR N ^ 2 * L2 = INR N ^ 2 * (3 * ep * Y + ka * W) + 6 * (ep * INR N ^ 2) * X) by (unfold L2; ring).
      assert (C : 6 * (ep * INR N ^ 2) * X <= 6 / 100 * X) by (apply Rmult_le_compat_r; lra).
      assert (Dd : sqrt 2 * (rho * Y + k0 * W) + sqrt 2 * (INR N ^ 2 * L2) <= sqrt 2 * (1.06 * X)). { rewrite <- Rmult_plus_distr_l. apply Rmult_le_compat_l; [lra|]. rewrite B. unfold X in *. lra. }
      assert (sqrt 2 * (1.06 * X) <= 1.42 * (1.06 * X)) by (apply Rmult_le_compat_r; lra). lra.
  Qed.
End Total.

(** ** order 0: decreasing coefficients *)
Section Decreasing.
  Variables (b : nat -> R) (t : R).
  Hypothesis b0 : b O = 0.
  Hypothesis bdec : forall n, (1 <= n)%nat -> b (S n) <= b n.
  Hypothesis bhalf : forall n, (1 <= n)%nat -> / 2 < b n /\ / (16 * INR n ^ 2) <= b n ^ 2 - / 4.
  Hypothesis bmax : forall n, (1 <= n)%nat -> b n ^ 2 <= / 3.
  Hypothesis t1 : t ^ 2 <= 1.
  Lemma energy j z : response b t j z -> forall n, (j <= n)%nat -> (1 <= n)%nat -> b n ^ 2 * (z n ^ 2 + z (pred n) ^ 2) - t * b n * z n * z (pred n) <= / 3.
  Proof.
    intros (A & B & C) n H N1. assert (Q : forall k, (1 <= k)%nat -> (j <= k)%nat -> b k ^ 2 * (z k ^ 2 + z (pred k) ^ 2) - t * b k * z k * z (pred k) <= / 3); [|apply Q; assumption]. clear n H N1.
    induction k as [|k IH]; intros K1 K2; [lia|]. cbn [pred]. destruct (Nat.eq_dec (S k) j) as [E | E].
    - rewrite E, B, (A k) by lia. pose proof (bmax j ltac:(lia)). nra.
    - pose proof (C k ltac:(lia)) as R1. destruct k as [|k].
      + rewrite b0 in R1. pose proof (bmax 1%nat ltac:(lia)) as M. replace j with 0%nat in B by lia. rewrite B in *.
        replace (b 1%nat ^ 2 * (z 1%nat ^ 2 + 1 ^ 2) - t * b 1%nat * z 1%nat * 1) with ((b 1%nat * z 1%nat) * (b 1%nat * z 1%nat - t) + b 1%nat ^ 2) by ring. rewrite R1. nra.
      + pose proof (IH ltac:(lia) ltac:(lia)) as I. cbn [pred] in *. pose proof (bdec (S k) ltac:(lia)) as D. destruct (bhalf (S (S k)) ltac:(lia)) as (P & _).
        set (z2 := z (S (S k))) in *. set (z1 := z (S k)) in *. set (z0 := z k) in *. set (b2 := b (S (S k))) in *. set (b1 := b (S k)) in *.
        assert (E2 : b2 ^ 2 * (z2 ^ 2 + z1 ^ 2) - t * b2 * z2 * z1 = (b2 * z2) * (b2 * z2 - t * z1) + b2 ^ 2 * z1 ^ 2) by ring. rewrite E2, R1.
        assert (E3 : (t * z1 - b1 * z0) * (t * z1 - b1 * z0 - t * z1) + b2 ^ 2 * z1 ^ 2 = (b1 ^ 2 * (z1 ^ 2 + z0 ^ 2) - t * b1 * z1 * z0) + (b2 ^ 2 - b1 ^ 2) * z1 ^ 2) by ring. rewrite E3.
        assert (E4 : 0 <= (b1 ^ 2 - b2 ^ 2) * z1 ^ 2) by (apply Rmult_le_pos; [nra|apply pow2_ge_0]). lra.
  Qed.
  Lemma response_le j z n : response b t j z -> (j <= n)%nat -> (1 <= n)%nat -> Rabs (z n) <= 7 / 3 * INR n.
  Proof.
    intros Hz H N1. pose proof (energy j z Hz n H N1) as E. destruct (bhalf n N1) as (_ & D). pose proof (lt_0_INR n ltac:(lia)) as P.
    set (q := b n * z (pred n) - t / 2 * z n). assert (E2 : b n ^ 2 * (z n ^ 2 + z (pred n) ^ 2) - t * b n * z n * z (pred n) = (b n ^ 2 - t ^ 2 / 4) * z n ^ 2 + q ^ 2) by (unfold q; field).
    rewrite E2 in E. pose proof (pow2_ge_0 q). pose proof (pow2_ge_0 (z n)) as Z2. assert (D2 : / (16 * INR n ^ 2) * z n ^ 2 <= / 3). { apply Rle_trans with ((b n ^ 2 - t ^ 2 / 4) * z n ^ 2); [apply Rmult_le_compat_r; lra|lra]. }
    assert (D3 : z n ^ 2 <= 16 / 3 * INR n ^ 2). { assert (Q : 0 < 16 * INR n ^ 2) by (pose proof (pow_lt (INR n) 2 P); lra). apply (Rmult_le_compat_l (16 * INR n ^ 2)) in D2; [|lra]. rewrite <- Rmult_assoc, Rinv_r in D2 by lra. lra. }
    rewrite <- (Rabs_pos_eq (7 / 3 * INR n)) by lra. apply Rsqr_le_abs_0. unfold Rsqr. nra.
  Qed.
  Variables y e ze : nat -> R.
  Hypothesis e_start : e O = ze O.
  Hypothesis e_step : forall n, e (S n) = (t * e n - b n * e (pred n)) / b (S n) + ze (S n).
  Variables (N : nat) (ep ka Y : R).
  Hypothesis ep0 : 0 <= ep.
  Hypothesis ka0 : 0 <= ka.
  Hypothesis small : 100 * (ep * INR N ^ 2) <= 1.
  Hypothesis yY : forall n, (n <= N)%nat -> Rabs (y n) <= Y.
  Hypothesis start : ze O = 0.
  Definition X_zonal := 11 * INR N ^ 2 * (ep * Y + ka).
  Hypothesis local : forall j, (j < N)%nat -> Rabs (e j) <= X_zonal -> Rabs (e (pred j)) <= X_zonal ->
    Rabs (ze (S j)) <= ep * (Rabs t / b (S j) * (Rabs (y j) + Rabs (e j)) + b j / b (S j) * (Rabs (y (pred j)) + Rabs (e (pred j)))) + ka.
  Theorem error_zonal n : (n <= N)%nat -> Rabs (e n) <= X_zonal.
  Proof.
    assert (Yp : 0 <= Y) by (eapply Rle_trans; [apply Rabs_pos|apply (yY 0%nat); lia]). assert (N2 : 0 <= INR N ^ 2) by apply pow2_ge_0.
    assert (eY : 0 <= ep * Y) by (apply Rmult_le_pos; assumption). assert (X0 : 0 <= X_zonal) by (unfold X_zonal; apply Rmult_le_pos; lra).
    assert (Q : forall k n, (n <= k)%nat -> (n <= N)%nat -> Rabs (e n) <= X_zonal); [|intros H; apply (Q n); lia]. clear n.
    assert (Z : Rabs (e 0%nat) <= X_zonal) by (rewrite e_start, start, Rabs_R0; exact X0).
    induction k as [|k IH]; intros n Hk Hn; [replace n with 0%nat by lia; exact Z|]. destruct n as [|n]; [exact Z|].
    set (L := 4 * ep * (Y + X_zonal) + ka). assert (L0 : 0 <= L). { unfold L. assert (0 <= ep * (Y + X_zonal)) by (apply Rmult_le_pos; lra). lra. }
    assert (Ze : forall j, (0 < j <= S n)%nat -> Rabs (ze j) <= L).
    { intros j J. destruct j as [|j]; [lia|]. pose proof (IH j ltac:(lia) ltac:(lia)) as E1. pose proof (IH (pred j) ltac:(lia) ltac:(lia)) as E2. pose proof (local j ltac:(lia) E1 E2) as Lj.
      pose proof (yY j ltac:(lia)). pose proof (yY (pred j) ltac:(lia)). destruct (bhalf (S j) ltac:(lia)) as (B1 & _).
      assert (T : 0 <= Rabs t / b (S j) <= 2). { pose proof (Rabs_pos t). assert (Rabs t <= 1) by (rewrite <- (Rabs_pos_eq 1) by lra; apply Rsqr_le_abs_0; unfold Rsqr; lra). split; [apply Rle_mult_inv_pos; lra|]. apply (Rmult_le_reg_r (b (S j))); [lra|]. unfold Rdiv. rewrite Rmult_assoc, Rinv_l by lra. lra. }
      assert (Bq : 0 <= b j <= 1). { destruct j as [|j]; [rewrite b0; lra|]. destruct (bhalf (S j) ltac:(lia)) as (P & _). pose proof (bmax (S j) ltac:(lia)). split; [lra|nra]. }
      assert (T2 : 0 <= b j / b (S j) <= 2). { split; [apply Rle_mult_inv_pos; lra|]. apply (Rmult_le_reg_r (b (S j))); [lra|]. unfold Rdiv. rewrite Rmult_assoc, Rinv_l by lra. lra. }
      pose proof (Rabs_pos (y j)). pose proof (Rabs_pos (e j)). pose proof (Rabs_pos (y (pred j))). pose proof (Rabs_pos (e (pred j))).
      assert (U1 : Rabs t / b (S j) * (Rabs (y j) + Rabs (e j)) <= 2 * (Y + X_zonal)) by (apply Rmult_le_compat; lra).
      assert (U2 : b j / b (S j) * (Rabs (y (pred j)) + Rabs (e (pred j))) <= 2 * (Y + X_zonal)) by (apply Rmult_le_compat; lra).
      eapply Rle_trans; [exact Lj|]. unfold L. assert (ep * (Rabs t / b (S j) * (Rabs (y j) + Rabs (e j)) + b j / b (S j) * (Rabs (y (pred j)) + Rabs (e (pred j)))) <= ep * (4 * (Y + X_zonal))) by (apply Rmult_le_compat_l; lra). lra. }
    assert (bnz0 : forall i, (0 < i)%nat -> b i <> 0) by (intros i I; destruct (bhalf i ltac:(lia)); lra).
    assert (Nn : INR (S n) <= INR N) by (apply le_INR; lia). pose proof (pos_INR (S n)) as N0.
    eapply Rle_trans; [apply (error_le 0 b t (or_introl b0) bnz0 e ze ltac:(intros; lia) ltac:(intros; lia) e_start (fun i _ => e_step i) (S n) (L * (7 / 3 * INR (S n))) 0)|].
    - lia.
    - intros j J. pose proof (K_response 0 b t (or_introl b0) bnz0 j ltac:(lia)) as Kr. pose proof (response_le j _ (S n) Kr ltac:(lia) ltac:(lia)) as B. apply Rmult_le_compat; try apply Rabs_pos; [apply Ze; lia|exact B].
    - rewrite start, Rabs_R0. lra.
    - apply Rmult_le_pos; lra.
    - lra.
    - assert (A : INR (S n) * (L * (7 / 3 * INR (S n))) <= 7 / 3 * (INR N ^ 2 * L)). { replace (INR (S n) * (L * (7 / 3 * INR (S n)))) with (7 / 3 * (INR (S n) ^ 2 * L)) by field. apply Rmult_le_compat_l; [lra|]. apply Rmult_le_compat_r; [exact L0|]. apply pow_incr. lra. }
      assert (B : INR N ^ 2 * L = 4 * (INR N ^ 2 * (ep * Y)) + INR N ^ 2 * ka + 4 * (ep * INR N ^ 2) * X_zonal) by (unfold L; ring).
      assert (C : 4 * (ep * INR N ^ 2) * X_zonal <= 4 / 100 * X_zonal) by (apply Rmult_le_compat_r; lra).
      assert (P1 : 0 <= INR N ^ 2 * (ep * Y)) by (apply Rmult_le_pos; lra). assert (P2 : 0 <= INR N ^ 2 * ka) by (apply Rmult_le_pos; lra).
      assert (E : X_zonal = 11 * (INR N ^ 2 * (ep * Y)) + 11 * (INR N ^ 2 * ka)) by (unfold X_zonal; ring). lra.
  Qed.
End Decreasing.
