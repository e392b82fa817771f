(** Growth of a disturbance in the three term recurrence b(n+1) z(n+1) = t z(n) - b(n) z(n-1) with increasing coefficients b:
    until the solution turns it rises, afterwards an energy keeps it below sqrt 2 times its first maximum. *)
From Coq Require Import Reals Lia Lra Psatz.
Open Scope R_scope.

Section Increasing.
  Variables (m : nat) (b : nat -> R) (t : R).
  Hypothesis m1 : (1 <= m)%nat.
  Hypothesis bm : b m = 0.
  Hypothesis binc : forall n, (m <= n)%nat -> b n < b (S n).
  Hypothesis t0 : 0 <= t.

  Lemma b_le n k : (m <= n)%nat -> (n <= k)%nat -> b n <= b k.
  Proof. intros M H. induction H as [|k H IH]; [lra|]. pose proof (binc k ltac:(lia)). lra. Qed.
  Lemma b_nonneg n : (m <= n)%nat -> 0 <= b n.
  Proof. intros M. rewrite <- bm. apply b_le; lia. Qed.
  Lemma b_pos n : (m < n)%nat -> 0 < b n.
  Proof. intros M. destruct n as [|n]; [lia|]. pose proof (binc n ltac:(lia)). pose proof (b_nonneg n ltac:(lia)). lra. Qed.

  (** response to a unit disturbance at j *)
  Definition response (j : nat) (z : nat -> R) : Prop :=
    (forall n, (n < j)%nat -> z n = 0) /\ z j = 1 /\ forall n, (j <= n)%nat -> b (S n) * z (S n) = t * z n - b n * z (pred n).
  Definition rising (z : nat -> R) (j n : nat) : Prop := forall k, (j <= k < n)%nat -> z k < z (S k).
  Definition peak (z : nat -> R) (j p : nat) : Prop := (j <= p)%nat /\ rising z j p /\ z (S p) <= z p.
  Lemma rises_or_peaks z j n : (j <= n)%nat -> rising z j n \/ exists p, (p < n)%nat /\ peak z j p.
  Proof.
    intros H. induction H as [|n H [IH | (p & L & P)]].
    - left. intros k K. lia.
    - destruct (Rlt_le_dec (z n) (z (S n))) as [Q | Q].
      + left. intros k K. assert (E : (k < n)%nat \/ k = n) by lia. destruct E as [E | ->]; [apply IH; lia|exact Q].
      + right. exists n. split; [lia|]. split; [exact H|]. split; [exact IH|exact Q].
    - right. exists p. split; [lia|exact P].
  Qed.
  Lemma rising_le z j n k i : rising z j n -> (j <= k)%nat -> (k <= i)%nat -> (i <= n)%nat -> z k <= z i.
  Proof. intros Rz J K. induction K as [|i K IH]; intros I; [lra|]. pose proof (Rz i ltac:(lia)). pose proof (IH ltac:(lia)). lra. Qed.
  Lemma rising_pos z j n k : response j z -> rising z j n -> (j <= k <= n)%nat -> 1 <= z k.
  Proof. intros (_ & E & _) Rz K. rewrite <- E. apply (rising_le z j n); try assumption; lia. Qed.
  Lemma rising_pred z j n : response j z -> rising z j n -> (j <= n)%nat -> z (pred n) <= z n.
  Proof.
    intros Q Rz H. pose proof (rising_pos z j n n Q Rz ltac:(lia)). assert (E : j = n \/ (j < n)%nat) by lia. destruct E as [-> | E].
    - destruct n as [|n]; [cbn; lra|]. rewrite (proj1 Q (pred (S n))) by (cbn; lia). lra.
    - apply (rising_le z j n); try assumption; lia.
  Qed.

  Section One.
    Variables (j : nat) (z : nat -> R).
    Hypothesis jm : (m <= j)%nat.
    Hypothesis Hz : response j z.
    (** at the maximum the recurrence oscillates *)
    Lemma peak_turn p : peak z j p -> t <= b p + b (S p) /\ t < 2 * b (S p).
    Proof.
      intros (J & Rz & D). pose proof (rising_pos z j p p Hz Rz ltac:(lia)) as P. pose proof (rising_pred z j p Hz Rz J) as L. destruct Hz as (_ & _ & E). specialize (E p J).
      pose proof (b_nonneg p ltac:(lia)). pose proof (b_pos (S p) ltac:(lia)). pose proof (binc p ltac:(lia)).
      assert (T : t * z p <= (b p + b (S p)) * z p) by nra. assert (t <= b p + b (S p)) by nra. split; lra.
    Qed.
    Definition D (n : nat) : R := b n ^ 2 - t ^ 2 / 4.
    Lemma after_peak p : peak z j p -> forall n, (p <= n)%nat -> 0 < D (S n) /\ D (S n) * z n ^ 2 + (b n * z (pred n) - t / 2 * z n) ^ 2 <= 2 * z p ^ 2 * D (S n).
    Proof.
      intros Pk n H. pose proof (peak_turn p Pk) as (T1 & T2).
      assert (Dpos : forall k, (p <= k)%nat -> 0 < D (S k)). { intros k K. destruct Pk as (J & _ & _). pose proof (b_le (S p) (S k) ltac:(lia) ltac:(lia)). unfold D. nra. }
      induction H as [|n H IH].
      - split; [apply Dpos; lia|]. destruct Pk as (J & Rz & Dw). pose proof (rising_pos z j p p Hz Rz ltac:(lia)) as P. pose proof (rising_pred z j p Hz Rz J) as L.
        destruct Hz as (_ & _ & E). specialize (E p J). pose proof (b_nonneg p ltac:(lia)) as B0. pose proof (binc p ltac:(lia)) as B1.
        set (c := b (S p) - t / 2). assert (C0 : 0 < c) by (unfold c; lra).
        assert (U : b p * z (pred p) - t / 2 * z p <= c * z p) by (unfold c; nra). assert (V : - (c * z p) <= b p * z (pred p) - t / 2 * z p) by (unfold c; nra).
        set (d := b p * z (pred p) - t / 2 * z p) in *. assert (Q : d ^ 2 <= (c * z p) ^ 2) by nra.
        assert (C2 : c ^ 2 <= D (S p)) by (unfold D, c in *; nra). assert (0 <= z p ^ 2) by nra. nra.
      - split; [apply Dpos; lia|]. destruct IH as (D1 & IH). destruct Pk as (J & _ & _). destruct Hz as (_ & _ & E). pose proof (E n ltac:(lia)) as En. cbn [pred].
        pose proof (binc (S n) ltac:(lia)) as B1. pose proof (b_pos (S n) ltac:(lia)) as B0.
        assert (I : D (S n) * z (S n) ^ 2 + (b (S n) * z n - t / 2 * z (S n)) ^ 2 = D (S n) * z n ^ 2 + (b n * z (pred n) - t / 2 * z n) ^ 2).
        { replace (b n * z (pred n) - t / 2 * z n) with (t / 2 * z n - b (S n) * z (S n)) by lra. unfold D. field. }
        assert (S1 : z (S n) ^ 2 <= 2 * z p ^ 2). { pose proof (pow2_ge_0 (b (S n) * z n - t / 2 * z (S n))). apply (Rmult_le_reg_l (D (S n))); [exact D1|]. lra. }
        assert (Dd : 0 <= D (S (S n)) - D (S n)) by (unfold D; nra).
        assert (M : (D (S (S n)) - D (S n)) * z (S n) ^ 2 <= (D (S (S n)) - D (S n)) * (2 * z p ^ 2)) by (apply Rmult_le_compat_l; assumption). nra.
    Qed.
    Lemma after_peak_le p n : peak z j p -> (p <= n)%nat -> Rabs (z n) <= sqrt 2 * z p.
    Proof.
      intros Pk H. destruct (after_peak p Pk n H) as (D1 & I). assert (S1 : z n ^ 2 <= 2 * z p ^ 2). { pose proof (pow2_ge_0 (b n * z (pred n) - t / 2 * z n)). apply (Rmult_le_reg_l (D (S n))); [exact D1|]. lra. }
      destruct Pk as (J & Rz & _). pose proof (rising_pos z j p p Hz Rz ltac:(lia)) as P. rewrite <- (Rabs_pos_eq (sqrt 2 * z p)) by (pose proof (sqrt_pos 2); nra). apply Rsqr_le_abs_0. unfold Rsqr. pose proof (sqrt_sqrt 2 ltac:(lra)) as Q. nra.
    Qed.
    (** slopes b(n) (z(n) - z(n-1)) do not grow once t <= b(n) + b(n+1) *)
    Lemma slope_step n : (j <= n)%nat -> t <= b n + b (S n) -> 0 <= z n -> b (S n) * (z (S n) - z n) <= b n * (z n - z (pred n)).
    Proof. intros J T P. destruct Hz as (_ & _ & E). specialize (E n J). nra. Qed.
    Lemma slopes p n g : (j <= p)%nat -> t <= b p + b (S p) -> (p <= n)%nat -> rising z j (S n) -> z (S p) - z p <= g -> 0 <= g -> z (S n) <= z p + INR (S n - p) * g /\ b (S n) * (z (S n) - z n) <= b (S p) * g.
    Proof.
      intros J T H. induction H as [|n H IH]; intros Rz S1 G0.
      - replace (S p - p)%nat with 1%nat by lia. cbn [INR]. pose proof (b_pos (S p) ltac:(lia)). split; [lra|]. nra.
      - destruct IH as (IH1 & IH2); try assumption; [intros k K; apply Rz; lia|]. pose proof (rising_pos z j (S (S n)) (S n) Hz Rz ltac:(lia)) as P.
        pose proof (b_le p (S n) ltac:(lia) ltac:(lia)). pose proof (b_le (S p) (S (S n)) ltac:(lia) ltac:(lia)) as L2. pose proof (slope_step (S n) ltac:(lia) ltac:(lra) ltac:(lra)) as Q. cbn [pred] in Q. pose proof (b_pos (S p) ltac:(lia)) as B.
        replace (INR (S (S n) - p)) with (INR (S n - p) + 1) by (replace (S (S n) - p)%nat with (S (S n - p)) by lia; rewrite S_INR; ring).
        assert (Z : z (S (S n)) - z (S n) <= g) by (apply (Rmult_le_reg_l (b (S (S n)))); [lra|nra]). split; [lra|nra].
    Qed.
  End One.

  (** ** the solution that starts at m, against a response at a later place *)
  Section Two.
    Variables (w : nat -> R) (j : nat) (z : nat -> R).
    Hypothesis Hw : response m w.
    Hypothesis Hz : response j z.
    Hypothesis jm : (m < j)%nat.
    Lemma casoratian n : (j <= n)%nat -> b n * (z n * w (pred n) - w n * z (pred n)) = b j * w (pred j).
    Proof.
      intros H. induction H as [|n H IH].
      - destruct Hz as (A & B & _). rewrite B, (A (pred j)) by lia. ring.
      - destruct Hw as (_ & _ & Ew). destruct Hz as (_ & _ & Ez). specialize (Ew n ltac:(lia)). specialize (Ez n H). cbn [pred]. rewrite <- IH.
        transitivity (b (S n) * z (S n) * w n - b (S n) * w (S n) * z n); [ring|]. rewrite Ew, Ez. ring.
    Qed.
    (** both rise together *)
    Lemma quotient n : (j <= n)%nat -> rising w m n -> w n <= z n * w j /\ z n * w j <= INR (n - j + 1) * w n /\ rising z j n.
    Proof.
      intros H. induction H as [|n H IH]; intros Rw.
      - destruct Hz as (_ & B & _). rewrite B. replace (j - j + 1)%nat with 1%nat by lia. cbn [INR]. split; [lra|]. split; [lra|]. intros k K. lia.
      - assert (Rw' : rising w m n) by (intros k K; apply Rw; lia). destruct (IH Rw') as (A & B & C). pose proof (casoratian (S n) ltac:(lia)) as Q. cbn [pred] in Q.
        pose proof (rising_pos w m (S n) n Hw Rw ltac:(lia)) as Wn. pose proof (Rw n ltac:(lia)) as Wi. pose proof (rising_pos w m (S n) j Hw Rw ltac:(lia)) as Wj.
        pose proof (rising_pos w m (S n) (pred j) Hw Rw ltac:(lia)) as Wpj. pose proof (rising_le w m (S n) (pred j) n Rw ltac:(lia) ltac:(lia) ltac:(lia)) as Wl. pose proof (rising_le w m (S n) j (S n) Rw ltac:(lia) ltac:(lia) ltac:(lia)) as Wl2.
        pose proof (b_pos j ltac:(lia)) as Bj. pose proof (b_le j (S n) ltac:(lia) ltac:(lia)) as Bl. pose proof (b_pos (S n) ltac:(lia)) as Bn.
        assert (Qu : z (S n) * w n - w (S n) * z n <= w (pred j)) by (apply (Rmult_le_reg_l (b (S n))); [exact Bn|]; rewrite Q; nra).
        assert (Ql : 0 <= z (S n) * w n - w (S n) * z n) by (apply (Rmult_le_reg_l (b (S n))); [exact Bn|]; rewrite Q, Rmult_0_r; nra).
        assert (Zn : 0 < z n) by nra.
        assert (A' : w (S n) <= z (S n) * w j). { apply (Rmult_le_reg_l (w n)); [lra|]. assert (w (S n) * w n <= w (S n) * (z n * w j)) by (apply Rmult_le_compat_l; lra). assert (0 <= (z (S n) * w n - w (S n) * z n) * w j) by (apply Rmult_le_pos; lra). nra. }
        split; [exact A'|]. split.
        + apply (Rmult_le_reg_l (w n)); [lra|]. replace (INR (S n - j + 1)) with (INR (n - j + 1) + 1) by (replace (S n - j + 1)%nat with (S (n - j + 1)) by lia; rewrite S_INR; ring).
          assert (U1 : (z (S n) * w n - w (S n) * z n) * w j <= w n * w (S n)). { apply Rle_trans with (w n * w j); [apply Rmult_le_compat_r; lra|apply Rmult_le_compat_l; lra]. }
          assert (U2 : w (S n) * (z n * w j) <= w (S n) * (INR (n - j + 1) * w n)) by (apply Rmult_le_compat_l; lra). nra.
        + intros k K. assert (E : (k < n)%nat \/ k = n) by lia. destruct E as [E | ->]; [apply C; lia|]. assert (z n * w n < z (S n) * w n) by nra. nra.
    Qed.
    Lemma later_bound p n : peak w m p -> (j <= n)%nat -> w j * Rabs (z n) <= sqrt 2 * INR n * w p \/ (p < j)%nat.
    Proof.
      intros Pk N. destruct (Nat.le_gt_cases j p) as [J | J]; [left|right; exact J]. pose proof Pk as (Mp & Rw & Dw). destruct (peak_turn m w ltac:(lia) Hw p Pk) as (T1 & T2).
      assert (Q2 : 1 <= sqrt 2) by (rewrite <- sqrt_1; apply sqrt_le_1_alt; lra).
      assert (Wj1 : 1 <= w j) by (apply (rising_pos w m p j Hw Rw); lia). assert (Wjp : w j <= w p) by (apply (rising_le w m p j p Rw); lia).
      assert (Wpj : 1 <= w (pred j) <= w p) by (split; [apply (rising_pos w m p _ Hw Rw); lia|apply (rising_le w m p _ p Rw); lia]).
      destruct (quotient p ltac:(lia) Rw) as (_ & Up & Rp).
      (* while z rises *)
      assert (Main : forall k, (j <= k)%nat -> rising z j k -> w j * z k <= INR k * w p).
      { intros k K Rk. assert (Ki : forall a, (a <= k)%nat -> INR a <= INR k) by (intros a A; apply le_INR; exact A). destruct (Nat.le_gt_cases k p) as [Kp | Kp].
        - assert (Rwk : rising w m k) by (intros i I; apply Rw; lia). destruct (quotient k K Rwk) as (_ & U & _). pose proof (rising_le w m p k p Rw ltac:(lia) ltac:(lia) ltac:(lia)). pose proof (Ki (k - j + 1)%nat ltac:(lia)). pose proof (pos_INR (k - j + 1)).
          pose proof (rising_pos w m p k Hw Rw ltac:(lia)). nra.
        - destruct k as [|k]; [lia|]. set (g := w (pred j) / w p). assert (G0 : 0 <= g) by (unfold g; apply Rle_mult_inv_pos; lra). assert (Gw : g * w p = w (pred j)) by (unfold g; field; lra).
          assert (S1 : z (S p) - z p <= g).
          { pose proof (casoratian (S p) ltac:(lia)) as Q. cbn [pred] in Q. pose proof (b_pos j ltac:(lia)) as Bj. pose proof (b_le j (S p) ltac:(lia) ltac:(lia)) as Bl. pose proof (b_pos (S p) ltac:(lia)) as Bn.
            assert (Zp : 1 <= z p) by (apply (rising_pos z j p p Hz Rp); lia).
            assert (Qu : z (S p) * w p - w (S p) * z p <= w (pred j)) by (apply (Rmult_le_reg_l (b (S p))); [exact Bn|]; rewrite Q; nra).
            apply (Rmult_le_reg_r (w p)); [lra|]. rewrite Gw. nra. }
          destruct (slopes j z ltac:(lia) Hz p k g ltac:(lia) T1 ltac:(lia) Rk S1 G0) as (Z & _).
          assert (A1 : w j * (INR (S k - p) * g) <= INR (S k - p) * w p).
          { pose proof (pos_INR (S k - p)) as I. replace (w j * (INR (S k - p) * g)) with (INR (S k - p) * (w j * g)) by ring. apply Rmult_le_compat_l; [exact I|].
            apply Rle_trans with (w p * g); [apply Rmult_le_compat_r; lra|]. rewrite Rmult_comm, Gw. lra. }
          assert (A2 : w j * z (S k) <= w j * (z p + INR (S k - p) * g)) by (apply Rmult_le_compat_l; lra).
          assert (A3 : INR (p - j + 1) * w p + INR (S k - p) * w p <= INR (S k) * w p). { rewrite <- Rmult_plus_distr_r. apply Rmult_le_compat_r; [lra|]. rewrite <- plus_INR. apply le_INR. lia. }
          lra. }
      destruct (rises_or_peaks z j n N) as [Rn | (q & Qn & Qp)].
      - pose proof (Main n N Rn) as B. pose proof (rising_pos z j n n Hz Rn ltac:(lia)). rewrite Rabs_pos_eq by lra. assert (0 <= INR n * w p) by (apply Rmult_le_pos; [apply pos_INR|lra]). nra.
      - pose proof (after_peak_le j z ltac:(lia) Hz q n Qp ltac:(lia)) as A. destruct Qp as (Q1 & Q3 & _). pose proof (Main q Q1 Q3) as B.
        assert (INR q * w p <= INR n * w p) by (apply Rmult_le_compat_r; [lra|apply le_INR; lia]).
        apply Rle_trans with (w j * (sqrt 2 * z q)); [apply Rmult_le_compat_l; lra|]. nra.
    Qed.
    Lemma late_bound p n : peak w m p -> (p < j)%nat -> (j <= n)%nat -> Rabs (z n) <= sqrt 2 * INR n.
    Proof.
      intros Pk J N. destruct (peak_turn m w ltac:(lia) Hw p Pk) as (T1 & T2). pose proof Pk as (Mp & _ & _).
      assert (Q2 : 1 <= sqrt 2) by (rewrite <- sqrt_1; apply sqrt_le_1_alt; lra).
      assert (Tj : t <= b j + b (S j)) by (pose proof (b_le p j ltac:(lia) ltac:(lia)); pose proof (b_le (S p) (S j) ltac:(lia) ltac:(lia)); lra).
      assert (Main : forall k, (j <= k)%nat -> rising z j k -> z k <= INR k).
      { intros k K Rk. assert (Z1 : z j = 1) by (apply Hz). assert (Q : k = j \/ (j < k)%nat) by lia. destruct Q as [-> | Q].
        - rewrite Z1. change 1 with (INR 1). apply le_INR. lia.
        - destruct k as [|k]; [lia|]. assert (S1 : z (S j) - z j <= 1).
          { assert (Zj : 0 <= z j) by lra. pose proof (slope_step j z Hz j ltac:(lia) Tj Zj) as Sl. rewrite (proj1 Hz (pred j)), Z1 in Sl by lia. pose proof (b_pos (S j) ltac:(lia)). pose proof (binc j ltac:(lia)). rewrite Z1. nra. }
          destruct (slopes j z ltac:(lia) Hz j k 1 ltac:(lia) Tj ltac:(lia) Rk S1 ltac:(lra)) as (Z & _). rewrite Z1 in Z. assert (1 + INR (S k - j) <= INR (S k)) by (rewrite Rplus_comm, <- S_INR; apply le_INR; lia). lra. }
      destruct (rises_or_peaks z j n N) as [Rn | (q & Qn & Qp)].
      - pose proof (Main n N Rn) as B. pose proof (rising_pos z j n n Hz Rn ltac:(lia)). rewrite Rabs_pos_eq by lra. nra.
      - pose proof (after_peak_le j z ltac:(lia) Hz q n Qp ltac:(lia)) as A. destruct Qp as (Q1 & Q3 & _). pose proof (Main q Q1 Q3) as B. assert (INR q <= INR n) by (apply le_INR; lia). nra.
    Qed.
  End Two.
End Increasing.
