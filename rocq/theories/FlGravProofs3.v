From Coq Require Import Reals ZArith List Bool Lia Lra.
From Verif Require Import Base FlModel FlProofs CunSpec CunModel CunProofs3 CunProofs4 FlAlfModel FlAlfProofs FlCunModel FlCunProofs6 FlGravModel FlGravProofs FlGravProofs2.
Import ListNotations.
Open Scope R_scope.

(** ** sizes of the weights *)
Lemma plain_le p w : (0 <= p)%Z -> (0 <= w)%Z -> (p <= w * w)%Z -> weight_of Plain p <= IZR w.
Proof. intros P W H. cbn [weight_of]. rewrite <- (sqrt_square (IZR w)) by (apply IZR_le; lia). rewrite <- mult_IZR. apply sqrt_le_1; apply IZR_le; lia. Qed.
Lemma over_le p w : (0 <= p)%Z -> (0 <= w)%Z -> (p <= w * w)%Z -> weight_of Over p <= IZR w.
Proof.
  intros P W H. pose proof (plain_le p w P W H) as Q. cbn [weight_of] in *. pose proof sqrt_2 as T. pose proof (sqrt_pos (IZR p)). apply Rle_trans with (sqrt (IZR p)); [|exact Q]. apply Rmult_le_reg_r with (sqrt 2); [lra|]. unfold Rdiv. rewrite Rmult_assoc, Rinv_l by lra. apply Rmult_le_compat_l; lra.
Qed.
Lemma twice_le p w : (0 <= p)%Z -> (0 <= w)%Z -> (2 * p <= w * w)%Z -> weight_of Twice p <= IZR w.
Proof. intros P W H. cbn [weight_of]. rewrite <- sqrt_mult by (try apply IZR_le; lra || lia). rewrite <- mult_IZR, Z.mul_comm. apply (plain_le (2 * p) w); lia. Qed.
Lemma some_le (b : bool) p w : (0 <= p)%Z -> (0 <= w)%Z -> (2 * p <= w * w)%Z -> weight_of (if b then Twice else Plain) p <= IZR w.
Proof. intros P W H. destruct b; [apply twice_le; assumption|apply plain_le; lia]. Qed.
Lemma weight_nonneg k p : (1 <= p)%Z -> 0 <= weight_of k p.
Proof. intros H. pose proof (weight_pos k p H). lra. Qed.

(** one component: both coefficients times a combination of total weight K *)
Section Magnitudes.
  Variables (C S : nat -> nat -> R) (r : R).
  Hypothesis Hr : 0 < r.
  Notation ml := (mags C S r).
  Definition both (n m : Z) : R := Rabs (C (Z.to_nat n) (Z.to_nat m)) + Rabs (S (Z.to_nat n) (Z.to_nat m)) + / 2 ^ 199.
  Lemma two_gam : gam + gam = / 2 ^ 199.
  Proof. unfold gam. replace (2 ^ 200) with (2 * 2 ^ 199) by (rewrite <- tech_pow_Rmult; reflexivity). rewrite Rinv_mult. lra. Qed.
  Lemma size_pos n : 0 < size r n.
  Proof. unfold size. apply Rdiv_lt_0_compat; [apply sqrt_lt_R0, lt_0_INR; lia|apply pow_lt, Hr]. Qed.
  Lemma pair_le n m K a b f : 0 <= f -> a <= K -> b <= K -> ((Rabs (C (Z.to_nat n) (Z.to_nat m)) + gam) * a + (Rabs (S (Z.to_nat n) (Z.to_nat m)) + gam) * b) * f <= both n m * K * f.
  Proof.
    intros F A B. apply Rmult_le_compat_r; [exact F|]. unfold both. rewrite <- two_gam. pose proof gam_pos as G. pose proof (Rabs_pos (C (Z.to_nat n) (Z.to_nat m))) as C0. pose proof (Rabs_pos (S (Z.to_nat n) (Z.to_nat m))) as S0.
    pose proof (Rmult_le_compat_l (Rabs (C (Z.to_nat n) (Z.to_nat m)) + gam) a K ltac:(lra) A). pose proof (Rmult_le_compat_l (Rabs (S (Z.to_nat n) (Z.to_nat m)) + gam) b K ltac:(lra) B). lra.
  Qed.
  Lemma single_le n m K a f : 0 <= f -> 0 <= K -> a <= K -> (Rabs (C (Z.to_nat n) (Z.to_nat m)) + gam) * a * f <= both n m * K * f.
  Proof.
    intros F K0 A. apply Rmult_le_compat_r; [exact F|]. unfold both. rewrite <- two_gam. pose proof gam_pos as G. pose proof (Rabs_pos (C (Z.to_nat n) (Z.to_nat m))) as C0. pose proof (Rabs_pos (S (Z.to_nat n) (Z.to_nat m))) as S0.
    pose proof (Rmult_le_compat_l (Rabs (C (Z.to_nat n) (Z.to_nat m)) + gam) a K ltac:(lra) A). assert (0 <= (Rabs (S (Z.to_nat n) (Z.to_nat m)) + gam) * K) by (apply Rmult_le_pos; lra). lra.
  Qed.
  Lemma ratio_size (n : nat) (k : nat) : sqrt (IZR (2 * Z.of_nat n + 1) / IZR (2 * Z.of_nat n + 2 * Z.of_nat k + 1)) * size r (n + k) = sqrt (INR (2 * n + 1)) / r ^ (n + k + 1).
  Proof.
    unfold size. rewrite <- Z_INR. rewrite sqrt_div by (try apply IZR_le; try apply IZR_lt; lia). replace (Z.of_nat (2 * (n + k) + 1)) with (2 * Z.of_nat n + 2 * Z.of_nat k + 1)%Z by lia. rewrite <- (Z_INR (2 * n + 1)). replace (Z.of_nat (2 * n + 1)) with (2 * Z.of_nat n + 1)%Z by lia.
    assert (0 < sqrt (IZR (2 * Z.of_nat n + 2 * Z.of_nat k + 1))) by (apply sqrt_lt_R0, IZR_lt; lia). pose proof (pow_lt r (n + k + 1) Hr). field. lra.
  Qed.
  Open Scope Z_scope.
  Lemma w_mul w a b : (0 <= w)%R -> (a <= b)%R -> (w * a <= w * b)%R. Proof. intros. apply Rmult_le_compat_l; assumption. Qed.
  Ltac absi := rewrite ?(Rabs_left (-2)), ?(Rabs_left (-3)), ?(Rabs_right 2), ?(Rabs_right 4) by lra.
  Lemma acc_mag i n m : 0 <= m <= n -> (mag ml (part1 i (acc_ex n m)) <= both n m * (4 * IZR (n + 1) * size r (Z.to_nat (n + 1))) * sqrt (IZR (2 * n + 1) / IZR (2 * n + 3)))%R.
  Proof.
    intros H. pose proof (size_pos (Z.to_nat (n + 1))) as B. pose proof (sqrt_pos (IZR (2 * n + 1) / IZR (2 * n + 3))) as F. pose proof (IZR_le 0 (n + 1) ltac:(lia)) as N0. set (b := size r (Z.to_nat (n + 1))) in *.
    assert (NB : (0 <= 4 * IZR (n + 1) * b)%R) by (apply Rmult_le_pos; lra). assert (E2 : IZR (2 * (n + 1)) = (2 * IZR (n + 1))%R) by apply mult_IZR.
    unfold acc_ex. destruct (Z.eqb_spec m 0) as [-> |].
    - assert (W0 : (weight_of Plain ((n + 1) * (n + 1)) <= IZR (2 * (n + 1)))%R) by (apply plain_le; nia). assert (W1 : (weight_of Over ((n + 1) * (n + 2)) <= IZR (2 * (n + 1)))%R) by (apply over_le; nia). rewrite E2 in *.
      pose proof (Rmult_le_compat_r b _ _ ltac:(lra) W0). pose proof (Rmult_le_compat_r b _ _ ltac:(lra) W1).
      destruct i as [|[|i]]; cbn [part1 mag mags]; fold b; absi; apply single_le; try assumption; lra.
    - assert (P1 : (weight_of (if m =? 1 then Twice else Plain) ((n - m + 1) * (n - m + 2)) <= IZR (2 * (n + 1)))%R) by (apply some_le; nia).
      assert (P0 : (weight_of Plain ((n - m + 1) * (n + m + 1)) <= IZR (2 * (n + 1)))%R) by (apply plain_le; nia). assert (P2 : (weight_of Plain ((n + m + 1) * (n + m + 2)) <= IZR (2 * (n + 1)))%R) by (apply plain_le; nia). rewrite E2 in *.
      pose proof (Rmult_le_compat_r b _ _ ltac:(lra) P1). pose proof (Rmult_le_compat_r b _ _ ltac:(lra) P0). pose proof (Rmult_le_compat_r b _ _ ltac:(lra) P2).
      destruct i as [|[|i]]; cbn [part1 mag mags]; fold b; absi; apply pair_le; try assumption; lra.
  Qed.
  Lemma four_le a b c d x y : 0 <= a -> 0 <= b -> 0 <= c -> 0 <= d -> 0 <= x -> 0 <= y -> a * b <= x -> c * d <= y -> a * b * c * d <= x * y.
  Proof. intros. rewrite <- (Z.mul_assoc (a * b)). apply Z.mul_le_mono_nonneg; nia. Qed.
  Lemma grad_mag i n m : 0 <= m <= n -> (mag ml (part2 i (grad_ex n m)) <= both n m * (16 * IZR ((n + 1) * (n + 2)) * size r (Z.to_nat (n + 2))) * sqrt (IZR (2 * n + 1) / IZR (2 * n + 5)))%R.
  Proof.
    intros H. pose proof (size_pos (Z.to_nat (n + 2))) as B. pose proof (sqrt_pos (IZR (2 * n + 1) / IZR (2 * n + 5))) as F. set (w := (n + 1) * (n + 2)). assert (w0 : 0 <= w) by (unfold w; nia). pose proof (IZR_le 0 w w0) as N0. set (b := size r (Z.to_nat (n + 2))) in *.
    assert (NB : (0 <= 16 * IZR w * b)%R) by (apply Rmult_le_pos; lra). assert (E2 : IZR (4 * w) = (4 * IZR w)%R) by apply mult_IZR.
    assert (Q1 : (n + 1) * (n + 2) <= w) by (unfold w; lia). assert (SQ : 4 * w * (4 * w) = (4 * ((n + 1) * (n + 1))) * (4 * ((n + 2) * (n + 2)))) by (unfold w; ring).
    assert (HW : forall a b' c d, 0 <= a -> 0 <= b' -> 0 <= c -> 0 <= d -> a * b' <= 4 * ((n + 1) * (n + 1)) -> c * d <= 4 * ((n + 2) * (n + 2)) -> a * b' * c * d <= 4 * w * (4 * w)) by (intros; rewrite SQ; apply four_le; try assumption; nia).
    assert (HW2 : forall a b' c d, 0 <= a -> 0 <= b' -> 0 <= c -> 0 <= d -> a * b' <= 2 * ((n + 1) * (n + 1)) -> c * d <= 4 * ((n + 2) * (n + 2)) -> 2 * (a * b' * c * d) <= 4 * w * (4 * w)).
    { intros a b' c d A1 A2 A3 A4 A5 A6. rewrite SQ. replace (2 * (a * b' * c * d)) with (2 * a * b' * c * d) by ring. apply four_le; try assumption; nia. }
    assert (NN : forall a b' c d, 0 <= a -> 0 <= b' -> 0 <= c -> 0 <= d -> 0 <= a * b' * c * d) by (intros; repeat apply Z.mul_nonneg_nonneg; assumption).
    unfold grad_ex. destruct (Z.eqb_spec m 0) as [-> |].
    - assert (W0 : (weight_of Plain ((n + 1) * (n + 2) * (n + 1) * (n + 2)) <= IZR (4 * w))%R). { apply plain_le; [apply NN; lia|lia|]. replace ((n + 1) * (n + 2) * (n + 1) * (n + 2)) with ((n + 1) * (n + 1) * (n + 2) * (n + 2)) by ring. apply HW; nia. }
      assert (W1 : (weight_of Over ((n + 1) * (n + 1) * (n + 2) * (n + 3)) <= IZR (4 * w))%R) by (apply over_le; [apply NN; lia|lia|apply HW; nia]).
      assert (W2 : (weight_of Over ((n + 1) * (n + 2) * (n + 3) * (n + 4)) <= IZR (4 * w))%R) by (apply over_le; [apply NN; lia|lia|apply HW; nia]). rewrite E2 in *.
      pose proof (Rmult_le_compat_r b _ _ ltac:(lra) W0). pose proof (Rmult_le_compat_r b _ _ ltac:(lra) W1). pose proof (Rmult_le_compat_r b _ _ ltac:(lra) W2).
      destruct i as [|[|[|[|[|i]]]]]; cbn [part2 mag mags]; fold b; absi; apply single_le; try assumption; lra.
    - assert (P0 : (weight_of Plain ((n - m + 1) * (n - m + 2) * (n + m + 1) * (n + m + 2)) <= IZR (4 * w))%R). { apply plain_le; [apply NN; lia|lia|]. replace ((n - m + 1) * (n - m + 2) * (n + m + 1) * (n + m + 2)) with ((n - m + 1) * (n + m + 1) * (n - m + 2) * (n + m + 2)) by ring. apply HW; nia. }
      assert (P1 : (weight_of (if m =? 1 then Twice else Plain) ((n - m + 1) * (n - m + 2) * (n - m + 3) * (n + m + 1)) <= IZR (4 * w))%R) by (apply some_le; [apply NN; lia|lia|apply HW2; nia]).
      assert (P2 : (weight_of Plain ((n - m + 1) * (n + m + 1) * (n + m + 2) * (n + m + 3)) <= IZR (4 * w))%R) by (apply plain_le; [apply NN; lia|lia|apply HW; nia]).
      assert (P3 : (weight_of Plain ((n + m + 1) * (n + m + 2) * (n + m + 3) * (n + m + 4)) <= IZR (4 * w))%R) by (apply plain_le; [apply NN; lia|lia|apply HW; nia]).
      pose proof (Rmult_le_compat_r b _ _ ltac:(lra) P0) as Q0. pose proof (Rmult_le_compat_r b _ _ ltac:(lra) P1) as Q2. pose proof (Rmult_le_compat_r b _ _ ltac:(lra) P2) as Q3. pose proof (Rmult_le_compat_r b _ _ ltac:(lra) P3) as Q4. rewrite E2 in *. 
      destruct (Z.eqb_spec m 1) as [-> |].
      + change (1 =? 1) with true in *. destruct i as [|[|[|[|[|i]]]]]; cbn [part2 mag mags]; fold b; absi; apply pair_le; try assumption; lra.
      + change (if false then Twice else Plain) with Plain in *. assert (P4 : (weight_of (if m =? 2 then Twice else Plain) ((n - m + 1) * (n - m + 2) * (n - m + 3) * (n - m + 4)) <= IZR (4 * w))%R) by (apply some_le; [apply NN; lia|lia|apply HW2; nia]).
        pose proof (Rmult_le_compat_r b _ _ ltac:(lra) P4) as Q5. rewrite E2 in *. destruct i as [|[|[|[|[|i]]]]]; cbn [part2 mag mags]; fold b; absi; apply pair_le; try assumption; lra.
  Qed.
End Magnitudes.
