(** The sum of the squares of the normalised Legendre functions of one degree is 2n + 1 at every latitude. *)
From Coq Require Import Reals ZArith List Lia Lra.
From Verif Require Import Poly AlfSpec AlfMath.
Import ListNotations.
Open Scope R_scope.

(** ** Legendre's differential equation, differentiated m times *)
Lemma second_base n x : (x ^ 2 - 1) * G n 1 x = 2 * INR n * x * G n 0 x.
Proof.
  destruct n as [|n].
  - rewrite (G_vanishes 0 1) by lia. cbn [INR]. ring.
  - rewrite first_derivative. pose proof (rod_next n x) as N. transitivity (x * ((x ^ 2 - 1) * G n 0 x)); [ring|]. rewrite N. ring.
Qed.
(** k-th derivative of x^2 f *)
Lemma x2mul_chain F : chain F -> chain (fun k x => x * (x * F k x + INR k * F (k - 1)%nat x) + INR k * (x * F (k - 1)%nat x + INR (k - 1) * F (k - 1 - 1)%nat x)).
Proof. intros C. exact (xmul_chain _ (xmul_chain F C)). Qed.
Lemma legendre_equation n m x : (1 - x ^ 2) * legendre n (S (S m)) x = 2 * INR (S m) * x * legendre n (S m) x - (INR n - INR m) * (INR n + INR m + 1) * legendre n m x.
Proof.
  pose proof (shift_chain _ 1 (G_chain n)) as C1.
  pose proof (chain_unique (fun k x => 1 * (x * (x * G n (k + 1) x + INR k * G n (k - 1 + 1) x) + INR k * (x * G n (k - 1 + 1) x + INR (k - 1) * G n (k - 1 - 1 + 1) x)) + (- 1) * G n (k + 1) x)
    (fun k x => (2 * INR n) * (x * G n k x + INR k * G n (k - 1) x) + 0 * G n k x)
    (scal_plus_chain 1 (- 1) _ _ (x2mul_chain _ C1) C1) (scal_plus_chain (2 * INR n) 0 _ _ (xmul_chain _ (G_chain n)) (G_chain n))) as H.
  specialize (fun E => H E (S (n + m)) x). cbv beta in H.
  assert (E0 : forall y, 1 * (y * (y * G n (0 + 1) y + INR 0 * G n (0 - 1 + 1) y) + INR 0 * (y * G n (0 - 1 + 1) y + INR (0 - 1) * G n (0 - 1 - 1 + 1) y)) + -1 * G n (0 + 1) y = 2 * INR n * (y * G n 0 y + INR 0 * G n (0 - 1) y) + 0 * G n 0 y).
  { intros y. cbn [Nat.add INR]. pose proof (second_base n y). cbn [Nat.sub INR]. nra. }
  specialize (H E0). clear E0 C1. unfold legendre. fold (G n (n + S (S m)) x) (G n (n + S m) x) (G n (n + m) x).
  replace (S (n + m) + 1)%nat with (n + S (S m))%nat in H by lia. replace (S (n + m) - 1 + 1)%nat with (n + S m)%nat in H by lia. replace (S (n + m) - 1)%nat with (n + m)%nat in H by lia.
  replace (S (n + m)) with (n + S m)%nat in H by lia.
  assert (Z : INR (n + m) * G n (n + m - 1 + 1) x = INR (n + m) * G n (n + m) x).
  { destruct (n + m)%nat as [|k]; [cbn; ring|]. replace (S k - 1 + 1)%nat with (S k) by lia. reflexivity. }
  rewrite Z in H. rewrite !plus_INR, !S_INR in *. nra.
Qed.

(** ** the derivative of the sum telescopes *)
Definition v (n m : nat) : R := INR (2 * n + 1) * INR (fact (n - m)) / INR (fact (n + m)).
Lemma v_step n m : (S m <= n)%nat -> v n (S m) * ((INR n - INR m) * (INR n + INR m + 1)) = v n m.
Proof.
  intros M. unfold v. replace (n - m)%nat with (S (n - S m)) by lia. replace (n + S m)%nat with (S (n + m)) by lia. rewrite !fact_S.
  assert (E1 : INR (S (n - S m)) = INR n - INR m) by (rewrite S_INR, minus_INR, S_INR by lia; ring). assert (E2 : INR (S (n + m)) = INR n + INR m + 1) by (rewrite S_INR, plus_INR; ring).
  rewrite E1, E2. pose proof (fact_pos (n + m)). pose proof (pos_INR n). pose proof (pos_INR m). field. lra.
Qed.
Definition tele (n m : nat) (th : R) : R := 2 * v n m * cos th ^ (2 * m + 1) * legendre n m (sin th) * legendre n (S m) (sin th).
Lemma square_derivative n m th : derivable_pt_lim (fun y => Pbar n m y ^ 2) th
  (2 * Pbar n m th * (norm n m * (INR m * cos th ^ pred m * (- sin th) * legendre n m (sin th) + cos th ^ m * (legendre n (S m) (sin th) * cos th)))).
Proof.
  pose proof (Pbar_limit n m th) as D. set (d := norm n m * _) in *. replace (2 * Pbar n m th * d) with (d * Pbar n m th + Pbar n m th * d) by ring.
  apply (limit_ext (fun y => Pbar n m y * Pbar n m y)); [intros; ring|]. apply derivable_pt_lim_mult; exact D.
Qed.
Lemma sum_derivative n M th : (M <= n)%nat -> derivable_pt_lim (fun y => sum_f_R0 (fun m => Pbar n m y ^ 2) M) th (tele n M th).
Proof.
  revert th. induction M as [|M IH]; intros th H.
  - cbn [sum_f_R0]. replace (tele n 0 th) with (2 * Pbar n 0 th * (norm n 0 * (INR 0 * cos th ^ pred 0 * (- sin th) * legendre n 0 (sin th) + cos th ^ 0 * (legendre n 1 (sin th) * cos th)))); [apply square_derivative|].
    unfold tele, Pbar. pose proof (norm_square n 0) as N. unfold weight in N. cbn [Nat.eqb] in N. unfold v. replace (n - 0)%nat with n in * by lia. replace (n + 0)%nat with n in * by lia.
    replace (1 * INR (2 * n + 1) * INR (fact n) / INR (fact n)) with (INR (2 * n + 1) * INR (fact n) / INR (fact n)) in N by (unfold Rdiv; ring). rewrite <- N. cbn [INR pred pow Nat.mul Nat.add]. ring.
  - cbn [sum_f_R0]. replace (tele n (S M) th) with (tele n M th + (tele n (S M) th - tele n M th)) by ring. apply (derivable_pt_lim_plus (fun y => sum_f_R0 (fun m => Pbar n m y ^ 2) M) (fun y => Pbar n (S M) y ^ 2)); [apply IH; lia|].
    replace (tele n (S M) th - tele n M th) with (2 * Pbar n (S M) th * (norm n (S M) * (INR (S M) * cos th ^ pred (S M) * (- sin th) * legendre n (S M) (sin th) + cos th ^ S M * (legendre n (S (S M)) (sin th) * cos th)))); [apply square_derivative|].
    unfold tele. pose proof (norm_square n (S M)) as N. unfold weight in N. cbn [Nat.eqb] in N.
    assert (N' : norm n (S M) ^ 2 = 2 * v n (S M)) by (rewrite N; unfold v, Rdiv; ring). rewrite <- (v_step n M) by lia. unfold Pbar. cbn [pred].
    pose proof (legendre_equation n M (sin th)) as Q. pose proof (sin2_cos2 th) as SC. unfold Rsqr in SC.
    assert (Q' : (INR n - INR M) * (INR n + INR M + 1) * legendre n M (sin th) = 2 * INR (S M) * sin th * legendre n (S M) (sin th) - cos th ^ 2 * legendre n (S (S M)) (sin th)).
    { replace (cos th ^ 2) with (1 - sin th ^ 2) by (cbn [pow]; lra). lra. }
    replace (2 * S M + 1)%nat with (S (S (2 * M + 1))) by lia. replace (2 * M + 1)%nat with (S (M + M)) by lia. cbn [pow]. rewrite pow_add.
    set (L2 := legendre n (S (S M)) (sin th)) in *. set (L1 := legendre n (S M) (sin th)) in *. set (L0 := legendre n M (sin th)) in *. set (N0 := norm n (S M)) in *.
    transitivity (N0 ^ 2 * (cos th ^ M * cos th ^ M * cos th) * L1 * (cos th ^ 2 * L2 - (2 * INR (S M) * sin th * L1 - cos th ^ 2 * L2))); [ring|]. rewrite <- Q', N'. ring.
Qed.
Lemma legendre_one n : legendre n 0 1 = 1 /\ legendre (S n) 0 1 = 1.
Proof.
  induction n as [|n (A & B)].
  - split; [apply legendre_00|]. rewrite (legendre_next 0 1), legendre_00. cbn. ring.
  - split; [exact B|]. pose proof (three_terms n 0 1 ltac:(lia)) as T. rewrite A, B in T. replace (S (S n) - 0)%nat with (S (S n)) in T by lia. replace (n + 0 + 1)%nat with (S n) in T by lia.
    replace (2 * n + 3)%nat with (S (S n) + S n)%nat in T by lia. rewrite plus_INR in T. pose proof (INR_pos (S (S n)) ltac:(lia)) as P. apply (Rmult_eq_reg_l (INR (S (S n)))); [lra|lra].
Qed.
Lemma pole_sum n M : sum_f_R0 (fun m => Pbar n m (PI / 2) ^ 2) M = INR (2 * n + 1).
Proof.
  induction M as [|M IH]; cbn [sum_f_R0].
  - unfold Pbar. rewrite sin_PI2, (proj1 (legendre_one n)). pose proof (norm_square n 0) as N. unfold weight in N. cbn [Nat.eqb] in N. replace (n - 0)%nat with n in N by lia. replace (n + 0)%nat with n in N by lia.
    cbn [pow] in *. pose proof (fact_pos n). replace (1 * INR (2 * n + 1) * INR (fact n) / INR (fact n)) with (INR (2 * n + 1)) in N by (field; lra). lra.
  - rewrite IH. unfold Pbar. rewrite cos_PI2. cbn [pow]. ring.
Qed.
Theorem sum_of_squares n th : sum_f_R0 (fun m => Pbar n m th ^ 2) n = INR (2 * n + 1).
Proof.
  set (f := fun y => sum_f_R0 (fun m => Pbar n m y ^ 2) n).
  assert (D : forall y, derivable_pt_lim f y 0). { intros y. replace 0 with (tele n n y); [apply sum_derivative; lia|]. unfold tele. rewrite (legendre_vanishes n (S n)) by lia. ring. }
  assert (P : derivable f) by (intros y; exists 0; apply D).
  pose proof (null_derivative_1 f P) as C. assert (K : constant f). { apply C. intros y. apply derive_pt_eq_0, D. }
  change (f th = INR (2 * n + 1)). rewrite (K th (PI / 2)). apply pole_sum.
Qed.
Lemma member_le F n m : (forall k, 0 <= F k) -> (m <= n)%nat -> F m <= sum_f_R0 F n.
Proof.
  intros P. induction n as [|n IH]; intros M; cbn [sum_f_R0].
  - replace m with 0%nat by lia. lra.
  - assert (Q : (m <= n)%nat \/ m = S n) by lia. destruct Q as [Q | ->]; [pose proof (IH Q); pose proof (P (S n)); lra|]. pose proof (cond_pos_sum F n P). lra.
Qed.
(** no function of degree n exceeds sqrt(2n + 1) *)
Theorem Pbar_bound n m th : (m <= n)%nat -> Rabs (Pbar n m th) <= sqrt (INR (2 * n + 1)).
Proof.
  intros M. rewrite <- sqrt_Rsqr_abs. apply sqrt_le_1_alt. rewrite <- (sum_of_squares n th). unfold Rsqr. replace (Pbar n m th * Pbar n m th) with (Pbar n m th ^ 2) by ring.
  apply (member_le (fun m => Pbar n m th ^ 2)); [intros; apply pow2_ge_0|exact M].
Qed.
