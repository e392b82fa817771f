(** Decimal bounds for pi (Machin's formula, rational arithmetic). *)
From Coq Require Import Reals Ratan Machin QArith Qreals Lia Lra ZArith.
Open Scope R_scope.

Definition qterm (b : positive) (n : nat) : Q := (1 # (Pos.pow b (Pos.of_succ_nat (2 * n)) * Pos.of_succ_nat (2 * n)))%Q.
Definition qt (n : nat) : Q := ((if Nat.even n then 1 else - (1)) * (2 * qterm 3 n + qterm 7 n))%Q.
Fixpoint qsum (n : nat) : Q := match n with O => Qred (qt 0) | S m => Qred (qsum m + qt (S m)) end%Q.

Lemma pow_pos (b : positive) (n : nat) : IZR (Z.pos (Pos.pow b (Pos.of_succ_nat n))) = IZR (Z.pos b) ^ (S n).
Proof. rewrite Pos2Z.inj_pow, Zpos_P_of_succ_nat, <- Nat2Z.inj_succ, <- pow_IZR. reflexivity. Qed.
Lemma qterm_R b n : Q2R (qterm b n) = Ratan_seq (/ IZR (Z.pos b)) n.
Proof.
  unfold qterm, Ratan_seq, Q2R. cbn [Qnum Qden]. rewrite Pos2Z.inj_mul, mult_IZR, pow_pos. replace (2 * n + 1)%nat with (S (2 * n)) by lia.
  rewrite pow_inv. rewrite Zpos_P_of_succ_nat, <- Nat2Z.inj_succ, <- INR_IZR_INZ. unfold Rdiv. rewrite Rinv_mult. ring.
Qed.
Lemma sign_R n : Q2R (if Nat.even n then 1 else - (1))%Q = (-1) ^ n.
Proof.
  induction n as [|n IH]; [unfold Q2R; simpl; lra|]. cbn [pow]. rewrite <- IH, Nat.even_succ, <- Nat.negb_even. destruct (Nat.even n); unfold Q2R; simpl; lra.
Qed.
Lemma qt_R n : Q2R (qt n) = tg_alt PI_2_3_7_tg n.
Proof.
  unfold qt, tg_alt, PI_2_3_7_tg. rewrite Q2R_mult, Q2R_plus, Q2R_mult, sign_R, !qterm_R. replace (Q2R 2) with 2 by (unfold Q2R; simpl; lra). reflexivity.
Qed.
Lemma qsum_R n : Q2R (qsum n) = sum_f_R0 (tg_alt PI_2_3_7_tg) n.
Proof.
  induction n as [|n IH]; cbn [qsum sum_f_R0]; rewrite (Qeq_eqR _ _ (Qred_correct _)); [apply qt_R|]. rewrite Q2R_plus, IH, qt_R. reflexivity.
Qed.
Lemma pi_between N lo hi : Qle_bool lo (4 * qsum (S (2 * N))) = true -> Qle_bool (4 * qsum (2 * N)) hi = true -> Q2R lo <= PI <= Q2R hi.
Proof.
  intros A B. apply Qle_bool_iff, Qle_Rle in A, B. rewrite Q2R_mult, qsum_R in A, B. replace (Q2R 4) with 4 in * by (unfold Q2R; simpl; lra).
  pose proof (PI_2_3_7_ineq N). lra.
Qed.
Lemma pi_bounds : 3.14159265358979323 <= PI <= 3.14159265358979324.
Proof.
  pose proof (pi_between 9 (314159265358979323 # 100000000000000000) (314159265358979324 # 100000000000000000) ltac:(vm_compute; reflexivity) ltac:(vm_compute; reflexivity)) as H.
  unfold Q2R in H. cbn [Qnum Qden] in H. lra.
Qed.
