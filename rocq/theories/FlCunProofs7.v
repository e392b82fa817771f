(** The functions without rounding are one of the evaluations. *)
From Coq Require Import Reals ZArith List Lia Lra.
From Verif Require Import FlModel FlProofs AlfSpec CunSpec CunMath CunMath2 FlAlfModel FlAlfProofs FlCunModel.
Open Scope R_scope.

Lemma near_exact x : near x x.
Proof. unfold near. replace (x - x) with 0 by ring. rewrite Rabs_R0. pose proof u_pos. pose proof tiny_pos. pose proof (Rabs_pos x). assert (0 <= u * Rabs x) by (apply Rmult_le_pos; lra). lra. Qed.
Lemma near_eq x y : x = y -> near x y. Proof. intros ->. apply near_exact. Qed.
Lemma INR_Z' k i : Z.of_nat k = i -> INR k = IZR i.
Proof. intros <-. apply INR_IZR_INZ. Qed.
Ltac eqs := solve [apply near_exact].
Lemma f1_exact n m : (m <= n)%nat -> f1_run (S n) m (An n m).
Proof.
  intros H. do 2 eexists. split; [eqs|]. split; [eqs|]. apply near_eq. unfold An. f_equal.
  rewrite (INR_Z' (2 * n + 1) (2 * Z.of_nat (S n) - 1)), (INR_Z' (2 * n + 3) (2 * Z.of_nat (S n) + 1)), (INR_Z' (S n - m) (Z.of_nat (S n) - Z.of_nat m)), (INR_Z' (S n + m) (Z.of_nat (S n) + Z.of_nat m)) by lia.
  rewrite mult_IZR. pose proof (IZR_lt 0 (Z.of_nat (S n) - Z.of_nat m) ltac:(lia)). pose proof (IZR_lt 0 (Z.of_nat (S n) + Z.of_nat m) ltac:(lia)). field. lra.
Qed.
Lemma f2_exact n m : (m <= n)%nat -> f2_run (S (S n)) m (- Bn n m).
Proof.
  intros H. do 5 eexists. split; [eqs|]. split; [eqs|]. split; [eqs|]. split; [eqs|]. split; [eqs|]. f_equal. unfold Bn. f_equal.
  rewrite (INR_Z' (2 * n + 5) (2 * Z.of_nat (S (S n)) + 1)), (INR_Z' (n + m + 1) (Z.of_nat (S (S n)) + Z.of_nat m - 1)), (INR_Z' (S n - m) (Z.of_nat (S (S n)) - Z.of_nat m - 1)), (INR_Z' (S (S n) - m) (Z.of_nat (S (S n)) - Z.of_nat m)), (INR_Z' (S (S n) + m) (Z.of_nat (S (S n)) + Z.of_nat m)), (INR_Z' (2 * n + 1) (2 * Z.of_nat (S (S n)) - 3)) by lia.
  rewrite mult_IZR. pose proof (IZR_lt 0 (Z.of_nat (S (S n)) - Z.of_nat m) ltac:(lia)). pose proof (IZR_lt 0 (Z.of_nat (S (S n)) + Z.of_nat m) ltac:(lia)). pose proof (IZR_lt 0 (2 * Z.of_nat (S (S n)) - 3) ltac:(lia)). field. lra.
Qed.
Lemma f0_exact m : f0_run (S m) (Dn m).
Proof.
  unfold f0_run, Dn. destruct m as [|m]; [apply near_exact|]. cbn [Nat.eqb]. eexists. split; [eqs|]. apply near_eq. f_equal. f_equal; [rewrite (INR_Z' (2 * S m + 3) (2 * Z.of_nat (S (S m)) + 1)) by lia|rewrite (INR_Z' (2 * S m + 2) (2 * Z.of_nat (S (S m)))) by lia]; reflexivity.
Qed.
Lemma Wn_zonal n x y z : Wn n 0 x y z = 0.
Proof. unfold Wn, solid_w. cbn [cpow snd]. ring. Qed.
Section Exact.
  Variables (rx ry rz Re : R) (degree order : nat).
  Let X := rx / Re. Let Y := ry / Re. Let Z := rz / Re. Let r := rad X Y Z. Let rr := 1 / r * (1 / r).
  Hypothesis P : 0 < X * X + Y * Y + Z * Z.
  Lemma vn_column m N : ccolumn_run (Z * rr) rr m N (fun n => Vn n m X Y Z).
  Proof.
    split.
    - intros _. exists (An m m). eexists. split; [|split; [eqs|apply near_eq; symmetry; apply (Vn_first X Y Z P)]]. destruct (Nat.eqb_spec m 0) as [->|]; [apply near_eq; unfold An; cbn; f_equal; field|apply f1_exact; lia].
    - intros n A B. exists (An (S n) m). do 2 eexists. exists (- Bn n m). do 2 eexists. split; [apply f1_exact; lia|]. split; [eqs|]. split; [eqs|]. split; [apply f2_exact, A|]. split; [eqs|]. split; [eqs|]. apply near_eq. rewrite (Vn_next X Y Z P n m A). fold r rr. ring.
  Qed.
  Lemma wn_column m N : ccolumn_run (Z * rr) rr m N (fun n => Wn n m X Y Z).
  Proof.
    split.
    - intros _. exists (An m m). eexists. split; [|split; [eqs|apply near_eq; symmetry; apply (Wn_first X Y Z P)]]. destruct (Nat.eqb_spec m 0) as [->|]; [apply near_eq; unfold An; cbn; f_equal; field|apply f1_exact; lia].
    - intros n A B. exists (An (S n) m). do 2 eexists. exists (- Bn n m). do 2 eexists. split; [apply f1_exact; lia|]. split; [eqs|]. split; [eqs|]. split; [apply f2_exact, A|]. split; [eqs|]. split; [eqs|]. apply near_eq. rewrite (Wn_next X Y Z P n m A). fold r rr. ring.
  Qed.
  Theorem exact_run : basis_run rx ry rz Re degree order (fun n m => Vn n m X Y Z) (fun n m => Wn n m X Y Z).
  Proof.
    exists rr, (X * rr), (Y * rr), (Z * rr). split; [|split; [intros; apply Wn_zonal|split; [apply vn_column|split; [|intros; split; [apply vn_column|apply wn_column]]]]].
    - exists X, Y, Z. do 4 eexists. exists r. split; [eqs|]. split; [eqs|]. split; [eqs|]. split; [eqs|]. split; [eqs|]. split; [eqs|]. split; [eexists; left; split; eqs|]. split; [apply near_exact|]. split; [|split; [|repeat split; apply near_exact]].
      + apply near_eq. symmetry. apply (Vn_00 X Y Z P).
      + assert (V0 : Vn 0 0 X Y Z = 1 / r) by apply (Vn_00 X Y Z P).
        unfold pow2_run. rewrite V0. fold rr. replace (rr - rr) with 0 by ring. rewrite Rabs_R0. pose proof u_pos. pose proof tiny_pos. assert (0 <= rr) by (unfold rr; apply Rle_0_sqr). assert (0 <= u * rr) by (apply Rmult_le_pos; lra). lra.
    - intros m Hm. exists (Dn m). do 6 eexists. split; [apply f0_exact|]. repeat (split; [eqs|]). split; [apply near_eq; symmetry; apply (Vn_diagonal X Y Z P)|]. repeat (split; [eqs|]). apply near_eq; symmetry; apply (Wn_diagonal X Y Z P).
  Qed.
End Exact.
