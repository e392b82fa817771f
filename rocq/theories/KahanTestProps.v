From Coq Require Import Reals ZArith List Bool Lia Lra.
From Flocq Require Import Core BinarySingleNaN.
From Verif Require Import KahanModel KahanSpec KahanProofs KahanTest KahanTestProofs.
Import ListNotations.
Open Scope R_scope.

(** ** C51: the test program *)
Theorem c51_unit_test : kahan_test = true.
Proof. vm_compute. reflexivity. Qed.
(** with plain addition the assertion fails *)
Theorem c51_unit_test_plain : deq (fold_left dadd (repeat milli (Z.to_nat 1000)) dzero) one = false.
Proof. vm_compute. reflexivity. Qed.
(** after every one of the additions the number handed out is the exact sum of the doubles, rounded once *)
Theorem c51_unit_test_rounded j : (1 <= j <= Z.to_nat 1000)%nat ->
  deq (to_double (total dzero (repeat milli j))) (binary_normalize 53 1024 Hprec Hmax mode_NE (Z.of_nat j * 4611686018427388) (-62) false) = true.
Proof. intros J. apply (checked_sound (Z.to_nat 1000) 0); [exact all_checked|lia]. Qed.
(** which need not be the double closest to the decimal number: after nine additions the assertion would fail for 9e-3, the nearest double
    being 5188146770730811 units of 2^-59 *)
Theorem c51_unit_test_nine : deq (to_double (total dzero (repeat milli 9))) (binary_normalize 53 1024 Hprec Hmax mode_NE 5188146770730811 (-59) false) = false /\
  (2 * Z.abs (5188146770730811 * 1000 - 9 * 2 ^ 59) <= 1000)%Z /\ (2 ^ 52 <= 5188146770730811 < 2 ^ 53)%Z.
Proof. split; [vm_compute; reflexivity|]. split; lia. Qed.
(** the literal 1e-3 *)
Example c51_milli_nonvacuous : (2 * Z.abs (4611686018427388 * 1000 - 2 ^ 62) <= 1000)%Z /\ (2 ^ 52 <= 4611686018427388 < 2 ^ 53)%Z.
Proof. split; lia. Qed.
Print Assumptions c51_unit_test.
Print Assumptions c51_unit_test_plain.
Print Assumptions c51_unit_test_rounded.
Print Assumptions c51_unit_test_nine.
