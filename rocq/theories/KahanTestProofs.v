From Coq Require Import Reals ZArith List Bool Lia Lra.
From Flocq Require Import Core BinarySingleNaN.
From Verif Require Import KahanModel KahanSpec KahanProofs KahanTest.
Import ListNotations.
Open Scope R_scope.

(** the sums after one, two, ... additions *)
Fixpoint checked (n : nat) (i : Z) (k : kahan) : bool :=
  match n with
  | O => true
  | S n' => let k' := plus_assign k milli in deq (to_double k') (binary_normalize 53 1024 Hprec Hmax mode_NE (i * 4611686018427388) (-62) false) && checked n' (i + 1) k'
  end.
Lemma repeat_snoc {A} (x : A) n : repeat x (S n) = repeat x n ++ [x].
Proof. induction n as [|n IH]; [reflexivity|]. cbn [repeat app] in *. rewrite <- IH. reflexivity. Qed.
Lemma checked_sound n : forall m, checked n (Z.of_nat m + 1) (total dzero (repeat milli m)) = true -> forall j, (m < j <= m + n)%nat ->
  deq (to_double (total dzero (repeat milli j))) (binary_normalize 53 1024 Hprec Hmax mode_NE (Z.of_nat j * 4611686018427388) (-62) false) = true.
Proof.
  induction n as [|n IH]; intros m C j J; [lia|]. cbn [checked] in C. cbv zeta in C. apply andb_true_iff in C as (C1 & C2).
  assert (E : plus_assign (total dzero (repeat milli m)) milli = total dzero (repeat milli (S m))) by (rewrite repeat_snoc; unfold total; rewrite fold_left_app; reflexivity).
  rewrite E in C1, C2. replace (Z.of_nat m + 1)%Z with (Z.of_nat (S m)) in C1, C2 by lia. destruct (Nat.eq_dec j (S m)) as [->|N]; [exact C1|]. apply (IH (S m)); [exact C2|lia].
Qed.
Lemma all_checked : checked (Z.to_nat 1000) 1 (start dzero) = true.
Proof. vm_compute. reflexivity. Qed.
