(** C75: rounding errors of the solid harmonics in src/lib/gravity/sh_cunningham_normalized_gradient.cpp. *)
From Coq Require Import Reals ZArith List Lia Lra.
From Verif Require Import FlModel FlProofs Poly AlfSpec AlfMath AlfSum CunSpec CunProofs6 FlAlfModel FlAlfProofs FlCunModel FlCunProofs6 FlCunProofs7.
Open Scope R_scope.

(** ** C75 *)
(** at r/2 to 8 r, r = Re, however the operations round: every element that is computed *)
Theorem c75_values rx ry rz Re degree order M W : / 2 <= rad (rx / Re) (ry / Re) (rz / Re) <= 8 -> (order <= degree <= 198)%nat -> basis_run rx ry rz Re degree order M W ->
  forall n m, (m <= n <= degree + 2)%nat -> (m <= order + 1 \/ m = n /\ m = order + 2)%nat ->
    Rabs (M n m - Vn n m (rx / Re) (ry / Re) (rz / Re)) <= 210 * INR (n + 1) ^ 2 * sqrt (INR (2 * n + 1)) * / 2 ^ 53 / rad (rx / Re) (ry / Re) (rz / Re) ^ (n + 1) /\
    Rabs (W n m - Wn n m (rx / Re) (ry / Re) (rz / Re)) <= 210 * INR (n + 1) ^ 2 * sqrt (INR (2 * n + 1)) * / 2 ^ 53 / rad (rx / Re) (ry / Re) (rz / Re) ^ (n + 1).
Proof. intros Hr Hd R n m Hn Hm. exact (basis_error rx ry rz Re degree order M W Hr ltac:(lia) ltac:(lia) R n m Hn Hm). Qed.
(** the functions of one degree: the sum of the squares *)
Theorem c75_addition_theorem n x y z : 0 < x * x + y * y + z * z -> sum_f_R0 (fun m => Vn n m x y z ^ 2 + Wn n m x y z ^ 2) n = INR (2 * n + 1) / (rad x y z ^ (n + 1)) ^ 2.
Proof.
  intros P. assert (R : 0 < rad x y z) by (unfold rad; apply sqrt_lt_R0; exact P). destruct (spherical_exists x y z) as (th & l & EX & EY & EZ). pose proof (pow_lt _ (n + 1) R) as G. set (r := rad x y z) in *. set (g := r ^ (n + 1)) in *.
  rewrite <- (sum_of_squares n th). unfold Rdiv. rewrite (Rmult_comm _ (/ g ^ 2)), scal_sum. apply sum_eq. intros m Hm. destruct (spherical n m r th l R) as (A & B). rewrite EX, EY, EZ, A, B. fold g. pose proof (sin2_cos2 (INR m * l)) as S. unfold Rsqr in S.
  transitivity (Pbar n m th ^ 2 * (sin (INR m * l) * sin (INR m * l) + cos (INR m * l) * cos (INR m * l)) * / g ^ 2); [field; lra|rewrite S; ring].
Qed.
(** error against the size of the functions of that degree *)
Theorem c75_relative rx ry rz Re degree order M W : / 2 <= rad (rx / Re) (ry / Re) (rz / Re) <= 8 -> (order <= degree <= 198)%nat -> basis_run rx ry rz Re degree order M W ->
  forall n m, (m <= n <= degree + 2)%nat -> (m <= order + 1 \/ m = n /\ m = order + 2)%nat ->
    let size := sqrt (sum_f_R0 (fun k => Vn n k (rx / Re) (ry / Re) (rz / Re) ^ 2 + Wn n k (rx / Re) (ry / Re) (rz / Re) ^ 2) n) in
    Rabs (M n m - Vn n m (rx / Re) (ry / Re) (rz / Re)) <= 210 * INR (n + 1) ^ 2 * / 2 ^ 53 * size /\ Rabs (W n m - Wn n m (rx / Re) (ry / Re) (rz / Re)) <= 210 * INR (n + 1) ^ 2 * / 2 ^ 53 * size.
Proof.
  intros Hr Hd R n m Hn Hm size. pose proof (c75_values _ _ _ _ _ _ _ _ Hr Hd R n m Hn Hm) as V. set (r := rad (rx / Re) (ry / Re) (rz / Re)) in *. pose proof (pow_lt r (n + 1) ltac:(lra)) as G.
  assert (P : 0 < rx / Re * (rx / Re) + ry / Re * (ry / Re) + rz / Re * (rz / Re)). { apply Rnot_le_lt. intros L. assert (E : r = 0) by (unfold r, rad; apply sqrt_neg_0, L). lra. }
  assert (S : size = sqrt (INR (2 * n + 1)) / r ^ (n + 1)). { unfold size. rewrite c75_addition_theorem by exact P. fold r. rewrite sqrt_div by (try apply pos_INR; apply pow_lt; exact G). rewrite sqrt_pow2 by lra. reflexivity. }
  rewrite S. replace (210 * INR (n + 1) ^ 2 * / 2 ^ 53 * (sqrt (INR (2 * n + 1)) / r ^ (n + 1))) with (210 * INR (n + 1) ^ 2 * sqrt (INR (2 * n + 1)) * / 2 ^ 53 / r ^ (n + 1)) by (unfold Rdiv; ring). exact V.
Qed.

(** ** instances *)
(** evaluation without rounding *)
Example c75_exact_run rx ry rz Re degree order : 0 < rx / Re * (rx / Re) + ry / Re * (ry / Re) + rz / Re * (rz / Re) ->
  basis_run rx ry rz Re degree order (fun n m => Vn n m (rx / Re) (ry / Re) (rz / Re)) (fun n m => Wn n m (rx / Re) (ry / Re) (rz / Re)).
Proof. apply exact_run. Qed.
Example c75_nonvacuous : exists M W, basis_run 3 4 12 10 180 180 M W /\ / 2 <= rad (3 / 10) (4 / 10) (12 / 10) <= 8.
Proof.
  eexists _, _. split; [apply c75_exact_run; lra|]. replace (rad (3 / 10) (4 / 10) (12 / 10)) with 1.3; [lra|]. unfold rad. replace (3 / 10 * (3 / 10) + 4 / 10 * (4 / 10) + 12 / 10 * (12 / 10)) with (1.3 * 1.3) by lra. symmetry. apply sqrt_square. lra.
Qed.
Print Assumptions c75_values.
Print Assumptions c75_addition_theorem.
Print Assumptions c75_relative.
