(** Property theorems for C81: rounding errors of the Earth rotation quaternions. *)
From Coq Require Import Reals ZArith List Permutation Lra Lia.
From Verif Require Import Base Angles KahanModel PiBound Vec RotModel RotSpec RotProofs FundModel FundSpec FlModel FlFloatModel FlFloatProofs FlCipModel FlEraModel FlRotModel FlRotSpec FlRotProofs FlRotProofs2 FlRotProofs5.
Import ListNotations.
Open Scope R_scope.

(** ** sums and products, whatever the order of the additions *)
Theorem c81_sum l v : sum_run l v -> let n := (length l - 1)%nat in
  Rabs (v - fold_right Rplus 0 l) <= ((1 + / 2 ^ 53) ^ n - 1) * fold_right Rplus 0 (map Rabs l) + INR n * ((1 + / 2 ^ 53) ^ n * / 2 ^ 1074).
Proof. intros R. exact (proj2 (sum_run_bound l v R)). Qed.
Theorem c81_sum_orders l l' v : Permutation l l' -> (1 < length l)%nat -> sum_run l v -> sum_run l' v.
Proof.
  intros P L R. destruct R as [x|l l1 l2 a b v Q A B N]; [cbn in L; lia|]. exact (sum_two l' l1 l2 a b v (Permutation_trans (Permutation_sym P) Q) A B N).
Qed.
Theorem c81_product a b q : qmul_run a b q -> qdist q (qmul a b) <= 8.002 * / 2 ^ 53 * (qlen a * qlen b) + 32 * / 2 ^ 1074.
Proof. exact (qmul_run_error a b q). Qed.
Theorem c81_product_units j k a b a' b' q : unit_q a -> unit_q b -> off j a' a -> off k b' b -> qmul_run a' b' q -> 0 <= j <= 1e6 -> 0 <= k <= 1e6 -> off (j + k + 8.1) q (qmul a b).
Proof. exact (off_mul j k a b a' b' q). Qed.
(** in binary64, from left to right as Eigen does without vector instructions; nothing overflows *)
Theorem c81_product_doubles a b : fin4 a -> fin4 b -> qlen (val4 a) <= 2 -> qlen (val4 b) <= 2 ->
  fin4 (qmul64 a b) /\ qmul_run (val4 a) (val4 b) (val4 (qmul64 a b)) /\ qdist (val4 (qmul64 a b)) (qmul (val4 a) (val4 b)) <= 8.002 * / 2 ^ 53 * (qlen (val4 a) * qlen (val4 b)) + 32 * / 2 ^ 1074.
Proof. intros A B LA LB. destruct (qmul64_run a b A B LA LB) as [F R]. split; [exact F|]. split; [exact R|]. exact (qmul_run_error _ _ _ R). Qed.
(** rotations about an axis, the angle itself being off by k units *)
Theorem c81_axis t T q k : 0 <= k -> Rabs (T - t) <= k * / 2 ^ 53 ->
  (aaX_run T q -> off (k / 2 + 2.9) q (aaX t)) /\ (aaY_run T q -> off (k / 2 + 2.9) q (aaY t)) /\ (aaZ_run T q -> off (k / 2 + 2.9) q (aaZ t)).
Proof. intros K H. split; [exact (aaX_off t T q k K H)|split; [exact (aaY_off t T q k K H)|exact (aaZ_off t T q k K H)]]. Qed.

(** ** c2i, c2tirs, tirs2i: every result that rounding may give is close to the exact quaternion *)
Theorem c81_c2i era s sp d e xp yp q : Rabs era <= 7 -> Rabs s <= 1 -> Rabs sp <= 1 -> Rabs e <= 4 -> c2i_run era s sp d e xp yp q -> off 63.5 q (c2i era s sp d e xp yp).
Proof. exact (c2i_off era s sp d e xp yp q). Qed.
Theorem c81_c2tirs era s d e q : Rabs era <= 7 -> Rabs s <= 1 -> Rabs e <= 4 -> c2tirs_run era s d e q -> off 37 q (c2tirs era s d e).
Proof. exact (c2tirs_off era s d e q). Qed.
Theorem c81_tirs2i xp yp sp q : tirs2i_run xp yp sp q -> off 25 q (tirs2i xp yp sp).
Proof. exact (tirs2i_off xp yp sp q). Qed.
(** two evaluations of the same call, whatever their roundings, and the chain of the two parts *)
Theorem c81_agree era s sp d e xp yp q q' : Rabs era <= 7 -> Rabs s <= 1 -> Rabs sp <= 1 -> Rabs e <= 4 -> c2i_run era s sp d e xp yp q -> c2i_run era s sp d e xp yp q' -> off 127 q q'.
Proof.
  intros A B C D R R'. pose proof (c2i_off _ _ _ _ _ _ _ _ A B C D R) as O. pose proof (c2i_off _ _ _ _ _ _ _ _ A B C D R') as O'. unfold off in *. pose proof (qdist_tri q (c2i era s sp d e xp yp) q') as T. rewrite (qdist_sym (c2i era s sp d e xp yp) q') in T. lra.
Qed.
Theorem c81_chain era s sp d e xp yp q qc qt p : Rabs era <= 7 -> Rabs s <= 1 -> Rabs sp <= 1 -> Rabs e <= 4 ->
  c2i_run era s sp d e xp yp q -> c2tirs_run era s d e qc -> tirs2i_run xp yp sp qt -> qmul_run qt qc p -> off 133.6 q p.
Proof.
  intros A B C D R RC RT RP. pose proof (c2i_off _ _ _ _ _ _ _ _ A B C D R) as O. pose proof (c2tirs_off _ _ _ _ _ A B D RC) as OC. pose proof (tirs2i_off _ _ _ _ RT) as OT.
  pose proof (off_mul _ _ _ _ _ _ _ (unit_tirs2i xp yp sp) (unit_c2tirs era s d e) OT OC RP ltac:(lra) ltac:(lra)) as OP. rewrite <- chain in OP. unfold off in *. pose proof (qdist_tri q (c2i era s sp d e xp yp) p) as T. rewrite (qdist_sym (c2i era s sp d e xp yp) p) in T. lra.
Qed.
(** the result is a unit quaternion to within rounding, and rotates a vector as the exact one does *)
Theorem c81_norm k q b : unit_q b -> off k q b -> Rabs (qlen q - 1) <= k * / 2 ^ 53.
Proof.
  intros U O. pose proof (qlen_dist q b) as A. pose proof (qlen_dist b q) as B. rewrite qdist_sym in B. rewrite (qlen_unit b U) in *. unfold off in O. apply Rabs_le. lra.
Qed.
Theorem c81_vector k a b v : unit_q b -> 0 <= k <= 1e6 -> off k a b -> vdist (qapp a v) (qapp b v) <= 4.001 * k * / 2 ^ 53 * len v.
Proof. exact (off_app k a b v). Qed.
Theorem c81_vector_rounded k a b v r : unit_q b -> 0 <= k <= 1e6 -> off k a b -> qapp_run a v r -> vdist r (qapp b v) <= (4.001 * k + 60) * / 2 ^ 53 * len v + 1000 * / 2 ^ 1074.
Proof.
  intros U K O R. pose proof (off_app k a b v U K O) as A. pose proof (c81_norm k a b U O) as N. pose proof usmall as (US & _). assert (k * / 2 ^ 53 <= 0.001) by (fold u; nra). apply abs_inv in N.
  pose proof (qapp_run_error a v r ltac:(lra) R) as B. pose proof (vdist_tri r (qapp a v) (qapp b v)) as T. fold u tiny in *. lra.
Qed.
(** a point on the ground moves by less than a quarter of a micrometre *)
Theorem c81_surface era s sp d e xp yp q v r : Rabs era <= 7 -> Rabs s <= 1 -> Rabs sp <= 1 -> Rabs e <= 4 -> c2i_run era s sp d e xp yp q -> len v <= 6.4e6 -> qapp_run q v r ->
  vdist r (qapp (c2i era s sp d e xp yp) v) <= 2.5e-7.
Proof.
  intros A B C D R V Q. pose proof (c81_vector_rounded 63.5 q _ v r (unit_c2i era s sp d e xp yp) ltac:(lra) (c2i_off _ _ _ _ _ _ _ _ A B C D R) Q) as K. pose proof usmall as (US & Ti & TU). fold u tiny in K. pose proof (len_nonneg v).
  assert (u * len v <= 1.2e-16 * 6.4e6) by (apply Rmult_le_compat; lra). nra.
Qed.

(** ** xycip2spherical *)
(** the angles, with the axis free where the pole is the rotation axis to within rounding *)
Theorem c81_spherical X Y d e : Rabs X <= 0.2 -> Rabs Y <= 0.2 -> spherical_run X Y d e ->
  let '(d0, e0) := xycip2spherical X Y in
  Rabs (d - d0) <= 4.3 * / 2 ^ 53 /\ Rabs e <= 4 /\ Rabs e0 <= 4 /\ (Rabs (e - e0) <= 4 * / 2 ^ 53 \/ (e = 0 /\ 0 <= d0 <= / 2 ^ 53)).
Proof. exact (spherical_error X Y d e). Qed.
(** both together: the axis does not matter there *)
Theorem c81_pole era s sp d e xp yp q X Y : Rabs era <= 7 -> Rabs s <= 1 -> Rabs sp <= 1 -> Rabs X <= 0.2 -> Rabs Y <= 0.2 -> spherical_run X Y d e -> c2i_run era s sp d e xp yp q ->
  off 70 q (let '(d0, e0) := xycip2spherical X Y in c2i era s sp d0 e0 xp yp).
Proof. exact (c2i_pole era s sp d e xp yp q X Y). Qed.
(** d as computed may be just below zero for a pole on the axis; c2i takes it as it is *)
Theorem c81_spherical_sign X Y d e : Rabs X <= 0.2 -> Rabs Y <= 0.2 -> spherical_run X Y d e -> - (4.3 * / 2 ^ 53) <= d < PI / 2.
Proof.
  intros A B R. pose proof (spherical_error X Y d e A B R) as K. assert (S : X * X + Y * Y <= 0.08) by (apply sq_le in A, B; lra).
  unfold xycip2spherical in K. set (r2 := X * X + Y * Y) in *. destruct K as (D & _). pose proof usmall as (U & _). fold u in *. pose proof pi_bounds.
  assert (P : 0 <= r2) by (unfold r2; pose proof (Rle_0_sqr X); pose proof (Rle_0_sqr Y); unfold Rsqr in *; lra).
  assert (L : 0 <= sqrt (r2 / (1 - r2)) <= 1). { split; [apply sqrt_pos|]. apply Rle_trans with (sqrt 1); [apply sqrt_le_1_alt|rewrite sqrt_1; lra]. apply (Rmult_le_reg_r (1 - r2)); [lra|]. unfold Rdiv. rewrite Rmult_assoc, Rinv_l by lra. lra. }
  assert (0 <= atan (sqrt (r2 / (1 - r2))) <= PI / 4). { rewrite <- atan_1. split; [rewrite <- atan_0|]; destruct (proj1 L) as [Z|Z]; destruct (proj2 L) as [W|W]; try (apply Rlt_le, atan_increasing; assumption); try (rewrite W; lra); try (rewrite <- Z; lra); rewrite ?W, <- ?Z; try lra; apply Rlt_le, atan_increasing; lra. }
  apply abs_inv in D. lra.
Qed.

(** ** sensitivity of the exact quaternion to its arguments *)
Theorem c81_sensitivity era s sp d e xp yp era' s' sp' d' e' xp' yp' :
  qdist (c2i era s sp d e xp yp) (c2i era' s' sp' d' e' xp' yp') <= (Rabs (yp - yp') + Rabs (xp - xp') + Rabs ((e + s - sp - era) - (e' + s' - sp' - era')) + Rabs (d - d') + Rabs (e - e')) / 2.
Proof. exact (c2i_lip era s sp d e xp yp era' s' sp' d' e' xp' yp'). Qed.

(** ** runs exist: evaluation without rounding is one of them *)
Theorem c81_exact_run era s sp d e xp yp : c2i_run era s sp d e xp yp (c2i era s sp d e xp yp).
Proof. exact (c2i_self era s sp d e xp yp). Qed.
Theorem c81_exact_spherical X Y : let '(d, e) := xycip2spherical X Y in spherical_run X Y d e.
Proof. exact (spherical_self X Y). Qed.
Example c81_nonvacuous : exists q, c2i_run 5.1 2e-8 1e-10 1e-3 0.7 1e-6 2e-6 q /\ off 63.5 q (c2i 5.1 2e-8 1e-10 1e-3 0.7 1e-6 2e-6).
Proof. exists (c2i 5.1 2e-8 1e-10 1e-3 0.7 1e-6 2e-6). split; [apply c2i_self|]. apply c2i_off; try (apply Rabs_le; lra). apply c2i_self. Qed.
Example c81_doubles_nonvacuous : let a := Q64 (of_dec 6 1) (of_dec 8 1) (of_int 0) (of_int 0) in fin4 a /\ fin4 (qmul64 a a).
Proof. split; repeat split; vm_compute; reflexivity. Qed.
Print Assumptions c81_sum.
Print Assumptions c81_sum_orders.
Print Assumptions c81_product.
Print Assumptions c81_product_units.
Print Assumptions c81_product_doubles.
Print Assumptions c81_axis.
Print Assumptions c81_c2i.
Print Assumptions c81_c2tirs.
Print Assumptions c81_tirs2i.
Print Assumptions c81_agree.
Print Assumptions c81_chain.
Print Assumptions c81_norm.
Print Assumptions c81_vector.
Print Assumptions c81_vector_rounded.
Print Assumptions c81_surface.
Print Assumptions c81_spherical.
Print Assumptions c81_pole.
Print Assumptions c81_spherical_sign.
Print Assumptions c81_sensitivity.
Print Assumptions c81_exact_run.
Print Assumptions c81_exact_spherical.
