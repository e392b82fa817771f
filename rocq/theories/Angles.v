(** Angles modulo a full turn. *)
From Coq Require Import Reals ZArith Lra Lia.
Open Scope R_scope.

(** same angle *)
Definition eqm (x y : R) : Prop := exists k : Z, x = y + 2 * PI * IZR k.

Lemma eqm_refl x : eqm x x.
Proof. exists 0%Z. simpl. ring. Qed.
Lemma eqm_sym x y : eqm x y -> eqm y x.
Proof. intros [k ->]. exists (- k)%Z. rewrite opp_IZR. ring. Qed.
Lemma eqm_trans x y z : eqm x y -> eqm y z -> eqm x z.
Proof. intros [k ->] [l ->]. exists (l + k)%Z. rewrite plus_IZR. ring. Qed.
Lemma eqm_add a b c d : eqm a b -> eqm c d -> eqm (a + c) (b + d).
Proof. intros [k ->] [l ->]. exists (k + l)%Z. rewrite plus_IZR. ring. Qed.
Lemma eqm_opp a b : eqm a b -> eqm (- a) (- b).
Proof. intros [k ->]. exists (- k)%Z. rewrite opp_IZR. ring. Qed.
Lemma eqm_sub a b c d : eqm a b -> eqm c d -> eqm (a - c) (b - d).
Proof. intros H1 H2. unfold Rminus. apply eqm_add; [exact H1|apply eqm_opp, H2]. Qed.
Lemma eqm_scale n a b : eqm a b -> eqm (a * IZR n) (b * IZR n).
Proof. intros [k ->]. exists (k * n)%Z. rewrite mult_IZR. ring. Qed.
Lemma eqm_eq x y : x = y -> eqm x y.
Proof. intros ->. apply eqm_refl. Qed.

Lemma cos_2kpi x k : cos (x + 2 * PI * IZR k) = cos x.
Proof.
  assert (N : forall x n, cos (x + 2 * PI * INR n) = cos x).
  { intros y n. rewrite <- (cos_period y n). f_equal. ring. }
  destruct (Z_le_gt_dec 0 k).
  - rewrite <- (Z2Nat.id k) by assumption. rewrite <- INR_IZR_INZ. apply N.
  - rewrite <- (N (x + 2 * PI * IZR k) (Z.to_nat (- k))). f_equal.
    rewrite INR_IZR_INZ, Z2Nat.id by lia. rewrite opp_IZR. ring.
Qed.
Lemma sin_2kpi x k : sin (x + 2 * PI * IZR k) = sin x.
Proof.
  rewrite <- (cos_shift x), <- (cos_shift (x + _)). replace (PI / 2 - (x + 2 * PI * IZR k)) with (PI / 2 - x + 2 * PI * IZR (- k)).
  - apply cos_2kpi.
  - rewrite opp_IZR. ring.
Qed.
Lemma eqm_cos x y : eqm x y -> cos x = cos y.
Proof. intros [k ->]. apply cos_2kpi. Qed.
Lemma eqm_sin x y : eqm x y -> sin x = sin y.
Proof. intros [k ->]. apply sin_2kpi. Qed.

(** dso::anp (external, datetime/geodesy library): reduce an angle to [0, 2 pi) *)
Definition anp (x : R) : R := x - 2 * PI * IZR (Int_part (x / (2 * PI))).

Lemma two_pi_pos : 0 < 2 * PI.
Proof. pose proof PI_RGT_0. lra. Qed.
Lemma anp_eqm x : eqm (anp x) x.
Proof. exists (- Int_part (x / (2 * PI)))%Z. unfold anp. rewrite opp_IZR. ring. Qed.
Lemma anp_range x : 0 <= anp x < 2 * PI.
Proof.
  unfold anp. pose proof two_pi_pos as P. destruct (base_Int_part (x / (2 * PI))) as [L U].
  assert (E : x = 2 * PI * (x / (2 * PI))) by (field; lra).
  assert (H1 : 2 * PI * IZR (Int_part (x / (2 * PI))) <= 2 * PI * (x / (2 * PI))) by (apply Rmult_le_compat_l; lra).
  assert (H2 : 2 * PI * (x / (2 * PI)) < 2 * PI * (IZR (Int_part (x / (2 * PI))) + 1)) by (apply Rmult_lt_compat_l; lra).
  rewrite <- E in H1, H2. lra.
Qed.

(** two reduced angles that agree modulo a turn are equal *)
Lemma eqm_unique x y : 0 <= x < 2 * PI -> 0 <= y < 2 * PI -> eqm x y -> x = y.
Proof.
  intros Hx Hy [k E]. pose proof two_pi_pos as P. assert (k = 0%Z).
  { assert (-1 < IZR k < 1) as [A B].
    { split; apply (Rmult_lt_reg_l (2 * PI)); lra. }
    apply lt_IZR in A, B. lia. }
  subst k. rewrite E. simpl. ring.
Qed.
Lemma anp_eqm_iff x y : eqm x y <-> anp x = anp y.
Proof.
  split.
  - intros H. apply eqm_unique; [apply anp_range|apply anp_range|].
    eapply eqm_trans; [apply anp_eqm|]. eapply eqm_trans; [exact H|]. apply eqm_sym, anp_eqm.
  - intros H. eapply eqm_trans; [apply eqm_sym, anp_eqm|]. rewrite H. apply anp_eqm.
Qed.
Lemma anp_id x : 0 <= x < 2 * PI -> anp x = x.
Proof. intros H. apply eqm_unique; [apply anp_range|exact H|apply anp_eqm]. Qed.
