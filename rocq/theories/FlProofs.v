(** Soundness of the bounds of FlModel. *)
From Coq Require Import Reals ZArith List Lia Lra.
From Verif Require Import PiBound FundModel FlModel.
Import ListNotations.
Open Scope R_scope.

Definition unit120 : R := / 2 ^ 120.
(** the variables are within their bounds: exact values below, computed values near *)
Definition fits (ex co : nat -> R) (vb : nat -> Z * Z) : Prop :=
  forall i, Rabs (ex i) <= IZR (fst (vb i)) * unit120 /\ Rabs (co i - ex i) <= IZR (snd (vb i)) * unit120.

Lemma unit_pos : 0 < unit120.
Proof. unfold unit120. apply Rinv_0_lt_compat, pow_lt. lra. Qed.
Lemma IZR_pow2 k : IZR (2 ^ Z.of_nat k) = 2 ^ k.
Proof. rewrite <- pow_IZR. reflexivity. Qed.
Lemma unit_inv : IZR (2 ^ 120) * unit120 = 1.
Proof. change (2 ^ 120)%Z with (2 ^ Z.of_nat 120)%Z. rewrite IZR_pow2. unfold unit120. apply Rinv_r, Rgt_not_eq, pow_lt. lra. Qed.
Lemma quo_up (n d : Z) : (0 < d)%Z -> IZR n / IZR d <= IZR (n / d + 1).
Proof.
  intros Hd. assert (D : 0 < IZR d) by (apply IZR_lt; exact Hd). apply (Rmult_le_reg_r (IZR d)); [exact D|].
  unfold Rdiv. rewrite Rmult_assoc, Rinv_l, Rmult_1_r by lra. rewrite <- mult_IZR. apply IZR_le. pose proof (Z.div_mod n d). pose proof (Z.mod_pos_bound n d Hd). nia.
Qed.
Lemma upmul_ok a b : IZR a * unit120 * (IZR b * unit120) <= IZR (upmul a b) * unit120.
Proof.
  unfold upmul. rewrite Z.shiftr_div_pow2 by lia. pose proof (quo_up (a * b) (2 ^ 120) ltac:(lia)) as H. rewrite mult_IZR in H.
  pose proof unit_inv as U. pose proof unit_pos as P.
  replace (IZR a * unit120 * (IZR b * unit120)) with (IZR a * IZR b * unit120 * unit120) by ring.
  apply Rmult_le_compat_r; [lra|]. eapply Rle_trans; [|exact H]. unfold Rdiv. apply Req_le. f_equal.
  apply (Rmult_eq_reg_l (IZR (2 ^ 120))); [|apply Rgt_not_eq, IZR_lt; lia]. rewrite U, Rinv_r; [reflexivity|apply Rgt_not_eq, IZR_lt; lia].
Qed.
Lemma u_pos : 0 < u.
Proof. unfold u. apply Rinv_0_lt_compat, pow_lt. lra. Qed.
Lemma u_inv : u = / IZR (2 ^ 53).
Proof. unfold u. f_equal. change (2 ^ 53)%Z with (2 ^ Z.of_nat 53)%Z. symmetry. apply IZR_pow2. Qed.
Lemma urel_ok x : u * (IZR x * unit120) <= IZR (urel x) * unit120.
Proof.
  unfold urel. rewrite Z.shiftr_div_pow2 by lia. pose proof (quo_up x (2 ^ 53) ltac:(lia)) as H. pose proof unit_pos as P. rewrite u_inv.
  replace (/ IZR (2 ^ 53) * (IZR x * unit120)) with (IZR x / IZR (2 ^ 53) * unit120) by (unfold Rdiv; ring). apply Rmult_le_compat_r; [lra|exact H].
Qed.
Lemma tiny_ok : tiny <= unit120.
Proof. unfold tiny, unit120. apply Rinv_le_contravar; [apply pow_lt; lra|]. apply Rle_pow; [lra|]. apply Nat.leb_le. vm_compute. reflexivity. Qed.
Lemma assec_ok x m : Rabs x <= IZR m * unit120 -> Rabs (sec2rad x) <= IZR (assec m) * unit120.
Proof.
  intros H. unfold sec2rad, assec. pose proof unit_pos as P. pose proof pi_bounds as B.
  assert (M : 0 <= IZR m) by (pose proof (Rabs_pos x); nra).
  replace (x * PI / 648000) with (x * (PI / 648000)) by (unfold Rdiv; ring). rewrite Rabs_mult, (Rabs_pos_eq (PI / 648000)) by lra.
  pose proof (quo_up (m * 4848136812) (10 ^ 15) ltac:(lia)) as Q. rewrite mult_IZR in Q.
  assert (K : PI / 648000 <= 4848136812 / IZR (10 ^ 15)). { change (10 ^ 15)%Z with 1000000000000000%Z. lra. }
  apply Rle_trans with (IZR m * unit120 * (4848136812 / IZR (10 ^ 15))).
  - apply Rmult_le_compat; try lra. apply Rabs_pos.
  - replace (IZR m * unit120 * (4848136812 / IZR (10 ^ 15))) with (IZR m * 4848136812 / IZR (10 ^ 15) * unit120) by (unfold Rdiv; ring).
    apply Rmult_le_compat_r; lra.
Qed.

(** one rounded operation: exact x, on computed operands y, result v *)
Lemma rounded_ok (k : Z) x y v m i : (0 <= k)%Z -> Rabs x <= IZR m * unit120 -> Rabs (y - x) <= IZR i * unit120 -> Rabs (v - y) <= IZR k * u * Rabs y + tiny ->
  Rabs (v - x) <= IZR (i + k * urel (m + i) + 1) * unit120.
Proof.
  intros Hk Hx Hy Hv. assert (Y : Rabs y <= IZR (m + i) * unit120).
  { rewrite plus_IZR. replace y with (x + (y - x)) by ring. eapply Rle_trans; [apply Rabs_triang|]. lra. }
  pose proof (urel_ok (m + i)) as U. pose proof u_pos as P. pose proof tiny_ok as T. rewrite !plus_IZR, mult_IZR.
  assert (u * Rabs y <= IZR (urel (m + i)) * unit120). { eapply Rle_trans; [|exact U]. apply Rmult_le_compat_l; lra. }
  assert (IZR k * u * Rabs y <= IZR k * (IZR (urel (m + i)) * unit120)). { rewrite Rmult_assoc. apply Rmult_le_compat_l; [apply IZR_le, Hk|lra]. }
  replace (v - x) with ((v - y) + (y - x)) by ring. eapply Rle_trans; [apply Rabs_triang|]. lra.
Qed.
Lemma rounded_near x y v m i : Rabs x <= IZR m * unit120 -> Rabs (y - x) <= IZR i * unit120 -> near y v -> Rabs x <= IZR (fst (rounded m i)) * unit120 /\ Rabs (v - x) <= IZR (snd (rounded m i)) * unit120.
Proof.
  intros Hx Hy Hv. split; [exact Hx|]. unfold rounded. cbn [snd]. replace (urel (m + i)) with (1 * urel (m + i))%Z by lia. apply (rounded_ok 1 x y); try assumption; [lia|].
  unfold near in Hv. rewrite Rmult_1_l. exact Hv.
Qed.
Lemma sin_le x : Rabs (sin x) <= Rabs x.
Proof.
  assert (P : forall y, 0 < y -> Rabs (sin y) <= y).
  { intros y Hy. apply Rabs_le. split; [|apply Rlt_le, sin_lt_x, Hy]. destruct (Rle_or_lt y PI) as [H|H]; [pose proof (sin_ge_0 y); lra|].
    pose proof (SIN_bound y). pose proof pi_bounds. lra. }
  destruct (Rtotal_order 0 x) as [H|[<-|H]].
  - rewrite (Rabs_pos_eq x) by lra. apply P, H.
  - rewrite sin_0. apply Rle_refl.
  - rewrite (Rabs_left x) by exact H. replace x with (- - x) at 1 by ring. rewrite sin_neg, Rabs_Ropp. apply P. lra.
Qed.
Lemma sin_lip x y : Rabs (sin x - sin y) <= Rabs (x - y).
Proof.
  rewrite form4, Rabs_mult. pose proof (sin_le ((x - y) / 2)) as H. pose proof (COS_bound ((x + y) / 2)) as C.
  assert (Rabs (2 * cos ((x + y) / 2)) <= 2) by (apply Rabs_le; lra). pose proof (Rabs_pos (sin ((x - y) / 2))).
  replace (Rabs (x - y)) with (2 * Rabs ((x - y) / 2)). 2:{ rewrite <- (Rabs_pos_eq 2) at 1 by lra. rewrite <- Rabs_mult. f_equal. lra. }
  nra.
Qed.
Lemma cos_lip x y : Rabs (cos x - cos y) <= Rabs (x - y).
Proof. rewrite !cos_sin. replace (x - y) with ((PI / 2 + x) - (PI / 2 + y)) by ring. apply sin_lip. Qed.
Lemma trig_bound v s x y ex ea : Rabs (v - s x) <= / 2 ^ 52 -> (forall a b, Rabs (s a - s b) <= Rabs (a - b)) -> Rabs (x - y) <= IZR ea * unit120 -> ex = s y ->
  Rabs (v - ex) <= IZR (ea + 2 ^ 68) * unit120.
Proof.
  intros Hv L H ->. assert (E : IZR (2 ^ 68) * unit120 = / 2 ^ 52).
  { change (2 ^ 68)%Z with (2 ^ Z.of_nat 68)%Z. rewrite IZR_pow2. unfold unit120.
    replace 120%nat with (68 + 52)%nat by reflexivity. rewrite pow_add, Rinv_mult, <- Rmult_assoc, Rinv_r, Rmult_1_l by (apply Rgt_not_eq, pow_lt; lra). reflexivity. }
  rewrite plus_IZR, Rmult_plus_distr_r, E. replace (v - s y) with ((v - s x) + (s x - s y)) by ring. eapply Rle_trans; [apply Rabs_triang|]. pose proof (L x y). lra.
Qed.

Theorem bnd_sound ex co vb : fits ex co vb -> forall e v, run co e v ->
  Rabs (eval ex e) <= IZR (fst (bnd vb e)) * unit120 /\ Rabs (v - eval ex e) <= IZR (snd (bnd vb e)) * unit120.
Proof.
  intros F. pose proof unit_pos as P. induction e as [i|n|n k|a IH|a IHa b IHb|a IHa b IHb|a IHa b IHb|a IH d|a IH|a IH|a IH]; cbn [run eval bnd]; intros v Hv.
  - subst v. apply F.
  - subst v. cbn [fst snd]. rewrite Rminus_diag_eq, Rabs_R0 by reflexivity. split; [|lra]. rewrite mult_IZR, Rmult_assoc, unit_inv, Rmult_1_r, abs_IZR. lra.
  - apply (rounded_near _ (IZR n / 10 ^ k)); [|rewrite Rminus_diag_eq, Rabs_R0 by reflexivity; lra|exact Hv].
    assert (T : 0 < 10 ^ k) by (apply pow_lt; lra). assert (T' : IZR (10 ^ Z.of_nat k) = 10 ^ k) by (rewrite <- pow_IZR; reflexivity).
    pose proof (quo_up (Z.abs n * 2 ^ 120) (10 ^ Z.of_nat k) ltac:(lia)) as Q. rewrite mult_IZR, T', abs_IZR in Q.
    unfold Rdiv in *. rewrite Rabs_mult, (Rabs_pos_eq (/ 10 ^ k)) by (apply Rlt_le, Rinv_0_lt_compat, T).
    replace (Rabs (IZR n) * / 10 ^ k) with (Rabs (IZR n) * IZR (2 ^ 120) * / 10 ^ k * unit120).
    + apply Rmult_le_compat_r; lra.
    + replace (Rabs (IZR n) * IZR (2 ^ 120) * / 10 ^ k * unit120) with (Rabs (IZR n) * / 10 ^ k * (IZR (2 ^ 120) * unit120)) by ring. rewrite unit_inv. ring.
  - destruct Hv as (x & Hx & ->). destruct (IH x Hx) as [A B]. rewrite Rabs_Ropp. split; [exact A|]. replace (- x - - eval ex a) with (- (x - eval ex a)) by ring. rewrite Rabs_Ropp. exact B.
  - destruct Hv as (x & y & Hx & Hy & Hv). destruct (IHa x Hx) as [A B], (IHb y Hy) as [C D]. destruct (bnd vb a) as [ma ea], (bnd vb b) as [mb eb]. cbn [fst snd] in *.
    apply (rounded_near _ (x + y)); [| |exact Hv]; rewrite plus_IZR, Rmult_plus_distr_r.
    + eapply Rle_trans; [apply Rabs_triang|]. lra.
    + replace (x + y - (eval ex a + eval ex b)) with ((x - eval ex a) + (y - eval ex b)) by ring. eapply Rle_trans; [apply Rabs_triang|]. lra.
  - destruct Hv as (x & y & Hx & Hy & Hv). destruct (IHa x Hx) as [A B], (IHb y Hy) as [C D]. destruct (bnd vb a) as [ma ea], (bnd vb b) as [mb eb]. cbn [fst snd] in *.
    apply (rounded_near _ (x - y)); [| |exact Hv]; rewrite plus_IZR, Rmult_plus_distr_r.
    + unfold Rminus at 1. eapply Rle_trans; [apply Rabs_triang|]. rewrite Rabs_Ropp. lra.
    + replace (x - y - (eval ex a - eval ex b)) with ((x - eval ex a) + - (y - eval ex b)) by ring. eapply Rle_trans; [apply Rabs_triang|]. rewrite Rabs_Ropp. lra.
  - destruct Hv as (x & y & Hx & Hy & Hv). destruct (IHa x Hx) as [A B], (IHb y Hy) as [C D]. destruct (bnd vb a) as [ma ea], (bnd vb b) as [mb eb]. cbn [fst snd] in *.
    assert (M : forall p q m n, Rabs p <= IZR m * unit120 -> Rabs q <= IZR n * unit120 -> Rabs (p * q) <= IZR (upmul m n) * unit120).
    { intros p q m n Hp Hq. eapply Rle_trans; [|apply upmul_ok]. rewrite Rabs_mult. apply Rmult_le_compat; try apply Rabs_pos; assumption. }
    apply (rounded_near _ (x * y)); [apply M; assumption| |exact Hv].
    replace (x * y - eval ex a * eval ex b) with ((x - eval ex a) * eval ex b + eval ex a * (y - eval ex b) + (x - eval ex a) * (y - eval ex b)) by ring.
    rewrite !plus_IZR, !Rmult_plus_distr_r. eapply Rle_trans; [apply Rabs_triang|]. pose proof (M _ _ _ _ B D).
    assert (Rabs ((x - eval ex a) * eval ex b + eval ex a * (y - eval ex b)) <= IZR (upmul ea mb) * unit120 + IZR (upmul ma eb) * unit120); [|lra].
    eapply Rle_trans; [apply Rabs_triang|]. pose proof (M _ _ _ _ B C). pose proof (M _ _ _ _ A D). lra.
  - destruct Hv as (x & Hx & Hv). destruct (IH x Hx) as [A B]. destruct (bnd vb a) as [ma ea]. cbn [fst snd] in *.
    assert (DP : 0 < / IZR (Z.pos d)) by (apply Rinv_0_lt_compat, IZR_lt; lia).
    assert (M : forall p m, Rabs p <= IZR m * unit120 -> Rabs (p / IZR (Z.pos d)) <= IZR (m / Z.pos d + 1) * unit120).
    { intros p m Hp. unfold Rdiv. rewrite Rabs_mult, (Rabs_pos_eq (/ _)) by lra. pose proof (quo_up m (Z.pos d) ltac:(lia)) as Q.
      apply Rle_trans with (IZR m / IZR (Z.pos d) * unit120); [|apply Rmult_le_compat_r; lra].
      replace (IZR m / IZR (Z.pos d) * unit120) with (IZR m * unit120 * / IZR (Z.pos d)) by (unfold Rdiv; ring). apply Rmult_le_compat_r; lra. }
    apply (rounded_near _ (x / IZR (Z.pos d))); [apply M, A| |exact Hv]. replace (x / IZR (Z.pos d) - eval ex a / IZR (Z.pos d)) with ((x - eval ex a) / IZR (Z.pos d)) by (unfold Rdiv; ring). apply M, B.
  - destruct Hv as (x & Hx & Hv). destruct (IH x Hx) as [A B]. destruct (bnd vb a) as [ma ea]. cbn [fst snd] in *. split.
    + rewrite unit_inv. pose proof (SIN_bound (eval ex a)). apply Rabs_le. lra.
    + apply (trig_bound v sin x (eval ex a)); try assumption; [exact sin_lip|reflexivity].
  - destruct Hv as (x & Hx & Hv). destruct (IH x Hx) as [A B]. destruct (bnd vb a) as [ma ea]. cbn [fst snd] in *. split.
    + rewrite unit_inv. pose proof (COS_bound (eval ex a)). apply Rabs_le. lra.
    + apply (trig_bound v cos x (eval ex a)); try assumption; [exact cos_lip|reflexivity].
  - destruct Hv as (x & Hx & Hv). destruct (IH x Hx) as [A B]. destruct (bnd vb a) as [ma ea]. cbn [fst snd] in *. pose proof (assec_ok _ _ A) as A'. pose proof (assec_ok _ _ B) as B'.
    split; [exact A'|]. apply (rounded_ok 4 _ (sec2rad x)); [lia|exact A'| |exact Hv].
    replace (sec2rad x - sec2rad (eval ex a)) with (sec2rad (x - eval ex a)) by (unfold sec2rad, Rdiv; ring). exact B'.
Qed.
