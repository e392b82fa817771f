(** Proofs about the regularisation in binary64. *)
From Coq Require Import Reals ZArith List Bool Lia Lra.
From Flocq Require Import Core.Core IEEE754.BinarySingleNaN.
From Verif Require Import KahanModel FlModel FlProofs FlFloatModel FlFloatProofs EopModel RegTestModel RegTestSpec.
Import ListNotations.
Open Scope R_scope.
Notation double := RegTestSpec.double.

Lemma rnd_rn x : rnd x = rn x. Proof. reflexivity. Qed.
Lemma rnd_near x : Rabs (rnd x - x) <= u * Rabs x + tiny. Proof. exact (rn_near x). Qed.
Lemma rnd_double x : double (rnd x).
Proof. apply generic_format_round; [apply FLT_exp_valid; reflexivity|apply valid_rnd_N]. Qed.
Lemma rnd_id x : double x -> rnd x = x. Proof. apply round_generic, valid_rnd_N. Qed.
Lemma rnd_le x y : x <= y -> rnd x <= rnd y. Proof. apply round_le; [apply FLT_exp_valid; reflexivity|apply valid_rnd_N]. Qed.
Lemma rnd_opp x : rnd (- x) = - rnd x. Proof. apply round_NE_opp. Qed.
(** the closest double is at least as close as any other *)
Lemma rnd_closest x y : double y -> Rabs (rnd x - x) <= Rabs (y - x).
Proof.
  intros D. pose proof (FLT_exp_valid (-1074) 53 (prec_gt_0_ := eq_refl)) as V. destruct (round_N_pt radix2 (FLT_exp (-1074) 53) (fun x => negb (Z.even x)) x) as [_ N]. apply N, D.
Qed.
(** the value subtracted and added *)
Definition part (fused : bool) (c : R) : R := if fused then c * rnd (1 / 10 ^ 6) else rnd (c * rnd (1 / 10 ^ 6)).
Lemma plus_minus fused x c : plus64 fused x c (factor (-1)) = rnd (x - part fused c).
Proof.
  unfold plus64, factor, part. cbn [Z.ltb Z.compare]. destruct fused; [f_equal; ring|]. replace (c * - rnd (1 / 10 ^ 6)) with (- (c * rnd (1 / 10 ^ 6))) by ring. rewrite rnd_opp. reflexivity.
Qed.
Lemma plus_plus fused x c : plus64 fused x c (factor 1) = rnd (x + part fused c).
Proof. unfold plus64, factor, part. cbn [Z.ltb Z.compare]. destruct fused; reflexivity. Qed.
Lemma round_trip x d : double x -> Rabs (rnd (rnd (x - d) + d) - x) <= 2 * (u * Rabs (x - d) + tiny).
Proof.
  intros D. pose proof (rnd_near (x - d)) as A. pose proof (rnd_closest (rnd (x - d) + d) x D) as B. set (y := rnd (x - d)) in *. set (z := rnd (y + d)) in *.
  replace (z - x) with ((z - (y + d)) + (y - (x - d))) by ring. eapply Rle_trans; [apply Rabs_triang|].
  replace (x - (y + d)) with (- (y - (x - d))) in B by ring. rewrite Rabs_Ropp in B. lra.
Qed.
Lemma exact_trip x d : double x -> double (x - d) -> rnd (rnd (x - d) + d) = x.
Proof. intros D E. rewrite (rnd_id _ E). replace (x - d + d) with x by ring. apply rnd_id, D. Qed.
Lemma changed x d : u * Rabs (x - d) + tiny < Rabs d -> rnd (x - d) <> x.
Proof. intros H E. pose proof (rnd_near (x - d)) as N. rewrite E in N. replace (x - (x - d)) with d in N by ring. lra. Qed.
Lemma u_small : 0 < u <= / 10 ^ 15. Proof. unfold u. cbn [pow]. lra. Qed.
Lemma tiny_small : 0 < tiny <= / 2 ^ 100.
Proof. unfold tiny. split; [apply Rinv_0_lt_compat, pow_lt; lra|]. apply Rinv_le_contravar; [apply pow_lt; lra|]. apply Rle_pow; [lra|lia]. Qed.
Lemma part_correction fused c : correction c (part fused c).
Proof.
  unfold correction, part. change (/ 2 ^ 53) with u. change (/ 2 ^ 1074) with tiny. pose proof u_small as U. pose proof tiny_small as TS. set (m := 1 / 10 ^ 6) in *. pose proof (rnd_near m) as M. set (f := rnd m) in *.
  assert (Hm : 0 < m <= / 10 ^ 6) by (unfold m; cbn [pow]; lra). rewrite (Rabs_pos_eq m) in M by lra.
  replace (c / 10 ^ 6) with (c * m) by (unfold m; field; apply pow_nonzero; lra). rewrite (Rabs_mult c m), (Rabs_pos_eq m) by lra. pose proof (Rabs_pos c) as C.
  assert (A : Rabs (c * f - c * m) <= Rabs c * (u * m + tiny)).
  { replace (c * f - c * m) with (c * (f - m)) by ring. rewrite Rabs_mult. apply Rmult_le_compat_l; assumption. }
  assert (T1 : tiny <= / 10 ^ 15) by (assert (/ 2 ^ 100 <= / 10 ^ 15) by (cbn [pow]; lra); lra). assert (P15 : / 10 ^ 15 <= / 4) by (cbn [pow]; lra).
  assert (P : 0 <= Rabs c * (u * m)) by (apply Rmult_le_pos; [lra|apply Rmult_le_pos; lra]). assert (Q : 0 <= Rabs c * tiny) by (apply Rmult_le_pos; lra).
  destruct fused; [nra|]. pose proof (rnd_near (c * f)) as N. replace (rnd (c * f) - c * m) with ((rnd (c * f) - c * f) + (c * f - c * m)) by ring.
  eapply Rle_trans; [apply Rabs_triang|]. assert (B : Rabs (c * f) <= Rabs c * m + Rabs c * (u * m + tiny)).
  { replace (c * f) with (c * m + (c * f - c * m)) by ring. eapply Rle_trans; [apply Rabs_triang|]. rewrite (Rabs_mult c m), (Rabs_pos_eq m) by lra. lra. }
  assert (E : u * Rabs (c * f) <= u * (Rabs c * m) + u * (Rabs c * (u * m)) + u * (Rabs c * tiny)) by (assert (u * Rabs (c * f) <= u * (Rabs c * m + Rabs c * (u * m + tiny))) by (apply Rmult_le_compat_l; lra); lra).
  assert (F : u * (Rabs c * (u * m)) <= / 4 * (Rabs c * (u * m))) by (apply Rmult_le_compat_r; lra).
  assert (G : u * (Rabs c * tiny) <= / 4 * (Rabs c * tiny)) by (apply Rmult_le_compat_r; lra). lra.
Qed.
Lemma part_bound fused c : Rabs c <= 10 ^ 6 -> Rabs (part fused c) <= 1.01.
Proof.
  intros H. pose proof (part_correction fused c) as P. unfold correction in P. change (/ 2 ^ 53) with u in P. change (/ 2 ^ 1074) with tiny in P. pose proof u_small as U. pose proof tiny_small as TS.
  assert (T0 : 0 < tiny <= / 10 ^ 15) by (assert (/ 2 ^ 100 <= / 10 ^ 15) by (cbn [pow]; lra); lra).
  assert (A : Rabs (c / 10 ^ 6) <= 1).
  { unfold Rdiv. rewrite Rabs_mult, (Rabs_pos_eq (/ _)) by (cbn [pow]; lra). cbn [pow] in *. lra. }
  assert (B : 3 * u * Rabs (c / 10 ^ 6) <= 3 * u) by (rewrite <- (Rmult_1_r (3 * u)) at 2; apply Rmult_le_compat_l; lra).
  assert (C : 2 * tiny * (1 + Rabs c) <= 2 * / 10 ^ 15 * (1 + 10 ^ 6)) by (pose proof (Rabs_pos c); apply Rmult_le_compat; lra).
  replace (part fused c) with ((part fused c - c / 10 ^ 6) + c / 10 ^ 6) by ring. eapply Rle_trans; [apply Rabs_triang|]. cbn [pow] in *. lra.
Qed.
Lemma double_bpow e : (-1022 <= e)%Z -> double (bpow radix2 e).
Proof. intros H. apply generic_format_bpow. unfold FLT_exp. lia. Qed.
Lemma close_intro a b : Rabs (a - b) <= / 2 ^ 50 -> close a b.
Proof.
  intros H. unfold close. assert (E : bpow radix2 (-50) = / 2 ^ 50) by (cbn; lra).
  assert (D : double (/ 2 ^ 50)) by (rewrite <- E; apply double_bpow; lia).
  assert (L : Rabs (rnd (a - b)) <= / 2 ^ 50).
  { apply Rabs_le_inv in H. apply Rabs_le. split.
    - rewrite <- (rnd_id _ D), <- rnd_opp. apply rnd_le. lra.
    - rewrite <- (rnd_id _ D). apply rnd_le. lra. }
  pose proof (rnd_near (1 / 10 ^ 15)) as N. rewrite (Rabs_pos_eq (1 / 10 ^ 15)) in N by (cbn [pow]; lra). apply Rabs_le_inv in N. pose proof u_small as U. pose proof tiny_small as TS.
  eapply Rle_lt_trans; [exact L|]. assert (u * (1 / 10 ^ 15) <= / 10 ^ 15 * (1 / 10 ^ 15)) by (apply Rmult_le_compat_r; [cbn [pow]; lra|lra]). cbn [pow] in *. lra.
Qed.
Lemma trip_close fused x c : usual x c -> close (plus64 fused (plus64 fused x c (factor (-1))) c (factor 1)) x.
Proof.
  intros (D & X & C). rewrite plus_minus, plus_plus. apply close_intro. eapply Rle_trans; [apply round_trip, D|]. pose proof (part_bound fused c C) as P. pose proof tiny_small as TS.
  assert (A : Rabs (x - part fused c) <= 3) by (unfold Rminus; eapply Rle_trans; [apply Rabs_triang|]; rewrite Rabs_Ropp; lra). pose proof u_small as U.
  assert (u * Rabs (x - part fused c) <= u * 3) by (apply Rmult_le_compat_l; lra). unfold u in *. cbn [pow] in *. lra.
Qed.
Section Series.
  Variable T : Type.
  Variable zonal : T -> R * R.
  Variable fused : bool.
  Lemma test_second l : Forall (fun r => usual (dut T r) (fst (zonal (rt T r))) /\ usual (lod T r) (snd (zonal (rt T r)))) l -> second_part T zonal fused l.
  Proof.
    unfold second_part, regularize64. rewrite map_map. induction 1 as [|r l (A & B) _ IH]; cbn [map]; constructor; [|exact IH].
    destruct (zonal (rt T r)) as [a b] eqn:Z. cbn [rt dut lod xp yp dX dY rdat xrt yrt fst snd] in *. rewrite Z. unfold assert2, same_members. cbn [rt dut lod xp yp dX dY rdat xrt yrt].
    split; [repeat split; reflexivity|]. split; apply trip_close; assumption.
  Qed.
  Lemma test_first l : first_part T zonal fused l <-> Forall (fun r => rnd (dut T r - part fused (fst (zonal (rt T r)))) <> dut T r /\ rnd (lod T r - part fused (snd (zonal (rt T r)))) <> lod T r) l.
  Proof.
    unfold first_part, regularize64. induction l as [|r l IH]; cbn [map]; [split; constructor|].
    assert (E : assert1 T (let (a, b) := zonal (rt T r) in mkR T (rt T r) (xp T r) (yp T r) (plus64 fused (dut T r) a (factor (-1))) (plus64 fused (lod T r) b (factor (-1))) (dX T r) (dY T r) (rdat T r) (xrt T r) (yrt T r)) r <->
      (rnd (dut T r - part fused (fst (zonal (rt T r)))) <> dut T r /\ rnd (lod T r - part fused (snd (zonal (rt T r)))) <> lod T r)).
    { destruct (zonal (rt T r)) as [a b]. unfold assert1, same_members. cbn [rt dut lod xp yp dX dY fst snd]. rewrite !plus_minus. tauto. }
    split; intros H; inversion H; subst; constructor; tauto.
  Qed.
End Series.
(** 2^-80 is lost *)
Definition mu : KahanModel.double := of_dec 1 6.
Definition small : KahanModel.double := binary_normalize 53 1024 Hprec Hmax mode_NE 1 (-80) false.
Lemma lost : rnd (rnd (val small - rnd (1 / 10 ^ 6)) + rnd (1 / 10 ^ 6)) = 0 /\ 0 < val small /\ double (val small).
Proof.
  assert (M : rnd (1 / 10 ^ 6) = val mu) by (unfold mu; rewrite of_dec_round; reflexivity). rewrite M. split; [|split].
  - assert (S1 : rnd (val small - val mu) = - val mu).
    { pose proof (Bminus_correct 53 1024 Hprec Hmax mode_NE small mu ltac:(vm_compute; reflexivity) ltac:(vm_compute; reflexivity)) as C.
      change (round radix2 (SpecFloat.fexp 53 1024) (round_mode mode_NE) (val small - val mu)) with (rn (val small - val mu)) in C.
      assert (V : dsub small mu = Bopp mu) by (apply B2SF_inj; vm_compute; reflexivity). unfold dsub in V. rewrite V, B2R_Bopp in C.
      destruct (Rlt_bool _ _); [symmetry; apply C|]. destruct C as [C _]. exfalso. vm_compute in C. discriminate. }
    rewrite S1. replace (- val mu + val mu) with 0 by ring. apply rnd_id, generic_format_0.
  - change (val small) with (B2R small). replace small with (B754_finite (prec := 53) (emax := 1024) false 4503599627370496 (-132) eq_refl) by (apply B2SF_inj; vm_compute; reflexivity).
    cbn [B2R]. apply F2R_gt_0. reflexivity.
  - apply (generic_format_B2R 53 1024).
Qed.
Lemma part_changes fused x c : usual x c -> / 10 ^ 9 <= Rabs c -> rnd (x - part fused c) <> x.
Proof.
  intros (D & X & C) B. apply changed. pose proof (part_bound fused c C) as P. pose proof (part_correction fused c) as K. unfold correction in K. change (/ 2 ^ 53) with u in K. change (/ 2 ^ 1074) with tiny in K. pose proof tiny_small as TS.
  assert (A : Rabs (x - part fused c) <= 2.01) by (unfold Rminus; eapply Rle_trans; [apply Rabs_triang|]; rewrite Rabs_Ropp; lra). pose proof u_small as U.
  assert (A' : u * Rabs (x - part fused c) <= u * 2.01) by (apply Rmult_le_compat_l; lra).
  assert (E : Rabs (c / 10 ^ 6) = Rabs c * / 10 ^ 6) by (unfold Rdiv; rewrite Rabs_mult, (Rabs_pos_eq (/ _)); [reflexivity|cbn [pow]; lra]).
  assert (L : Rabs (c / 10 ^ 6) <= Rabs (part fused c) + Rabs (part fused c - c / 10 ^ 6)).
  { replace (c / 10 ^ 6) with (part fused c - (part fused c - c / 10 ^ 6)) at 1 by ring. unfold Rminus at 1. eapply Rle_trans; [apply Rabs_triang|]. rewrite Rabs_Ropp. lra. }
  assert (F : 3 * u * Rabs (c / 10 ^ 6) <= / 1000 * Rabs (c / 10 ^ 6)) by (apply Rmult_le_compat_r; [apply Rabs_pos|cbn [pow] in *; lra]).
  assert (G : 2 * tiny * (1 + Rabs c) <= 2 * / 2 ^ 100 * (1 + 10 ^ 6)) by (pose proof (Rabs_pos c); apply Rmult_le_compat; lra).
  rewrite E in *. unfold u in *. cbn [pow] in *. lra.
Qed.
Lemma small_le : val small <= 1.
Proof.
  replace small with (B754_finite (prec := 53) (emax := 1024) false 4503599627370496 (-132) eq_refl) by (apply B2SF_inj; vm_compute; reflexivity).
  cbn [B2R]. unfold F2R. cbn [Fnum Fexp cond_Zopp]. rewrite <- (Rmult_1_r 1). apply Rle_trans with (bpow radix2 52 * bpow radix2 (-132)); [apply Rmult_le_compat_r; [apply bpow_ge_0|]; cbn; lra|].
  rewrite <- bpow_plus, Rmult_1_r. change 1 with (bpow radix2 0). apply bpow_le. lia.
Qed.
