(** At the double nearest to pi/2 the computed derivative of the zonal function of degree 3 is about -29; the derivative is about 0. *)
From Coq Require Import Reals ZArith List Bool Lia Lra Psatz.
From Flocq Require Import Core.Core IEEE754.BinarySingleNaN.
From Verif Require Import KahanModel FundModel FlModel FlProofs FlFloatModel FlFloatProofs FlCip64Proofs PiBound.
From Verif Require Import Poly AlfSpec AlfMath FlAlfModel FlAlfProofs FlAlfProofs2 FlAlf64Proofs.
Open Scope R_scope.

(** 0x1.921fb54442d18p+0 *)
Definition half_pi : double := binary_normalize 53 1024 Hprec Hmax mode_NE 7074237752028440 (-52) false.
Lemma half_pi_val : fin half_pi /\ val half_pi = 7074237752028440 / 4503599627370496.
Proof. split; [reflexivity|]. unfold half_pi. assert (E : B2R (binary_normalize 53 1024 Hprec Hmax mode_NE 7074237752028440 (-52) false) = F2R (Float radix2 7074237752028440 (-52))) by (vm_compute B2R; unfold F2R; cbn; lra). rewrite E. unfold F2R. cbn. lra. Qed.
Lemma pole_distance : 5.5e-17 <= PI / 2 - val half_pi <= 6.3e-17.
Proof. rewrite (proj2 half_pi_val). pose proof pi_bounds. lra. Qed.
Lemma sin_low x : 0 <= x <= 1 -> x / 2 <= sin x.
Proof.
  intros H. pose proof pi_bounds. destruct (Req_dec x 0) as [-> | X]; [rewrite sin_0; lra|]. destruct (MVT_cor2 sin cos 0 x) as (c & E & Hc); [lra|intros c _; apply derivable_pt_lim_sin|]. rewrite sin_0 in E.
  assert (C : / 2 <= cos c) by (replace (/ 2) with (cos (PI / 3)) by (rewrite cos_PI3; lra); apply cos_decr_1; lra). nra.
Qed.
Lemma pole_cos : 2e-17 <= cos (val half_pi) <= 6.3e-17.
Proof.
  pose proof pole_distance as D. rewrite <- (sin_shift (val half_pi)). split; [eapply Rle_trans; [|apply sin_low]; lra|]. eapply Rle_trans; [|apply D]. pose proof (sin_le (PI / 2 - val half_pi)) as S. rewrite (Rabs_pos_eq (PI / 2 - val half_pi)) in S by lra. apply Rabs_le_inv in S. lra.
Qed.
Lemma pole_sin : 1 - 1e-30 <= sin (val half_pi) <= 1.
Proof.
  pose proof pole_cos as C. pose proof (SIN_bound (val half_pi)) as B. split; [|lra]. pose proof (sin2_cos2 (val half_pi)) as S. unfold Rsqr in S. assert (0 <= sin (val half_pi)). { apply sin_ge_0; pose proof pole_distance; pose proof pi_bounds; lra. } nra.
Qed.
Lemma rn_one x : 1 - 1e-30 <= x <= 1 -> rn x = 1.
Proof.
  intros H. assert (V : Valid_exp fx) by (change fx with (FLT_exp (-1074) 53); apply FLT_exp_valid; reflexivity). assert (G : generic_format radix2 fx 1). { change 1 with (bpow radix2 0). apply generic_format_bpow. apply Z.leb_le. reflexivity. }
  apply Rle_antisym.
  - unfold rn. apply Rle_trans with (round radix2 fx ZnearestE 1); [apply round_le; [exact V|apply valid_rnd_N|lra]|]. right. apply round_generic; [apply valid_rnd_N|exact G].
  - unfold rn. apply round_N_ge_midp; [exact V|exact G|]. pose proof (pred_bpow radix2 fx 0) as Q. change (bpow radix2 0) with 1 in Q. rewrite Q. change (fx 0) with (-53)%Z. replace (bpow radix2 (-53)) with (/ 9007199254740992) by reflexivity. lra.
Qed.

Lemma sin64_pole : lib_trig sin half_pi = of_int 1.
Proof.
  unfold lib_trig. set (x := sin (val half_pi)). assert (R1 : rn x = 1) by (apply rn_one, pole_sin). unfold of_real. rewrite R1.
  assert (C : cexp radix2 fx 1 = (-52)%Z). { unfold cexp. rewrite (mag_unique_pos radix2 1 1); [reflexivity|]. cbn. lra. }
  unfold scaled_mantissa. rewrite C. replace (1 * bpow radix2 (- (-52))) with (IZR (2 ^ 52)) by (cbn; lra). rewrite Ztrunc_IZR. apply B2SF_inj. vm_compute. reflexivity.
Qed.
Lemma cos64_pole : fin (lib_trig cos half_pi) /\ 1e-17 <= val (lib_trig cos half_pi) <= 6.31e-17.
Proof.
  pose proof pole_cos as C. destruct (of_real_ok (cos (val half_pi))) as (F & N); [rewrite Rabs_pos_eq, big_val by lra; lra|]. split; [exact F|]. unfold near in N. rewrite (Rabs_pos_eq (cos (val half_pi))) in N by lra. unfold lib_trig. pose proof u_small as U. pose proof tiny_u as T. pose proof tiny_pos.
  assert (u * cos (val half_pi) <= / 1000000000000000 * cos (val half_pi)) by (apply Rmult_le_compat_r; lra). assert (T2 : tiny <= 1e-20).
  { assert (A : 1e12 <= 2 ^ 1000). { apply Rle_trans with (2 ^ 40); [|apply Rle_pow; [lra|apply Nat.leb_le; reflexivity]]. replace (2 ^ 40) with (IZR (2 ^ 40)) by apply (IZR_pow2 40). change (2 ^ 40)%Z with 1099511627776%Z. lra. } assert (tiny * 1e12 <= u) by (eapply Rle_trans; [|exact T]; apply Rmult_le_compat_l; lra). lra. }
  apply Rabs_le_inv in N. lra.
Qed.
(** the parenthesis of line 112 *)
Definition pole_paren : double := dsub (dmul (dmul (of_int 3) (of_int 1)) (legendre64 (fun _ => of_int 1) (fun _ => dzero) half_pi 3 0)) (dmul (root64 (fnum 3 0) (fden 3 0)) (legendre64 (fun _ => of_int 1) (fun _ => dzero) half_pi 2 0)).
Lemma pole_paren_val : fin pole_paren /\ val pole_paren = - (1 / 562949953421312).
Proof.
  assert (E : B2SF pole_paren = SpecFloat.S754_finite true 4503599627370496 (-101)) by (vm_compute; reflexivity). destruct pole_paren as [s|s| |s m e b]; try discriminate E. cbn in E. injection E as -> -> ->. split; [reflexivity|]. cbn [B2R]. unfold F2R. cbn. lra.
Qed.
Lemma P31_bound x : -1 <= x <= 1 -> Rabs (legendre 3 1 x) <= 6.
Proof.
  intros H. pose proof (three_terms 1 1 x ltac:(lia)) as T. pose proof (legendre_next 1 x) as A. pose proof (legendre_diagonal 0 x) as B. rewrite legendre_00 in B. rewrite B in A. rewrite A, B in T. cbn in T. assert (L : legendre 3 1 x = (15 * x ^ 2 - 3) / 2) by (cbn; lra). rewrite L. apply Rabs_le. nra.
Qed.
Theorem pole_derivative l : derivable_pt_lim (Pbar 3 0) (val half_pi) l -> fin (derivative64 (lib_trig sin) (lib_trig cos) half_pi 3 0) /\ Rabs l <= 1e-14 /\ val (derivative64 (lib_trig sin) (lib_trig cos) half_pi 3 0) <= -28.
Proof.
  intros L. pose proof cos64_pole as (Fc & Vc). set (c := lib_trig cos half_pi) in *.
  assert (E : derivative64 (lib_trig sin) (lib_trig cos) half_pi 3 0 = dmul (ddiv (of_int 1) c) pole_paren).
  { unfold derivative64. cbn [Nat.eqb]. unfold pole_paren. unfold legendre64. cbn [Nat.sub column64 diagonal64]. rewrite !sin64_pole. reflexivity. }
  rewrite E. destruct pole_paren_val as (Fp & Vp). destruct (of_int_ok 1 eq_refl) as (F1 & V1). assert (P59 : / 2 ^ 59 <= 1e-17) by (cbn [pow]; lra).
  destruct (ddiv_gen (of_int 1) c F1) as (Fi & Ni); [rewrite V1, Rabs_R1, big_val; lra|rewrite Rabs_pos_eq by lra; lra|]. rewrite V1 in Ni. set (i := ddiv (of_int 1) c) in *. pose proof u_small as U. pose proof tiny_small as T. pose proof tiny_pos as T0.
  assert (I : 1.584e16 <= 1 / val c <= 1e17). { unfold Rdiv. rewrite Rmult_1_l. split; [apply Rle_trans with (/ 6.31e-17); [lra|apply Rinv_le_contravar; lra]|apply Rle_trans with (/ 1e-17); [apply Rinv_le_contravar; lra|lra]]. }
  unfold near in Ni. rewrite (Rabs_pos_eq (1 / val c)) in Ni by lra. assert (u * (1 / val c) <= / 1000000000000000 * 1e17) by (apply Rmult_le_compat; lra). apply Rabs_le_inv in Ni. assert (I2 : 1.583e16 <= val i <= 2e17) by lra.
  destruct (dmul_ok i pole_paren Fi Fp) as (Fd & Nd); [rewrite Rabs_pos_eq, big_val by lra; lra|rewrite Vp, Rabs_Ropp, Rabs_pos_eq, big_val by lra; lra|]. split; [exact Fd|]. split.
  - pose proof (Pbar_limit 3 0 (val half_pi)) as Q. pose proof (uniqueness_limite _ _ _ _ L Q) as ->. cbn [INR pow Init.Nat.pred]. replace (norm 3 0 * (0 * 1 * - sin (val half_pi) * legendre 3 0 (sin (val half_pi)) + 1 * (legendre 3 1 (sin (val half_pi)) * cos (val half_pi)))) with (norm 3 0 * (legendre 3 1 (sin (val half_pi)) * cos (val half_pi))) by ring.
    pose proof (P31_bound (sin (val half_pi)) (SIN_bound _)) as B. pose proof pole_cos as C. assert (N3 : 0 <= norm 3 0 <= 3). { split; [apply norm_pos|]. unfold norm. replace 3 with (sqrt (3 * 3)) at 1 by (apply sqrt_square; lra). apply sqrt_le_1_alt. cbn. lra. }
    rewrite !Rabs_mult, (Rabs_pos_eq (norm 3 0)), (Rabs_pos_eq (cos (val half_pi))) by lra. apply Rle_trans with (3 * (6 * 6.3e-17)); [|lra]. apply Rmult_le_compat; try lra; [apply Rmult_le_pos; [apply Rabs_pos|lra]|]. apply Rmult_le_compat; try lra. apply Rabs_pos.
  - rewrite Vp in Nd. set (d := val (dmul i pole_paren)) in *. unfold near in Nd. assert (A : Rabs (val i * - (1 / 562949953421312)) <= 1000) by (rewrite Rabs_mult, Rabs_Ropp, !Rabs_pos_eq by lra; lra). assert (u * Rabs (val i * - (1 / 562949953421312)) <= / 1000000000000000 * 1000) by (apply Rmult_le_compat; try lra; apply Rabs_pos). apply Rabs_le_inv in Nd. lra.
Qed.
