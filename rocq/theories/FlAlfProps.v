(** C73, C74: rounding errors of the Legendre functions and of their derivatives (src/lib/gravity/forward_column_alf.cpp). *)
From Coq Require Import Reals ZArith List Lia Lra.
From Flocq Require Import Core.Core IEEE754.BinarySingleNaN.
From Verif Require Import KahanModel FlModel FlProofs FlFloatModel FlFloatProofs FlCip64Proofs.
From Verif Require Import Poly AlfSpec AlfMath AlfSum FlAlfModel FlAlfProofs FlAlfProofs2 FlAlf64Proofs FlAlfPole.
Open Scope R_scope.

(** ** C73: values *)
(** however the operations round, up to degree 1024, at every latitude *)
Theorem c73_values th N M P : (N <= 1024)%nat -> (M <= N)%nat -> legendre_run th N M P ->
  forall n m, (m <= M)%nat -> (m <= n <= N)%nat -> Rabs (P n m - Pbar n m th) <= 78 * INR n ^ 2 * sqrt (INR (2 * n + 1)) * / 2 ^ 53.
Proof. exact (legendre_error th N M P). Qed.
(** sectorial functions: small relative errors, until they underflow *)
Theorem c73_sectorial th N M P : (N <= 1024)%nat -> (M <= N)%nat -> legendre_run th N M P ->
  forall m, (m <= M)%nat -> Rabs (P m m - Pbar m m th) <= 6.1 * INR m * / 2 ^ 53 * Rabs (Pbar m m th) + 300 * INR (S m) * / 2 ^ 1074.
Proof.
  intros HN HM (c & t & Hc & Ht & D & C) m Hm. exact (diagonal th c M (fun k => P k k) Hc D m ltac:(lia) ltac:(lia)).
Qed.
Lemma bound_mono n N s : (n <= N)%nat -> INR (2 * N + 1) <= s * s -> 0 <= s -> 78 * INR n ^ 2 * sqrt (INR (2 * n + 1)) * / 2 ^ 53 <= 78 * INR N ^ 2 * s * / 2 ^ 53.
Proof.
  intros H S S0. assert (A : INR n <= INR N) by (apply le_INR; exact H). pose proof (pos_INR n) as B. assert (C : sqrt (INR (2 * n + 1)) <= s). { rewrite <- (sqrt_square s) by exact S0. apply sqrt_le_1_alt. eapply Rle_trans; [|exact S]. apply le_INR. lia. }
  apply Rmult_le_compat_r; [apply Rlt_le, Rinv_0_lt_compat, pow_lt; lra|]. apply Rmult_le_compat; [|apply sqrt_pos|nra|exact C]. pose proof (pow2_ge_0 (INR n)). lra.
Qed.
Theorem c73_degrees th N M P : (M <= N)%nat -> legendre_run th N M P -> forall n m, (m <= M)%nat -> (m <= n <= N)%nat ->
  ((N <= 4)%nat -> Rabs (P n m - Pbar n m th) <= 4.2e-13) /\ ((N <= 180)%nat -> Rabs (P n m - Pbar n m th) <= 5.4e-9) /\ ((N <= 1024)%nat -> Rabs (P n m - Pbar n m th) <= 4.2e-7).
Proof.
  intros HM R n m Hm Hn. split; [|split]; intros HN; (eapply Rle_trans; [apply (c73_values th N M P ltac:(lia) HM R n m Hm Hn)|]).
  - eapply Rle_trans; [apply (bound_mono n 4 3); [lia|cbn; lra|lra]|]. cbn [INR pow]. lra.
  - eapply Rle_trans; [apply (bound_mono n 180 19); [lia|rewrite INR_IZR_INZ; change (Z.of_nat (2 * 180 + 1)) with 361%Z; lra|lra]|]. rewrite INR_IZR_INZ. change (Z.of_nat 180) with 180%Z. cbn [pow]. lra.
  - eapply Rle_trans; [apply (bound_mono n 1024 46); [lia|rewrite INR_IZR_INZ; change (Z.of_nat (2 * 1024 + 1)) with 2049%Z; lra|lra]|]. rewrite INR_IZR_INZ. change (Z.of_nat 1024) with 1024%Z. cbn [pow]. lra.
Qed.
(** the binary64 evaluation of lines 23-64: no overflow, no invalid operation, and the same bounds *)
Theorem c73_binary64 dsin dcos theta n m : good dsin sin -> good dcos cos -> fin theta -> Rabs (val theta) <= big -> (m <= n <= 1024)%nat ->
  fin (legendre64 dsin dcos theta n m) /\ Rabs (val (legendre64 dsin dcos theta n m) - Pbar n m (val theta)) <= 78 * INR n ^ 2 * sqrt (INR (2 * n + 1)) * / 2 ^ 53.
Proof.
  intros Gs Gc F H Hn. destruct (legendre64_run dsin dcos Gs Gc theta F H 1024 m ltac:(lia) ltac:(lia)) as (Fp & R). split; [apply Fp; lia|]. apply (c73_values (val theta) 1024 m _ ltac:(lia) ltac:(lia) R n m); lia.
Qed.
(** the functions themselves: addition theorem, and the bound it implies *)
Theorem c73_addition_theorem n th : sum_f_R0 (fun m => Pbar n m th ^ 2) n = INR (2 * n + 1) /\ forall m, (m <= n)%nat -> Rabs (Pbar n m th) <= sqrt (INR (2 * n + 1)).
Proof. split; [apply sum_of_squares|]. intros m. apply Pbar_bound. Qed.

(** ** C74: derivatives *)
(** the code computes the derivative with respect to the colatitude: minus the derivative with respect to theta (C37) *)
Theorem c74_derivatives_partial th N M P D : (N <= 1024)%nat -> (M <= N)%nat -> / 2 ^ 100 <= Rabs (cos th) -> derivatives_run th N M P D ->
  forall n m, (m <= M)%nat -> (m <= n <= N)%nat -> (1 <= n)%nat -> forall l, derivable_pt_lim (Pbar n m) th l ->
    Rabs (D n m - - l) <= 260 * INR n ^ 3 * sqrt (INR (2 * n + 1)) * / 2 ^ 53 / Rabs (cos th).
Proof. intros HN HM Hc R n m Hm Hn H1 l Hl. replace (D n m - - l) with (D n m + l) by ring. exact (derivatives_error th N M P D HN HM Hc R n m Hm Hn H1 l Hl). Qed.
Theorem c74_binary64_partial dsin dcos theta n m l : good dsin sin -> good dcos cos -> fin theta -> Rabs (val theta) <= big -> / 2 ^ 57 <= Rabs (cos (val theta)) -> (m <= n <= 1024)%nat -> (1 <= n)%nat ->
  derivable_pt_lim (Pbar n m) (val theta) l ->
  fin (derivative64 dsin dcos theta n m) /\ Rabs (val (derivative64 dsin dcos theta n m) - - l) <= 260 * INR n ^ 3 * sqrt (INR (2 * n + 1)) * / 2 ^ 53 / Rabs (cos (val theta)).
Proof.
  intros Gs Gc F H Hc Hn H1 Hl. destruct (derivative64_run dsin dcos Gs Gc theta F H Hc 1024 m ltac:(lia) ltac:(lia)) as (Fp & R). split; [apply Fp; lia|]. assert (Hc' : / 2 ^ 100 <= Rabs (cos (val theta))).
  { eapply Rle_trans; [|exact Hc]. apply Rinv_le_contravar; [apply pow_lt; lra|]. apply Rle_pow; [lra|apply Nat.leb_le; reflexivity]. }
  apply (c74_derivatives_partial (val theta) 1024 m _ _ ltac:(lia) ltac:(lia) Hc' R n m); try lia. exact Hl.
Qed.
(** within a degree of the pole (|cos| >= 0.017) and up to degree 4 the error is still below 1e-9 *)
Theorem c74_low_degrees_partial th N M P D : (N <= 4)%nat -> (M <= N)%nat -> 0.017 <= Rabs (cos th) -> derivatives_run th N M P D ->
  forall n m, (m <= M)%nat -> (m <= n <= N)%nat -> (1 <= n)%nat -> forall l, derivable_pt_lim (Pbar n m) th l -> Rabs (D n m - - l) <= 1e-9.
Proof.
  intros HN HM Hc R n m Hm Hn H1 l Hl. assert (Hc' : / 2 ^ 100 <= Rabs (cos th)) by (eapply Rle_trans; [|exact Hc]; cbn [pow]; lra). eapply Rle_trans; [apply (c74_derivatives_partial th N M P D ltac:(lia) HM Hc' R n m Hm Hn H1 l Hl)|].
  assert (A : INR n <= 4) by (replace 4 with (INR 4) by (cbn; lra); apply le_INR; lia). pose proof (pos_INR n) as B. assert (C : sqrt (INR (2 * n + 1)) <= 3). { replace 3 with (sqrt (3 * 3)) by (apply sqrt_square; lra). apply sqrt_le_1_alt. rewrite plus_INR, mult_INR. cbn [INR]. lra. }
  assert (n3 : 0 <= INR n ^ 3 <= 64) by (split; [apply pow_le; lra|replace 64 with (4 ^ 3) by (cbn; lra); apply pow_incr; lra]). assert (S0 := sqrt_pos (INR (2 * n + 1))).
  assert (I : 0 < / Rabs (cos th) <= 59) by (split; [apply Rinv_0_lt_compat; lra|apply Rle_trans with (/ 0.017); [apply Rinv_le_contravar; lra|lra]]). assert (Q : INR n ^ 3 * sqrt (INR (2 * n + 1)) <= 64 * 3) by (apply Rmult_le_compat; lra). assert (Q0 : 0 <= INR n ^ 3 * sqrt (INR (2 * n + 1))) by (apply Rmult_le_pos; lra).
  assert (Q2 : INR n ^ 3 * sqrt (INR (2 * n + 1)) * / Rabs (cos th) <= 64 * 3 * 59) by (apply Rmult_le_compat; lra). unfold Rdiv. replace (260 * INR n ^ 3 * sqrt (INR (2 * n + 1)) * / 2 ^ 53 * / Rabs (cos th)) with (260 * / 2 ^ 53 * (INR n ^ 3 * sqrt (INR (2 * n + 1)) * / Rabs (cos th))) by ring. cbn [pow]. lra.
Qed.
(** at the double nearest to pi/2, with correctly rounded library functions: the derivative is below 1e-14, the computed value about -29 *)
Theorem c74_pole_refuted l : derivable_pt_lim (Pbar 3 0) (val half_pi) l ->
  fin (derivative64 (lib_trig sin) (lib_trig cos) half_pi 3 0) /\ Rabs l <= 1e-14 /\ val (derivative64 (lib_trig sin) (lib_trig cos) half_pi 3 0) <= -28.
Proof. exact (pole_derivative l). Qed.

(** ** instances *)
Lemma near_refl x : near x x.
Proof. unfold near. replace (x - x) with 0 by ring. rewrite Rabs_R0. pose proof u_pos. pose proof tiny_pos. pose proof (Rabs_pos x). assert (0 <= u * Rabs x) by (apply Rmult_le_pos; lra). lra. Qed.
Lemma trig_refl x : trig x x.
Proof. unfold trig. replace (x - x) with 0 by ring. rewrite Rabs_R0. pose proof u_pos. pose proof tiny_pos. pose proof (Rabs_pos x). assert (0 <= u * Rabs x) by (apply Rmult_le_pos; lra). lra. Qed.
Lemma root_refl p q : root_run p q (sqrt (IZR p / IZR q)).
Proof. exists (IZR p / IZR q). split; apply near_refl. Qed.
(** evaluation without rounding *)
Example c73_exact_run th N M : legendre_run th N M (fun n m => Pbar n m th).
Proof.
  exists (cos th), (sin th). split; [apply trig_refl|]. split; [apply trig_refl|]. split; [|intros m Hm; split].
  - split; [apply Pbar_00|]. split; [exists (sqrt 3); split; [apply near_refl|rewrite Pbar_11; apply near_refl]|]. intros m Hm. exists (sqrt (IZR (snum m) / IZR (sden m))), (cos th * sqrt (IZR (snum m) / IZR (sden m))). split; [apply root_refl|]. split; [apply near_refl|]. rewrite Pbar_diagonal, s_factor by lia. apply near_refl.
  - intros L. exists (sqrt (IZR (anum (S m) m) / IZR (aden (S m) m))). eexists. split; [apply root_refl|]. split; [apply near_refl|]. rewrite a_factor by lia. rewrite Pbar_column_first. fold (AlfGrow.afac m m). rewrite AlfGrow.afac_beta by lia. apply near_refl.
  - intros n A B. exists (sqrt (IZR (anum (S (S n)) m) / IZR (aden (S (S n)) m))). do 2 eexists. exists (sqrt (IZR (bnum (S (S n)) m) / IZR (bden (S (S n)) m))). eexists. split; [apply root_refl|]. split; [apply near_refl|]. split; [apply near_refl|]. split; [apply root_refl|]. split; [apply near_refl|].
    rewrite a_factor, b_factor by lia. rewrite (Pbar_column n m th) by lia. replace (INR (2 * n + 3) * INR (2 * n + 5)) with (INR (2 * S n + 1) * INR (2 * S n + 3)) by (f_equal; f_equal; lia). fold (AlfGrow.afac (S n) m). fold (AlfGrow.bfac n m). rewrite (AlfGrow.afac_beta (S n) m), (AlfGrow.bfac_beta n m) by lia. apply near_refl.
Qed.
Example c73_nonvacuous : exists P, legendre_run 0.5 180 180 P. Proof. eexists. apply c73_exact_run. Qed.
Example c73_library_nonvacuous : good (lib_trig sin) sin /\ good (lib_trig cos) cos.
Proof. split; apply lib_trig_good; [intros x; apply SIN_bound|intros x; apply COS_bound]. Qed.
Example c74_pole_nonvacuous : exists l, derivable_pt_lim (Pbar 3 0) (val half_pi) l. Proof. eexists. apply Pbar_limit. Qed.
(** the equator *)
Example c74_nonvacuous : exists D, derivatives_run 0 1024 1024 (fun n m => val (legendre64 (lib_trig sin) (lib_trig cos) dzero n m)) D /\ / 2 ^ 100 <= Rabs (cos 0).
Proof.
  exists (fun n m => val (derivative64 (lib_trig sin) (lib_trig cos) dzero n m)). destruct c73_library_nonvacuous as (A & B). assert (Z : val dzero = 0) by reflexivity. assert (Hb : Rabs (val dzero) <= big) by (rewrite Z, Rabs_R0; pose proof big_ge; lra).
  assert (Hc : / 2 ^ 57 <= Rabs (cos (val dzero))) by (rewrite Z, cos_0, Rabs_R1; cbn [pow]; lra). split; [|rewrite cos_0, Rabs_R1; cbn [pow]; lra]. rewrite <- Z at 1. apply (derivative64_run _ _ A B dzero eq_refl Hb Hc 1024 1024); lia.
Qed.
Print Assumptions c73_values.
Print Assumptions c73_sectorial.
Print Assumptions c73_degrees.
Print Assumptions c73_binary64.
Print Assumptions c73_addition_theorem.
Print Assumptions c74_derivatives_partial.
Print Assumptions c74_binary64_partial.
Print Assumptions c74_low_degrees_partial.
Print Assumptions c74_pole_refuted.
