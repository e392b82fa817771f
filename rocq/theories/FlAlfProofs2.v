(** Rounding errors of the derivatives of the Legendre functions *)
From Coq Require Import Reals ZArith List Lia Lra Psatz.
From Verif Require Import FlModel FlProofs Poly AlfSpec AlfMath AlfSum AlfStable AlfError AlfGrow FlAlfModel FlAlfProofs.
Open Scope R_scope.

Definition E (n : nat) : R := 78 * INR n ^ 2 * sqrt (INR (2 * n + 1)) * u.
Lemma E_small n : (n <= 1024)%nat -> 0 <= E n <= 0.001.
Proof.
  intros H. pose proof (Y_le n H) as YB. pose proof (n_le n H) as NB. pose proof u_small as U. unfold E. assert (A : 0 <= INR n ^ 2 * sqrt (INR (2 * n + 1)) <= 1048576 * 46) by (split; [apply Rmult_le_pos|apply Rmult_le_compat]; lra).
  assert (0 <= INR n ^ 2 * sqrt (INR (2 * n + 1)) * u <= 1048576 * 46 * / 1000000000000000) by (split; [apply Rmult_le_pos|apply Rmult_le_compat]; lra). lra.
Qed.
Lemma E_inc n : E n <= E (S n).
Proof.
  unfold E. pose proof u_pos as U. pose proof (pos_INR n) as P. apply Rmult_le_compat_r; [lra|]. apply Rmult_le_compat; [|apply sqrt_pos| |].
  - pose proof (pow2_ge_0 (INR n)). lra.
  - rewrite S_INR. nra.
  - apply sqrt_le_1_alt, le_INR. lia.
Qed.

(** ** the secant *)
Lemma inverse_run x c i : / 2 ^ 100 <= Rabs x <= 1 -> trig x c -> near (1 / c) i -> appr 3.01 0 (/ x) i.
Proof.
  intros X H N. pose proof u_small as U. pose proof tiny_pos as T. pose proof tiny_u as TU.
  assert (P100 : 0 < / 2 ^ 100) by (apply Rinv_0_lt_compat, pow_lt; lra). assert (X0 : x <> 0) by (intros ->; rewrite Rabs_R0 in X; lra).
  assert (TX : tiny <= 0.001 * u * Rabs x).
  { apply Rle_trans with (0.001 * u * / 2 ^ 100); [|apply Rmult_le_compat_l; lra]. assert (A : 0 < 2 ^ 100) by (apply pow_lt; lra). apply (Rmult_le_reg_r (2 ^ 100)); [exact A|]. rewrite (Rmult_assoc _ (/ 2 ^ 100)), Rinv_l by lra.
    apply (Rmult_le_reg_r 1000); [lra|]. apply Rle_trans with u; [|lra]. eapply Rle_trans; [|exact TU]. rewrite Rmult_assoc. apply Rmult_le_compat_l; [lra|]. apply Rle_trans with (2 ^ 100 * 2 ^ 10); [apply Rmult_le_compat_l; lra|]. rewrite <- pow_add. apply Rle_pow; [lra|apply Nat.leb_le; reflexivity]. }
  assert (H1 : Rabs (c - x) <= 2.001 * u * Rabs x) by (unfold trig in H; lra). assert (XX : 0 < Rabs x) by lra.
  assert (C0 : Rabs x * 0.999 <= Rabs c).
  { pose proof (Rabs_triang_inv x (x - c)) as A. replace (x - (x - c)) with c in A by ring. replace (x - c) with (- (c - x)) in A by ring. rewrite Rabs_Ropp in A. assert (2.001 * u * Rabs x <= 0.001 * Rabs x) by (apply Rmult_le_compat_r; lra). lra. }
  assert (cz : c <> 0) by (intros ->; rewrite Rabs_R0 in C0; lra).
  assert (H2 : Rabs (1 / c - / x) <= 2.0041 * u * Rabs (/ x)).
  { replace (1 / c - / x) with (- (c - x) * / x * / c) by (field; split; assumption). rewrite !Rabs_mult, Rabs_Ropp. rewrite (Rabs_inv c). assert (I1 : / Rabs c <= / (Rabs x * 0.999)) by (apply Rinv_le_contravar; [lra|exact C0]).
    assert (I0 : 0 < / Rabs c) by (apply Rinv_0_lt_compat; lra). assert (J : Rabs (c - x) * / Rabs c <= 2.001 * u * Rabs x * / (Rabs x * 0.999)) by (apply Rmult_le_compat; [apply Rabs_pos|lra|exact H1|exact I1]).
    replace (2.001 * u * Rabs x * / (Rabs x * 0.999)) with (2.001 / 0.999 * u) in J by (field; lra). replace (Rabs (c - x) * Rabs (/ x) * / Rabs c) with (Rabs (c - x) * / Rabs c * Rabs (/ x)) by ring. apply Rmult_le_compat_r; [apply Rabs_pos|]. lra. }
  assert (A : appr 2.0041 0 (/ x) (1 / c)) by (unfold appr; lra). pose proof (appr_near _ _ _ _ _ A N) as B. unfold appr in *. rewrite Rmult_0_l, Rplus_0_l in B. eapply Rle_trans; [exact B|].
  assert (1 <= Rabs (/ x)) by (rewrite Rabs_inv; rewrite <- Rinv_1 at 1; apply Rinv_le_contravar; lra). assert (tiny <= 0.001 * u * Rabs (/ x)).
  { apply Rle_trans with (0.001 * u); [assert (0.001 * u * Rabs x <= 0.001 * u * 1) by (apply Rmult_le_compat_l; lra); lra|]. rewrite <- (Rmult_1_r (0.001 * u)) at 1. apply Rmult_le_compat_l; lra. }
  assert (2.0041 * u * u * Rabs (/ x) <= 0.001 * u * Rabs (/ x)) by (apply Rmult_le_compat_r; [lra|apply Rmult_le_compat_r; lra]). lra.
Qed.

(** ** below the diagonal *)
Lemma f_factor n m : (m <= n)%nat -> IZR (fnum (S n) m) / IZR (fden (S n) m) = INR (S n - m) * INR (S n + m) * INR (2 * n + 3) / INR (2 * n + 1).
Proof.
  intros H. unfold fnum, fden. rewrite minus_INR by lia. rewrite !mult_IZR, !minus_IZR, !plus_IZR, !mult_IZR, !Z_INR. rewrite !plus_INR, !mult_INR, !S_INR. cbn [INR]. f_equal; ring.
Qed.
Lemma f_quotient n m : (m <= n)%nat -> 1 <= IZR (fnum (S n) m) / IZR (fden (S n) m) <= (1.74 * INR (S n)) ^ 2.
Proof.
  intros H. pose proof (le_INR _ _ H) as A. pose proof (pos_INR m) as B.
  assert (Q : IZR (fnum (S n) m) / IZR (fden (S n) m) = (INR n + 1 - INR m) * (INR n + 1 + INR m) * (1 + 2 * / (2 * INR n + 1))).
  { rewrite f_factor by exact H. rewrite minus_INR by lia. rewrite !plus_INR, !mult_INR, !S_INR. cbn [INR]. field. lra. }
  rewrite Q, S_INR. set (x := INR n) in *. set (y := INR m) in *. assert (F : 1 <= (x + 1 - y) * (x + 1 + y) <= (x + 1) ^ 2) by nra.
  assert (G : 0 < / (2 * x + 1) <= 1) by (split; [apply Rinv_0_lt_compat; lra|rewrite <- Rinv_1; apply Rinv_le_contravar; lra]). split.
  - apply Rle_trans with (1 * 1); [lra|]. apply Rmult_le_compat; lra.
  - apply Rle_trans with ((x + 1) ^ 2 * 3); [apply Rmult_le_compat; lra|]. assert (0 <= (x + 1) ^ 2) by nra. rewrite Rpow_mult_distr. lra.
Qed.
Lemma f_max n m : (m <= n)%nat -> 0 <= sqrt (IZR (fnum (S n) m) / IZR (fden (S n) m)) <= 1.74 * INR (S n).
Proof.
  intros H. split; [apply sqrt_pos|]. pose proof (pos_INR (S n)) as P. rewrite <- (sqrt_pow2 (1.74 * INR (S n))) by lra. apply sqrt_le_1_alt. apply f_quotient. exact H.
Qed.

(** closeness to a product with the secant *)
Lemma secant_product C i w w0 S D d : 0 < C -> Rabs i <= (1 + 3.01 * u) * C -> Rabs (w - w0) <= D * u -> Rabs w0 <= S -> near (i * w) d -> forall iC, Rabs iC = C -> Rabs (i - iC) <= 3.01 * u * C ->
  0 <= D -> D * u <= S -> S <= D -> 0 <= S -> 1 <= C -> Rabs (d - iC * w0) <= C * ((1.001 * D + 5.1 * S) * u) + tiny.
Proof.
  intros HC Hi Hw H0 Hd iC EC Hic HD HDS HSD HS HC1. pose proof u_small as U. unfold near in Hd.
  assert (A1 : Rabs (i * w - iC * w0) <= (1 + 3.01 * u) * C * (D * u) + 3.01 * u * C * S).
  { replace (i * w - iC * w0) with (i * (w - w0) + (i - iC) * w0) by ring. eapply Rle_trans; [apply Rabs_triang|]. rewrite !Rabs_mult. apply Rplus_le_compat; apply Rmult_le_compat; try apply Rabs_pos; assumption. }
  assert (A2 : Rabs (i * w) <= (1 + 3.01 * u) * C * (2 * S)).
  { rewrite Rabs_mult. apply Rmult_le_compat; try apply Rabs_pos; [assumption|]. replace w with ((w - w0) + w0) by ring. eapply Rle_trans; [apply Rabs_triang|]. lra. }
  replace (d - iC * w0) with ((d - i * w) + (i * w - iC * w0)) by ring. eapply Rle_trans; [apply Rabs_triang|]. apply (Rmult_le_compat_l u) in A2; [|lra].
  assert (C1 : 0 <= C * u) by (apply Rmult_le_pos; lra). assert (Z1 : (C * u) * (D * u) <= (C * u) * (D * / 1000000000000000)) by (apply Rmult_le_compat_l; [exact C1|apply Rmult_le_compat_l; lra]). assert (Z2 : (C * u) * (S * u) <= (C * u) * (S * / 1000000000000000)) by (apply Rmult_le_compat_l; [exact C1|apply Rmult_le_compat_l; lra]).
  assert (Z3 : 0 <= C * u * D) by (apply Rmult_le_pos; lra). assert (Z4 : 0 <= C * u * S) by (apply Rmult_le_pos; lra). lra.
Qed.

Lemma below th c t m N p d n : (N <= 1024)%nat -> / 2 ^ 100 <= Rabs (cos th) -> trig (cos th) c -> trig (sin th) t -> derivative_run c t m N p d -> (m <= n)%nat -> (S n <= N)%nat ->
  Rabs (p n - Pbar n m th) <= E n -> Rabs (p (S n) - Pbar (S n) m th) <= E (S n) ->
  Rabs (d (S n) - / cos th * (INR (S n) * sin th * Pbar (S n) m th - sqrt (INR (S n - m) * INR (S n + m) * INR (2 * n + 3) / INR (2 * n + 1)) * Pbar n m th))
    <= 260 * INR (S n) ^ 3 * sqrt (INR (2 * S n + 1)) * u / Rabs (cos th).
Proof.
  intros HN Hcos Hc Ht (_ & D) Hm Hn Ep Eq. destruct (D n Hm Hn) as (i & x & y & f & z & w & Ri & Rx & Ry & Rf & Rz & Rw & Rd). pose proof u_small as U. pose proof tiny_pos as T. pose proof tiny_small as T2.
  assert (C1 : Rabs (cos th) <= 1) by (apply Rabs_le; apply COS_bound). assert (S1 : Rabs (sin th) <= 1) by (apply Rabs_le; apply SIN_bound). assert (P100 : 0 < / 2 ^ 100) by (apply Rinv_0_lt_compat, pow_lt; lra).
  rewrite <- (f_factor n m Hm). pose proof (f_max n m Hm) as FM. set (fx := sqrt _) in *. assert (Ef : appr 2.01 0 fx f) by (apply root_ok; [pose proof (f_quotient n m Hm); lra|exact Rf]).
  set (k := INR (S n)) in *. assert (K1 : 1 <= k) by (apply (le_INR 1); lia). assert (K2 : k <= 1024) by (replace 1024 with (INR 1024) by (rewrite INR_IZR_INZ; reflexivity); apply le_INR; lia).
  pose proof (Y_le (S n) ltac:(lia)) as YB. set (Y := sqrt (INR (2 * S n + 1))) in *. pose proof (E_small (S n) ltac:(lia)) as E1. pose proof (E_inc n) as EI. pose proof (E_small n ltac:(lia)) as E0.
  assert (B1 : Rabs (Pbar (S n) m th) <= Y) by (apply Pbar_bound; lia). assert (B0 : Rabs (Pbar n m th) <= Y) by (eapply Rle_trans; [apply Pbar_bound; lia|]; apply sqrt_le_1_alt, le_INR; lia).
  set (q1 := Pbar (S n) m th) in *. set (q0 := Pbar n m th) in *.
  assert (P1 : Rabs (p (S n)) <= Y + 0.001) by (replace (p (S n)) with ((p (S n) - q1) + q1) by ring; eapply Rle_trans; [apply Rabs_triang|]; lra). assert (P0 : Rabs (p n) <= Y + 0.001) by (replace (p n) with ((p n - q0) + q0) by ring; eapply Rle_trans; [apply Rabs_triang|]; lra).
  assert (Ek : appr 2.01 0 k k) by (unfold appr; replace (k - k) with 0 by ring; rewrite Rabs_R0, (Rabs_right k) by lra; assert (0 <= u * k) by (apply Rmult_le_pos; lra); lra).
  assert (L := column_local k fx (sin th) (p (S n)) (p n) k t f x y z w ltac:(lra) ltac:(lra) ltac:(lra) Ek Ef Ht Rx Ry Rz Rw).
  assert (kY : k <= k * Y) by (rewrite <- (Rmult_1_r k) at 1; apply Rmult_le_compat_l; lra).
  assert (L1 : k * Rabs (sin th) * Rabs (p (S n)) + fx * Rabs (p n) <= 2.75 * (k * Y)).
  { assert (k * Rabs (sin th) * Rabs (p (S n)) <= k * 1 * (Y + 0.001)) by (apply Rmult_le_compat; try apply Rabs_pos; [apply Rmult_le_pos; [lra|apply Rabs_pos]|apply Rmult_le_compat_l; lra|lra]). assert (fx * Rabs (p n) <= 1.74 * k * (Y + 0.001)) by (apply Rmult_le_compat; try apply Rabs_pos; lra). lra. }
  assert (E1' : E (S n) = 78 * k ^ 2 * Y * u) by reflexivity. assert (k3 : k <= k ^ 3) by (assert (1 <= k ^ 2) by nra; nra). assert (k3Y : k * Y <= k ^ 3 * Y) by (apply Rmult_le_compat_r; lra).
  assert (uk : 0 <= u * (k * Y)) by (apply Rmult_le_pos; [lra|apply Rmult_le_pos; lra]). assert (uk3 : u * (k * Y) <= u * (k ^ 3 * Y)) by (apply Rmult_le_compat_l; lra).
  assert (L2 : Rabs (w - (k * sin th * q1 - fx * q0)) <= (234 * (k ^ 3 * Y)) * u).
  { replace (w - (k * sin th * q1 - fx * q0)) with ((w - (k * sin th * p (S n) - fx * p n)) + (k * (sin th * (p (S n) - q1)) + - (fx * (p n - q0)))) by ring. eapply Rle_trans; [apply Rabs_triang|].
    assert (M1 : Rabs (k * (sin th * (p (S n) - q1)) + - (fx * (p n - q0))) <= k * (78 * k ^ 2 * Y * u) + 1.74 * k * (78 * k ^ 2 * Y * u)).
    { eapply Rle_trans; [apply Rabs_triang|]. rewrite Rabs_Ropp, !Rabs_mult. rewrite (Rabs_right k), (Rabs_right fx) by lra. rewrite <- E1'. apply Rplus_le_compat.
      - apply Rmult_le_compat_l; [lra|]. rewrite <- (Rmult_1_l (E (S n))). apply Rmult_le_compat; try apply Rabs_pos; assumption.
      - apply Rmult_le_compat; try apply Rabs_pos; lra. }
    assert (M2 : 7.05 * u * (k * Rabs (sin th) * Rabs (p (S n)) + fx * Rabs (p n)) <= 7.05 * u * (2.75 * (k * Y))) by (apply Rmult_le_compat_l; lra).
    assert (M3 : u <= u * (k * Y)) by (rewrite <- (Rmult_1_r u) at 1; apply Rmult_le_compat_l; lra). assert (1000000 * tiny <= 0.001 * u) by lra. lra. }
  assert (L3 : Rabs (k * sin th * q1 - fx * q0) <= 2.74 * (k * Y)).
  { eapply Rle_trans; [apply Rabs_triang|]. rewrite Rabs_Ropp, !Rabs_mult, (Rabs_right k), (Rabs_right fx) by lra. assert (k * Rabs (sin th) * Rabs q1 <= k * 1 * Y) by (apply Rmult_le_compat; try apply Rabs_pos; [apply Rmult_le_pos; [lra|apply Rabs_pos]|apply Rmult_le_compat_l; lra|lra]). assert (fx * Rabs q0 <= 1.74 * k * Y) by (apply Rmult_le_compat; try apply Rabs_pos; lra). lra. }
  pose proof (inverse_run (cos th) c i ltac:(lra) Hc Ri) as I. assert (CC : 1 <= Rabs (/ cos th)) by (rewrite Rabs_inv; rewrite <- Rinv_1 at 1; apply Rinv_le_contravar; lra).
  pose proof (appr_abs _ _ _ _ I) as I2. unfold appr in I. rewrite Rplus_0_r in I, I2. set (w0 := k * sin th * q1 - fx * q0) in *.
  assert (k2b : k ^ 3 * Y * u <= k * Y * (1048576 * / 1000000000000000)). { replace (k ^ 3 * Y * u) with (k * Y * (k ^ 2 * u)) by ring. apply Rmult_le_compat_l; [lra|]. apply Rmult_le_compat; try lra; nra. }
  assert (F := secant_product (Rabs (/ cos th)) i w w0 (2.74 * (k * Y)) (234 * (k ^ 3 * Y)) (d (S n)) ltac:(lra) I2 L2 L3 Rd (/ cos th) eq_refl I ltac:(lra) ltac:(lra) ltac:(lra) ltac:(lra) CC).
  eapply Rle_trans; [exact F|]. unfold Rdiv. rewrite <- (Rabs_inv (cos th)). set (C := Rabs (/ cos th)) in *.
  assert (W1 : u <= u * (k ^ 3 * Y)) by (assert (u <= u * (k * Y)) by (rewrite <- (Rmult_1_r u) at 1; apply Rmult_le_compat_l; lra); lra). assert (W2 : u * (k ^ 3 * Y) <= u * (k ^ 3 * Y) * C) by (rewrite <- (Rmult_1_r (u * (k ^ 3 * Y))) at 1; apply Rmult_le_compat_l; lra).
  assert (W3 : C * (u * (k * Y)) <= C * (u * (k ^ 3 * Y))) by (apply Rmult_le_compat_l; lra). lra.
Qed.

Lemma on_diagonal th c t m N p d : (1 <= m <= 1024)%nat -> / 2 ^ 100 <= Rabs (cos th) -> trig (cos th) c -> trig (sin th) t -> derivative_run c t m N p d -> Rabs (p m - Pbar m m th) <= E m ->
  Rabs (d m - INR m * (sin th / cos th) * Pbar m m th) <= 260 * INR m ^ 3 * sqrt (INR (2 * m + 1)) * u / Rabs (cos th).
Proof.
  intros Hm Hcos Hc Ht ((q & x & Rq & Rx & Rd) & _) Ep. pose proof u_small as U. pose proof tiny_pos as T. pose proof tiny_small as T2.
  assert (C1 : Rabs (cos th) <= 1) by (apply Rabs_le; apply COS_bound). assert (S1 : Rabs (sin th) <= 1) by (apply Rabs_le; apply SIN_bound). assert (P100 : 0 < / 2 ^ 100) by (apply Rinv_0_lt_compat, pow_lt; lra).
  assert (Nr : near (1 / c) (1 / c)) by (unfold near; replace (1 / c - 1 / c) with 0 by ring; rewrite Rabs_R0; assert (0 <= u * Rabs (1 / c)) by (apply Rmult_le_pos; [lra|apply Rabs_pos]); lra).
  pose proof (inverse_run (cos th) c (1 / c) ltac:(lra) Hc Nr) as I. assert (CC : 1 <= Rabs (/ cos th)) by (rewrite Rabs_inv; rewrite <- Rinv_1 at 1; apply Rinv_le_contravar; lra).
  assert (Ht' : appr 2 tiny (sin th) t) by exact Ht. assert (M1 := fun A B => appr_mul 2 tiny 3.01 0 (sin th) t (/ cos th) (1 / c) A B Ht' I). specialize (M1 ltac:(lra) ltac:(lra)).
  set (C := Rabs (/ cos th)) in *. assert (CT : 0 <= C * tiny) by (apply Rmult_le_pos; lra). assert (CTU : C * tiny * u <= C * tiny * / 1000000000000000) by (apply Rmult_le_compat_l; lra). assert (CTT : tiny <= C * tiny) by (rewrite <- (Rmult_1_l tiny) at 1; apply Rmult_le_compat_r; lra).
  apply (appr_le _ _ 5.011 (1.01 * (C * tiny))) in M1; [|lra|lra]. replace (t * (1 / c)) with (t / c) in M1 by (unfold Rdiv; ring). pose proof (appr_near _ _ _ _ _ M1 Rq) as M2. apply (appr_le _ _ 6.012 (2.02 * (C * tiny))) in M2; [|lra|lra].
  set (k := INR m) in *. assert (K1 : 1 <= k) by (apply (le_INR 1); lia). assert (K2 : k <= 1024) by (replace 1024 with (INR 1024) by (rewrite INR_IZR_INZ; reflexivity); apply le_INR; lia).
  pose proof (appr_mul_exact _ _ _ _ k M2) as M3. rewrite (Rabs_right k) in M3 by lra. assert (Kc : k * (C * tiny) <= 1024 * (C * tiny)) by (apply Rmult_le_compat_r; lra). apply (appr_le _ _ 6.012 (2069 * (C * tiny))) in M3; [|lra|lra].
  rewrite (Rmult_comm k q) in Rx. pose proof (appr_near _ _ _ _ _ M3 Rx) as M4. apply (appr_le _ _ 7.013 (2071 * (C * tiny))) in M4; [|lra|lra].
  pose proof (Y_le m ltac:(lia)) as YB. set (Y := sqrt (INR (2 * m + 1))) in *. pose proof (E_small m ltac:(lia)) as E1. assert (B1 : Rabs (Pbar m m th) <= Y) by (apply Pbar_bound; lia). set (q1 := Pbar m m th) in *.
  assert (P1 : Rabs (p m) <= Y + 0.001) by (replace (p m) with ((p m - q1) + q1) by ring; eapply Rle_trans; [apply Rabs_triang|]; lra).
  pose proof (appr_mul_exact _ _ _ _ (p m) M4) as M5. assert (Pc : Rabs (p m) * (C * tiny) <= 47 * (C * tiny)) by (apply Rmult_le_compat_r; lra). apply (appr_le _ _ 7.013 (97337 * (C * tiny))) in M5; [|lra|lra].
  pose proof (appr_near _ _ _ _ _ M5 Rd) as M6. apply (appr_le _ _ 8.014 (100000 * (C * tiny))) in M6; [|lra|lra]. unfold appr in M6.
  assert (kY : k <= k * Y) by (rewrite <- (Rmult_1_r k) at 1; apply Rmult_le_compat_l; lra). assert (k3 : k <= k ^ 3) by (assert (1 <= k ^ 2) by nra; nra). assert (k3Y : k * Y <= k ^ 3 * Y) by (apply Rmult_le_compat_r; lra).
  assert (TC : Rabs (sin th * / cos th) <= C) by (rewrite Rabs_mult; fold C; rewrite <- (Rmult_1_l C) at 2; apply Rmult_le_compat_r; lra).
  assert (M7 : Rabs (sin th * / cos th * k * p m) <= C * (k * (Y + 0.001))).
  { rewrite Rmult_assoc, Rabs_mult, (Rabs_mult k), (Rabs_right k) by lra. apply Rmult_le_compat; try apply Rabs_pos; [apply Rmult_le_pos; [lra|apply Rabs_pos]|exact TC|apply Rmult_le_compat_l; lra]. }
  assert (M8 : Rabs (sin th * / cos th * k * (p m - q1)) <= C * (k * (78 * k ^ 2 * Y * u))).
  { rewrite Rmult_assoc, Rabs_mult, (Rabs_mult k), (Rabs_right k) by lra. apply Rmult_le_compat; try apply Rabs_pos; [apply Rmult_le_pos; [lra|apply Rabs_pos]|exact TC|apply Rmult_le_compat_l; [lra|exact Ep]]. }
  replace (d m - k * (sin th / cos th) * q1) with ((d m - sin th * / cos th * k * p m) + sin th * / cos th * k * (p m - q1)) by (unfold Rdiv; ring). eapply Rle_trans; [apply Rabs_triang|].
  unfold Rdiv. rewrite <- (Rabs_inv (cos th)). fold C. apply (Rmult_le_compat_l (8.014 * u)) in M7; [|lra].
  assert (Q0 : 0 <= C * u) by (apply Rmult_le_pos; lra). assert (Q1 : C * u * k <= C * u * (k * Y)) by (apply Rmult_le_compat_l; lra). assert (Q2 : C * u * (k * Y) <= C * u * (k ^ 3 * Y)) by (apply Rmult_le_compat_l; lra). assert (Q3 : C * u <= C * u * k) by (rewrite <- (Rmult_1_r (C * u)) at 1; apply Rmult_le_compat_l; lra).
  assert (Q4 : C * (tiny * 1000000000000) <= C * u) by (apply Rmult_le_compat_l; lra). lra.
Qed.

(** ** derivatives for all degrees and orders *)
Theorem derivatives_error th N M P D : (N <= 1024)%nat -> (M <= N)%nat -> / 2 ^ 100 <= Rabs (cos th) -> derivatives_run th N M P D ->
  forall n m, (m <= M)%nat -> (m <= n <= N)%nat -> (1 <= n)%nat -> forall l, derivable_pt_lim (Pbar n m) th l ->
    Rabs (D n m + l) <= 260 * INR n ^ 3 * sqrt (INR (2 * n + 1)) * u / Rabs (cos th).
Proof.
  intros HN HM Hcos (c & t & Hc & Ht & Dg & C) n m Hm Hn H1 l Hl.
  assert (L : legendre_run th N M P) by (exists c, t; repeat split; try assumption; [apply Dg|apply Dg|apply Dg|apply C; assumption|apply C; assumption]).
  pose proof (legendre_error th N M P HN HM L) as Q. assert (cz : cos th <> 0) by (intros Z; rewrite Z, Rabs_R0 in Hcos; assert (0 < / 2 ^ 100) by (apply Rinv_0_lt_compat, pow_lt; lra); lra).
  destruct (C m Hm) as (_ & Cd). assert (V : n = m \/ (m < n)%nat) by lia. destruct V as [-> | V].
  - pose proof (uniqueness_limite _ _ _ _ Hl (Pbar_derivative_diagonal m th cz)) as ->. pose proof (on_diagonal th c t m N (fun k => P k m) (fun k => D k m) ltac:(lia) Hcos Hc Ht Cd (Q m m Hm ltac:(lia))) as F. cbn beta in F. replace (D m m + - (INR m * (sin th / cos th) * Pbar m m th)) with (D m m - INR m * (sin th / cos th) * Pbar m m th) by ring. exact F.
  - destruct n as [|n]; [lia|]. pose proof (uniqueness_limite _ _ _ _ Hl (Pbar_derivative n m th ltac:(lia) cz)) as ->. pose proof (below th c t m N (fun k => P k m) (fun k => D k m) n HN Hcos Hc Ht Cd ltac:(lia) ltac:(lia) (Q n m Hm ltac:(lia)) (Q (S n) m Hm ltac:(lia))) as F. cbn beta in F.
    match goal with |- Rabs (?a + - ?b) <= _ => replace (a + - b) with (a - b) by ring end. exact F.
Qed.
