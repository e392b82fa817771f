From Coq Require Import Reals ZArith List Lia Lra Psatz.
From Verif Require Import FlModel FlProofs Poly AlfSpec AlfMath AlfSum AlfStable AlfError AlfGrow FlAlfModel.
Open Scope R_scope.

Lemma u_small : 0 < u <= / 1000000000000000.
Proof. pose proof u_pos. split; [exact H|]. rewrite u_inv. apply Rinv_le_contravar; [lra|]. apply (IZR_le 1000000000000000 (2 ^ 53)). lia. Qed.
Lemma tiny_pos : 0 < tiny.
Proof. unfold tiny. apply Rinv_0_lt_compat, pow_lt. lra. Qed.
Lemma tiny_u : tiny * 2 ^ 1000 <= u.
Proof.
  unfold tiny, u. replace (2 ^ 1074) with (2 ^ 1000 * 2 ^ 74) by (rewrite <- pow_add; reflexivity). assert (0 < 2 ^ 1000) by (apply pow_lt; lra). assert (0 < 2 ^ 74) by (apply pow_lt; lra).
  rewrite Rinv_mult. replace (/ 2 ^ 1000 * / 2 ^ 74 * 2 ^ 1000) with (/ 2 ^ 74) by (field; split; lra). apply Rinv_le_contravar; [apply pow_lt; lra|]. apply Rle_pow; [lra|lia].
Qed.
Lemma tiny_small : tiny * 1000000000000 <= u.
Proof.
  pose proof tiny_u as H. pose proof tiny_pos as T. eapply Rle_trans; [|exact H]. apply Rmult_le_compat_l; [apply Rlt_le; exact T|]. apply Rle_trans with (2 ^ 40).
  - replace (2 ^ 40) with (IZR (2 ^ 40)) by apply (IZR_pow2 40). apply IZR_le. lia.
  - apply Rle_pow; [lra|]. apply Nat.leb_le. reflexivity.
Qed.

(** ** relative and absolute errors *)
Definition appr (c k x v : R) : Prop := Rabs (v - x) <= c * u * Rabs x + k.
Lemma appr_le c k c' k' x v : appr c k x v -> c <= c' -> k <= k' -> appr c' k' x v.
Proof. unfold appr. intros H A B. pose proof u_pos as U. pose proof (Rabs_pos x). eapply Rle_trans; [exact H|]. apply Rplus_le_compat; [|exact B]. apply Rmult_le_compat_r; [assumption|]. apply Rmult_le_compat_r; lra. Qed.
Lemma appr_abs c k x v : appr c k x v -> Rabs v <= (1 + c * u) * Rabs x + k.
Proof. unfold appr. intros H. replace v with ((v - x) + x) by ring. eapply Rle_trans; [apply Rabs_triang|]. lra. Qed.
Lemma appr_near c k x v w : appr c k x v -> near v w -> appr (c + 1 + c * u) (k * (1 + u) + tiny) x w.
Proof.
  intros H N. pose proof (appr_abs c k x v H) as A. unfold near in N. unfold appr in *. pose proof u_pos as U. replace (w - x) with ((w - v) + (v - x)) by ring. eapply Rle_trans; [apply Rabs_triang|].
  apply (Rmult_le_compat_l u) in A; [|lra]. apply Rle_trans with (u * ((1 + c * u) * Rabs x + k) + tiny + (c * u * Rabs x + k)); [lra|]. right. ring.
Qed.
Lemma appr_mul c k d l x v y w : 0 <= c -> 0 <= k -> appr c k x v -> appr d l y w -> appr (c + d + c * d * u) (k * (Rabs y * (1 + d * u) + l) + l * Rabs x * (1 + c * u)) (x * y) (v * w).
Proof.
  intros C Kk H J. pose proof (appr_abs d l y w J) as A. pose proof u_pos as U. unfold appr in *. pose proof (Rabs_pos x) as X0. pose proof (Rabs_pos y) as Y0.
  assert (L : 0 <= d * u * Rabs y + l) by (eapply Rle_trans; [apply Rabs_pos|exact J]).
  replace (v * w - x * y) with ((v - x) * w + x * (w - y)) by ring. eapply Rle_trans; [apply Rabs_triang|]. rewrite !Rabs_mult.
  assert (E1 : Rabs (v - x) * Rabs w <= (c * u * Rabs x + k) * ((1 + d * u) * Rabs y + l)) by (apply Rmult_le_compat; try apply Rabs_pos; assumption).
  assert (E2 : Rabs x * Rabs (w - y) <= Rabs x * (d * u * Rabs y + l)) by (apply Rmult_le_compat_l; assumption).
  eapply Rle_trans; [apply Rplus_le_compat; [exact E1|exact E2]|]. right. ring.
Qed.
Lemma appr_mul_exact c k x v y : appr c k x v -> appr c (k * Rabs y) (x * y) (v * y).
Proof.
  unfold appr. intros H. replace (v * y - x * y) with ((v - x) * y) by ring. rewrite !Rabs_mult. replace (c * u * (Rabs x * Rabs y) + k * Rabs y) with ((c * u * Rabs x + k) * Rabs y) by ring. apply Rmult_le_compat_r; [apply Rabs_pos|exact H].
Qed.
Lemma near_appr x v : near x v -> appr 1 tiny x v.
Proof. unfold near, appr. intros H. lra. Qed.

(** ** the factors *)
Lemma sqrt_close q x d : 0 < q -> 0 <= d <= 1 -> Rabs (x - q) <= d * q -> Rabs (sqrt x - sqrt q) <= d * sqrt q.
Proof.
  intros Q D H. assert (S0 : 0 < sqrt q) by (apply sqrt_lt_R0; exact Q). assert (B : - (d * q) <= x - q <= d * q) by (unfold Rabs in H; destruct (Rcase_abs (x - q)); lra). destruct B as (B1 & B2). assert (X0 : 0 <= x) by nra. pose proof (sqrt_pos x) as P. pose proof (sqrt_sqrt x X0) as E1. pose proof (sqrt_sqrt q ltac:(lra)) as E2.
  apply Rabs_le. split.
  - destruct (Rle_dec ((1 - d) * sqrt q) (sqrt x)) as [L|L]; [lra|]. exfalso. apply Rnot_le_lt in L. assert (G : sqrt x * sqrt x < ((1 - d) * sqrt q) * ((1 - d) * sqrt q)) by (apply Rmult_le_0_lt_compat; lra). replace (((1 - d) * sqrt q) * ((1 - d) * sqrt q)) with ((1 - d) * ((1 - d) * (sqrt q * sqrt q))) in G by ring. rewrite E1, E2 in G. assert (0 <= d * ((1 - d) * q)) by (apply Rmult_le_pos; [lra|apply Rmult_le_pos; lra]). lra.
  - destruct (Rle_dec (sqrt x) ((1 + d) * sqrt q)) as [L|L]; [lra|]. exfalso. apply Rnot_le_lt in L. assert (G : ((1 + d) * sqrt q) * ((1 + d) * sqrt q) < sqrt x * sqrt x) by (apply Rmult_le_0_lt_compat; try lra; apply Rmult_le_pos; lra). replace (((1 + d) * sqrt q) * ((1 + d) * sqrt q)) with ((1 + d) * ((1 + d) * (sqrt q * sqrt q))) in G by ring. rewrite E1, E2 in G. assert (0 <= d * ((1 + d) * q)) by (apply Rmult_le_pos; [lra|apply Rmult_le_pos; lra]). lra.
Qed.
Lemma sqrt_run q x v : / 1000 <= q -> near q x -> near (sqrt x) v -> appr 2.01 0 (sqrt q) v.
Proof.
  intros Q H J. pose proof u_small as U. pose proof tiny_pos as T. pose proof tiny_small as T2. unfold near in H. rewrite (Rabs_right q) in H by lra.
  assert (H' : Rabs (x - q) <= 1.001 * u * q) by nra. apply sqrt_close in H'; [|lra|lra]. assert (S0 : / 1000 <= sqrt q).
  { pose proof (sqrt_pos q). pose proof (sqrt_sqrt q ltac:(lra)). destruct (Rle_dec (/ 1000) (sqrt q)); [assumption|]. nra. }
  assert (A : appr 1.001 0 (sqrt q) (sqrt x)) by (unfold appr; rewrite (Rabs_right (sqrt q)) by lra; lra).
  pose proof (appr_near _ _ _ _ _ A J) as C. unfold appr in *. rewrite (Rabs_right (sqrt q)) in * by lra. eapply Rle_trans; [exact C|]. assert (1.001 * u * u <= 0.001 * u) by nra. nra.
Qed.
Lemma root_ok p q v : / 1000 <= IZR p / IZR q -> root_run p q v -> appr 2.01 0 (sqrt (IZR p / IZR q)) v.
Proof. intros Q (x & A & B). apply (sqrt_run _ x); assumption. Qed.

(** ** one step of a column *)
Lemma column_local A B t p q a th b x y1 y2 v :
  0 <= A <= 3000 -> 0 <= B -> Rabs p <= 100 -> appr 2.01 0 A a -> appr 2.01 0 B b -> trig t th ->
  near (a * th) x -> near (x * p) y1 -> near (b * q) y2 -> near (y1 - y2) v ->
  Rabs (v - (A * t * p - B * q)) <= 7.05 * u * (A * Rabs t * Rabs p + B * Rabs q) + 1000000 * tiny.
Proof.
  intros HA HB Hp Ha Hb Ht H1 H2 H3 H4. pose proof u_small as U. pose proof tiny_pos as T.
  assert (Ht' : appr 2 tiny t th) by exact Ht.
  assert (AU : tiny * (A * (1 + 2.01 * u)) <= tiny * 3001) by (apply Rmult_le_compat_l; [lra|]; assert (A * u <= 3000 * u) by (apply Rmult_le_compat_r; lra); lra).
  assert (TU : 0 <= tiny * u <= tiny * / 1000000000000000) by (split; [apply Rmult_le_pos|apply Rmult_le_compat_l]; lra).
  assert (PT : tiny * Rabs p <= tiny * 100) by (apply Rmult_le_compat_l; lra).
  assert (M1 := fun C K => appr_mul 2.01 0 2 tiny A a t th C K Ha Ht'). specialize (M1 ltac:(lra) ltac:(lra)). rewrite (Rabs_right A) in M1 by lra.
  apply (appr_le _ _ 4.011 (3001 * tiny)) in M1; [|lra|lra]. pose proof (appr_near _ _ _ _ _ M1 H1) as M2. apply (appr_le _ _ 5.012 (3003 * tiny)) in M2; [|lra|lra].
  pose proof (appr_mul_exact _ _ _ _ p M2) as M3. apply (appr_le _ _ 5.012 (300300 * tiny)) in M3; [|lra|lra].
  pose proof (appr_near _ _ _ _ _ M3 H2) as M4. apply (appr_le _ _ 6.013 (300400 * tiny)) in M4; [|lra|lra].
  pose proof (appr_mul_exact _ _ _ _ q Hb) as N1. rewrite Rmult_0_l in N1. pose proof (appr_near _ _ _ _ _ N1 H3) as N2. apply (appr_le _ _ 3.012 tiny) in N2; [|lra|lra].
  assert (D : Rabs (y1 - y2 - (A * t * p - B * q)) <= 6.013 * u * (A * Rabs t * Rabs p + B * Rabs q) + 300402 * tiny).
  { unfold appr in M4, N2. rewrite !Rabs_mult in M4. rewrite Rabs_mult in N2. rewrite (Rabs_right A) in M4 by lra. rewrite (Rabs_right B) in N2 by lra. replace (y1 - y2 - (A * t * p - B * q)) with ((y1 - A * t * p) + - (y2 - B * q)) by ring.
    eapply Rle_trans; [apply Rabs_triang|]. rewrite Rabs_Ropp. assert (0 <= B * Rabs q) by (apply Rmult_le_pos; [lra|apply Rabs_pos]). assert (0 <= u * (B * Rabs q)) by (apply Rmult_le_pos; lra). lra. }
  set (S0 := A * Rabs t * Rabs p + B * Rabs q) in *. assert (S1 : 0 <= S0).
  { unfold S0. pose proof (Rabs_pos t). pose proof (Rabs_pos p). pose proof (Rabs_pos q). apply Rplus_le_le_0_compat; [apply Rmult_le_pos; [apply Rmult_le_pos|]|apply Rmult_le_pos]; lra. }
  assert (S2 : Rabs (A * t * p - B * q) <= S0).
  { unfold S0. eapply Rle_trans; [apply Rabs_triang|]. rewrite Rabs_Ropp, !Rabs_mult. rewrite (Rabs_right A), (Rabs_right B) by lra. lra. }
  unfold near in H4. assert (E : Rabs (y1 - y2) <= S0 + (6.013 * u * S0 + 300402 * tiny)).
  { replace (y1 - y2) with ((y1 - y2 - (A * t * p - B * q)) + (A * t * p - B * q)) by ring. eapply Rle_trans; [apply Rabs_triang|]. lra. }
  replace (v - (A * t * p - B * q)) with ((v - (y1 - y2)) + (y1 - y2 - (A * t * p - B * q))) by ring. eapply Rle_trans; [apply Rabs_triang|].
  assert (F : u * Rabs (y1 - y2) <= u * (S0 + (6.013 * u * S0 + 300402 * tiny))) by (apply Rmult_le_compat_l; lra).
  assert (US : 0 <= u * S0) by (apply Rmult_le_pos; lra).
  assert (G1 : u * (6.013 * u * S0) <= 0.01 * u * S0) by (assert (u * (u * S0) <= / 1000000000000000 * (u * S0)) by (apply Rmult_le_compat_r; lra); lra). lra.
Qed.
Lemma column_local_first A t p a th x v : 0 <= A <= 3000 -> Rabs p <= 100 -> appr 2.01 0 A a -> trig t th -> near (a * th) x -> near (x * p) v ->
  Rabs (v - A * t * p) <= 7.05 * u * (A * Rabs t * Rabs p) + 1000000 * tiny.
Proof.
  intros HA Hp Ha Ht H1 H2. pose proof u_small as U. pose proof tiny_pos as T.
  assert (Ht' : appr 2 tiny t th) by exact Ht.
  assert (AU : tiny * (A * (1 + 2.01 * u)) <= tiny * 3001) by (apply Rmult_le_compat_l; [lra|]; assert (A * u <= 3000 * u) by (apply Rmult_le_compat_r; lra); lra).
  assert (TU : 0 <= tiny * u <= tiny * / 1000000000000000) by (split; [apply Rmult_le_pos|apply Rmult_le_compat_l]; lra).
  assert (PT : tiny * Rabs p <= tiny * 100) by (apply Rmult_le_compat_l; lra).
  assert (M1 := fun C K => appr_mul 2.01 0 2 tiny A a t th C K Ha Ht'). specialize (M1 ltac:(lra) ltac:(lra)). rewrite (Rabs_right A) in M1 by lra.
  apply (appr_le _ _ 4.011 (3001 * tiny)) in M1; [|lra|lra]. pose proof (appr_near _ _ _ _ _ M1 H1) as M2. apply (appr_le _ _ 5.012 (3003 * tiny)) in M2; [|lra|lra].
  pose proof (appr_mul_exact _ _ _ _ p M2) as M3. apply (appr_le _ _ 5.012 (300300 * tiny)) in M3; [|lra|lra].
  pose proof (appr_near _ _ _ _ _ M3 H2) as M4. apply (appr_le _ _ 7.05 (1000000 * tiny)) in M4; [|lra|lra]. unfold appr in M4. rewrite !Rabs_mult in M4. rewrite (Rabs_right A) in M4 by lra. exact M4.
Qed.

(** ** the factors of the recurrences *)
Lemma Z_INR n : IZR (Z.of_nat n) = INR n. Proof. symmetry. apply INR_IZR_INZ. Qed.
Lemma a_factor n m : (m <= n)%nat -> sqrt (IZR (anum (S n) m) / IZR (aden (S n) m)) = / beta m (S n).
Proof.
  intros H. rewrite <- (afac_beta n m H). unfold afac, anum, aden. f_equal. rewrite minus_INR by lia. rewrite !mult_IZR, !minus_IZR, !plus_IZR, !mult_IZR, !Z_INR. rewrite !plus_INR, !mult_INR, !S_INR. cbn [INR]. f_equal; ring.
Qed.
Lemma b_factor n m : (m <= n)%nat -> sqrt (IZR (bnum (S (S n)) m) / IZR (bden (S (S n)) m)) = beta m (S n) / beta m (S (S n)).
Proof.
  intros H. rewrite <- (bfac_beta n m H). unfold bfac, bnum, bden. f_equal. rewrite !minus_INR by lia. rewrite !mult_IZR, !minus_IZR, !plus_IZR, !mult_IZR, !Z_INR. rewrite !plus_INR, !mult_INR, !S_INR. cbn [INR]. f_equal; ring.
Qed.
Lemma a_quotient n m : (m <= n)%nat -> (n <= 1024)%nat -> 3 <= IZR (anum (S n) m) / IZR (aden (S n) m) <= 9000000.
Proof.
  intros H N. unfold anum, aden. pose proof (le_INR _ _ H) as H1. pose proof (pos_INR m) as H2. pose proof (le_INR _ _ N) as H3. rewrite (INR_IZR_INZ 1024) in H3. change (Z.of_nat 1024) with 1024%Z in H3. rewrite !mult_IZR, !minus_IZR, !plus_IZR, !mult_IZR, !Z_INR, S_INR.
  set (x := INR n) in *. set (y := INR m) in *. assert (D : 1 <= (x + 1 - y) * (x + 1 + y)) by nra. split.
  - apply (Rmult_le_reg_r ((x + 1 - y) * (x + 1 + y))); [lra|]. unfold Rdiv. rewrite Rmult_assoc, Rinv_l by lra. nra.
  - apply (Rmult_le_reg_r ((x + 1 - y) * (x + 1 + y))); [lra|]. unfold Rdiv. rewrite Rmult_assoc, Rinv_l by lra. assert ((2 * (x + 1) - 1) * (2 * (x + 1) + 1) <= 9000000) by nra. nra.
Qed.
Lemma b_quotient n m : (m <= n)%nat -> / 4 <= IZR (bnum (S (S n)) m) / IZR (bden (S (S n)) m).
Proof.
  intros H. unfold bnum, bden. pose proof (le_INR _ _ H) as H1. pose proof (pos_INR m) as H2. rewrite !mult_IZR, !minus_IZR, !plus_IZR, !mult_IZR, !Z_INR, !S_INR. set (x := INR n) in *. set (y := INR m) in *.
  replace ((2 * (x + 1 + 1) + 1) * (x + 1 + 1 + y - 1) * (x + 1 + 1 - y - 1)) with ((2 * x + 5) * ((x + 1 + y) * (x + 1 - y))) by ring. replace ((x + 1 + 1 - y) * (x + 1 + 1 + y) * (2 * (x + 1 + 1) - 3)) with ((2 * x + 1) * ((x + 2 - y) * (x + 2 + y))) by ring.
  assert (D : 1 <= (x + 2 - y) * (x + 2 + y)) by nra. assert (Dp : 0 < (2 * x + 1) * ((x + 2 - y) * (x + 2 + y))) by (apply Rmult_lt_0_compat; lra). assert (E : (x + 2 - y) * (x + 2 + y) <= 4 * ((x + 1 + y) * (x + 1 - y))) by nra.
  apply (Rmult_le_reg_r ((2 * x + 1) * ((x + 2 - y) * (x + 2 + y)))); [exact Dp|]. unfold Rdiv. rewrite (Rmult_assoc _ (/ _)), Rinv_l by lra. assert (0 <= (x + 1 + y) * (x + 1 - y)) by nra.
  apply Rle_trans with ((2 * x + 1) * ((x + 1 + y) * (x + 1 - y))); [nra|]. apply Rle_trans with ((2 * x + 5) * ((x + 1 + y) * (x + 1 - y))); [apply Rmult_le_compat_r; lra|]. lra.
Qed.
Lemma a_ok n m v : (m <= n)%nat -> (n <= 1024)%nat -> root_run (anum (S n) m) (aden (S n) m) v -> appr 2.01 0 (/ beta m (S n)) v.
Proof. intros H N R. rewrite <- (a_factor n m H). apply root_ok; [|exact R]. pose proof (a_quotient n m H N). lra. Qed.
Lemma b_ok n m v : (m <= n)%nat -> root_run (bnum (S (S n)) m) (bden (S (S n)) m) v -> appr 2.01 0 (beta m (S n) / beta m (S (S n))) v.
Proof. intros H R. rewrite <- (b_factor n m H). apply root_ok; [|exact R]. pose proof (b_quotient n m H). lra. Qed.
Lemma a_max n m : (m <= n)%nat -> (n <= 1024)%nat -> 0 <= / beta m (S n) <= 3000.
Proof.
  intros H N. rewrite <- (a_factor n m H). split; [apply sqrt_pos|]. replace 3000 with (sqrt (3000 * 3000)) by (apply sqrt_square; lra). apply sqrt_le_1_alt. pose proof (a_quotient n m H N). lra.
Qed.

Section Column.
  Variables (th tc : R) (m N : nat) (p : nat -> R).
  Hypothesis Ht : trig (sin th) tc.
  Hypothesis HN : (N <= 1024)%nat.
  Hypothesis Hp : column_run tc m N p.
  Variable s : R.
  Hypothesis s2 : s * s = 1.
  Let y n := s ^ n * Pbar n m th.
  Let e n := if Nat.ltb n m then 0 else s ^ n * (p n - Pbar n m th).
  Let b := beta m.
  Lemma s_abs n : Rabs (s ^ n) = 1.
  Proof.
    rewrite <- RPow_abs. replace (Rabs s) with 1; [apply pow1|]. pose proof (Rabs_mult s s) as E. rewrite s2, Rabs_R1 in E. pose proof (Rabs_pos s). nra.
  Qed.
  Lemma e_at n : (m <= n)%nat -> e n = s ^ n * (p n - Pbar n m th).
  Proof. intros H. unfold e. rewrite (proj2 (Nat.ltb_ge n m) H). reflexivity. Qed.
  Lemma p_le n : (m <= n)%nat -> Rabs (p n) <= Rabs (y n) + Rabs (e n).
  Proof.
    intros H. rewrite (e_at n H). unfold y. rewrite !Rabs_mult, s_abs, !Rmult_1_l. replace (p n) with (Pbar n m th + (p n - Pbar n m th)) at 1 by ring. apply Rabs_triang.
  Qed.
  Lemma y_step n : (m <= n)%nat -> b (S n) * y (S n) = s * sin th * y n - b n * y (pred n).
  Proof.
    intros H. unfold y, b. replace (beta m (S n) * (s ^ S n * Pbar (S n) m th)) with (s ^ S n * (beta m (S n) * Pbar (S n) m th)) by ring. rewrite Pbar_step by exact H. destruct n as [|n].
    - cbn [pred pow]. replace m with O in * by lia. rewrite beta_m. ring.
    - cbn [pred pow]. replace (s * (s * s ^ n) * (sin th * Pbar (S n) m th - beta m (S n) * Pbar n m th)) with (s * (s * s ^ n) * sin th * Pbar (S n) m th - (s * s) * (beta m (S n) * s ^ n * Pbar n m th)) by ring. rewrite s2. ring.
  Qed.
  Lemma column_residual j : (m <= j)%nat -> (j < N)%nat -> Rabs (p j) <= 100 ->
    Rabs (e (S j) - (s * sin th * e j - b j * e (pred j)) / b (S j)) <=
    7.05 * u * (Rabs (sin th) / b (S j) * (Rabs (y j) + Rabs (e j)) + b j / b (S j) * (Rabs (y (pred j)) + Rabs (e (pred j)))) + 1000000 * tiny.
  Proof.
    intros Hj HjN Hpj. pose proof u_small as U. pose proof tiny_pos as T. pose proof (beta_pos m (S j) ltac:(lia)) as B1. fold (b (S j)) in B1. pose proof (a_max j m Hj ltac:(lia)) as AM. pose proof (p_le j Hj) as PJ.
    assert (B0 : 0 <= b j) by (unfold b, beta; apply sqrt_pos). pose proof (Rabs_pos (sin th)) as S0.
    assert (AB : 0 <= Rabs (sin th) / b (S j)) by (apply Rmult_le_pos; [lra|apply Rlt_le, Rinv_0_lt_compat; exact B1]). assert (BB : 0 <= b j / b (S j)) by (apply Rmult_le_pos; [lra|apply Rlt_le, Rinv_0_lt_compat; exact B1]).
    assert (Q : j = m \/ (m < j)%nat) by lia. destruct Hp as (F & G). destruct Q as [-> | Q].
    - destruct (F HjN) as (a & x & Ra & Rx & Rv). pose proof (a_ok m m a ltac:(lia) ltac:(lia) Ra) as Ea. pose proof (column_local_first _ _ _ _ _ _ _ AM Hpj Ea Ht Rx Rv) as L. fold b in L.
      assert (Bm : b m = 0) by (unfold b; apply beta_m). rewrite Bm in *. pose proof (Pbar_step m m th ltac:(lia)) as PS. fold b in PS. rewrite Bm in PS.
      replace (e (S m) - (s * sin th * e m - 0 * e (pred m)) / b (S m)) with (s ^ S m * (p (S m) - / b (S m) * sin th * p m)).
      2:{ rewrite !e_at by lia. replace (Pbar (S m) m th) with (sin th * Pbar m m th / b (S m)) by (apply (Rmult_eq_reg_l (b (S m))); [rewrite PS; field; lra|lra]). cbn [pow]. field. lra. }
      rewrite Rabs_mult, s_abs, Rmult_1_l. eapply Rle_trans; [exact L|]. apply Rplus_le_compat_r. apply Rmult_le_compat_l; [lra|].
      replace (0 / b (S m)) with 0 by (unfold Rdiv; ring). rewrite Rmult_0_l, Rplus_0_r. unfold Rdiv. rewrite (Rmult_comm (Rabs (sin th))). apply Rmult_le_compat_l; [|exact PJ]. unfold Rdiv in AB. lra.
    - destruct j as [|k]; [lia|]. destruct (G k ltac:(lia) ltac:(lia)) as (a & x & y1 & bb & z & Ra & Rx & Ry & Rb & Rz & Rv). cbn [pred]. pose proof (a_ok (S k) m a ltac:(lia) ltac:(lia) Ra) as Ea. pose proof (b_ok k m bb ltac:(lia) Rb) as Eb. fold b in Eb.
      pose proof (column_local _ _ _ _ (p k) _ _ _ _ _ _ _ AM BB Hpj Ea Eb Ht Rx Ry Rz Rv) as L. fold b in L. pose proof (p_le k ltac:(lia)) as PK. pose proof (Pbar_step (S k) m th ltac:(lia)) as PS. fold b in PS. cbn [pred] in PS.
      replace (e (S (S k)) - (s * sin th * e (S k) - b (S k) * e k) / b (S (S k))) with (s ^ S (S k) * (p (S (S k)) - (/ b (S (S k)) * sin th * p (S k) - b (S k) / b (S (S k)) * p k))).
      2:{ rewrite !e_at by lia. replace (Pbar (S (S k)) m th) with ((sin th * Pbar (S k) m th - b (S k) * Pbar k m th) / b (S (S k))) by (apply (Rmult_eq_reg_l (b (S (S k)))); [rewrite PS; field; lra|lra]).
          cbn [pow]. set (q := s ^ k). assert (E0 : s * (s * q) = q) by (rewrite <- Rmult_assoc, s2; ring).
          replace (s * sin th * (s * q * (p (S k) - Pbar (S k) m th))) with (s * (s * q) * (sin th * (p (S k) - Pbar (S k) m th))) by ring. rewrite !E0. field. lra. }
      rewrite Rabs_mult, s_abs, Rmult_1_l. eapply Rle_trans; [exact L|]. apply Rplus_le_compat_r. apply Rmult_le_compat_l; [lra|]. apply Rplus_le_compat.
      + unfold Rdiv. rewrite (Rmult_comm (Rabs (sin th))). apply Rmult_le_compat_l; [|exact PJ]. unfold Rdiv in AB. lra.
      + apply Rmult_le_compat_l; [exact BB|exact PK].
  Qed.
End Column.

(** ** a column *)
Lemma Y_le n : (n <= 1024)%nat -> 1 <= sqrt (INR (2 * n + 1)) <= 46.
Proof.
  intros H. assert (H' : INR (2 * n + 1) <= 2049) by (replace 2049 with (INR (2 * 1024 + 1)) by (rewrite INR_IZR_INZ; reflexivity); apply le_INR; lia). assert (1 <= INR (2 * n + 1)) by (apply (le_INR 1); lia). split.
  - rewrite <- sqrt_1 at 1. apply sqrt_le_1_alt. lra.
  - replace 46 with (sqrt (46 * 46)) by (apply sqrt_square; lra). apply sqrt_le_1_alt. lra.
Qed.
Lemma n_le n : (n <= 1024)%nat -> 0 <= INR n ^ 2 <= 1048576.
Proof. intros H. apply le_INR in H. rewrite (INR_IZR_INZ 1024) in H. change (Z.of_nat 1024) with 1024%Z in H. pose proof (pos_INR n). split; nra. Qed.
Definition growth : R := 2 ^ 826.
Lemma growth_ok n : (n <= 1024)%nat -> sqrt (INR (2 * n + 1) * 3 ^ n) <= growth.
Proof.
  intros H. unfold growth. rewrite <- (sqrt_square (2 ^ 826)) by (apply pow_le; lra). apply sqrt_le_1_alt.
  assert (A : 3 ^ n <= 2 ^ (8 * 205)).
  { apply Rle_trans with (3 ^ (5 * 205)); [apply Rle_pow; [lra|lia]|]. rewrite (pow_mult 3 5 205), (pow_mult 2 8 205). apply (pow_incr (3 ^ 5) (2 ^ 8) 205). lra. }
  assert (B : INR (2 * n + 1) <= 2 ^ 12).
  { apply Rle_trans with (INR 2049); [apply le_INR; lia|]. rewrite INR_IZR_INZ. change (Z.of_nat 2049) with 2049%Z. lra. }
  assert (C : 2 ^ 826 * 2 ^ 826 = 2 ^ 12 * 2 ^ (8 * 205)) by (rewrite <- !pow_add; f_equal). rewrite C. apply Rmult_le_compat; [apply pos_INR|apply pow_le; lra|exact B|exact A].
Qed.
Lemma growth_1 : 1 <= growth.
Proof. unfold growth. apply pow_R1_Rle. lra. Qed.
Lemma growth_tiny : tiny * growth * 1000000000000000000000000 <= u.
Proof.
  pose proof tiny_u as H. pose proof tiny_pos as T. eapply Rle_trans; [|exact H]. rewrite Rmult_assoc. apply Rmult_le_compat_l; [apply Rlt_le; exact T|]. unfold growth. assert (E : 2 ^ 1000 = 2 ^ 826 * 2 ^ 174) by (rewrite <- pow_add; f_equal). rewrite E. apply Rmult_le_compat_l; [apply pow_le; lra|].
  apply Rle_trans with (2 ^ 80); [|apply Rle_pow; [lra|apply Nat.leb_le; reflexivity]]. replace (2 ^ 80) with (IZR (2 ^ 80)) by apply (IZR_pow2 80). apply IZR_le. lia.
Qed.

Theorem column_zonal th tc N p : trig (sin th) tc -> (N <= 1024)%nat -> column_run tc 0 N p -> p O = 1 ->
  forall n, (n <= N)%nat -> Rabs (p n - Pbar n 0 th) <= 78 * INR n ^ 2 * sqrt (INR (2 * n + 1)) * u.
Proof.
  intros Ht HN Hp P0 n Hn. pose proof u_small as U. pose proof tiny_pos as T. pose proof tiny_small as T2. pose proof (Y_le n ltac:(lia)) as YB. pose proof (n_le n ltac:(lia)) as NB.
  pose (y := fun k => 1 ^ k * Pbar k 0 th). pose (e := fun k => if Nat.ltb k 0 then 0 else 1 ^ k * (p k - Pbar k 0 th)). pose (b := beta 0). pose (Y := sqrt (INR (2 * n + 1))). fold Y in YB |- *.
  pose (ze := fun k => match k with O => e O | S j => e (S j) - (sin th * e j - b j * e (pred j)) / b (S j) end).
  assert (E0 : e O = 0) by (unfold e; cbn [Nat.ltb Nat.leb pow]; rewrite P0, Pbar_00; ring).
  assert (XB : X_zonal n (7.05 * u) (1000000 * tiny) Y <= 78 * INR n ^ 2 * Y * u).
  { unfold X_zonal. assert (A : 7.05 * u * Y + 1000000 * tiny <= 7.06 * u * Y) by (assert (u <= u * Y) by (rewrite <- (Rmult_1_r u) at 1; apply Rmult_le_compat_l; lra); lra). apply (Rmult_le_compat_l (11 * INR n ^ 2)) in A; [|lra]. eapply Rle_trans; [exact A|].
    assert (0 <= INR n ^ 2 * Y * u) by (apply Rmult_le_pos; [apply Rmult_le_pos|]; lra). lra. }
  assert (X1 : 78 * INR n ^ 2 * Y * u <= 1).
  { assert (INR n ^ 2 * Y <= 1048576 * 46) by (apply Rmult_le_compat; lra). assert (INR n ^ 2 * Y * u <= 1048576 * 46 * / 1000000000000000) by (apply Rmult_le_compat; try lra; apply Rmult_le_pos; lra). lra. }
  assert (yY : forall k, (k <= n)%nat -> Rabs (y k) <= Y).
  { intros k Hk. unfold y. rewrite pow1, Rmult_1_l. eapply Rle_trans; [apply Pbar_bound; lia|]. unfold Y. apply sqrt_le_1_alt, le_INR. lia. }
  assert (En : Rabs (e n) <= X_zonal n (7.05 * u) (1000000 * tiny) Y).
  { apply (error_zonal b (sin th)) with (y := y) (ze := ze); auto; try lra.
    - unfold b. apply beta_m.
    - intros k Hk. apply zonal_beta_dec. exact Hk.
    - intros k Hk. apply zonal_beta_half. exact Hk.
    - intros k Hk. apply zonal_beta_max. exact Hk.
    - pose proof (sin2_cos2 th) as S2. unfold Rsqr in S2. pose proof (pow2_ge_0 (cos th)). nra.
    - intros k. unfold ze. ring.
    - assert (u * INR n ^ 2 <= / 1000000000000000 * 1048576) by (apply Rmult_le_compat; lra). lra.
    - intros j Hj E1 E2. unfold ze. pose proof (column_residual th tc 0 N p Ht HN Hp 1 ltac:(ring) j ltac:(lia) ltac:(lia)) as L. rewrite Rmult_1_l in L. apply L.
      eapply Rle_trans; [apply (p_le th 0 p 1 ltac:(ring)); lia|]. fold (y j). fold (e j). pose proof (yY j ltac:(lia)). lra. }
  unfold e in En. cbn [Nat.ltb Nat.leb] in En. rewrite pow1, Rmult_1_l in En. lra.
Qed.

Theorem column_order th tc m N p : (1 <= m)%nat -> trig (sin th) tc -> (N <= 1024)%nat -> column_run tc m N p -> appr (6.1 * INR m) (1000000 * tiny) (Pbar m m th) (p m) ->
  forall n, (m <= n <= N)%nat -> Rabs (p n - Pbar n m th) <= 55 * INR n ^ 2 * sqrt (INR (2 * n + 1)) * u.
Proof.
  intros m1 Ht HN Hp P0 n Hn. pose proof u_small as U. pose proof tiny_pos as T. pose proof tiny_small as T2. pose proof (Y_le n ltac:(lia)) as YB. pose proof (n_le n ltac:(lia)) as NB. pose proof growth_1 as G1. pose proof growth_tiny as G2.
  assert (SG : exists s, s * s = 1 /\ 0 <= s * sin th) by (destruct (Rle_dec 0 (sin th)); [exists 1|exists (-1)]; split; lra). destruct SG as (s & s2 & s0).
  assert (st : Rabs (sin th) = s * sin th) by (pose proof (s_abs s s2 1) as E; rewrite pow_1 in E; rewrite <- (Rmult_1_l (Rabs (sin th))), <- E, <- Rabs_mult; apply Rabs_right; lra).
  pose (y := fun k => s ^ k * Pbar k m th). pose (e := fun k => if Nat.ltb k m then 0 else s ^ k * (p k - Pbar k m th)). pose (b := beta m). pose (Y := sqrt (INR (2 * n + 1))). fold Y in YB |- *. pose (t := s * sin th).
  pose (ze := fun k => if Nat.ltb k m then 0 else if Nat.eqb k m then e m else e k - (t * e (pred k) - b (pred k) * e (pred (pred k))) / b k).
  pose (ep := 7.05 * u). pose (ka := 1000000 * tiny). pose (rho := 6.1 * INR m * u).
  assert (mn : INR m <= INR n ^ 2). { assert (INR m <= INR n) by (apply le_INR; lia). assert (1 <= INR n) by (apply (le_INR 1); lia). nra. }
  assert (m0 : 0 <= INR m) by apply pos_INR. assert (n1 : 1 <= INR n ^ 2) by (assert (1 <= INR m) by (apply (le_INR 1); lia); lra).
  assert (XB : 2 * X n ep ka rho ka Y growth <= 55 * INR n ^ 2 * Y * u).
  { unfold X, ep, ka, rho. assert (A1 : 6.1 * INR m * u * Y <= 6.1 * (INR n ^ 2 * Y * u)).
    { replace (6.1 * INR m * u * Y) with (6.1 * (INR m * (Y * u))) by ring. replace (INR n ^ 2 * Y * u) with (INR n ^ 2 * (Y * u)) by ring. apply Rmult_le_compat_l; [lra|]. apply Rmult_le_compat_r; [apply Rmult_le_pos; lra|exact mn]. }
    assert (A2 : u <= INR n ^ 2 * Y * u) by (rewrite <- (Rmult_1_l u) at 1; apply Rmult_le_compat_r; [lra|]; rewrite <- (Rmult_1_l 1); apply Rmult_le_compat; lra).
    assert (A3 : INR n ^ 2 * (tiny * growth) <= 1048576 * (tiny * growth)) by (apply Rmult_le_compat_r; [apply Rmult_le_pos; lra|lra]). assert (A4 : 0 <= tiny * growth) by (apply Rmult_le_pos; lra). lra. }
  assert (X1 : 55 * INR n ^ 2 * Y * u <= 1).
  { assert (INR n ^ 2 * Y <= 1048576 * 46) by (apply Rmult_le_compat; lra). assert (INR n ^ 2 * Y * u <= 1048576 * 46 * / 1000000000000000) by (apply Rmult_le_compat; try lra; apply Rmult_le_pos; lra). lra. }
  assert (yY : forall k, (k <= n)%nat -> Rabs (y k) <= Y).
  { intros k Hk. unfold y. rewrite Rabs_mult, s_abs, Rmult_1_l by exact s2. destruct (le_lt_dec m k) as [L|L].
    - eapply Rle_trans; [apply Pbar_bound; lia|]. unfold Y. apply sqrt_le_1_alt, le_INR. lia.
    - rewrite Pbar_before by lia. rewrite Rabs_R0. lra. }
  assert (zm : ze m = e m) by (unfold ze; rewrite Nat.ltb_irrefl, Nat.eqb_refl; reflexivity).
  assert (zs : forall j, (m <= j)%nat -> ze (S j) = e (S j) - (t * e j - b j * e (pred j)) / b (S j)).
  { intros j Hj. unfold ze. rewrite (proj2 (Nat.ltb_ge (S j) m)), (proj2 (Nat.eqb_neq (S j) m)) by lia. reflexivity. }
  assert (En : Rabs (e n) <= 2 * X n ep ka rho ka Y growth).
  { apply (error_bound m b t) with (y := y) (ze := ze); auto; try (unfold ep, ka, rho; first [lra|apply Rmult_le_pos; [apply Rmult_le_pos|]; lra]).
    - unfold b. apply beta_m.
    - intros k Hk. apply beta_inc; assumption.
    - intros k Hk. unfold y. rewrite Pbar_before by exact Hk. ring.
    - intros k Hk. apply (y_step th tc m N p HN Hp s s2). exact Hk.
    - intros k Hk. unfold e. rewrite (proj2 (Nat.ltb_lt k m) Hk). reflexivity.
    - intros k Hk. unfold ze. rewrite (proj2 (Nat.ltb_lt k m) Hk). reflexivity.
    - intros k Hk. rewrite zs by exact Hk. ring.
    - assert (u * INR n ^ 2 <= / 1000000000000000 * 1048576) by (apply Rmult_le_compat; lra). unfold ep. lra.
    - intros k Hk Rk. assert (Rs : response (beta m) t m (K b t m)) by (apply (K_response m b t); [right; exact m1|intros q Hq; unfold b; apply Rgt_not_eq, beta_pos; exact Hq|lia]).
      assert (t1 : t <= 1) by (unfold t; rewrite <- st; apply Rabs_le; pose proof (SIN_bound th); lra).
      eapply Rle_trans; [apply (proj1 (w_le_c m t m1 t1 (K b t m) Rs k ltac:(lia) Rk))|]. eapply Rle_trans; [apply (c_le m k k m1); lia|]. apply growth_ok. lia.
    - rewrite zm. unfold e. rewrite Nat.ltb_irrefl. unfold y. rewrite !Rabs_mult, !s_abs, !Rmult_1_l by exact s2. exact P0.
    - intros j Hj E1 E2. rewrite zs by lia. pose proof (column_residual th tc m N p Ht HN Hp s s2 j ltac:(lia) ltac:(lia)) as L. rewrite st in L. apply L.
      eapply Rle_trans; [apply (p_le th m p s s2); lia|]. fold (y j). fold (e j). pose proof (yY j ltac:(lia)). lra.
    - lia. }
  unfold e in En. rewrite (proj2 (Nat.ltb_ge n m)) in En by lia. rewrite Rabs_mult, s_abs, Rmult_1_l in En by exact s2. lra.
Qed.

(** ** the diagonal *)
Lemma s_quotient m : 1 <= IZR (snum m) / IZR (sden m) <= (1 + / (4 * INR (S m))) ^ 2.
Proof.
  unfold snum, sden. rewrite !plus_IZR, !mult_IZR, Z_INR, S_INR. pose proof (pos_INR m) as M. set (x := INR m) in *. replace ((2 * x + 3) / (2 * x + 2)) with (1 + / (2 * (x + 1))) by (field; lra). assert (0 < / (x + 1)) by (apply Rinv_0_lt_compat; lra).
  rewrite !Rinv_mult. nra.
Qed.
Lemma s_factor m : sqrt (IZR (snum m) / IZR (sden m)) = sqrt (INR (2 * m + 3) / INR (2 * m + 2)).
Proof. unfold snum, sden. rewrite !plus_IZR, !mult_IZR, Z_INR, !plus_INR, !mult_INR. cbn [INR]. f_equal. f_equal; ring. Qed.
Lemma s_max m : 1 <= sqrt (IZR (snum m) / IZR (sden m)) <= 1 + / (4 * INR (S m)).
Proof.
  pose proof (s_quotient m) as (A & B). assert (0 < / (4 * INR (S m))) by (apply Rinv_0_lt_compat; pose proof (lt_0_INR (S m) ltac:(lia)); lra). split.
  - rewrite <- sqrt_1 at 1. apply sqrt_le_1_alt. exact A.
  - rewrite <- (sqrt_pow2 (1 + / (4 * INR (S m)))) by lra. apply sqrt_le_1_alt. exact B.
Qed.
Theorem diagonal th c M P : trig (cos th) c -> diagonal_run c M P -> forall m, (m <= M)%nat \/ (m <= 1)%nat -> (m <= 1024)%nat -> appr (6.1 * INR m) (300 * INR (S m) * tiny) (Pbar m m th) (P m).
Proof.
  intros Hc (D0 & (s1 & Rs & Rp) & D) m. pose proof u_small as U. pose proof tiny_pos as T. assert (TU : 0 <= tiny * u <= tiny * / 1000000000000000) by (split; [apply Rmult_le_pos|apply Rmult_le_compat_l]; lra).
  assert (Hc' : appr 2 tiny (cos th) c) by exact Hc. assert (C1 : Rabs (cos th) <= 1) by (apply Rabs_le; apply COS_bound). pose proof (Rabs_pos (cos th)) as C0.
  induction m as [|m IH]; intros Hm H1.
  - rewrite D0, Pbar_00. unfold appr. replace (1 - 1) with 0 by ring. rewrite Rabs_R0, Rabs_R1. cbn [INR]. lra.
  - destruct m as [|m].
    + rewrite Pbar_11. assert (N3 : near 3 3) by (unfold near; replace (3 - 3) with 0 by ring; rewrite Rabs_R0, (Rabs_right 3) by lra; lra). pose proof (sqrt_run 3 3 s1 ltac:(lra) N3 Rs) as A.
      assert (M1 := fun C K => appr_mul 2.01 0 2 tiny (sqrt 3) s1 (cos th) c C K A Hc'). specialize (M1 ltac:(lra) ltac:(lra)). assert (S3 : 0 <= sqrt 3 <= 2) by (split; [apply sqrt_pos|]; replace 2 with (sqrt (2 * 2)) by (apply sqrt_square; lra); apply sqrt_le_1_alt; lra).
      rewrite (Rabs_right (sqrt 3)) in M1 by lra. apply (appr_le _ _ 4.011 (3 * tiny)) in M1; [|lra|].
      2:{ assert (tiny * (sqrt 3 * (1 + 2.01 * u)) <= tiny * 3) by (apply Rmult_le_compat_l; [lra|]; assert (sqrt 3 * u <= 2 * u) by (apply Rmult_le_compat_r; lra); lra). lra. }
      pose proof (appr_near _ _ _ _ _ M1 Rp) as M2. eapply appr_le; [exact M2| |]; cbn [INR]; lra.
    + specialize (IH ltac:(lia) ltac:(lia)). destruct (D (S m) ltac:(lia)) as (s & x & Rr & Rx & Rv). rewrite Pbar_diagonal by lia. rewrite <- s_factor. pose proof (s_max (S m)) as SM. set (sm := sqrt (IZR (snum (S m)) / IZR (sden (S m)))) in *.
      assert (Es : appr 2.01 0 sm s) by (apply root_ok; [pose proof (s_quotient (S m)); lra|exact Rr]). set (n := S m) in *. set (P0 := Pbar n n th) in *.
      assert (I1 : 1 <= INR n) by (apply (le_INR 1); lia). assert (I2 : INR n <= 1024) by (replace 1024 with (INR 1024) by (rewrite INR_IZR_INZ; reflexivity); apply le_INR; lia).
      assert (SM2 : sm <= 1.25). { assert (/ (4 * INR (S n)) <= / 4) by (apply Rinv_le_contravar; [lra|rewrite S_INR; lra]). lra. }
      assert (PB : Rabs P0 <= 46) by (eapply Rle_trans; [apply Pbar_bound; lia|]; apply Y_le; lia).
      assert (M1 := fun C K => appr_mul 2 tiny 2.01 0 (cos th) c sm s C K Hc' Es). specialize (M1 ltac:(lra) ltac:(lra)). rewrite (Rabs_right sm) in M1 by lra. apply (appr_le _ _ 4.011 (1.26 * tiny)) in M1; [|lra|].
      2:{ assert (tiny * (sm * (1 + 2.01 * u)) <= tiny * 1.26) by (apply Rmult_le_compat_l; [lra|]; assert (sm * u <= 1.25 * u) by (apply Rmult_le_compat_r; lra); lra). lra. }
      pose proof (appr_near _ _ _ _ _ M1 Rx) as M2. apply (appr_le _ _ 5.012 (2.27 * tiny)) in M2; [|lra|lra].
      set (k := 300 * INR (S n) * tiny) in *. assert (K0 : 0 <= k <= 1000000 * tiny) by (unfold k; rewrite S_INR; split; [apply Rmult_le_pos; lra|apply Rmult_le_compat_r; lra]).
      assert (M3 := fun C K => appr_mul 5.012 (2.27 * tiny) (6.1 * INR n) k (cos th * sm) x P0 (P n) C K M2 IH). specialize (M3 ltac:(lra) ltac:(lra)).
      assert (SC : Rabs (cos th * sm) <= 1 + / (4 * INR (S n))). { rewrite Rabs_mult, (Rabs_right sm) by lra. apply Rle_trans with (1 * sm); [apply Rmult_le_compat_r; lra|lra]. }
      assert (kS : k * Rabs (cos th * sm) <= k + 75 * tiny).
      { apply Rle_trans with (k * (1 + / (4 * INR (S n)))); [apply Rmult_le_compat_l; lra|]. right. unfold k. field. rewrite S_INR. lra. }
      assert (kS0 : 0 <= k * Rabs (cos th * sm)) by (apply Rmult_le_pos; [lra|apply Rabs_pos]).
      assert (In : INR n * u <= 1024 * / 1000000000000000) by (apply Rmult_le_compat; lra).
      apply (appr_le _ _ (6.1 * INR n + 5.013) (k + 180 * tiny)) in M3.
      2:{ assert (5.012 * (6.1 * INR n) * u <= 0.001) by lra. lra. }
      2:{ assert (Z1 : tiny * (Rabs P0 * (1 + 6.1 * INR n * u) + k) <= tiny * 46.1).
          { apply Rmult_le_compat_l; [lra|]. assert (Rabs P0 * (INR n * u) <= 46 * (1024 * / 1000000000000000)) by (apply Rmult_le_compat; try lra; [apply Rabs_pos|apply Rmult_le_pos; lra]). pose proof tiny_small. assert (k <= 0.001) by lra. lra. }
          assert (Z2 : k * Rabs (cos th * sm) * u <= (k + 75 * tiny) * / 1000000000000000) by (apply Rmult_le_compat; lra). lra. }
      pose proof (appr_near _ _ _ _ _ M3 Rv) as M4. eapply appr_le; [exact M4| |].
      * rewrite S_INR. lra.
      * assert (k * u <= 1000000 * tiny * / 1000000000000000) by (apply Rmult_le_compat; lra). unfold k in *. rewrite (S_INR (S n)). lra.
Qed.

(** ** all degrees and orders *)
Theorem legendre_error th N M P : (N <= 1024)%nat -> (M <= N)%nat -> legendre_run th N M P ->
  forall n m, (m <= M)%nat -> (m <= n <= N)%nat -> Rabs (P n m - Pbar n m th) <= 78 * INR n ^ 2 * sqrt (INR (2 * n + 1)) * u.
Proof.
  intros HN HM (c & t & Hc & Ht & D & C) n m Hm Hn. destruct m as [|m].
  - apply (column_zonal th t N (fun k => P k O) Ht HN (C O ltac:(lia)) (proj1 D)). lia.
  - assert (DM := diagonal th c M (fun k => P k k) Hc D (S m) ltac:(lia) ltac:(lia)). cbn beta in DM. pose proof tiny_pos as T. assert (IM : INR (S (S m)) <= 1025) by (replace 1025 with (INR 1025) by (rewrite INR_IZR_INZ; reflexivity); apply le_INR; lia).
    eapply Rle_trans; [apply (column_order th t (S m) N (fun k => P k (S m)) ltac:(lia) Ht HN (C (S m) Hm)); [|lia]|].
    + eapply appr_le; [exact DM|lra|]. assert (INR (S (S m)) * tiny <= 1025 * tiny) by (apply Rmult_le_compat_r; lra). lra.
    + pose proof u_pos as U. assert (0 <= INR n ^ 2 * sqrt (INR (2 * n + 1)) * u) by (apply Rmult_le_pos; [apply Rmult_le_pos; [apply pow2_ge_0|apply sqrt_pos]|lra]). lra.
Qed.
