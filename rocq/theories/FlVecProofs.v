From Coq Require Import Reals ZArith Bool Lia Lra.
From Verif Require Import Vec FlModel FlProofs FlAlfProofs FlCunModel FlCunProofs7 FlGravProofs FlEopProofs FlVecModel.
Open Scope R_scope.

(** ** magnitude between 2^-n and 2^m, error at most k hundredths of 2^-53 of it *)
Definition acc (n m : nat) (k : Z) (B : R) (e : fx) : Prop :=
  (/ 2) ^ n <= B <= 2 ^ m /\ forall v, rounded e v -> bd (IZR k / 100) B (exact e) v.
(** sizes for which the lemmas hold *)
Definition fits (n : nat) (k : Z) : bool := (n <=? 1000)%nat && (0 <=? k)%Z && (k <=? 4000000)%Z.
Lemma fits_spec n k : fits n k = true -> (n <= 1000)%nat /\ 0 <= IZR k <= 4000000.
Proof. unfold fits. rewrite !andb_true_iff, Nat.leb_le, !Z.leb_le. intros ((A & B) & C). split; [exact A|]. split; [apply (IZR_le 0)|apply (IZR_le k 4000000)]; assumption. Qed.
Lemma acc_abs n m k B e : acc n m k B e -> Rabs (exact e) <= B \/ forall v, ~ rounded e v.
Proof. intros (_ & H). destruct (Classical_Prop.classic (exists v, rounded e v)) as [(v & R)|N]; [left; exact (proj1 (H v R))|right; intros v R; apply N; exists v; exact R]. Qed.
Lemma half_pow_2 a : (/ 2) ^ a = / 2 ^ a. Proof. apply pow_inv. Qed.
Lemma two_pos a : 0 < 2 ^ a. Proof. apply pow_lt. lra. Qed.
Lemma half_pos a : 0 < (/ 2) ^ a. Proof. apply pow_lt. lra. Qed.
Lemma half_le a b : (a <= b)%nat -> (/ 2) ^ b <= (/ 2) ^ a.
Proof. intros H. rewrite !pow_inv. apply Rinv_le_contravar; [apply pow_lt; lra|apply Rle_pow; [lra|exact H]]. Qed.
Lemma bd_weak k A B x v : 0 <= k -> A <= B -> bd k A x v -> bd k B x v.
Proof. intros K L (H & J). split; [lra|]. eapply Rle_trans; [exact J|]. apply Rmult_le_compat_l; [apply Rmult_le_pos; [exact K|left; exact u_pos]|exact L]. Qed.

Lemma acc_weak n m k B n' m' k' B' e : acc n m k B e -> (k <=? k')%Z && (0 <=? k)%Z = true -> B <= B' -> (/ 2) ^ n' <= B' <= 2 ^ m' -> acc n' m' k' B' e.
Proof.
  intros (_ & H) K L M. apply andb_true_iff in K as (K & K0). apply Z.leb_le in K, K0. split; [exact M|]. intros v R. apply IZR_le in K, K0. apply bd_weak with B; [lra|exact L|]. apply bd_le with (IZR k / 100); [lra|]. apply H, R.
Qed.
Lemma acc_val n m B x : Rabs x <= B -> (/ 2) ^ n <= B <= 2 ^ m -> acc n m 0 B (Val x).
Proof. intros H L. split; [exact L|]. intros v ->. cbn [exact]. split; [exact H|]. replace (x - x) with 0 by ring. rewrite Rabs_R0. apply Req_le. field. Qed.
Lemma acc_ng n m k B a : acc n m k B a -> acc n m k B (Ng a).
Proof. intros (L & H). split; [exact L|]. intros v R. cbn in R |- *. apply bd_neg, H, R. Qed.
(** one more rounding *)
Lemma bd_round n k B x v w : (/ 2) ^ n <= B -> fits n k = true -> bd (IZR k / 100) B x v -> near v w -> bd (IZR (k + 101) / 100) B x w.
Proof. intros L F H N. apply fits_spec in F as (A & K). replace (IZR (k + 101) / 100) with (IZR k / 100 + 1.01) by (rewrite plus_IZR; lra). apply bd_near with v n; [exact H|lra|exact A|exact L|exact N]. Qed.
Lemma acc_cst n m B x : Rabs x <= B -> (/ 2) ^ n <= B <= 2 ^ m -> (n <=? 1000)%nat = true -> acc n m 101 B (Cst x).
Proof.
  intros H L N. split; [exact L|]. intros v R. cbn in R |- *. apply (bd_round n 0 B x x v); [apply L|unfold fits; rewrite N; reflexivity| |exact R]. split; [exact H|]. replace (x - x) with 0 by ring. rewrite Rabs_R0. apply Req_le. field.
Qed.
Lemma max_le a b : IZR a / 100 <= IZR (Z.max a b) / 100 /\ IZR b / 100 <= IZR (Z.max a b) / 100.
Proof. pose proof (IZR_le _ _ (Z.le_max_l a b)). pose proof (IZR_le _ _ (Z.le_max_r a b)). lra. Qed.
Section Two.
  Variables (n m n' m' : nat) (k l : Z) (A B : R) (a b : fx).
  Hypothesis Ha : acc n m k A a.
  Hypothesis Hb : acc n' m' l B b.
  Lemma ab_pos : 0 < A /\ 0 < B. Proof. destruct Ha as ((L & _) & _), Hb as ((L' & _) & _). pose proof (half_pos n). pose proof (half_pos n'). lra. Qed.
  Lemma sum_range : (/ 2) ^ min n n' <= A + B <= 2 ^ S (max m m').
  Proof.
    destruct Ha as ((L & U) & _), Hb as ((L' & U') & _). destruct ab_pos as (PA & PB). split.
    - destruct (Nat.min_dec n n') as [->| ->]; lra.
    - rewrite <- tech_pow_Rmult. pose proof (Rle_pow 2 m (max m m') ltac:(lra) (Nat.le_max_l _ _)). pose proof (Rle_pow 2 m' (max m m') ltac:(lra) (Nat.le_max_r _ _)). lra.
  Qed.
  Lemma bd_max x y v w : bd (IZR k / 100) A x v -> bd (IZR l / 100) B y w -> bd (IZR (Z.max k l) / 100) (A + B) (x + y) (v + w).
  Proof.
    intros H J. destruct (max_le k l) as (M1 & M2). replace (IZR (Z.max k l) / 100) with (Rmax (IZR (Z.max k l) / 100) (IZR (Z.max k l) / 100)) by (apply Rmax_left; lra).
    apply bd_add; [apply bd_le with (IZR k / 100)|apply bd_le with (IZR l / 100)]; assumption.
  Qed.
  Lemma acc_pl : fits (min n n') (Z.max k l) = true -> acc (min n n') (S (max m m')) (Z.max k l + 101) (A + B) (Pl a b).
  Proof.
    intros F. pose proof sum_range as SR. split; [exact SR|]. intros v (x & y & R1 & R2 & N). cbn. apply bd_round with (min n n') (x + y); [apply SR|exact F| |exact N]. apply bd_max; [apply Ha, R1|apply Hb, R2].
  Qed.
  Lemma acc_mi : fits (min n n') (Z.max k l) = true -> acc (min n n') (S (max m m')) (Z.max k l + 101) (A + B) (Mi a b).
  Proof.
    intros F. pose proof sum_range as SR. split; [exact SR|]. intros v (x & y & R1 & R2 & N). cbn. apply bd_round with (min n n') (x - y); [apply SR|exact F| |exact N].
    unfold Rminus. apply bd_max; [apply Ha, R1|]. apply bd_neg. rewrite Ropp_involutive. apply Hb, R2.
  Qed.
  Lemma acc_ti : fits (n + n') k && fits 0 l && fits 0 (k + l + 1) = true -> acc (n + n') (m + m') (k + l + 102) (A * B) (Ti a b).
  Proof.
    intros F. apply andb_true_iff in F as (F & F3). apply andb_true_iff in F as (F1 & F2). pose proof (fits_spec _ _ F1) as (N1 & K1). pose proof (fits_spec _ _ F2) as (_ & K2). pose proof (fits_spec _ _ F3) as (_ & K3).
    destruct Ha as ((L & U) & Ra), Hb as ((L' & U') & Rb). destruct ab_pos as (PA & PB).
    assert (SR : (/ 2) ^ (n + n') <= A * B <= 2 ^ (m + m')). { rewrite !pow_add. pose proof (half_pos n). pose proof (half_pos n'). split; apply Rmult_le_compat; lra. }
    split; [exact SR|]. intros v (x & y & R1 & R2 & N). cbn. replace (k + l + 102)%Z with (k + l + 1 + 101)%Z by lia. apply bd_round with (n + n')%nat (x * y); [apply SR| | |exact N].
    - unfold fits in *. rewrite !andb_true_iff, !Z.leb_le in *. rewrite Nat.leb_le in *. intuition lia.
    - replace (IZR (k + l + 1) / 100) with (IZR k / 100 + IZR l / 100 + 0.01) by (rewrite !plus_IZR; lra). apply bd_prod; [lra|lra|apply Ra, R1|apply Rb, R2].
  Qed.
End Two.
(** the divisor is known with a small relative error *)
Lemma acc_ov n m n' m' k l A Y a b : acc n m k A a -> acc n' m' l Y b -> exact b = Y -> fits (n + m') k && fits 0 l && fits 0 (k + l + 1) = true -> acc (n + m') (m + n') (k + l + 102) (A / Y) (Ov a b).
Proof.
  intros Ha Hb E F. destruct (ab_pos _ _ _ _ _ _ _ _ _ _ Ha Hb) as (PA & PB). apply andb_true_iff in F as (F & F3). apply andb_true_iff in F as (F1 & F2). pose proof (fits_spec _ _ F1) as (N1 & K1). pose proof (fits_spec _ _ F2) as (_ & K2). pose proof (fits_spec _ _ F3) as (_ & K3).
  destruct Ha as ((L & U) & Ra), Hb as ((L' & U') & Rb).
  assert (SR : (/ 2) ^ (n + m') <= A / Y <= 2 ^ (m + n')).
  { rewrite !pow_add. unfold Rdiv. pose proof (half_pos n). split; (apply Rmult_le_compat; [try lra|try lra|assumption|]).
    - left. apply half_pos.
    - rewrite half_pow_2. apply Rinv_le_contravar; assumption.
    - left. apply Rinv_0_lt_compat, PB.
    - replace (2 ^ n') with (/ (/ 2) ^ n') by (rewrite half_pow_2, Rinv_inv; reflexivity). apply Rinv_le_contravar; [apply half_pos|exact L']. }
  split; [exact SR|]. intros v (x & y & R1 & R2 & N). cbn. replace (k + l + 102)%Z with (k + l + 1 + 101)%Z by lia. apply bd_round with (n + m')%nat (x / y); [apply SR| | |exact N].
  - unfold fits in *. rewrite !andb_true_iff, !Z.leb_le in *. rewrite Nat.leb_le in *. intuition lia.
  - replace (IZR (k + l + 1) / 100) with (IZR k / 100 + IZR l / 100 + 0.01) by (rewrite !plus_IZR; lra). rewrite E. assert (EA : Y = Rabs Y) by (rewrite Rabs_pos_eq; lra). rewrite EA at 1. apply bd_quot; [lra|lra|lra|apply Ra, R1|]. rewrite <- EA. rewrite <- E at 2. apply Rb, R2.
Qed.
(** the square root of a value known with a small relative error *)
Lemma bd_root k B v : 0 <= k <= 50000 -> 0 < B -> bd k (B * B) (B * B) v -> bd (k / 2 + 0.01) B B (sqrt v).
Proof.
  intros K P (_ & J). pose proof u_small as U. split; [rewrite Rabs_pos_eq; lra|].
  assert (KU : 0 <= k * u <= / 10000000000). { split; [apply Rmult_le_pos; lra|]. apply Rle_trans with (50000 * / 1000000000000000); [apply Rmult_le_compat; lra|lra]. }
  assert (BB : 0 < B * B) by (apply Rmult_lt_0_compat; lra). assert (J2 : - (k * u * (B * B)) <= v - B * B <= k * u * (B * B)) by (unfold Rabs in J; destruct (Rcase_abs (v - B * B)); lra). assert (V : 0 <= v) by nra.
  pose proof (sqrt_sqrt v V) as SS. pose proof (sqrt_pos v) as SP. set (w := sqrt v) in *.
  assert (LW : (1 - k * u) * B <= w). { destruct (Rle_dec ((1 - k * u) * B) w) as [|N]; [assumption|]. exfalso. apply Rnot_le_lt in N. assert (w * w < (1 - k * u) * B * ((1 - k * u) * B)) by (apply Rmult_le_0_lt_compat; lra). rewrite SS in H. set (e := k * u) in *. assert ((1 - e) * B * ((1 - e) * B) <= B * B - e * (B * B)) by nra. lra. }
  assert (D : (w - B) * (w + B) = v - B * B) by (rewrite <- SS; ring).
  assert (G : Rabs (w - B) * (2 * B - k * u * B) <= k * u * (B * B)). { apply Rle_trans with (Rabs (w - B) * (w + B)); [apply Rmult_le_compat_l; [apply Rabs_pos|lra]|]. rewrite <- (Rabs_pos_eq (w + B)) at 1 by lra. rewrite <- Rabs_mult, D. apply Rabs_le. lra. }
  assert (G' : Rabs (w - B) * (2 - k * u) <= k * u * B). { apply Rmult_le_reg_r with B; [exact P|]. replace (Rabs (w - B) * (2 - k * u) * B) with (Rabs (w - B) * (2 * B - k * u * B)) by ring. lra. }
  assert (KK : k * u * (k * u) <= 0.01 * u). { replace (k * u * (k * u)) with (u * (k * k * u)) by ring. rewrite (Rmult_comm 0.01 u). apply Rmult_le_compat_l; [lra|]. apply Rle_trans with (50000 * 50000 * / 1000000000000000); [|lra]. repeat (apply Rmult_le_compat; try lra). apply Rmult_le_pos; lra. }
  set (e := k * u) in *. replace ((k / 2 + 0.01) * u * B) with ((e / 2 + 0.01 * u) * B) by (unfold e; field).
  apply Rmult_le_reg_r with (2 - e); [lra|]. eapply Rle_trans; [exact G'|]. apply Rle_trans with (B * ((e / 2 + 0.01 * u) * (2 - e))); [|apply Req_le; ring]. rewrite (Rmult_comm e B). apply Rmult_le_compat_l; [lra|]. nra.
Qed.
(** std::pow(a, 3) *)
Lemma acc_cu n m k B a : acc n m k B a -> (n + n + n <=? 900)%nat && (0 <=? k)%Z && (k <=? 100000)%Z = true -> acc (n + n + n) (m + m + m) (3 * k + 205) (B ^ 3) (Cu a).
Proof.
  intros Ha F. apply andb_true_iff in F as (F & K2). apply andb_true_iff in F as (N & K1). apply Nat.leb_le in N. apply Z.leb_le in K1, K2. apply IZR_le in K1, K2. destruct Ha as ((L & U) & Ra). pose proof (half_pos n) as HP.
  assert (E : B ^ 3 = B * B * B) by ring. assert (SR : (/ 2) ^ (n + n + n) <= B ^ 3 <= 2 ^ (m + m + m)). { rewrite E, !pow_add. split; repeat (apply Rmult_le_compat; try lra); repeat apply Rmult_le_pos; lra. }
  split; [exact SR|]. intros v (x & R & N'). cbn [exact]. pose proof (Ra x R) as H. set (q := IZR k / 100) in *. assert (Q : 0 <= q <= 1000) by (unfold q; lra).
  assert (H3 : bd (q + q + 0.01 + q + 0.01) (B * B * B) (exact a * exact a * exact a) (x * x * x)) by (apply bd_prod; [lra|lra|apply bd_prod; [lra|lra|exact H|exact H]|exact H]).
  replace (exact a ^ 3) with (exact a * exact a * exact a) by ring. rewrite E in *. unfold pow3_run in N'. replace (x ^ 3) with (x * x * x) in N' by ring. destruct H3 as (H3 & J3). set (X := exact a * exact a * exact a) in *. set (Y := x * x * x) in *. set (C := B * B * B) in *.
  split; [exact H3|]. pose proof (tiny_mag (n + n + n) C ltac:(lia) (proj1 SR)) as T. pose proof u_small as US. assert (C0 : 0 < C) by (pose proof (half_pos (n + n + n)); lra).
  assert (V : Rabs Y <= C * (1 + 0.000000001)). { replace Y with (X + (Y - X)) by ring. eapply Rle_trans; [apply Rabs_triang|]. assert ((q + q + 0.01 + q + 0.01) * u * C <= 0.000000001 * C). { apply Rmult_le_compat_r; [lra|]. apply Rle_trans with (4000 * / 1000000000000000); [apply Rmult_le_compat; lra|lra]. } lra. }
  replace (v - X) with ((v - Y) + (Y - X)) by ring. eapply Rle_trans; [apply Rabs_triang|]. pose proof (Rmult_le_compat_l (2 * u) _ _ ltac:(lra) V) as V2. replace (IZR (3 * k + 205) / 100) with (3 * q + 2.05) by (unfold q; rewrite plus_IZR, mult_IZR; lra).
  assert (S : 2 * u * (C * (1 + 0.000000001)) + / 1000 * u * C + (q + q + 0.01 + q + 0.01) * u * C <= (3 * q + 2.05) * u * C). { assert (0 < u * C) by (apply Rmult_lt_0_compat; lra). nra. }
  lra.
Qed.
