From Coq Require Import Reals ZArith List Lia Lra.
From Verif Require Import FlModel FlProofs FlAlfModel FlAlfProofs CunModel CunProofs3 FlCunModel FlGravModel.
Import ListNotations.
Open Scope R_scope.

(** ** tiny against the magnitudes *)
Lemma tiny_mag a B : (a <= 1000)%nat -> (/ 2) ^ a <= B -> tiny <= / 1000 * u * B.
Proof.
  intros H L. pose proof u_pos as U. assert (P : 0 < (/ 2) ^ a) by (apply pow_lt; lra). apply Rle_trans with (/ 1000 * u * (/ 2) ^ a); [|apply Rmult_le_compat_l; lra].
  apply Rle_trans with (/ 1000 * u * / 2 ^ 1000).
  - unfold tiny, u. replace (2 ^ 1074) with (2 ^ 1000 * (2 ^ 53 * 2 ^ 21)) by (rewrite <- !pow_add; reflexivity). pose proof (pow_lt 2 1000 ltac:(lra)) as A1. pose proof (pow_lt 2 53 ltac:(lra)) as A2. pose proof (pow_lt 2 21 ltac:(lra)) as A3.
    rewrite !Rinv_mult. pose proof (Rinv_0_lt_compat _ A1) as I1. pose proof (Rinv_0_lt_compat _ A2) as I2. assert (I3 : / 2 ^ 21 <= / 1000). { apply Rinv_le_contravar; [lra|]. assert (E : 2 ^ 21 = IZR (2 ^ 21)) by exact (pow_IZR 2 21). rewrite E. apply (IZR_le 1000 (2 ^ 21)). lia. }
    replace (/ 1000 * / 2 ^ 53 * / 2 ^ 1000) with (/ 2 ^ 1000 * (/ 2 ^ 53 * / 1000)) by ring. apply Rmult_le_compat_l; [lra|]. apply Rmult_le_compat_l; lra.
  - apply Rmult_le_compat_l; [lra|]. rewrite pow_inv. apply Rinv_le_contravar; [apply pow_lt; lra|]. apply Rle_pow; [lra|exact H].
Qed.

(** ** x of magnitude B, computed with an error of k units *)
Definition bd (k B x v : R) : Prop := Rabs x <= B /\ Rabs (v - x) <= k * u * B.
Lemma bd_le k k' B x v : k <= k' -> bd k B x v -> bd k' B x v.
Proof. intros L (H & J). split; [exact H|]. pose proof u_pos. pose proof (Rabs_pos x). eapply Rle_trans; [exact J|]. apply Rmult_le_compat_r; [lra|]. apply Rmult_le_compat_r; lra. Qed.
Lemma bd_neg k B x v : bd k B x (- v) -> bd k B (- x) v.
Proof. intros (H & J). split; [rewrite Rabs_Ropp; exact H|]. replace (v - - x) with (- (- v - x)) by ring. rewrite Rabs_Ropp. exact J. Qed.
Lemma bd_near k B x v w a : bd k B x v -> 0 <= k <= 20000000 -> (a <= 1000)%nat -> (/ 2) ^ a <= B -> near v w -> bd (k + 1.01) B x w.
Proof.
  intros (H & J) K A L N. split; [exact H|]. pose proof (tiny_mag a B A L) as T. pose proof u_small as U. pose proof (pow_lt (/ 2) a ltac:(lra)) as P. unfold near in N.
  assert (V : Rabs v <= B + k * u * B). { replace v with (x + (v - x)) by ring. eapply Rle_trans; [apply Rabs_triang|]. lra. }
  assert (KU : k * u <= / 10000000). { apply Rle_trans with (20000000 * / 1000000000000000); [apply Rmult_le_compat; lra|lra]. }
  assert (KB : k * u * B <= / 10000000 * B) by (apply Rmult_le_compat_r; lra).
  assert (UV : u * Rabs v <= u * (1.001 * B)) by (apply Rmult_le_compat_l; lra). assert (UB : 0 <= u * B) by (apply Rmult_le_pos; lra).
  replace (w - x) with ((w - v) + (v - x)) by ring. eapply Rle_trans; [apply Rabs_triang|]. replace ((k + 1.01) * u * B) with (k * u * B + 1.01 * (u * B)) by ring. lra.
Qed.
Lemma bd_add k l A B x y v w : bd k A x v -> bd l B y w -> bd (Rmax k l) (A + B) (x + y) (v + w).
Proof.
  intros (H & J) (H' & J'). pose proof u_pos as U. pose proof (Rabs_pos x). pose proof (Rabs_pos y). split; [eapply Rle_trans; [apply Rabs_triang|lra]|].
  replace (v + w - (x + y)) with ((v - x) + (w - y)) by ring. eapply Rle_trans; [apply Rabs_triang|]. rewrite Rmult_plus_distr_l. apply Rplus_le_compat.
  - eapply Rle_trans; [exact J|]. apply Rmult_le_compat_r; [lra|]. apply Rmult_le_compat_r; [lra|apply Rmax_l].
  - eapply Rle_trans; [exact J'|]. apply Rmult_le_compat_r; [lra|]. apply Rmult_le_compat_r; [lra|apply Rmax_r].
Qed.
Lemma bd_sub k l A B x y v w : bd k A x v -> bd l B y w -> bd (Rmax k l) (A + B) (x - y) (v - w).
Proof. intros H J. replace (x - y) with (x + - y) by ring. replace (v - w) with (v + - w) by ring. apply bd_add; [exact H|]. apply bd_neg. rewrite Ropp_involutive. exact J. Qed.
Lemma bd_mul k l A B x y v w : 0 <= k <= 20000000 -> 0 <= l <= 20000000 -> bd k A x v -> bd l B y w -> bd (k + l + 0.5) (A * B) (x * y) (v * w).
Proof.
  intros Kk L (H & J) (H' & J'). pose proof u_small as U. pose proof (Rabs_pos x) as X. pose proof (Rabs_pos y) as Y. split; [rewrite Rabs_mult; apply Rmult_le_compat; assumption|].
  replace (v * w - x * y) with ((v - x) * y + (x * (w - y) + (v - x) * (w - y))) by ring. eapply Rle_trans; [apply Rabs_triang|]. eapply Rle_trans; [apply Rplus_le_compat_l, Rabs_triang|]. rewrite !Rabs_mult.
  pose proof (Rabs_pos (v - x)) as V. pose proof (Rabs_pos (w - y)) as W.
  pose proof (Rmult_le_compat _ _ _ _ V Y J H') as P1. pose proof (Rmult_le_compat _ _ _ _ X W H J') as P2. pose proof (Rmult_le_compat _ _ _ _ V W J J') as P3.
  assert (KL : k * l * u <= 0.5). { apply Rle_trans with (20000000 * 20000000 * / 1000000000000000); [|lra]. repeat (apply Rmult_le_compat; try lra). apply Rmult_le_pos; lra. }
  assert (Q : 0 <= u * (A * B)) by (apply Rmult_le_pos; [lra|apply Rmult_le_pos; lra]). pose proof (Rmult_le_compat_r _ _ _ Q KL) as P4.
  replace ((k + l + 0.5) * u * (A * B)) with (k * u * A * B + A * (l * u * B) + 0.5 * (u * (A * B))) by ring. replace (k * u * A * (l * u * B)) with (k * l * u * (u * (A * B))) in P3 by ring. lra.
Qed.

(** ** leaves *)
Lemma near_one x v : / 2 <= x -> near x v -> bd 1.01 x x v.
Proof.
  intros H N. pose proof (tiny_mag 1 x ltac:(lia) ltac:(lra)) as T. unfold near in N. rewrite (Rabs_right x) in N by lra. split; [rewrite Rabs_right; lra|]. pose proof u_pos. nra.
Qed.
Lemma sqrt_2 : 1 <= sqrt 2 <= 1.5.
Proof. split; [rewrite <- sqrt_1; apply sqrt_le_1; lra|]. rewrite <- (sqrt_square 1.5) by lra. apply sqrt_le_1; lra. Qed.
Lemma sqrt_int p : (1 <= p)%Z -> 1 <= sqrt (IZR p).
Proof. intros H. rewrite <- sqrt_1. apply sqrt_le_1; [lra|apply IZR_le; lia|apply IZR_le; lia]. Qed.
Lemma quotient_bd s t v w z : 1 <= s -> 1 <= t <= 1.5 -> bd 1.01 s s v -> bd 1.01 t t w -> near (v / w) z -> bd 4 (s / t) (s / t) z.
Proof.
  intros S T (_ & A) (_ & B) N. pose proof u_small as U.
  assert (W0 : t * (1 - 1.01 * u) <= w <= t * (1 + 1.01 * u)) by (unfold Rabs in B; destruct (Rcase_abs (w - t)); split; lra).
  assert (W1 : 0.99 * t <= w) by (assert (t * 0.99 <= t * (1 - 1.01 * u)) by (apply Rmult_le_compat_l; lra); lra).
  assert (D : v / w - s / t = ((v - s) - s / t * (w - t)) / w) by (field; lra).
  assert (Q0 : 0 < s / t) by (apply Rdiv_lt_0_compat; lra).
  assert (E : Rabs (v / w - s / t) <= 2.1 * u * (s / t)).
  { rewrite D. unfold Rdiv at 1. rewrite Rabs_mult, Rabs_inv, (Rabs_right w) by lra. apply Rmult_le_reg_r with w; [lra|]. rewrite Rmult_assoc, Rinv_l, Rmult_1_r by lra.
    unfold Rminus at 1. eapply Rle_trans; [apply Rabs_triang|]. rewrite Rabs_Ropp, Rabs_mult, (Rabs_right (s / t)) by lra.
    apply Rle_trans with (1.01 * u * s + s / t * (1.01 * u * t)); [apply Rplus_le_compat; [exact A|apply Rmult_le_compat_l; lra]|].
    replace (s / t * (1.01 * u * t)) with (1.01 * u * s) by (field; lra). apply Rle_trans with (2.1 * u * (s / t) * (0.99 * t)); [|apply Rmult_le_compat_l; [|exact W1]; apply Rmult_le_pos; [apply Rmult_le_pos; lra|lra]].
    assert (C : s / t * t = s) by (field; lra). replace (2.1 * u * (s / t) * (0.99 * t)) with (2.079 * (u * (s / t * t))) by (generalize (s / t); intros; lra). rewrite C. assert (0 <= u * s) by (apply Rmult_le_pos; lra). lra. }
  assert (H : / 2 <= s / t). { apply Rmult_le_reg_r with t; [lra|]. unfold Rdiv. rewrite Rmult_assoc, Rinv_l by lra. lra. }
  apply (bd_le (2.1 + 1.01)); [lra|]. apply (bd_near 2.1 _ _ (v / w) z 1); [|lra|lia|lra|exact N]. split; [rewrite Rabs_right; lra|exact E].
Qed.
Lemma weight_pos k p : (1 <= p)%Z -> / 2 <= weight_of k p.
Proof.
  intros H. pose proof (sqrt_int p H) as S. pose proof sqrt_2 as T. destruct k; cbn [weight_of]; [lra|pose proof (Rmult_le_compat 1 _ 1 _ ltac:(lra) ltac:(lra) S (proj1 T)); lra|]. apply Rmult_le_reg_r with (sqrt 2); [lra|]. unfold Rdiv. rewrite Rmult_assoc, Rinv_l by lra. lra.
Qed.
Lemma weight_bd k p v : (1 <= p)%Z -> weight_run k p v -> bd 4 (weight_of k p) (weight_of k p) v.
Proof.
  intros H (s & A & B). pose proof (sqrt_int p H) as S. pose proof sqrt_2 as T. pose proof (near_one (sqrt (IZR p)) s ltac:(lra) A) as A'. destruct k; cbn [weight_of].
  - subst v. apply (bd_le 1.01); [lra|exact A'].
  - destruct B as (t & B & N). pose proof (near_one (sqrt 2) t ltac:(lra) B) as B'. apply (bd_le (1.01 + 1.01 + 0.5 + 1.01)); [lra|]. apply (bd_near _ _ _ (s * t) v 1); [apply bd_mul; assumption || lra|lra|lia|rewrite pow_1; exact (weight_pos Twice p H)|exact N].
  - destruct B as (t & B & N). pose proof (near_one (sqrt 2) t ltac:(lra) B) as B'. eapply quotient_bd; try eassumption; lra.
Qed.
Lemma root_bd p q v : (1 <= p)%Z -> (p <= q <= 5 * p)%Z -> root_run p q v -> / 4 <= sqrt (IZR p / IZR q) <= 1 /\ bd 2.01 (sqrt (IZR p / IZR q)) (sqrt (IZR p / IZR q)) v.
Proof.
  intros P (Q1 & Q2) H. pose proof (IZR_le _ _ P) as P'. pose proof (IZR_le _ _ Q1) as Q1'. pose proof (IZR_le _ _ Q2) as Q2'. rewrite mult_IZR in Q2'.
  assert (E : / 5 <= IZR p / IZR q <= 1). { split; apply Rmult_le_reg_r with (IZR q); try lra; unfold Rdiv; rewrite Rmult_assoc, Rinv_l by lra; lra. }
  assert (S : / 4 <= sqrt (IZR p / IZR q) <= 1). { split; [rewrite <- (sqrt_square (/ 4)) by lra|rewrite <- sqrt_1]; apply sqrt_le_1; lra. }
  split; [exact S|]. pose proof (root_ok p q v ltac:(lra) H) as R. unfold appr in R. rewrite (Rabs_right (sqrt _)) in R by lra. split; [rewrite Rabs_right; lra|lra].
Qed.

(** ** expressions *)
Section Errors.
  (** computed, true, magnitude; error of the elements of M and W *)
  Variables (val tv ml : leaf -> R) (c0 : R).
  Hypothesis C0 : 0 <= c0.
  Definition own (l : leaf) : nat := match l with LC _ _ | LS _ _ => 0 | LM _ _ | LW _ _ => 1 end%nat.
  Definition depth (l : leaf) : nat := match l with LC _ _ | LS _ _ => 200 | LM _ _ | LW _ _ => 603 end%nat.
  Definition fine (l : leaf) : Prop := bd (INR (own l) * c0) (ml l) (tv l) (val l) /\ (/ 2) ^ depth l <= ml l.
  Fixpoint good (e : ex) : Prop :=
    match e with
    | Int k => (k <> 0)%Z | Leaf l => fine l | Wt _ p => (1 <= p)%Z | Rt p q => (1 <= p /\ p <= q <= 5 * p)%Z
    | Neg a => good a | Add a b | Sub a b | Mul a b => good a /\ good b
    end.
  Fixpoint mag (e : ex) : R :=
    match e with
    | Int k => Rabs (IZR k) | Leaf l => ml l | Wt k p => weight_of k p | Rt p q => sqrt (IZR p / IZR q)
    | Neg a => mag a | Add a b | Sub a b => mag a + mag b | Mul a b => mag a * mag b
    end.
  (** elements, roundings, smallness *)
  Fixpoint cl (e : ex) : nat := match e with Int _ | Wt _ _ | Rt _ _ => 0 | Leaf l => own l | Neg a => cl a | Add a b | Sub a b => max (cl a) (cl b) | Mul a b => cl a + cl b end%nat.
  Fixpoint cn (e : ex) : nat := match e with Int _ | Leaf _ => 0 | Wt _ _ => 4 | Rt _ _ => 3 | Neg a => cn a | Add a b | Sub a b => S (max (cn a) (cn b)) | Mul a b => S (S (cn a + cn b)) end%nat.
  Fixpoint cx (e : ex) : nat := match e with Int _ => 0 | Leaf l => depth l | Wt _ _ => 1 | Rt _ _ => 2 | Neg a => cx a | Add a b | Sub a b => max (cx a) (cx b) | Mul a b => cx a + cx b end%nat.
  Definition ck (e : ex) : R := INR (cl e) * c0 + 1.01 * INR (cn e).
  Lemma half_pow a b : (a <= b)%nat -> (/ 2) ^ b <= (/ 2) ^ a.
  Proof. intros H. rewrite !pow_inv. apply Rinv_le_contravar; [apply pow_lt; lra|apply Rle_pow; [lra|exact H]]. Qed.
  Lemma half_pos a : 0 < (/ 2) ^ a. Proof. apply pow_lt. lra. Qed.
  Lemma low e : good e -> (/ 2) ^ cx e <= mag e.
  Proof.
    induction e; cbn [good cx mag]; intros G.
    - rewrite pow_O, <- abs_IZR. apply (IZR_le 1). lia.
    - apply G.
    - rewrite pow_1. apply weight_pos, G.
    - destruct G as (P & Q). assert (N : / 4 <= sqrt (IZR p / IZR q)) by (apply (root_bd p q (sqrt (IZR p / IZR q)) P Q); exists (IZR p / IZR q); split; unfold near; rewrite Rminus_diag_eq, Rabs_R0 by reflexivity; pose proof u_pos; pose proof tiny_pos; apply Rplus_le_le_0_compat; try lra; (apply Rmult_le_pos; [lra|apply Rabs_pos])). lra.
    - apply IHe, G.
    - destruct G as (G1 & G2). pose proof (IHe1 G1). pose proof (IHe2 G2). pose proof (half_pow (cx e1) (max (cx e1) (cx e2)) ltac:(lia)). pose proof (half_pos (cx e2)). lra.
    - destruct G as (G1 & G2). pose proof (IHe1 G1). pose proof (IHe2 G2). pose proof (half_pow (cx e1) (max (cx e1) (cx e2)) ltac:(lia)). pose proof (half_pos (cx e2)). lra.
    - destruct G as (G1 & G2). rewrite pow_add. apply Rmult_le_compat; try (apply Rlt_le, half_pos); auto.
  Qed.
  Lemma ck_pos e : 0 <= ck e.
  Proof. unfold ck. pose proof (pos_INR (cl e)). pose proof (pos_INR (cn e)). apply Rplus_le_le_0_compat; apply Rmult_le_pos; lra. Qed.
  Lemma ck_le a b : (cl a <= cl b)%nat -> (cn a <= cn b)%nat -> ck a <= ck b.
  Proof. intros H J. unfold ck. apply le_INR in H, J. apply Rplus_le_compat; [apply Rmult_le_compat_r; lra|lra]. Qed.
  Lemma ck_step a b e : (cl e = max (cl a) (cl b))%nat -> (cn e = S (max (cn a) (cn b)))%nat -> Rmax (ck a) (ck b) + 1.01 <= ck e.
  Proof.
    intros H J. unfold ck. rewrite H, J, S_INR. assert (Rmax (INR (cl a) * c0 + 1.01 * INR (cn a)) (INR (cl b) * c0 + 1.01 * INR (cn b)) <= INR (max (cl a) (cl b)) * c0 + 1.01 * INR (max (cn a) (cn b))); [|lra].
    apply Rmax_lub; apply Rplus_le_compat; try (apply Rmult_le_compat_r; [exact C0|]); try (apply Rmult_le_compat_l; [lra|]); apply le_INR; lia.
  Qed.
  Lemma expression_error e : forall v, good e -> ck e <= 20000000 -> (cx e <= 1000)%nat -> eval val e v -> bd (ck e) (mag e) (exact tv e) v.
  Proof.
    induction e; intros v G K X H; cbn [good mag exact eval] in *.
    - subst v. unfold bd. rewrite Rminus_diag_eq, Rabs_R0 by reflexivity. split; [lra|]. pose proof u_pos. apply Rmult_le_pos; [apply Rmult_le_pos; [apply ck_pos|lra]|apply Rabs_pos].
    - subst v. unfold ck. cbn [cl cn INR]. rewrite Rmult_0_r, Rplus_0_r. apply G.
    - apply (bd_le 4); [|apply weight_bd; assumption]. unfold ck. cbn [cl cn INR]. lra.
    - apply (bd_le 2.01); [|apply root_bd; tauto]. unfold ck. cbn [cl cn INR]. lra.
    - apply bd_neg. apply IHe; assumption.
    - destruct H as (x & y & H1 & H2 & N). destruct G as (G1 & G2). cbn [cx] in X. pose proof (ck_step e1 e2 (Add e1 e2) eq_refl eq_refl) as S. pose proof (Rmax_l (ck e1) (ck e2)). pose proof (Rmax_r (ck e1) (ck e2)). pose proof (ck_pos e1).
      apply (bd_le (Rmax (ck e1) (ck e2) + 1.01)); [exact S|]. apply (bd_near _ _ _ (x + y) v (cx (Add e1 e2))); [apply bd_add; [apply IHe1|apply IHe2]; assumption || lra || lia|lra|exact X|apply (low (Add e1 e2)); split; assumption|exact N].
    - destruct H as (x & y & H1 & H2 & N). destruct G as (G1 & G2). cbn [cx] in X. pose proof (ck_step e1 e2 (Sub e1 e2) eq_refl eq_refl) as S. pose proof (Rmax_l (ck e1) (ck e2)). pose proof (Rmax_r (ck e1) (ck e2)). pose proof (ck_pos e1).
      apply (bd_le (Rmax (ck e1) (ck e2) + 1.01)); [exact S|]. apply (bd_near _ _ _ (x - y) v (cx (Sub e1 e2))); [apply bd_sub; [apply IHe1|apply IHe2]; assumption || lra || lia|lra|exact X|apply (low (Sub e1 e2)); split; assumption|exact N].
    - destruct H as (x & y & H1 & H2 & N). destruct G as (G1 & G2). cbn [cx] in X. pose proof (ck_pos e1). pose proof (ck_pos e2).
      assert (S : ck (Mul e1 e2) = ck e1 + ck e2 + 2.02) by (unfold ck; cbn [cl cn]; rewrite !S_INR, !plus_INR; lra).
      apply (bd_le (ck e1 + ck e2 + 0.5 + 1.01)); [lra|]. apply (bd_near _ _ _ (x * y) v (cx (Mul e1 e2))); [apply bd_mul; [lra|lra|apply IHe1|apply IHe2]; assumption || lra || lia|lra|exact X|apply (low (Mul e1 e2)); split; assumption|exact N].
  Qed.
End Errors.

(** ** the sums *)
Section Sums.
  Variable val : leaf -> R.
  Variables (f : Z * Z -> ex) (e B k : Z * Z -> R) (Q : R).
  (** one element of the sum *)
  Definition element (p : Z * Z) : Prop := (exists a, (a <= 806)%nat /\ (/ 2) ^ a <= B p) /\ 0 <= k p <= Q /\ Rabs (e p) <= B p /\ forall t, eval val (f p) t -> bd (k p) (B p) (e p) t.
  Fixpoint charge (l : list (Z * Z)) : R := match l with [] => 0 | p :: r => (k p + 1.01 * INR (length l)) * B p + charge r end.
  Lemma sum_error l : forall s x X E j v, Forall element l -> Rabs x <= X -> Rabs (s - x) <= u * E -> 0 <= E <= (Q + 1.01 * INR j) * X -> (Q + 1.01 * INR (j + length l)) * u <= / 10000 ->
    sum_run val (map f l) s v -> Rabs (v - (x + rs e l)) <= u * (E + 1.01 * INR (length l) * X + charge l).
  Proof.
    pose proof u_small as U. induction l as [|p l IH]; intros s x X E j v G HX HE HB HQ H.
    - cbn [map sum_run rs charge length INR] in *. subst v. rewrite Rplus_0_r. replace (E + 1.01 * 0 * X + 0) with E by lra. exact HE.
    - cbn [map sum_run] in H. destruct H as (t & s' & T & N & H). inversion G as [|? ? Gp Gl]; subst. destruct Gp as ((a & A1 & A2) & Kp & _ & Ev). destruct (Ev t T) as (P1 & P2). pose proof (tiny_mag a _ ltac:(lia) A2) as TT. pose proof (half_pos a) as HP.
      cbn [length] in *. rewrite plus_INR, S_INR in HQ. pose proof (pos_INR (length l)) as L0. pose proof (pos_INR j) as J0. pose proof (Rabs_pos x) as X0.
      assert (EX : u * E <= / 10000 * X). { apply Rle_trans with (u * ((Q + 1.01 * INR j) * X)); [apply Rmult_le_compat_l; lra|]. replace (u * ((Q + 1.01 * INR j) * X)) with ((Q + 1.01 * INR j) * u * X) by ring. apply Rmult_le_compat_r; [lra|]. apply Rle_trans with ((Q + 1.01 * (INR j + (INR (length l) + 1))) * u); [|exact HQ]. apply Rmult_le_compat_r; lra. }
      assert (EK : k p * u * B p <= / 10000 * B p). { apply Rmult_le_compat_r; [lra|]. apply Rle_trans with ((Q + 1.01 * (INR j + (INR (length l) + 1))) * u); [|exact HQ]. apply Rmult_le_compat_r; lra. }
      assert (ST : Rabs (s + t) <= 1.0001 * (X + B p)).
      { replace (s + t) with ((x + e p) + ((s - x) + (t - e p))) by ring. eapply Rle_trans; [apply Rabs_triang|]. pose proof (Rabs_triang x (e p)). pose proof (Rabs_triang (s - x) (t - e p)). lra. }
      unfold near in N. assert (UST : u * Rabs (s + t) <= 1.0001 * (u * (X + B p))) by (pose proof (Rmult_le_compat_l u _ _ ltac:(lra) ST); lra).
      assert (UB : 0 <= u * B p) by (apply Rmult_le_pos; lra). assert (UX : 0 <= u * X) by (apply Rmult_le_pos; lra).
      assert (R1 : Rabs (s' - (x + e p)) <= u * (E + k p * B p + 1.01 * (X + B p))).
      { replace (s' - (x + e p)) with ((s' - (s + t)) + ((s - x) + (t - e p))) by ring. eapply Rle_trans; [apply Rabs_triang|]. pose proof (Rabs_triang (s - x) (t - e p)). lra. }
      assert (X1 : Rabs (x + e p) <= X + B p) by (eapply Rle_trans; [apply Rabs_triang|lra]).
      assert (QX : 0 <= Q * X) by (apply Rmult_le_pos; lra). assert (QB : k p * B p <= Q * B p) by (apply Rmult_le_compat_r; lra). assert (KB : 0 <= k p * B p) by (apply Rmult_le_pos; lra). assert (JB : 0 <= INR j * B p) by (apply Rmult_le_pos; lra).
      specialize (IH s' (x + e p) (X + B p) (E + k p * B p + 1.01 * (X + B p)) (S j) v Gl X1 R1).
      assert (Z : Rabs (v - (x + e p + rs e l)) <= u * (E + k p * B p + 1.01 * (X + B p) + 1.01 * INR (length l) * (X + B p) + charge l)).
      { apply IH; [|rewrite plus_INR, S_INR; eapply Rle_trans; [|exact HQ]; right; ring|exact H]. rewrite S_INR. split; lra. }
      cbn [rs charge length]. rewrite S_INR. rewrite <- Rplus_assoc. eapply Rle_trans; [exact Z|]. right. ring.
  Qed.
  (** elements behind, bounded *)
  Fixpoint ranked (g : Z * Z -> R) (l : list (Z * Z)) : Prop := match l with [] => True | p :: r => INR (length l) <= g p /\ ranked g r end.
  Lemma charge_ranked g l : Forall element l -> ranked g l -> charge l <= rs (fun p => (k p + 1.01 * g p) * B p) l.
  Proof.
    induction l as [|p l IH]; intros G H; [cbn; lra|]. inversion G as [|? ? Gp Gl]; subst. destruct Gp as ((a & A1 & A2) & _). pose proof (half_pos a) as HP. destruct H as (H1 & H2). cbn [charge rs]. apply Rplus_le_compat; [|apply IH; assumption]. apply Rmult_le_compat_r; lra.
  Qed.
  Lemma rs_le (F G : Z * Z -> R) l : (forall p, In p l -> F p <= G p) -> rs F l <= rs G l.
  Proof. induction l as [|p l IH]; intros H; cbn [rs]; [lra|]. apply Rplus_le_compat; [apply H; left; reflexivity|apply IH; intros; apply H; right; assumption]. Qed.
  Lemma sum_result g l v : Forall element l -> ranked g l -> (Q + 1.01 * INR (length l)) * u <= / 10000 -> sum_run val (map f l) 0 v ->
    Rabs (v - rs e l) <= u * rs (fun p => (k p + 1.01 * g p) * B p) l.
  Proof.
    intros G Hg HQ H. pose proof u_pos as U. assert (Z : Rabs (v - (0 + rs e l)) <= u * (0 + 1.01 * INR (length l) * 0 + charge l)).
    { eapply (sum_error l 0 0 0 0 0%nat); try exact G; try exact H; [rewrite Rabs_R0; lra|rewrite Rminus_diag_eq, Rabs_R0 by reflexivity; lra| |exact HQ]. rewrite Rmult_0_r. lra. }
    rewrite Rplus_0_l, Rmult_0_r, !Rplus_0_l in Z. eapply Rle_trans; [exact Z|]. apply Rmult_le_compat_l; [lra|]. apply charge_ranked; assumption.
  Qed.
  Lemma sum_size l : Forall element l -> Rabs (rs e l) <= rs B l.
  Proof.
    induction l as [|p l IH]; intros G; cbn [rs]; [rewrite Rabs_R0; lra|]. inversion G as [|? ? Gp Gl]; subst. eapply Rle_trans; [apply Rabs_triang|]. apply Rplus_le_compat; [apply Gp|apply IH; assumption].
  Qed.
End Sums.
