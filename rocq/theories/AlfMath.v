(** Recursions of the Legendre functions. *)
From Coq Require Import Reals List Lia Lra Ranalysis.
From Verif Require Import Poly AlfSpec.
Import ListNotations.
Open Scope R_scope.

(** ** polynomials *)
Lemma peval_cons a r x : peval (a :: r) x = a + x * peval r x. Proof. reflexivity. Qed.
Lemma peval_pd a r x : peval (pd (a :: r)) x = peval r x + x * peval (pd r) x.
Proof. destruct r as [|b r]; [cbn; ring|]. change (pd (a :: b :: r)) with (padd (b :: r) (0 :: pd (b :: r))). rewrite peval_add. cbn. ring. Qed.
Lemma pd_limit c x : derivable_pt_lim (peval c) x (peval (pd c) x).
Proof.
  induction c as [|a r IH]; [apply derivable_pt_lim_const|]. rewrite peval_pd.
  assert (E : peval r x + x * peval (pd r) x = 0 + (1 * peval r x + x * peval (pd r) x)) by ring. rewrite E.
  apply (derivable_pt_lim_plus (fun _ => a) (fun x => x * peval r x)); [apply derivable_pt_lim_const|]. apply (derivable_pt_lim_mult (fun x => x) (peval r)); [apply derivable_pt_lim_id|exact IH].
Qed.
Lemma pd_length c : (length (pd c) <= length c - 1)%nat.
Proof.
  induction c as [|a r IH]; [cbn; lia|]. destruct r as [|b r]; [cbn; lia|]. change (pd (a :: b :: r)) with (padd (b :: r) (0 :: pd (b :: r))). rewrite padd_length. cbn [length] in *. lia.
Qed.
Lemma iterate_length k c : (length (iterate k pd c) <= length c - k)%nat.
Proof. induction k; cbn [iterate]; [lia|]. pose proof (pd_length (iterate k pd c)). lia. Qed.
Lemma iterate_vanishes k c x : (length c <= k)%nat -> peval (iterate k pd c) x = 0.
Proof. intros H. pose proof (iterate_length k c). destruct (iterate k pd c); [reflexivity|cbn in *; lia]. Qed.
Lemma peval_mul a b x : peval (pmul a b) x = peval a x * peval b x.
Proof. induction a as [|u a IH]; [cbn; ring|]. cbn [pmul]. rewrite peval_add. unfold pscale. rewrite peval_scale, !peval_cons, IH. ring. Qed.
Lemma peval_pow a n x : peval (ppow a n) x = peval a x ^ n.
Proof. induction n; [cbn; ring|]. cbn [ppow pow]. rewrite peval_mul, IHn. reflexivity. Qed.
Lemma pmul_length a b : (length (pmul a b) <= length a + length b)%nat /\ (a <> [] -> b <> [] -> (length (pmul a b) <= length a + length b - 1)%nat).
Proof.
  induction a as [|u a (IH1 & IH2)]; [cbn; split; [lia|congruence]|]. cbn [pmul length]. rewrite padd_length. unfold pscale. rewrite map_length. cbn [length].
  assert (Q : a = [] \/ a <> []) by (destruct a; [left; reflexivity|right; discriminate]).
  split; [lia|]. intros _ Hb. destruct b as [|v b]; [congruence|]. destruct Q as [-> | Q]; [cbn [pmul length]; lia|]. specialize (IH2 Q ltac:(discriminate)). cbn [length] in *. destruct a; [congruence|cbn [length] in *; lia].
Qed.
Lemma ppow_length n : (length (ppow [-1; 0; 1]%R n) <= 2 * n + 1)%nat /\ ppow [-1; 0; 1] n <> [].
Proof.
  induction n as [|n (IH1 & IH2)]; [cbn; split; [lia|discriminate]|]. cbn [ppow]. destruct (pmul_length [-1; 0; 1] (ppow [-1; 0; 1] n)) as (_ & L). specialize (L ltac:(discriminate) IH2). split; [cbn [length] in L; lia|].
  cbn [pmul]. destruct (pscale (-1) (ppow [-1; 0; 1] n)); discriminate.
Qed.
Lemma rod_length n : (length (rod n) <= 2 * n + 1)%nat.
Proof. unfold rod, pscale. rewrite map_length. apply ppow_length. Qed.
Lemma rod_eval n x : peval (rod n) x = (x ^ 2 - 1) ^ n / (2 ^ n * INR (fact n)).
Proof. unfold rod, pscale. rewrite peval_scale, peval_pow. replace (peval [-1; 0; 1] x) with (x ^ 2 - 1) by (cbn; ring). unfold Rdiv. ring. Qed.

(** ** families of derivatives *)
Definition G (n k : nat) (x : R) : R := peval (iterate k pd (rod n)) x.
Definition chain (F : nat -> R -> R) : Prop := forall k x, derivable_pt_lim (F k) x (F (S k) x).
Lemma G_chain n : chain (G n).
Proof. intros k x. apply pd_limit. Qed.
Lemma limit_ext f g x l : (forall y, f y = g y) -> derivable_pt_lim f x l -> derivable_pt_lim g x l.
Proof. intros E H eps Heps. destruct (H eps Heps) as (d & Hd). exists d. intros h H0 H1. rewrite <- !E. auto. Qed.
Lemma chain_unique F H : chain F -> chain H -> (forall x, F O x = H O x) -> forall k x, F k x = H k x.
Proof.
  intros CF CH E k. induction k as [|k IH]; intros x; [apply E|]. apply (uniqueness_limite (F k) x); [apply CF|]. apply (limit_ext (H k)); [intros; symmetry; apply IH|apply CH].
Qed.
Lemma rod_denominator n : 2 ^ n * INR (fact n) <> 0.
Proof. apply Rmult_integral_contrapositive. split; [apply pow_nonzero; lra|apply INR_fact_neq_0]. Qed.
Ltac nonzeros := repeat split; first [apply INR_fact_neq_0|apply pow_nonzero; lra|apply not_0_INR; lia].
(** w R_n = 2 (n+1) R_(n+1) *)
Lemma rod_next n x : (x ^ 2 - 1) * G n 0 x = 2 * INR (S n) * G (S n) 0 x.
Proof.
  unfold G. cbn [iterate]. rewrite !rod_eval. change (fact (S n)) with (S n * fact n)%nat. rewrite mult_INR.
  change ((x ^ 2 - 1) ^ S n) with ((x ^ 2 - 1) * (x ^ 2 - 1) ^ n). change (2 ^ S n) with (2 * 2 ^ n). field. nonzeros.
Qed.
(** R_(n+1)' = x R_n *)
Lemma first_derivative n x : G (S n) 1 x = x * G n 0 x.
Proof.
  apply (uniqueness_limite (G (S n) 0) x); [apply G_chain|].
  assert (D : derivable_pt_lim (fun y => (/ (2 ^ S n * INR (fact (S n)))) * ((fun z => z ^ S n) (y ^ 2 - 1))) x (/ (2 ^ S n * INR (fact (S n))) * (INR (S n) * (x ^ 2 - 1) ^ n * (INR 2 * x ^ 1 - 0)))).
  { apply (derivable_pt_lim_scal (fun y => (fun z => z ^ S n) (y ^ 2 - 1))). apply (derivable_pt_lim_comp (fun y => y ^ 2 - 1) (fun z => z ^ S n)).
    - apply (derivable_pt_lim_minus (fun y => y ^ 2) (fun _ => 1)); [apply (derivable_pt_lim_pow x 2)|apply derivable_pt_lim_const].
    - apply (derivable_pt_lim_pow (x ^ 2 - 1) (S n)). }
  replace (x * G n 0 x) with (/ (2 ^ S n * INR (fact (S n))) * (INR (S n) * (x ^ 2 - 1) ^ n * (INR 2 * x ^ 1 - 0))).
  - eapply limit_ext; [|exact D]. intros y. unfold G. cbn [iterate]. rewrite rod_eval. unfold Rdiv. ring.
  - unfold G. cbn [iterate]. rewrite rod_eval. change (fact (S n)) with (S n * fact n)%nat. rewrite mult_INR. change (2 ^ S n) with (2 * 2 ^ n). replace (INR 2) with 2 by (cbn; ring). field.
    nonzeros.
Qed.
Lemma scal_plus_chain a b F H : chain F -> chain H -> chain (fun k x => a * F k x + b * H k x).
Proof. intros CF CH k x. apply (derivable_pt_lim_plus (fun x => a * F k x) (fun x => b * H k x)); apply derivable_pt_lim_scal; auto. Qed.
Lemma shift_chain F j : chain F -> chain (fun k x => F (k + j)%nat x).
Proof. intros C k x. apply C. Qed.
(** k-th derivative of x f *)
Lemma xmul_chain F : chain F -> chain (fun k x => x * F k x + INR k * F (k - 1)%nat x).
Proof.
  intros C k x. replace (x * F (S k) x + INR (S k) * F (S k - 1)%nat x) with ((1 * F k x + x * F (S k) x) + INR k * F (S (k - 1)) x).
  - apply (derivable_pt_lim_plus (fun x => x * F k x) (fun x => INR k * F (k - 1)%nat x)).
    + apply (derivable_pt_lim_mult (fun x => x) (F k)); [apply derivable_pt_lim_id|apply C].
    + apply derivable_pt_lim_scal. apply C.
  - replace (S k - 1)%nat with k by lia. destruct k; [cbn; ring|]. replace (S (S k - 1)) with (S k) by lia. rewrite (S_INR (S k)). ring.
Qed.
(** (B) *)
Lemma ladder_B n k x : G (S n) (S k) x = x * G n k x + INR k * G n (k - 1) x.
Proof.
  pose proof (chain_unique (fun k x => G (S n) (k + 1) x) (fun k x => x * G n k x + INR k * G n (k - 1) x) (shift_chain _ 1 (G_chain (S n))) (xmul_chain _ (G_chain n))) as H.
  replace (S k) with (k + 1)%nat by lia. apply H. intros y. cbn [Nat.add]. rewrite first_derivative. cbn. ring.
Qed.
(** (A) *)
Lemma ladder_A n k x : G (S (S n)) (S (S k)) x = INR (2 * n + 3) * G (S n) k x + G n k x.
Proof.
  pose proof (chain_unique (fun k x => G (S (S n)) (k + 2) x) (fun k x => INR (2 * n + 3) * G (S n) k x + 1 * G n k x) (shift_chain _ 2 (G_chain (S (S n)))) (scal_plus_chain _ _ _ _ (G_chain (S n)) (G_chain n))) as H.
  replace (S (S k)) with (k + 2)%nat by lia. rewrite H; [ring|]. clear. intros x. cbn [Nat.add]. rewrite (ladder_B (S n) 1 x), first_derivative. cbn [Nat.sub].
  pose proof (rod_next n x) as Q. replace (INR (2 * n + 3)) with (2 * INR (S n) + 1) by (rewrite !S_INR, plus_INR, mult_INR; cbn; ring). change (INR 1) with 1.
  replace (x * (x * G n 0 x)) with ((x ^ 2 - 1) * G n 0 x + G n 0 x) by ring. rewrite Q. ring.
Qed.
(** (E) *)
Lemma ladder_E n k x : x * G (S n) (S k) x + INR k * G (S n) k x = G n k x + 2 * INR (S n) * G (S n) k x.
Proof.
  pose proof (chain_unique (fun k x => x * G (S n) (k + 1) x + INR k * G (S n) (k - 1 + 1) x) (fun k x => 1 * G n k x + 2 * INR (S n) * G (S n) k x) (xmul_chain _ (shift_chain _ 1 (G_chain (S n)))) (scal_plus_chain _ _ _ _ (G_chain n) (G_chain (S n)))) as H.
  specialize (fun E => H E k x). cbv beta in H. replace (k + 1)%nat with (S k) in H by lia. rewrite Rmult_1_l in H. rewrite <- H.
  - destruct k; [cbn; ring|]. replace (S k - 1 + 1)%nat with (S k) by lia. reflexivity.
  - intros y. cbn [Nat.add Nat.sub]. rewrite first_derivative. pose proof (rod_next n y). change (INR 0) with 0. rewrite Rmult_0_l, Rplus_0_r, Rmult_1_l.
    replace (y * (y * G n 0 y)) with ((y ^ 2 - 1) * G n 0 y + G n 0 y) by ring. rewrite H0. ring.
Qed.

(** ** Legendre functions without normalisation *)
Lemma legendre_G n m x : legendre n m x = G n (n + m) x. Proof. reflexivity. Qed.
Lemma legendre_derivative n m x : derivable_pt_lim (legendre n m) x (legendre n (S m) x).
Proof. replace (legendre n (S m) x) with (G n (S (n + m)) x) by (unfold legendre, G; rewrite Nat.add_succ_r; reflexivity). apply (G_chain n). Qed.
Lemma G_vanishes n k x : (2 * n < k)%nat -> G n k x = 0.
Proof. intros H. apply iterate_vanishes. pose proof (rod_length n). lia. Qed.
Lemma legendre_vanishes n m x : (n < m)%nat -> legendre n m x = 0.
Proof. intros H. apply G_vanishes. lia. Qed.
Lemma INR_minus' a b : (b <= a)%nat -> INR (a - b) = INR a - INR b. Proof. apply minus_INR. Qed.
(** (n - m) Q(n, m) = (2n - 1) x Q(n-1, m) - (n + m - 1) Q(n-2, m) *)
Lemma three_terms n m x : (m <= S (S n))%nat ->
  INR (S (S n) - m) * legendre (S (S n)) m x = INR (2 * n + 3) * x * legendre (S n) m x - INR (n + m + 1) * legendre n m x.
Proof.
  intros M. pose proof (ladder_A n (n + m) x) as A. pose proof (ladder_B (S n) (S (n + m)) x) as B. unfold legendre. fold (G (S (S n)) (S (S n) + m) x) (G (S n) (S n + m) x) (G n (n + m) x).
  cbn [Nat.add] in *. replace (S (n + m) - 1)%nat with (n + m)%nat in B by lia.
  set (q := G (S (S n)) (S (S (n + m))) x) in *. set (p := G (S n) (S (n + m)) x) in *. set (s := G (S n) (n + m) x) in *. set (o := G n (n + m) x) in *.
  replace (INR (S (S n) - m)) with (INR (2 * n + 3) - INR (S (n + m))) by (rewrite (minus_INR _ _ M), !S_INR, !plus_INR, mult_INR; cbn; ring).
  replace (n + m + 1)%nat with (S (n + m)) by lia. rewrite Rmult_minus_distr_r. rewrite B at 1. rewrite A. ring.
Qed.
Lemma legendre_00 x : legendre 0 0 x = 1.
Proof. unfold legendre, rod. cbn. field. Qed.
Lemma legendre_next m x : legendre (S m) m x = INR (2 * m + 1) * x * legendre m m x.
Proof.
  destruct m as [|m].
  - rewrite legendre_00. unfold legendre. fold (G 1 (1 + 0) x). cbn [Nat.add]. rewrite first_derivative. unfold G. cbn [iterate]. rewrite rod_eval. cbn. field.
  - pose proof (three_terms m (S m) x ltac:(lia)) as T. rewrite (legendre_vanishes m (S m)) in T by lia. replace (S (S m) - S m)%nat with 1%nat in T by lia. replace (2 * S m + 1)%nat with (2 * m + 3)%nat by lia. cbn [INR] in T. rewrite Rmult_1_l, Rmult_0_r in T. rewrite T. ring.
Qed.
Lemma legendre_diagonal m x : legendre (S m) (S m) x = INR (2 * m + 1) * legendre m m x.
Proof.
  destruct m as [|m].
  - rewrite legendre_00. unfold legendre. fold (G 1 (1 + 1) x). cbn [Nat.add]. rewrite (ladder_B 0 1 x). cbn [Nat.sub]. rewrite (G_vanishes 0 1) by lia. unfold G. cbn [iterate]. rewrite rod_eval. cbn. field.
  - pose proof (ladder_A m (S m + S m) x) as A. unfold legendre. fold (G (S (S m)) (S (S m) + S (S m)) x) (G (S m) (S m + S m) x).
    replace (S (S m) + S (S m))%nat with (S (S (S m + S m))) by lia. rewrite A, (G_vanishes m) by lia. replace (2 * S m + 1)%nat with (2 * m + 3)%nat by lia. ring.
Qed.
(** (1 - x^2) Q(n, m+1) = (n + m) Q(n-1, m) - (n - m) x Q(n, m) *)
Lemma derivative_relation n m x : (m <= S n)%nat ->
  (1 - x ^ 2) * legendre (S n) (S m) x = INR (S n + m) * legendre n m x - INR (S n - m) * x * legendre (S n) m x.
Proof.
  intros M. pose proof (ladder_E n (S n + m) x) as E. pose proof (ladder_B n (S n + m) x) as B. unfold legendre. fold (G (S n) (S n + S m) x) (G n (n + m) x) (G (S n) (S n + m) x).
  replace (S n + S m)%nat with (S (S n + m)) by lia. replace (S n + m - 1)%nat with (n + m)%nat in B by lia.
  set (q1 := G (S n) (S (S n + m)) x) in *. set (q := G (S n) (S n + m) x) in *. set (p1 := G n (S n + m) x) in *. set (p := G n (n + m) x) in *.
  replace (INR (S n - m)) with (2 * INR (S n) - INR (S n + m)) by (rewrite (minus_INR _ _ M), plus_INR; ring).
  assert (E' : x * q1 = p1 + (2 * INR (S n) - INR (S n + m)) * q) by lra.
  replace ((1 - x ^ 2) * q1) with (q1 - x * (x * q1)) by ring. rewrite E', B. ring.
Qed.

(** ** normalisation *)
Lemma same_square a b : 0 <= a -> 0 <= b -> a ^ 2 = b ^ 2 -> a = b.
Proof. intros A B E. apply Rsqr_inj; auto. unfold Rsqr. cbn in E. lra. Qed.
Lemma fact_pos n : 0 < INR (fact n). Proof. apply lt_0_INR, lt_O_fact. Qed.
Definition weight (n m : nat) : R := (if Nat.eqb m 0 then 1 else 2) * INR (2 * n + 1) * INR (fact (n - m)) / INR (fact (n + m)).
Lemma weight_pos n m : 0 < weight n m.
Proof.
  unfold weight. apply Rdiv_lt_0_compat; [|apply fact_pos]. apply Rmult_lt_0_compat; [|apply fact_pos]. apply Rmult_lt_0_compat; [destruct (Nat.eqb m 0); lra|]. apply lt_0_INR. lia.
Qed.
Lemma norm_pos n m : 0 <= norm n m. Proof. apply sqrt_pos. Qed.
Lemma norm_square n m : norm n m ^ 2 = weight n m.
Proof. unfold norm. rewrite pow2_sqrt; [reflexivity|]. apply Rlt_le. apply weight_pos. Qed.
Lemma fact_S n : INR (fact (S n)) = INR (S n) * INR (fact n).
Proof. change (fact (S n)) with (S n * fact n)%nat. apply mult_INR. Qed.
Lemma INR_pos n : (0 < n)%nat -> 0 < INR n. Proof. apply (lt_0_INR n). Qed.
(** weights of neighbouring degrees *)
Lemma weight_up n m : (m <= n)%nat -> weight (S n) m * INR (2 * n + 1) * INR (S n + m) = weight n m * INR (2 * n + 3) * INR (S n - m).
Proof.
  intros M. unfold weight. replace (S n - m)%nat with (S (n - m)) by lia. replace (S n + m)%nat with (S (n + m)) by lia. rewrite !fact_S. replace (2 * S n + 1)%nat with (2 * n + 3)%nat by lia.
  pose proof (fact_pos (n - m)). pose proof (fact_pos (n + m)). pose proof (INR_pos (S (n + m)) ltac:(lia)). field. lra.
Qed.
Lemma norm_a n m : (m <= n)%nat ->
  norm (S n) m * INR (2 * n + 1) = sqrt (INR (2 * n + 1) * INR (2 * n + 3) / (INR (S n - m) * INR (S n + m))) * norm n m * INR (S n - m).
Proof.
  intros M. pose proof (INR_pos (2 * n + 1) ltac:(lia)). pose proof (INR_pos (2 * n + 3) ltac:(lia)). pose proof (INR_pos (S n - m) ltac:(lia)). pose proof (INR_pos (S n + m) ltac:(lia)).
  apply same_square.
  - apply Rmult_le_pos; [apply norm_pos|lra].
  - apply Rmult_le_pos; [|lra]. apply Rmult_le_pos; [apply sqrt_pos|apply norm_pos].
  - rewrite !Rpow_mult_distr, !norm_square, pow2_sqrt by (apply Rlt_le, Rdiv_lt_0_compat; nra). pose proof (weight_up n m M) as W.
    apply Rmult_eq_reg_r with (INR (S n + m)); [|lra]. transitivity (weight (S n) m * INR (2 * n + 1) * INR (S n + m) * INR (2 * n + 1)); [ring|]. rewrite W. field. lra.
Qed.
Lemma norm_b n m : (m <= n)%nat ->
  norm (S (S n)) m * INR (n + m + 1) = sqrt (INR (2 * n + 5) * INR (n + m + 1) * INR (S n - m) / (INR (S (S n) - m) * INR (S (S n) + m) * INR (2 * n + 1))) * norm n m * INR (S (S n) - m).
Proof.
  intros M. pose proof (INR_pos (2 * n + 1) ltac:(lia)). pose proof (INR_pos (2 * n + 5) ltac:(lia)). pose proof (INR_pos (2 * n + 3) ltac:(lia)). pose proof (INR_pos (S n - m) ltac:(lia)). pose proof (INR_pos (S (S n) - m) ltac:(lia)). pose proof (INR_pos (S (S n) + m) ltac:(lia)). pose proof (INR_pos (n + m + 1) ltac:(lia)).
  apply same_square.
  - apply Rmult_le_pos; [apply norm_pos|lra].
  - apply Rmult_le_pos; [|lra]. apply Rmult_le_pos; [apply sqrt_pos|apply norm_pos].
  - rewrite !Rpow_mult_distr, !norm_square, pow2_sqrt.
    + pose proof (weight_up n m M) as W1. pose proof (weight_up (S n) m ltac:(lia)) as W2. replace (2 * S n + 1)%nat with (2 * n + 3)%nat in W2 by lia. replace (2 * S n + 3)%nat with (2 * n + 5)%nat in W2 by lia.
      replace (S n + m)%nat with (n + m + 1)%nat in W1 by lia.
      assert (E1 : weight (S n) m = weight n m * INR (2 * n + 3) * INR (S n - m) / (INR (2 * n + 1) * INR (n + m + 1))). { rewrite <- W1. field. lra. }
      assert (E2 : weight (S (S n)) m = weight (S n) m * INR (2 * n + 5) * INR (S (S n) - m) / (INR (2 * n + 3) * INR (S (S n) + m))). { rewrite <- W2. field. lra. }
      rewrite E2, E1. field. lra.
    + apply Rlt_le, Rdiv_lt_0_compat; repeat apply Rmult_lt_0_compat; assumption.
Qed.
Lemma norm_f n m : (m <= n)%nat ->
  norm (S n) m * INR (S n + m) = sqrt (INR (S n - m) * INR (S n + m) * INR (2 * n + 3) / INR (2 * n + 1)) * norm n m.
Proof.
  intros M. pose proof (INR_pos (2 * n + 1) ltac:(lia)). pose proof (INR_pos (2 * n + 3) ltac:(lia)). pose proof (INR_pos (S n - m) ltac:(lia)). pose proof (INR_pos (S n + m) ltac:(lia)).
  apply same_square.
  - apply Rmult_le_pos; [apply norm_pos|lra].
  - apply Rmult_le_pos; [apply sqrt_pos|apply norm_pos].
  - rewrite !Rpow_mult_distr, !norm_square, pow2_sqrt.
    + pose proof (weight_up n m M) as W. apply Rmult_eq_reg_r with (INR (2 * n + 1)); [|lra]. transitivity (weight (S n) m * INR (2 * n + 1) * INR (S n + m) * INR (S n + m)); [ring|]. rewrite W. field. lra.
    + apply Rlt_le, Rdiv_lt_0_compat; repeat apply Rmult_lt_0_compat; assumption.
Qed.
Lemma norm_diagonal m : (0 < m)%nat -> norm (S m) (S m) * INR (2 * m + 1) = sqrt (INR (2 * m + 3) / INR (2 * m + 2)) * norm m m.
Proof.
  intros M. pose proof (INR_pos (2 * m + 1) ltac:(lia)). pose proof (INR_pos (2 * m + 3) ltac:(lia)). pose proof (INR_pos (2 * m + 2) ltac:(lia)).
  apply same_square.
  - apply Rmult_le_pos; [apply norm_pos|lra].
  - apply Rmult_le_pos; [apply sqrt_pos|apply norm_pos].
  - rewrite !Rpow_mult_distr, !norm_square, pow2_sqrt by (apply Rlt_le, Rdiv_lt_0_compat; lra).
    unfold weight. rewrite !Nat.sub_diag. replace (S m + S m)%nat with (S (S (m + m))) by lia. rewrite !fact_S. destruct m as [|m]; [lia|]. cbn [Nat.eqb]. replace (2 * S (S m) + 1)%nat with (2 * S m + 3)%nat by lia.
    replace (S (S m + S m)) with (2 * S m + 1)%nat by lia. replace (S (2 * S m + 1)) with (2 * S m + 2)%nat by lia. pose proof (fact_pos (S m + S m)). field. lra.
Qed.

(** ** recursions of the normalised functions *)
Lemma Pbar_column_first m th : Pbar (S m) m th = sqrt (INR (2 * m + 1) * INR (2 * m + 3) / (INR (S m - m) * INR (S m + m))) * sin th * Pbar m m th.
Proof.
  unfold Pbar. rewrite legendre_next. pose proof (norm_a m m ltac:(lia)) as A. replace (S m - m)%nat with 1%nat in * by lia. cbn [INR] in A. rewrite Rmult_1_r in A. cbn [INR].
  transitivity (norm (S m) m * INR (2 * m + 1) * (cos th ^ m * sin th * legendre m m (sin th))); [ring|]. rewrite A. ring.
Qed.
Lemma Pbar_column n m th : (m <= n)%nat -> Pbar (S (S n)) m th =
  sqrt (INR (2 * n + 3) * INR (2 * n + 5) / (INR (S (S n) - m) * INR (S (S n) + m))) * sin th * Pbar (S n) m th -
  sqrt (INR (2 * n + 5) * INR (n + m + 1) * INR (S n - m) / (INR (S (S n) - m) * INR (S (S n) + m) * INR (2 * n + 1))) * Pbar n m th.
Proof.
  intros M. pose proof (INR_pos (S (S n) - m) ltac:(lia)) as P. unfold Pbar. pose proof (three_terms n m (sin th) ltac:(lia)) as T. pose proof (norm_a (S n) m ltac:(lia)) as A. pose proof (norm_b n m M) as B.
  replace (2 * S n + 1)%nat with (2 * n + 3)%nat in A by lia. replace (2 * S n + 3)%nat with (2 * n + 5)%nat in A by lia.
  set (a := sqrt (INR (2 * n + 3) * _ / _)) in *. set (b := sqrt (INR (2 * n + 5) * _ * _ / _)) in *. apply Rmult_eq_reg_r with (INR (S (S n) - m)); [|lra].
  transitivity (norm (S (S n)) m * cos th ^ m * (INR (S (S n) - m) * legendre (S (S n)) m (sin th))); [ring|]. rewrite T.
  transitivity (cos th ^ m * (norm (S (S n)) m * INR (2 * n + 3) * (sin th * legendre (S n) m (sin th)) - norm (S (S n)) m * INR (n + m + 1) * legendre n m (sin th))); [ring|]. rewrite A, B. ring.
Qed.
Lemma Pbar_diagonal m th : (0 < m)%nat -> Pbar (S m) (S m) th = cos th * sqrt (INR (2 * m + 3) / INR (2 * m + 2)) * Pbar m m th.
Proof. intros M. unfold Pbar. rewrite legendre_diagonal. pose proof (norm_diagonal m M) as N. cbn [pow]. transitivity (norm (S m) (S m) * INR (2 * m + 1) * (cos th * cos th ^ m * legendre m m (sin th))); [ring|]. rewrite N. ring. Qed.
Lemma Pbar_00 th : Pbar 0 0 th = 1.
Proof. unfold Pbar, norm. rewrite legendre_00. cbn. replace (1 * 1 * 1 / 1) with 1 by field. rewrite sqrt_1. ring. Qed.
Lemma Pbar_11 th : Pbar 1 1 th = sqrt 3 * cos th.
Proof. unfold Pbar, norm. rewrite legendre_diagonal, legendre_00. cbn. replace (2 * (1 + 1 + 1) * 1 / (1 + 1)) with 3 by field. ring. Qed.
(** derivative *)
Lemma Pbar_limit n m th : derivable_pt_lim (Pbar n m) th (norm n m * (INR m * cos th ^ pred m * (- sin th) * legendre n m (sin th) + cos th ^ m * (legendre n (S m) (sin th) * cos th))).
Proof.
  assert (D : derivable_pt_lim (fun y => norm n m * (cos y ^ m * legendre n m (sin y))) th (norm n m * (INR m * cos th ^ pred m * (- sin th) * legendre n m (sin th) + cos th ^ m * (legendre n (S m) (sin th) * cos th)))).
  - apply (derivable_pt_lim_scal (fun y => cos y ^ m * legendre n m (sin y))). apply (derivable_pt_lim_mult (fun y => cos y ^ m) (fun y => legendre n m (sin y))).
    + apply (derivable_pt_lim_comp cos (fun z => z ^ m)); [apply derivable_pt_lim_cos|apply derivable_pt_lim_pow].
    + apply (derivable_pt_lim_comp sin (legendre n m)); [apply derivable_pt_lim_sin|apply legendre_derivative].
  - eapply limit_ext; [|exact D]. intros y. unfold Pbar. ring.
Qed.
Lemma Pbar_derivative_diagonal m th : cos th <> 0 -> derivable_pt_lim (Pbar m m) th (- (INR m * (sin th / cos th) * Pbar m m th)).
Proof.
  intros C. replace (- (INR m * (sin th / cos th) * Pbar m m th)) with (norm m m * (INR m * cos th ^ pred m * (- sin th) * legendre m m (sin th) + cos th ^ m * (legendre m (S m) (sin th) * cos th))); [apply Pbar_limit|].
  rewrite (legendre_vanishes m (S m)) by lia. unfold Pbar. destruct m as [|m]; [cbn; field; exact C|]. cbn [pred]. change (cos th ^ S m) with (cos th * cos th ^ m). field. exact C.
Qed.
Lemma Pbar_derivative n m th : (m <= n)%nat -> cos th <> 0 ->
  derivable_pt_lim (Pbar (S n) m) th (- (/ cos th * (INR (S n) * sin th * Pbar (S n) m th - sqrt (INR (S n - m) * INR (S n + m) * INR (2 * n + 3) / INR (2 * n + 1)) * Pbar n m th))).
Proof.
  intros M C. set (f := sqrt _). assert (N : norm (S n) m * INR (S n + m) = f * norm n m) by (apply norm_f; exact M).
  replace (- (/ cos th * (INR (S n) * sin th * Pbar (S n) m th - f * Pbar n m th))) with
    (norm (S n) m * (INR m * cos th ^ pred m * (- sin th) * legendre (S n) m (sin th) + cos th ^ m * (legendre (S n) (S m) (sin th) * cos th))); [apply Pbar_limit|].
  pose proof (derivative_relation n m (sin th) ltac:(lia)) as R. assert (T : 1 - sin th ^ 2 = cos th * cos th) by (pose proof (sin2_cos2 th) as S; unfold Rsqr in S; cbn; lra). rewrite T in R.
  apply Rmult_eq_reg_l with (cos th); [|exact C]. unfold Pbar.
  replace (cos th * - (/ cos th * (INR (S n) * sin th * (norm (S n) m * cos th ^ m * legendre (S n) m (sin th)) - f * (norm n m * cos th ^ m * legendre n m (sin th))))) with
    (- (INR (S n) * sin th * (norm (S n) m * cos th ^ m * legendre (S n) m (sin th))) + (f * norm n m) * (cos th ^ m * legendre n m (sin th))) by (field; exact C).
  rewrite <- N. replace (INR (S n - m)) with (INR (S n) - INR m) in R by (rewrite minus_INR by lia; reflexivity).
  replace (cos th * (norm (S n) m * (INR m * cos th ^ pred m * - sin th * legendre (S n) m (sin th) + cos th ^ m * (legendre (S n) (S m) (sin th) * cos th)))) with
    (norm (S n) m * (- (INR m * (cos th * cos th ^ pred m) * sin th * legendre (S n) m (sin th)) + cos th ^ m * (cos th * cos th * legendre (S n) (S m) (sin th)))) by ring.
  rewrite R. destruct m as [|m]; [cbn [INR pred pow]; ring|]. cbn [pred]. change (cos th * cos th ^ m) with (cos th ^ S m). ring.
Qed.
