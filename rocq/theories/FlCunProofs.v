From Coq Require Import Reals ZArith List Lia Lra Psatz.
From Verif Require Import FlModel FlProofs Poly AlfSpec AlfMath AlfSum AlfStable AlfError AlfGrow FlAlfModel FlAlfProofs FlCunModel.
Open Scope R_scope.

(** ** square roots halve relative errors *)
Lemma sqrt_half q x d : 0 < q -> 0 <= d <= 0.01 -> Rabs (x - q) <= d * q -> Rabs (sqrt x - sqrt q) <= 0.51 * d * sqrt q.
Proof.
  intros Q D H. pose proof (sqrt_close q x d Q ltac:(lra) H) as C. assert (S0 : 0 < sqrt q) by (apply sqrt_lt_R0; exact Q).
  assert (B : - (d * q) <= x - q <= d * q) by (unfold Rabs in H; destruct (Rcase_abs (x - q)); lra). assert (X0 : 0 <= x) by nra.
  pose proof (sqrt_sqrt x X0) as E1. pose proof (sqrt_sqrt q ltac:(lra)) as E2. set (a := sqrt x) in *. set (c := sqrt q) in *.
  assert (L : 0.99 * c <= a). { unfold Rabs in C. destruct (Rcase_abs (a - c)); nra. }
  assert (P : Rabs (a - c) * (a + c) <= d * c * c). { rewrite <- (Rabs_right (a + c)) at 1 by lra. rewrite <- Rabs_mult. replace ((a - c) * (a + c)) with (x - q) by (rewrite <- E1, <- E2; ring). rewrite Rmult_assoc, E2. exact H. }
  assert (P2 : Rabs (a - c) * (1.99 * c) <= d * c * c). { eapply Rle_trans; [|exact P]. apply Rmult_le_compat_l; [apply Rabs_pos|lra]. }
  apply (Rmult_le_reg_r (1.99 * c)); [lra|]. eapply Rle_trans; [exact P2|]. assert (0 <= d * c * c) by (apply Rmult_le_pos; [apply Rmult_le_pos|]; lra). nra.
Qed.
(** dropping the absolute error *)
Lemma appr_drop c k c' x v : appr c k x v -> k * 1000 <= u * Rabs x * (c' - c) * 1000 -> appr c' 0 x v.
Proof. unfold appr. intros H K. nra. Qed.
Lemma near_pos c x v : 0 <= c <= 1000 -> appr c 0 x v -> 0 < x -> 0.999 * x <= v <= 1.001 * x.
Proof.
  intros C H X. pose proof u_small as U. unfold appr in H. rewrite (Rabs_right x) in H by lra. assert (c * u <= 1000 * / 1000000000000000) by (apply Rmult_le_compat; lra).
  assert (c * u * x <= 0.001 * x) by (apply Rmult_le_compat_r; lra). unfold Rabs in H. destruct (Rcase_abs (v - x)); lra.
Qed.
(** rounding a value that is not small *)
Lemma appr_round c x v w : 0 <= c <= 1000 -> / 1000000 <= Rabs x -> appr c 0 x v -> near v w -> appr (c + 1.001) 0 x w.
Proof.
  intros C X H N. pose proof u_small as U. pose proof tiny_pos as T. pose proof tiny_small as T2. pose proof (appr_near _ _ _ _ _ H N) as A. unfold appr in *.
  assert (c * u <= 1000 * / 1000000000000000) by (apply Rmult_le_compat; lra). assert (u * / 1000000 <= u * Rabs x) by (apply Rmult_le_compat_l; lra).
  eapply Rle_trans; [exact A|]. assert ((c + 1 + c * u) * (u * Rabs x) <= (c + 1.0001) * (u * Rabs x)) by (apply Rmult_le_compat_r; [apply Rmult_le_pos; [lra|apply Rabs_pos]|lra]). nra.
Qed.
Lemma appr_sqrt c q x : 0 <= c <= 1000 -> 0 < q -> appr c 0 q x -> appr (0.51 * c) 0 (sqrt q) (sqrt x).
Proof.
  intros C Q H. pose proof u_small as U. unfold appr in *. rewrite (Rabs_right q) in H by lra. assert (c * u <= 1000 * / 1000000000000000) by (apply Rmult_le_compat; lra). assert (0 <= c * u) by (apply Rmult_le_pos; lra).
  pose proof (sqrt_half q x (c * u) Q ltac:(lra) ltac:(lra)) as E. pose proof (sqrt_pos q). rewrite (Rabs_right (sqrt q)) by lra. lra.
Qed.
Lemma appr_product c d x v y w : 0 <= c <= 1000 -> 0 <= d <= 1000 -> appr c 0 x v -> appr d 0 y w -> appr (c + d + 0.001) 0 (x * y) (v * w).
Proof.
  intros C D H J. pose proof u_small as U. assert (M := fun A B => appr_mul c 0 d 0 x v y w A B H J). specialize (M ltac:(lra) ltac:(lra)). eapply appr_le; [exact M| |lra].
  assert (c * d <= 1000 * 1000) by (apply Rmult_le_compat; lra). assert (c * d * u <= 1000 * 1000 * / 1000000000000000) by (apply Rmult_le_compat; try lra; apply Rmult_le_pos; lra). lra.
Qed.
Lemma appr_refl c x : 0 <= c -> appr c 0 x x.
Proof. intros C. unfold appr. replace (x - x) with 0 by ring. rewrite Rabs_R0. pose proof u_pos. pose proof (Rabs_pos x). assert (0 <= c * u) by (apply Rmult_le_pos; lra). assert (0 <= c * u * Rabs x) by (apply Rmult_le_pos; lra). lra. Qed.
Lemma appr_inv c x v : 0 <= c <= 1000 -> 0 < x -> appr c 0 x v -> appr (c + 0.001) 0 (/ x) (/ v).
Proof.
  intros C X H. pose proof (near_pos c x v C H X) as P. pose proof u_small as U. unfold appr in *. assert (0 < / x) by (apply Rinv_0_lt_compat; exact X). rewrite (Rabs_right (/ x)) by lra. rewrite (Rabs_right x) in H by lra.
  assert (c * u <= 1000 * / 1000000000000000) by (apply Rmult_le_compat; lra). assert (0 <= c * u) by (apply Rmult_le_pos; lra).
  assert (V : (1 - c * u) * x <= v) by (unfold Rabs in H; destruct (Rcase_abs (v - x)); lra).
  replace (/ v - / x) with (- (v - x) * (/ x * / v)) by (field; lra). rewrite Rabs_mult, Rabs_Ropp. assert (0 < / v) by (apply Rinv_0_lt_compat; lra). rewrite (Rabs_right (/ x * / v)) by (apply Rle_ge, Rmult_le_pos; lra).
  apply Rle_trans with (c * u * x * (/ x * / v)); [apply Rmult_le_compat_r; [apply Rmult_le_pos; lra|lra]|]. replace (c * u * x * (/ x * / v)) with (c * u * / v) by (field; lra).
  assert (IV : / v <= (1 + 0.0000001) * / x * 1 ).
  { apply (Rmult_le_reg_l v); [lra|]. rewrite Rinv_r by lra. apply (Rmult_le_reg_r x); [exact X|]. replace (v * ((1 + 0.0000001) * / x * 1) * x) with (v * (1 + 0.0000001)) by (field; lra). assert (c * u * x <= / 1000000000000 * x) by (apply Rmult_le_compat_r; lra). lra. }
  apply Rle_trans with (c * u * ((1 + 0.0000001) * / x * 1)); [apply Rmult_le_compat_l; lra|]. replace (c * u * ((1 + 0.0000001) * / x * 1)) with (c * (1 + 0.0000001) * (u * / x)) by ring. rewrite (Rmult_assoc (c + 0.001)), Rplus_0_r. apply Rmult_le_compat_r; [apply Rmult_le_pos; lra|lra].
Qed.

Lemma appr_times c x v y : appr c 0 x v -> appr c 0 (x * y) (v * y).
Proof. intros H. pose proof (appr_mul_exact _ _ _ _ y H) as M. rewrite Rmult_0_l in M. exact M. Qed.

(** ** the factors *)
Lemma f1_ok n m v : (m <= n)%nat -> (n <= 1024)%nat -> f1_run (S n) m v -> appr 2.03 0 (/ beta m (S n)) v.
Proof.
  intros H N (f & g & F & G & S0). pose proof (a_quotient n m H N) as Q. rewrite <- (a_factor n m H). unfold common_run in F.
  assert (nz : 0 < IZR (aden (S n) m)) by (unfold aden; apply IZR_lt; nia). set (d := IZR (aden (S n) m)) in *.
  assert (Ed : IZR ((Z.of_nat (S n) + Z.of_nat m) * (Z.of_nat (S n) - Z.of_nat m)) = d) by (unfold d, aden; f_equal; ring). rewrite Ed in F.
  assert (En : IZR (anum (S n) m) / d = IZR (2 * Z.of_nat (S n) + 1) / d * IZR (2 * Z.of_nat (S n) - 1)) by (unfold anum; rewrite mult_IZR; field; lra).
  set (a := IZR (2 * Z.of_nat (S n) + 1)) in *. set (b := IZR (2 * Z.of_nat (S n) - 1)) in *. assert (b1 : 1 <= b) by (unfold b; apply IZR_le; lia). assert (b2 : b <= 2049) by (unfold b; apply IZR_le; lia). assert (a1 : 0 < a) by (unfold a; apply IZR_lt; lia).
  assert (AD : / 1000000 <= Rabs (a / d)). { rewrite Rabs_right by (apply Rle_ge, Rle_mult_inv_pos; lra). rewrite En in Q. destruct (Rle_dec (/ 1000000) (a / d)); [assumption|]. assert (a / d * b <= / 1000000 * 2049) by (apply Rmult_le_compat; try lra; apply Rle_mult_inv_pos; lra). lra. }
  pose proof (appr_round 0 _ _ _ ltac:(lra) AD (appr_refl 0 _ ltac:(lra)) F) as A1. pose proof (appr_product (0 + 1.001) 0 _ _ _ _ ltac:(lra) ltac:(lra) A1 (appr_refl 0 b ltac:(lra))) as A2. rewrite <- En in A2.
  apply (appr_round _ _ _ g) in A2; [|lra|rewrite Rabs_right; lra|exact G]. apply appr_sqrt in A2; [|lra|lra]. apply (appr_round _ _ _ v) in A2; [|lra| |exact S0].
  - eapply appr_le; [exact A2|lra|lra].
  - pose proof (sqrt_pos (IZR (anum (S n) m) / d)). rewrite Rabs_right by lra. assert (sqrt 1 <= sqrt (IZR (anum (S n) m) / d)) by (apply sqrt_le_1_alt; lra). rewrite sqrt_1 in *. lra.
Qed.
Lemma f2_ok n m v : (m <= n)%nat -> (n <= 1024)%nat -> f2_run (S (S n)) m v -> appr 3.06 0 (beta m (S n) / beta m (S (S n))) (- v).
Proof.
  intros H N (f & g & h & k & s & F & G & HH & K0 & S0 & ->). rewrite Ropp_involutive. pose proof (b_quotient n m H) as Q. rewrite <- (b_factor n m H). unfold common_run in F.
  assert (nz : 1 <= IZR (aden (S (S n)) m)) by (unfold aden; apply IZR_le; nia). set (d := IZR (aden (S (S n)) m)) in *.
  assert (dm : d <= 2000000).
  { unfold d, aden. apply IZR_le. replace ((Z.of_nat (S (S n)) - Z.of_nat m) * (Z.of_nat (S (S n)) + Z.of_nat m))%Z with (Z.of_nat (S (S n)) * Z.of_nat (S (S n)) - Z.of_nat m * Z.of_nat m)%Z by ring. pose proof (Z.square_nonneg (Z.of_nat m)).
    assert (Z.of_nat (S (S n)) * Z.of_nat (S (S n)) <= 1026 * 1026)%Z by (apply Z.mul_le_mono_nonneg; lia). lia. }
  assert (Ed : IZR ((Z.of_nat (S (S n)) + Z.of_nat m) * (Z.of_nat (S (S n)) - Z.of_nat m)) = d) by (unfold d, aden; f_equal; ring). rewrite Ed in F.
  set (a := IZR (2 * Z.of_nat (S (S n)) + 1)) in *. set (b := IZR (Z.of_nat (S (S n)) - Z.of_nat m - 1)) in *. set (c := IZR (Z.of_nat (S (S n)) + Z.of_nat m - 1)) in *. set (e := IZR (2 * Z.of_nat (S (S n)) - 3)) in *.
  assert (b1 : 1 <= b) by (unfold b; apply IZR_le; lia). assert (c1 : 1 <= c) by (unfold c; apply IZR_le; lia). assert (e1 : 1 <= e) by (unfold e; apply IZR_le; lia). assert (a1 : 5 <= a) by (unfold a; apply IZR_le; lia).
  assert (En : IZR (bnum (S (S n)) m) / IZR (bden (S (S n)) m) = a / d * b * c / e).
  { unfold bnum, bden. rewrite !mult_IZR. fold a b c e. replace (IZR (Z.of_nat (S (S n)) - Z.of_nat m) * IZR (Z.of_nat (S (S n)) + Z.of_nat m)) with d by (unfold d, aden; rewrite mult_IZR; reflexivity). unfold a, b, c. field. lra. }
  assert (AD : / 1000000 <= a / d). { apply (Rmult_le_reg_r d); [lra|]. unfold Rdiv. rewrite Rmult_assoc, Rinv_l by lra. lra. }
  assert (ADb : / 1000000 <= a / d * b) by (apply Rle_trans with (a / d * 1); [lra|apply Rmult_le_compat_l; lra]). assert (ADc : / 1000000 <= a / d * b * c) by (apply Rle_trans with (a / d * b * 1); [lra|apply Rmult_le_compat_l; lra]).
  pose proof (appr_round 0 _ _ f ltac:(lra) ltac:(rewrite Rabs_right; [exact AD|lra]) (appr_refl 0 (a / d) ltac:(lra)) F) as A1.
  pose proof (appr_times _ _ _ b A1) as A2. apply (appr_round _ _ _ g) in A2; [|lra|rewrite Rabs_right; lra|exact G].
  pose proof (appr_times _ _ _ c A2) as A3. apply (appr_round _ _ _ h) in A3; [|lra|rewrite Rabs_right; lra|exact HH].
  pose proof (appr_times _ _ _ (/ e) A3) as A4. change (a / d * b * c * / e) with (a / d * b * c / e) in A4. rewrite <- En in A4. apply (appr_round _ _ _ k) in A4; [|lra|rewrite Rabs_right; lra|exact K0].
  apply appr_sqrt in A4; [|lra|lra]. apply (appr_round _ _ _ s) in A4; [|lra| |exact S0].
  - eapply appr_le; [exact A4|lra|lra].
  - set (qq := IZR (bnum (S (S n)) m) / IZR (bden (S (S n)) m)) in *. pose proof (sqrt_pos qq). rewrite Rabs_right by lra. assert (sqrt (/ 4) <= sqrt qq) by (apply sqrt_le_1_alt; lra). replace (/ 4) with (/ 2 * / 2) in * by field. rewrite sqrt_square in * by lra. lra.
Qed.
Lemma sqrt3_ok v : near (sqrt 3) v -> appr 1.001 0 (sqrt 3) v.
Proof.
  intros H. eapply appr_le; [apply (appr_round 0 (sqrt 3) (sqrt 3) v); [lra| |apply appr_refl; lra|exact H]|lra|lra]. assert (sqrt 1 <= sqrt 3) by (apply sqrt_le_1_alt; lra). rewrite sqrt_1 in *. rewrite Rabs_right; lra.
Qed.
Lemma beta_01 : / beta 0 1 = sqrt 3.
Proof. rewrite <- (a_factor 0 0 (le_n _)). f_equal. unfold anum, aden. cbn. lra. Qed.
(** factor of the diagonal *)
Definition dfac (m : nat) : R := match m with O => sqrt 3 | S _ => sqrt (IZR (snum m) / IZR (sden m)) end.
Lemma f0_ok m v : f0_run (S m) v -> appr 2.03 0 (dfac m) v.
Proof.
  destruct m as [|m]; [cbn [f0_run dfac]; intros H; eapply appr_le; [apply sqrt3_ok; exact H|lra|lra]|]. cbn [f0_run dfac]. intros (g & G & S0).
  eapply appr_le; [apply (root_ok (snum (S m)) (sden (S m)))|lra|lra]; [pose proof (s_quotient (S m)); lra|].
  exists g. split; [|exact S0]. replace (snum (S m)) with (2 * Z.of_nat (S (S m)) + 1)%Z by (unfold snum; lia). replace (sden (S m)) with (2 * Z.of_nat (S (S m)))%Z by (unfold sden; lia). exact G.
Qed.
Lemma dfac_bounds m : 1 <= dfac m <= 1.8 /\ ((1 <= m)%nat -> dfac m <= 1 + / (4 * INR (S m))).
Proof.
  destruct m as [|m].
  - cbn [dfac]. split; [|lia]. split; [rewrite <- sqrt_1 at 1; apply sqrt_le_1_alt; lra|]. replace 1.8 with (sqrt (1.8 * 1.8)) by (apply sqrt_square; lra). apply sqrt_le_1_alt. lra.
  - cbn [dfac]. pose proof (s_max (S m)) as S0. split; [|intros _; lra]. assert (/ (4 * INR (S (S m))) <= / 4) by (apply Rinv_le_contravar; [lra|]; pose proof (pos_INR (S m)); rewrite (S_INR (S m)); lra). lra.
Qed.
Lemma Pbar_dfac m th : Pbar (S m) (S m) th = dfac m * cos th * Pbar m m th.
Proof.
  destruct m as [|m]; [cbn [dfac]; rewrite Pbar_11, Pbar_00; ring|]. cbn [dfac]. rewrite s_factor. rewrite Pbar_diagonal by lia. ring.
Qed.
