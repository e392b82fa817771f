From Coq Require Import Reals ZArith List Lia Lra Psatz.
From Verif Require Import FlModel FlProofs Poly AlfSpec AlfMath AlfSum AlfStable AlfError AlfGrow FlAlfModel FlAlfProofs FlCunModel FlCunProofs FlCunProofs3.
Open Scope R_scope.

Definition growth2 : R := 2 ^ 165.
Lemma growth2_ok n : (n <= 200)%nat -> sqrt (INR (2 * n + 1) * 3 ^ n) <= growth2.
Proof.
  intros H. unfold growth2. rewrite <- (sqrt_square (2 ^ 165)) by (apply pow_le; lra). apply sqrt_le_1_alt.
  assert (A : 3 ^ n <= 2 ^ (8 * 40)). { apply Rle_trans with (3 ^ (5 * 40)); [apply Rle_pow; [lra|lia]|]. rewrite (pow_mult 3 5 40), (pow_mult 2 8 40). apply (pow_incr (3 ^ 5) (2 ^ 8) 40). lra. }
  assert (B : INR (2 * n + 1) <= 2 ^ 10). { apply Rle_trans with (INR 401); [apply le_INR; lia|]. rewrite INR_IZR_INZ. change (Z.of_nat 401) with 401%Z. lra. }
  assert (C : 2 ^ 165 * 2 ^ 165 = 2 ^ 10 * 2 ^ (8 * 40)) by (rewrite <- !pow_add; f_equal). rewrite C. apply Rmult_le_compat; [apply pos_INR|apply pow_le; lra|exact B|exact A].
Qed.
Lemma growth2_1 : 1 <= growth2.
Proof. unfold growth2. apply pow_R1_Rle. lra. Qed.

Section Columns.
  Variables (k th zt rrt : R).
  Hypothesis k0 : 0 <= k.
  Hypothesis kG : k * growth2 * 1000000000000000000000000 <= u.
  Hypothesis Hz : appr 13.4 k (sin th) zt.
  Hypothesis Hr : appr 11.3 0 1 rrt.
  Lemma ksmall : k * 1000000000000 <= u.
  Proof. pose proof growth2_1. assert (k * 1 <= k * growth2) by (apply Rmult_le_compat_l; lra). lra. Qed.
  Theorem ncolumn_zonal N p : (N <= 200)%nat -> ncolumn k zt rrt 0 N p -> p O = 1 -> forall n, (n <= N)%nat -> Rabs (p n - Pbar n 0 th) <= 204 * INR n ^ 2 * sqrt (INR (2 * n + 1)) * u.
  Proof.
    intros HN Hp P0 n Hn. pose proof u_small as U. pose proof ksmall as T2. pose proof (Y_le n ltac:(lia)) as YB. pose proof (n_le n ltac:(lia)) as NB.
    pose (y := fun j => 1 ^ j * Pbar j 0 th). pose (e := fun j => if Nat.ltb j 0 then 0 else 1 ^ j * (p j - Pbar j 0 th * 1)). pose (b := beta 0). pose (Y := sqrt (INR (2 * n + 1))). fold Y in YB |- *.
    pose (ze := fun j => match j with O => e O | S j => e (S j) - (sin th * e j - b j * e (pred j)) / b (S j) end).
    assert (E0 : e O = 0) by (unfold e; cbn [Nat.ltb Nat.leb pow]; rewrite P0, Pbar_00; ring).
    assert (XB : X_zonal n (18.5 * u) (1000000 * k) Y <= 204 * INR n ^ 2 * Y * u).
    { unfold X_zonal. assert (A : 18.5 * u * Y + 1000000 * k <= 18.51 * u * Y) by (assert (u <= u * Y) by (rewrite <- (Rmult_1_r u) at 1; apply Rmult_le_compat_l; lra); lra). apply (Rmult_le_compat_l (11 * INR n ^ 2)) in A; [|lra]. eapply Rle_trans; [exact A|].
      assert (0 <= INR n ^ 2 * Y * u) by (apply Rmult_le_pos; [apply Rmult_le_pos|]; lra). lra. }
    assert (X1 : 204 * INR n ^ 2 * Y * u <= 1).
    { assert (INR n ^ 2 * Y <= 1048576 * 46) by (apply Rmult_le_compat; lra). assert (INR n ^ 2 * Y * u <= 1048576 * 46 * / 1000000000000000) by (apply Rmult_le_compat; try lra; apply Rmult_le_pos; lra). lra. }
    assert (yY : forall j, (j <= n)%nat -> Rabs (y j) <= Y).
    { intros j Hj. unfold y. rewrite pow1, Rmult_1_l. eapply Rle_trans; [apply Pbar_bound; lia|]. unfold Y. apply sqrt_le_1_alt, le_INR. lia. }
    assert (one : Rabs 1 <= 1) by (rewrite Rabs_R1; lra).
    assert (En : Rabs (e n) <= X_zonal n (18.5 * u) (1000000 * k) Y).
    { apply (error_zonal b (sin th)) with (y := y) (ze := ze); auto; try lra.
      - unfold b. apply beta_m.
      - intros j Hj. apply zonal_beta_dec. exact Hj.
      - intros j Hj. apply zonal_beta_half. exact Hj.
      - intros j Hj. apply zonal_beta_max. exact Hj.
      - pose proof (sin2_cos2 th) as S2. unfold Rsqr in S2. pose proof (pow2_ge_0 (cos th)). nra.
      - intros j. unfold ze. ring.
      - assert (u * INR n ^ 2 <= / 1000000000000000 * 1048576) by (apply Rmult_le_compat; lra). lra.
      - intros j Hj E1 E2. unfold ze. pose proof (ncolumn_residual k k0 T2 th zt rrt 1 0 N p Hz Hr one ltac:(lia) Hp 1 ltac:(ring) j ltac:(lia) ltac:(lia)) as L. rewrite Rmult_1_l in L.
        apply L.
        + eapply Rle_trans; [apply (np_le th 1 0 p one 1 ltac:(ring)); lia|]. fold (y j). fold (e j). pose proof (yY j ltac:(lia)). lra.
        + intros _. eapply Rle_trans; [apply (np_le th 1 0 p one 1 ltac:(ring)); lia|]. fold (y (pred j)). fold (e (pred j)). pose proof (yY (pred j) ltac:(lia)). lra. }
    unfold e in En. cbn [Nat.ltb Nat.leb] in En. rewrite pow1, Rmult_1_l, Rmult_1_r in En. lra.
  Qed.
  Theorem ncolumn_order ka m N p : Rabs ka <= 1 -> (1 <= m)%nat -> (N <= 200)%nat -> ncolumn k zt rrt m N p -> Rabs (p m - Pbar m m th * ka) <= 32 * INR m * u * Rabs (Pbar m m th) + 1000000 * k ->
    forall n, (m <= n <= N)%nat -> Rabs (p n - Pbar n m th * ka) <= 176 * INR n ^ 2 * sqrt (INR (2 * n + 1)) * u.
  Proof.
    intros ka1 m1 HN Hp P0 n Hn. pose proof u_small as U. pose proof ksmall as T2. pose proof (Y_le n ltac:(lia)) as YB. pose proof (n_le n ltac:(lia)) as NB. pose proof growth2_1 as G1.
    assert (SG : exists s, s * s = 1 /\ 0 <= s * sin th) by (destruct (Rle_dec 0 (sin th)); [exists 1|exists (-1)]; split; lra). destruct SG as (s & s2 & s0).
    assert (st : Rabs (sin th) = s * sin th) by (pose proof (s_abs s s2 1) as E; rewrite pow_1 in E; rewrite <- (Rmult_1_l (Rabs (sin th))), <- E, <- Rabs_mult; apply Rabs_right; lra).
    pose (y := fun j => s ^ j * Pbar j m th). pose (e := fun j => if Nat.ltb j m then 0 else s ^ j * (p j - Pbar j m th * ka)). pose (b := beta m). pose (Y := sqrt (INR (2 * n + 1))). fold Y in YB |- *. pose (t := s * sin th).
    pose (ze := fun j => if Nat.ltb j m then 0 else if Nat.eqb j m then e m else e j - (t * e (pred j) - b (pred j) * e (pred (pred j))) / b j).
    pose (ep := 18.5 * u). pose (kb := 1000000 * k). pose (rho := 32 * INR m * u).
    assert (mn : INR m <= INR n ^ 2). { assert (INR m <= INR n) by (apply le_INR; lia). assert (1 <= INR n) by (apply (le_INR 1); lia). nra. }
    assert (m0 : 0 <= INR m) by apply pos_INR. assert (n1 : 1 <= INR n ^ 2) by (assert (1 <= INR m) by (apply (le_INR 1); lia); lra).
    assert (XB : 2 * X n ep kb rho kb Y growth2 <= 176 * INR n ^ 2 * Y * u).
    { unfold X, ep, kb, rho. assert (A1 : 32 * INR m * u * Y <= 32 * (INR n ^ 2 * Y * u)).
      { replace (32 * INR m * u * Y) with (32 * (INR m * (Y * u))) by ring. replace (INR n ^ 2 * Y * u) with (INR n ^ 2 * (Y * u)) by ring. apply Rmult_le_compat_l; [lra|]. apply Rmult_le_compat_r; [apply Rmult_le_pos; lra|exact mn]. }
      assert (A2 : u <= INR n ^ 2 * Y * u) by (rewrite <- (Rmult_1_l u) at 1; apply Rmult_le_compat_r; [lra|]; rewrite <- (Rmult_1_l 1); apply Rmult_le_compat; lra).
      assert (A3 : INR n ^ 2 * (k * growth2) <= 1048576 * (k * growth2)) by (apply Rmult_le_compat_r; [apply Rmult_le_pos; lra|lra]). assert (A4 : 0 <= k * growth2) by (apply Rmult_le_pos; lra). lra. }
    assert (X1 : 176 * INR n ^ 2 * Y * u <= 1).
    { assert (INR n ^ 2 * Y <= 1048576 * 46) by (apply Rmult_le_compat; lra). assert (INR n ^ 2 * Y * u <= 1048576 * 46 * / 1000000000000000) by (apply Rmult_le_compat; try lra; apply Rmult_le_pos; lra). lra. }
    assert (yY : forall j, (j <= n)%nat -> Rabs (y j) <= Y).
    { intros j Hj. unfold y. rewrite Rabs_mult, s_abs, Rmult_1_l by exact s2. destruct (le_lt_dec m j) as [L|L].
      - eapply Rle_trans; [apply Pbar_bound; lia|]. unfold Y. apply sqrt_le_1_alt, le_INR. lia.
      - rewrite Pbar_before by lia. rewrite Rabs_R0. lra. }
    assert (zm : ze m = e m) by (unfold ze; rewrite Nat.ltb_irrefl, Nat.eqb_refl; reflexivity).
    assert (zs : forall j, (m <= j)%nat -> ze (S j) = e (S j) - (t * e j - b j * e (pred j)) / b (S j)).
    { intros j Hj. unfold ze. rewrite (proj2 (Nat.ltb_ge (S j) m)), (proj2 (Nat.eqb_neq (S j) m)) by lia. reflexivity. }
    assert (En : Rabs (e n) <= 2 * X n ep kb rho kb Y growth2).
    { apply (error_bound m b t) with (y := y) (ze := ze); auto; try (unfold ep, kb, rho; first [lra|apply Rmult_le_pos; [apply Rmult_le_pos|]; lra]).
      - unfold b. apply beta_m.
      - intros j Hj. apply beta_inc; assumption.
      - intros j Hj. unfold y. rewrite Pbar_before by exact Hj. ring.
      - intros j Hj. apply (ny_step k th zt rrt m N p ltac:(lia) Hp s s2). exact Hj.
      - intros j Hj. unfold e. rewrite (proj2 (Nat.ltb_lt j m) Hj). reflexivity.
      - intros j Hj. unfold ze. rewrite (proj2 (Nat.ltb_lt j m) Hj). reflexivity.
      - intros j Hj. rewrite zs by exact Hj. ring.
      - assert (u * INR n ^ 2 <= / 1000000000000000 * 1048576) by (apply Rmult_le_compat; lra). unfold ep. lra.
      - intros j Hj Rk. assert (Rs : response (beta m) t m (K b t m)) by (apply (K_response m b t); [right; exact m1|intros q Hq; unfold b; apply Rgt_not_eq, beta_pos; exact Hq|lia]).
        assert (t1 : t <= 1) by (unfold t; rewrite <- st; apply Rabs_le; pose proof (SIN_bound th); lra).
        eapply Rle_trans; [apply (proj1 (w_le_c m t m1 t1 (K b t m) Rs j ltac:(lia) Rk))|]. eapply Rle_trans; [apply (c_le m j j m1); lia|]. apply growth2_ok. lia.
      - rewrite zm. unfold e. rewrite Nat.ltb_irrefl. unfold y. rewrite !Rabs_mult, !s_abs, !Rmult_1_l by exact s2. exact P0.
      - intros j Hj E1 E2. rewrite zs by lia. pose proof (ncolumn_residual k k0 T2 th zt rrt ka m N p Hz Hr ka1 ltac:(lia) Hp s s2 j ltac:(lia) ltac:(lia)) as L. rewrite st in L. apply L.
        + eapply Rle_trans; [apply (np_le th ka m p ka1 s s2); lia|]. fold (y j). fold (e j). pose proof (yY j ltac:(lia)). lra.
        + intros Hm. eapply Rle_trans; [apply (np_le th ka m p ka1 s s2); lia|]. fold (y (pred j)). fold (e (pred j)). pose proof (yY (pred j) ltac:(lia)). lra.
      - lia. }
    unfold e in En. rewrite (proj2 (Nat.ltb_ge n m)) in En by lia. rewrite Rabs_mult, s_abs, Rmult_1_l in En by exact s2. lra.
  Qed.
End Columns.
