From Coq Require Import Reals ZArith List Lia Lra Psatz.
From Verif Require Import FlModel FlProofs Poly AlfSpec AlfMath AlfSum AlfStable AlfError AlfGrow FlAlfModel FlAlfProofs FlCunModel FlCunProofs.
Open Scope R_scope.

Lemma appr_step c k l x v w : appr c k x v -> appr 1 l v w -> appr (c + 1 + c * u) (k * (1 + u) + l) x w.
Proof.
  intros H N. pose proof (appr_abs c k x v H) as A. unfold appr in *. pose proof u_pos as U. replace (w - x) with ((w - v) + (v - x)) by ring. eapply Rle_trans; [apply Rabs_triang|].
  apply (Rmult_le_compat_l u) in A; [|lra]. apply Rle_trans with (u * ((1 + c * u) * Rabs x + k) + l + (c * u * Rabs x + k)); [lra|]. right. ring.
Qed.

(** ** columns of values divided by the power of the distance; [k] bounds the absolute errors *)
Definition ncolumn (k zt rrt : R) (m N : nat) (p : nat -> R) : Prop :=
  ((m < N)%nat -> exists a x, appr 2.03 0 (/ beta m (S m)) a /\ appr 1 k (a * zt) x /\ appr 1 k (x * p m) (p (S m))) /\
  forall n, (m <= n)%nat -> (S (S n) <= N)%nat -> exists a x y b w v,
    appr 2.03 0 (/ beta m (S (S n))) a /\ appr 1 k (a * zt) x /\ appr 1 k (x * p (S n)) y /\
    appr 3.06 0 (beta m (S n) / beta m (S (S n))) b /\ appr 1 k (b * rrt) w /\ appr 1 k (w * p n) v /\ appr 1 k (y - v) (p (S (S n))).

Section Local.
  Variable k : R.
  Hypothesis k0 : 0 <= k.
  Hypothesis ksmall : k * 1000000000000 <= u.
  Lemma kU : 0 <= k * u <= k * / 1000000000000000.
  Proof. pose proof u_small. split; [apply Rmult_le_pos|apply Rmult_le_compat_l]; lra. Qed.
  Lemma product_local A t p a zt x y : 0 <= A <= 3000 -> Rabs p <= 100 -> appr 2.03 0 A a -> appr 13.4 k t zt -> appr 1 k (a * zt) x -> appr 1 k (x * p) y -> appr 17.45 (400000 * k) (A * t * p) y.
  Proof.
    intros HA Hp Ha Hz H1 H2. pose proof u_small as U. pose proof kU as KU.
    assert (M1 := fun C K => appr_mul 2.03 0 13.4 k A a t zt C K Ha Hz). specialize (M1 ltac:(lra) ltac:(lra)). rewrite (Rabs_right A) in M1 by lra.
    assert (AU : k * (A * (1 + 2.03 * u)) <= k * 3001) by (apply Rmult_le_compat_l; [lra|]; assert (A * u <= 3000 * u) by (apply Rmult_le_compat_r; lra); lra).
    apply (appr_le _ _ 15.431 (3001 * k)) in M1; [|lra|lra]. pose proof (appr_step _ _ _ _ _ _ M1 H1) as M2. apply (appr_le _ _ 16.432 (3003 * k)) in M2; [|lra|lra].
    pose proof (appr_mul_exact _ _ _ _ p M2) as M3. assert (PT : k * Rabs p <= k * 100) by (apply Rmult_le_compat_l; lra). apply (appr_le _ _ 16.432 (300300 * k)) in M3; [|lra|lra].
    pose proof (appr_step _ _ _ _ _ _ M3 H2) as M4. eapply appr_le; [exact M4|lra|lra].
  Qed.
  Lemma column_step A B t p q a zt rrt b x y w v r :
    0 <= A <= 3000 -> 0 <= B -> Rabs p <= 100 -> Rabs q <= 100 -> appr 2.03 0 A a -> appr 3.06 0 B b -> appr 13.4 k t zt -> appr 11.3 0 1 rrt ->
    appr 1 k (a * zt) x -> appr 1 k (x * p) y -> appr 1 k (b * rrt) w -> appr 1 k (w * q) v -> appr 1 k (y - v) r ->
    Rabs (r - (A * t * p - B * q)) <= 18.5 * u * (A * Rabs t * Rabs p + B * Rabs q) + 1000000 * k.
  Proof.
    intros HA HB Hp Hq Ha Hb Hz Hr H1 H2 H3 H4 H5. pose proof u_small as U. pose proof kU as KU. pose proof (product_local A t p a zt x y HA Hp Ha Hz H1 H2) as M4.
    pose proof (appr_product 3.06 11.3 B b 1 rrt ltac:(lra) ltac:(lra) Hb Hr) as N1. rewrite Rmult_1_r in N1. pose proof (appr_step _ _ _ _ _ _ N1 H3) as N2. apply (appr_le _ _ 15.37 k) in N2; [|lra|lra].
    pose proof (appr_mul_exact _ _ _ _ q N2) as N3. assert (QT : k * Rabs q <= k * 100) by (apply Rmult_le_compat_l; lra). apply (appr_le _ _ 15.37 (100 * k)) in N3; [|lra|lra]. pose proof (appr_step _ _ _ _ _ _ N3 H4) as N4. apply (appr_le _ _ 16.38 (102 * k)) in N4; [|lra|lra].
    set (S0 := A * Rabs t * Rabs p + B * Rabs q). assert (S1 : 0 <= S0).
    { unfold S0. pose proof (Rabs_pos t). pose proof (Rabs_pos p). pose proof (Rabs_pos q). apply Rplus_le_le_0_compat; [apply Rmult_le_pos; [apply Rmult_le_pos|]|apply Rmult_le_pos]; lra. }
    assert (S2 : Rabs (A * t * p - B * q) <= S0).
    { unfold S0. eapply Rle_trans; [apply Rabs_triang|]. rewrite Rabs_Ropp, !Rabs_mult. rewrite (Rabs_right A), (Rabs_right B) by lra. lra. }
    assert (D : Rabs (y - v - (A * t * p - B * q)) <= 17.45 * u * S0 + 400102 * k).
    { unfold appr in M4, N4. rewrite !Rabs_mult in M4. rewrite Rabs_mult in N4. rewrite (Rabs_right A) in M4 by lra. rewrite (Rabs_right B) in N4 by lra. replace (y - v - (A * t * p - B * q)) with ((y - A * t * p) + - (v - B * q)) by ring.
      eapply Rle_trans; [apply Rabs_triang|]. rewrite Rabs_Ropp. unfold S0. assert (0 <= B * Rabs q) by (apply Rmult_le_pos; [lra|apply Rabs_pos]). assert (0 <= u * (B * Rabs q)) by (apply Rmult_le_pos; lra). lra. }
    assert (E : Rabs (y - v) <= S0 + (17.45 * u * S0 + 400102 * k)).
    { replace (y - v) with ((y - v - (A * t * p - B * q)) + (A * t * p - B * q)) by ring. eapply Rle_trans; [apply Rabs_triang|]. lra. }
    unfold appr in H5. replace (r - (A * t * p - B * q)) with ((r - (y - v)) + (y - v - (A * t * p - B * q))) by ring. eapply Rle_trans; [apply Rabs_triang|].
    assert (F : u * Rabs (y - v) <= u * (S0 + (17.45 * u * S0 + 400102 * k))) by (apply Rmult_le_compat_l; lra).
    assert (US : 0 <= u * S0) by (apply Rmult_le_pos; lra).
    assert (G1 : u * (17.45 * u * S0) <= 0.01 * u * S0) by (assert (u * (u * S0) <= / 1000000000000000 * (u * S0)) by (apply Rmult_le_compat_r; lra); lra). lra.
  Qed.

  Section Column.
    Variables (th zt rrt ka : R) (m N : nat) (p : nat -> R).
    Hypothesis Hz : appr 13.4 k (sin th) zt.
    Hypothesis Hr : appr 11.3 0 1 rrt.
    Hypothesis ka1 : Rabs ka <= 1.
    Hypothesis HN : (N <= 1024)%nat.
    Hypothesis Hp : ncolumn k zt rrt m N p.
    Variable s : R.
    Hypothesis s2 : s * s = 1.
    Let y n := s ^ n * Pbar n m th.
    Let e n := if Nat.ltb n m then 0 else s ^ n * (p n - Pbar n m th * ka).
    Let b := beta m.
    Lemma ne_at n : (m <= n)%nat -> e n = s ^ n * (p n - Pbar n m th * ka).
    Proof. intros H. unfold e. rewrite (proj2 (Nat.ltb_ge n m) H). reflexivity. Qed.
    Lemma np_le n : (m <= n)%nat -> Rabs (p n) <= Rabs (y n) + Rabs (e n).
    Proof.
      intros H. rewrite (ne_at n H). unfold y. rewrite !Rabs_mult, !(s_abs s s2), !Rmult_1_l. replace (p n) with (Pbar n m th * ka + (p n - Pbar n m th * ka)) at 1 by ring. eapply Rle_trans; [apply Rabs_triang|]. apply Rplus_le_compat_r. rewrite Rabs_mult. rewrite <- (Rmult_1_r (Rabs (Pbar n m th))) at 2. apply Rmult_le_compat_l; [apply Rabs_pos|exact ka1].
    Qed.
    Lemma ny_step n : (m <= n)%nat -> b (S n) * y (S n) = s * sin th * y n - b n * y (pred n).
    Proof.
      intros H. unfold y, b. replace (beta m (S n) * (s ^ S n * Pbar (S n) m th)) with (s ^ S n * (beta m (S n) * Pbar (S n) m th)) by ring. rewrite Pbar_step by exact H. destruct n as [|n].
      - cbn [pred pow]. replace m with O in * by lia. rewrite beta_m. ring.
      - cbn [pred pow]. replace (s * (s * s ^ n) * (sin th * Pbar (S n) m th - beta m (S n) * Pbar n m th)) with (s * (s * s ^ n) * sin th * Pbar (S n) m th - (s * s) * (beta m (S n) * s ^ n * Pbar n m th)) by ring. rewrite s2. ring.
    Qed.
    Lemma ncolumn_residual j : (m <= j)%nat -> (j < N)%nat -> Rabs (p j) <= 100 -> ((m < j)%nat -> Rabs (p (pred j)) <= 100) ->
      Rabs (e (S j) - (s * sin th * e j - b j * e (pred j)) / b (S j)) <=
      18.5 * u * (Rabs (sin th) / b (S j) * (Rabs (y j) + Rabs (e j)) + b j / b (S j) * (Rabs (y (pred j)) + Rabs (e (pred j)))) + 1000000 * k.
    Proof.
      intros Hj HjN Hpj Hpk. pose proof u_small as U. pose proof kU as KU. pose proof (beta_pos m (S j) ltac:(lia)) as B1. fold (b (S j)) in B1. pose proof (a_max j m Hj ltac:(lia)) as AM. pose proof (np_le j Hj) as PJ.
      assert (B0 : 0 <= b j) by (unfold b, beta; apply sqrt_pos). pose proof (Rabs_pos (sin th)) as S0.
      assert (AB : 0 <= Rabs (sin th) / b (S j)) by (apply Rmult_le_pos; [lra|apply Rlt_le, Rinv_0_lt_compat; exact B1]). assert (BB : 0 <= b j / b (S j)) by (apply Rmult_le_pos; [lra|apply Rlt_le, Rinv_0_lt_compat; exact B1]).
      assert (Q : j = m \/ (m < j)%nat) by lia. destruct Hp as (F & G). destruct Q as [-> | Q].
      - destruct (F HjN) as (a & x & Ea & Rx & Rv). pose proof (product_local _ _ _ _ _ _ _ AM Hpj Ea Hz Rx Rv) as L. fold b in L. unfold appr in L. rewrite !Rabs_mult in L. rewrite (Rabs_right (/ b (S m))) in L by (unfold b; lra).
        assert (Bm : b m = 0) by (unfold b; apply beta_m). rewrite Bm in *. pose proof (Pbar_step m m th ltac:(lia)) as PS. fold b in PS. rewrite Bm in PS.
        replace (e (S m) - (s * sin th * e m - 0 * e (pred m)) / b (S m)) with (s ^ S m * (p (S m) - / b (S m) * sin th * p m)).
        2:{ rewrite !ne_at by lia. replace (Pbar (S m) m th) with (sin th * Pbar m m th / b (S m)) by (apply (Rmult_eq_reg_l (b (S m))); [rewrite PS; field; lra|lra]). cbn [pow]. field. lra. }
        rewrite Rabs_mult, (s_abs s s2), Rmult_1_l. eapply Rle_trans; [exact L|]. apply Rplus_le_compat; [|lra].
        replace (0 / b (S m)) with 0 by (unfold Rdiv; ring). rewrite Rmult_0_l, Rplus_0_r. apply Rle_trans with (17.45 * u * (Rabs (sin th) / b (S m) * (Rabs (y m) + Rabs (e m)))).
        + apply Rmult_le_compat_l; [lra|]. unfold Rdiv. rewrite (Rmult_comm (Rabs (sin th))). apply Rmult_le_compat_l; [|exact PJ]. unfold Rdiv in AB. lra.
        + apply Rmult_le_compat_r; [apply Rmult_le_pos; [exact AB|pose proof (Rabs_pos (y m)); pose proof (Rabs_pos (e m)); lra]|lra].
      - destruct j as [|i]; [lia|]. destruct (G i ltac:(lia) ltac:(lia)) as (a & x & y1 & bb & w & v & Ea & Rx & Ry & Eb & Rw & Rv & Rr). cbn [pred] in *. fold b in Eb.
        pose proof (column_step _ _ _ _ (p i) _ _ _ _ _ _ _ _ _ AM BB Hpj (Hpk ltac:(lia)) Ea Eb Hz Hr Rx Ry Rw Rv Rr) as L. fold b in L. pose proof (np_le i ltac:(lia)) as PK. pose proof (Pbar_step (S i) m th ltac:(lia)) as PS. fold b in PS. cbn [pred] in PS.
        replace (e (S (S i)) - (s * sin th * e (S i) - b (S i) * e i) / b (S (S i))) with (s ^ S (S i) * (p (S (S i)) - (/ b (S (S i)) * sin th * p (S i) - b (S i) / b (S (S i)) * p i))).
        2:{ rewrite !ne_at by lia. replace (Pbar (S (S i)) m th) with ((sin th * Pbar (S i) m th - b (S i) * Pbar i m th) / b (S (S i))) by (apply (Rmult_eq_reg_l (b (S (S i)))); [rewrite PS; field; lra|lra]).
            cbn [pow]. set (q := s ^ i). assert (E0 : s * (s * q) = q) by (rewrite <- Rmult_assoc, s2; ring).
            replace (s * sin th * (s * q * (p (S i) - Pbar (S i) m th * ka))) with (s * (s * q) * (sin th * (p (S i) - Pbar (S i) m th * ka))) by ring. rewrite !E0. field. lra. }
        rewrite Rabs_mult, (s_abs s s2), Rmult_1_l. eapply Rle_trans; [exact L|]. apply Rplus_le_compat_r. apply Rmult_le_compat_l; [lra|]. apply Rplus_le_compat.
        + unfold Rdiv. rewrite (Rmult_comm (Rabs (sin th))). apply Rmult_le_compat_l; [|exact PJ]. unfold Rdiv in AB. lra.
        + apply Rmult_le_compat_l; [exact BB|exact PK].
    Qed.
  End Column.
End Local.
