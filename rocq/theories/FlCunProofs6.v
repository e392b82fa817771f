From Coq Require Import Reals ZArith List Lia Lra Psatz.
From Verif Require Import FlModel FlProofs Poly AlfSpec AlfMath AlfSum AlfStable CunSpec CunProofs6 FlAlfModel FlAlfProofs FlCunModel FlCunProofs FlCunProofs2 FlCunProofs3 FlCunProofs4 FlCunProofs5.
Open Scope R_scope.

(** ** spherical coordinates *)
Lemma polar a b : exists l, a = len a b * cos l /\ b = len a b * sin l.
Proof.
  pose proof (len_pos a b) as H0. pose proof (len_sq a b) as S. destruct (Req_dec (len a b) 0) as [E|E].
  - exists 0. rewrite E in *. assert (a * a + b * b = 0) by lra. assert (a = 0) by nra. assert (b = 0) by nra. split; lra.
  - assert (H : 0 < len a b) by lra. set (c := len a b) in *. set (t := a / c). assert (T : t * t <= 1). { unfold t. apply (Rmult_le_reg_l (c * c)); [nra|]. replace (c * c * (a / c * (a / c))) with (a * a) by (field; lra). nra. }
    assert (B : -1 <= t <= 1) by nra. assert (Q : sqrt (1 - t²) = Rabs b / c).
    { apply Rsqr_inj; [apply sqrt_pos|apply Rmult_le_pos; [apply Rabs_pos|left; apply Rinv_0_lt_compat, H]|]. rewrite Rsqr_sqrt by (unfold Rsqr; lra). unfold Rsqr, t. replace (Rabs b / c * (Rabs b / c)) with (Rabs b * Rabs b / (c * c)) by (field; lra).
      rewrite <- Rabs_mult, (Rabs_right (b * b)) by (apply Rle_ge; nra). replace (b * b) with (c * c - a * a) by lra. field. lra. }
    destruct (Rle_dec 0 b) as [P|P].
    + exists (acos t). rewrite cos_acos, sin_acos, Q, (Rabs_right b) by lra. unfold t. split; field; lra.
    + exists (- acos t). rewrite cos_neg, sin_neg, cos_acos, sin_acos, Q, (Rabs_left b) by lra. unfold t. split; field; lra.
Qed.
Lemma spherical_exists X Y Z : exists th l, X = rad X Y Z * cos th * cos l /\ Y = rad X Y Z * cos th * sin l /\ Z = rad X Y Z * sin th.
Proof.
  destruct (polar (len X Y) Z) as (th & A & B). destruct (polar X Y) as (l & C & D). exists th, l.
  assert (E : len (len X Y) Z = rad X Y Z) by (unfold len at 1; rewrite len_sq; reflexivity). rewrite E in *. rewrite <- A. repeat split; assumption.
Qed.

(** ** values divided by powers of the distance *)
Definition T : R := tiny * 2 ^ 620.
Lemma T_0 : 0 <= T. Proof. unfold T. pose proof tiny_pos. pose proof (pow_lt 2 620 ltac:(lra)). apply Rmult_le_pos; lra. Qed.
Lemma T_small : T * growth2 * 1000000000000000000000000 <= / 2 * u.
Proof.
  unfold T, growth2. apply Rle_trans with (tiny * 2 ^ 620 * 2 ^ 165 * 2 ^ 80).
  - apply Rmult_le_compat_l; [|assert (E : 2 ^ 80 = IZR (2 ^ 80)) by exact (pow_IZR 2 80); rewrite E; apply IZR_le; vm_compute; discriminate]. pose proof tiny_pos. repeat apply Rmult_le_pos; try lra; apply pow_le; lra.
  - unfold tiny, u. replace (2 ^ 1074) with (2 ^ 620 * 2 ^ 165 * 2 ^ 80 * 2 ^ 156 * 2 ^ 53) by (rewrite <- !pow_add; f_equal). pose proof (pow_lt 2 620 ltac:(lra)). pose proof (pow_lt 2 165 ltac:(lra)). pose proof (pow_lt 2 80 ltac:(lra)). assert (2 ^ 1 <= 2 ^ 156) by (apply Rle_pow; [lra|lia]). pose proof (pow_lt 2 53 ltac:(lra)).
    set (g1 := 2 ^ 620) in *. set (g2 := 2 ^ 165) in *. set (g3 := 2 ^ 80) in *. set (g4 := 2 ^ 156) in *. set (g5 := 2 ^ 53) in *. rewrite pow_1 in *. replace (/ (g1 * g2 * g3 * g4 * g5) * g1 * g2 * g3) with (/ g4 * / g5) by (field; lra). apply Rmult_le_compat_r; [left; apply Rinv_0_lt_compat; lra|]. apply Rinv_le_contravar; lra.
Qed.
Lemma near_scale g x v : 0 <= g <= 2 ^ 620 -> near x v -> appr 1 T (g * x) (g * v).
Proof.
  unfold near, appr, T. intros G H. replace (g * v - g * x) with (g * (v - x)) by ring. rewrite !Rabs_mult, (Rabs_right g) by lra. pose proof tiny_pos as TP. apply Rle_trans with (g * (u * Rabs x + tiny)); [apply Rmult_le_compat_l; lra|]. assert (g * tiny <= 2 ^ 620 * tiny) by (apply Rmult_le_compat_r; lra). lra.
Qed.
Lemma appr_scale g c k x v : 0 <= g -> appr c k x v -> appr c (g * k) (g * x) (g * v).
Proof. unfold appr. intros G H. replace (g * v - g * x) with (g * (v - x)) by ring. rewrite !Rabs_mult, (Rabs_right g) by lra. apply (Rmult_le_compat_l g) in H; lra. Qed.
Lemma power_ok r j : 0 < r <= 8 -> (j <= 206)%nat -> 0 <= r ^ j <= 2 ^ 620.
Proof.
  intros H J. split; [apply pow_le; lra|]. apply Rle_trans with (8 ^ j); [apply pow_incr; lra|]. replace 8 with (2 ^ 3) by lra. rewrite <- pow_mult. apply Rle_pow; [lra|lia].
Qed.
Lemma ncolumn_scale g k zt rrt m N p : 0 <= g <= 2 -> 0 <= k -> ncolumn k zt rrt m N p -> ncolumn (2 * k) zt rrt m N (fun n => g * p n).
Proof.
  intros G K (H1 & H2). assert (KK : g * k <= 2 * k) by (apply Rmult_le_compat_r; lra). assert (L : forall x v, appr 1 k x v -> appr 1 (2 * k) x v) by (intros; eapply appr_le; [eassumption|lra|lra]).
  assert (SC : forall x v y, appr 1 k x v -> g * x = y -> appr 1 (2 * k) y (g * v)) by (intros x v y A <-; eapply appr_le; [apply appr_scale; [apply G|exact A]|lra|lra]). split.
  - intros h. destruct (H1 h) as (a & x & A1 & A2 & A3). exists a, x. split; [exact A1|]. split; [apply L, A2|]. eapply SC; [exact A3|ring].
  - intros n h h'. destruct (H2 n h h') as (a & x & y & b & w & v & A1 & A2 & A3 & A4 & A5 & A6 & A7). exists a, x, (g * y), b, w, (g * v). split; [exact A1|]. split; [apply L, A2|]. split; [eapply SC; [exact A3|ring]|]. split; [exact A4|]. split; [apply L, A5|]. split; [eapply SC; [exact A6|ring]|]. eapply SC; [exact A7|ring].
Qed.

Section Assemble.
  Variables (r : R) (N : nat).
  Hypothesis Hr : 0 < r <= 8.
  Hypothesis HN : (N <= 200)%nat.
  Lemma scaled j x v y w : (j <= 206)%nat -> near x v -> r ^ j * x = y -> r ^ j * v = w -> appr 1 T y w.
  Proof. intros J H <- <-. apply near_scale; [apply power_ok; assumption|exact H]. Qed.
  Lemma ccolumn_normal z rr m p : ccolumn_run z rr m N p -> ncolumn T (r * z) (r ^ 2 * rr) m N (fun n => r ^ (n + 1) * p n).
  Proof.
    intros (H1 & H2). split.
    - intros h. destruct (H1 h) as (a & x & A1 & A2 & A3). exists a, (r * x). split; [|split].
      + destruct (Nat.eqb_spec m 0) as [->|D]; [rewrite beta_01; eapply appr_le; [apply sqrt3_ok, A1|lra|lra]|apply f1_ok; [lia|lia|exact A1]].
      + apply (scaled 1 (a * z) x); [lia|exact A2|ring|ring].
      + apply (scaled (m + 2) (x * p m) (p (S m))); [lia|exact A3| |]; [replace (m + 2)%nat with (S (m + 1)) by lia|replace (S m + 1)%nat with (m + 2)%nat by lia]; cbn [pow]; ring.
    - intros n h h'. destruct (H2 n h h') as (a & x & y & b & w & v & A1 & A2 & A3 & A4 & A5 & A6 & A7). exists a, (r * x), (r ^ (n + 3) * y), (- b), (- (r ^ 2 * w)), (- (r ^ (n + 3) * v)). split; [|split; [|split; [|split; [|split; [|split]]]]].
      + apply f1_ok; [lia|lia|exact A1].
      + apply (scaled 1 (a * z) x); [lia|exact A2|ring|ring].
      + apply (scaled (n + 3) (x * p (S n)) y); [lia|exact A3| |reflexivity]. replace (n + 3)%nat with (S (S n + 1)) by lia. cbn [pow]. ring.
      + apply f2_ok; [lia|lia|exact A4].
      + replace (- b * (r ^ 2 * rr)) with (- (r ^ 2 * (b * rr))) by ring. apply appr_opp. apply (scaled 2 (b * rr) w); [lia|exact A5|reflexivity|reflexivity].
      + replace (- (r ^ 2 * w) * (r ^ (n + 1) * p n)) with (- (r ^ (n + 3) * (w * p n))) by (replace (n + 3)%nat with (S (S (n + 1))) by lia; cbn [pow]; ring). apply appr_opp. apply (scaled (n + 3) (w * p n) v); [lia|exact A6|reflexivity|reflexivity].
      + apply (scaled (n + 3) (y + v) (p (S (S n)))); [lia|exact A7|ring|]. replace (S (S n) + 1)%nat with (n + 3)%nat by lia. reflexivity.
  Qed.
  Lemma cdiagonal_normal x y L M W : (L <= 200)%nat -> cdiagonal_run x y L M W -> ndiagonal T (r * x) (r * y) L (fun n => r ^ (n + 1) * M n) (fun n => r ^ (n + 1) * W n).
  Proof.
    intros HL H m Hm. destruct (H m Hm) as (f & a & b & c & d & s & t & F & A1 & A2 & A3 & A4 & B1 & B2 & B3 & B4). exists f, (r ^ (m + 2) * a), (r ^ (m + 2) * b), (r ^ (m + 2) * c), (r ^ (m + 2) * d), (r ^ (m + 2) * s), (r ^ (m + 2) * t).
    replace (S m + 1)%nat with (m + 2)%nat by lia. assert (E : r ^ (m + 2) = r * r ^ (m + 1)) by (replace (m + 2)%nat with (S (m + 1)) by lia; reflexivity).
    assert (SC : forall x v y, near x v -> r ^ (m + 2) * x = y -> appr 1 T y (r ^ (m + 2) * v)) by (intros x' v y' A B; apply (scaled (m + 2) x' v); [lia|exact A|exact B|reflexivity]).
    repeat split; [apply f0_ok, F|eapply SC; [exact A1|rewrite E; ring]|eapply SC; [exact A2|rewrite E; ring]|eapply SC; [exact A3|ring]|eapply SC; [exact A4|ring]|eapply SC; [exact B1|rewrite E; ring]|eapply SC; [exact B2|rewrite E; ring]|eapply SC; [exact B3|ring]|eapply SC; [exact B4|ring]].
  Qed.
End Assemble.

(** ** the functions *)
Section Basis.
  Variables (rx ry rz Re : R) (degree order : nat) (M W : nat -> nat -> R).
  Let X := rx / Re. Let Y := ry / Re. Let Z := rz / Re. Let r := rad X Y Z.
  Hypothesis Hr : / 2 <= r <= 8.
  Hypothesis Hd : (degree <= 198)%nat.
  Hypothesis Ho : (order <= degree)%nat.
  Hypothesis run : basis_run rx ry rz Re degree order M W.

  Lemma normal_error : exists th l, X = r * cos th * cos l /\ Y = r * cos th * sin l /\ Z = r * sin th /\
    forall n m, (m <= n <= degree + 2)%nat -> (m <= order + 1 \/ m = n /\ m = order + 2)%nat ->
      Rabs (r ^ (n + 1) * M n m - Pbar n m th * cos (INR m * l)) <= 210 * INR (n + 1) ^ 2 * sqrt (INR (2 * n + 1)) * u /\
      Rabs (r ^ (n + 1) * W n m - Pbar n m th * sin (INR m * l)) <= 210 * INR (n + 1) ^ 2 * sqrt (INR (2 * n + 1)) * u.
  Proof.
    pose proof u_small as U. pose proof T_0 as T0. pose proof T_small as TS. pose proof tiny_pos as TP. destruct (spherical_exists X Y Z) as (th & l & EX & EY & EZ). fold r in EX, EY, EZ. exists th, l. split; [exact EX|]. split; [exact EY|]. split; [exact EZ|].
    destruct run as (rr & x & y & z & Pos & W0 & C0 & Di & Co). assert (Hr16 : / 2 <= rad (rx / Re) (ry / Re) (rz / Re) <= 16) by (fold X Y Z r; lra). pose proof (position_ok rx ry rz Re rr x y z (M 0%nat 0%nat) Hr16 Pos) as PO. cbv zeta in PO. fold X Y Z in PO. fold r in PO. destruct PO as (P1 & P2 & P3 & P4 & P5).
    assert (r1 : 0 < r <= 8) by lra. assert (rtT : r * (6 * tiny) <= T). { unfold T. assert (2 ^ 6 <= 2 ^ 620) by (apply Rle_pow; [lra|lia]). assert (r * tiny <= 8 * tiny) by (apply Rmult_le_compat_r; lra). assert (tiny * 2 ^ 6 <= tiny * 2 ^ 620) by (apply Rmult_le_compat_l; lra). lra. }
    assert (CO : forall c v w, appr 13.4 (6 * tiny) (v * (/ r * / r)) w -> v = r * c -> appr 13.4 T c (r * w)). { intros c v w A ->. apply (appr_scale r) in A; [|lra]. replace (r * (r * c * (/ r * / r))) with c in A by (field; lra). eapply appr_le; [exact A|lra|exact rtT]. }
    pose proof (CO (cos th * cos l) X x P3 ltac:(rewrite EX at 1; ring)) as Ax. pose proof (CO (cos th * sin l) Y y P4 ltac:(rewrite EY at 1; ring)) as Ay. pose proof (CO (sin th) Z z P5 EZ) as Az.
    assert (Arr : appr 11.3 0 1 (r ^ 2 * rr)). { apply (appr_scale (r ^ 2)) in P2; [|nra]. replace (r ^ 2 * (/ r * / r)) with 1 in P2 by (field; lra). rewrite Rmult_0_r in P2. exact P2. }
    assert (A0 : appr 4.6 0 1 (r ^ (0 + 1) * M 0%nat 0%nat)). { apply (appr_scale r) in P1; [|lra]. rewrite Rinv_r, Rmult_0_r in P1 by lra. cbn [Nat.add]. rewrite pow_1. exact P1. }
    assert (kG : T * growth2 * 1000000000000000000000000 <= u) by lra. assert (kG2 : 2 * T * growth2 * 1000000000000000000000000 <= u) by lra. pose proof (ksmall T T0 kG) as ks.
    pose proof (cdiagonal_normal r 200 r1 (le_n 200) x y (order + 2) _ _ ltac:(lia) Di) as ND. cbv beta in ND. pose proof (ndiagonal_error T T0 ks th l (r * x) (r * y) (order + 2) (fun n => r ^ (n + 1) * M n n) (fun n => r ^ (n + 1) * W n n) ltac:(lia) Ax Ay A0 ltac:(cbv beta; rewrite W0; ring) ND) as DE. cbv beta in DE.
    intros n m Hn Hm. set (YY := sqrt (INR (2 * n + 1))). assert (Y1 : 1 <= YY) by (unfold YY; rewrite <- sqrt_1; apply sqrt_le_1_alt; apply (le_INR 1); lia). assert (n1 : 1 <= INR (n + 1)) by (apply (le_INR 1); lia). assert (nn : 0 <= INR n) by apply pos_INR. assert (EN : INR (n + 1) = INR n + 1) by (rewrite plus_INR; reflexivity).
    destruct (Nat.eq_dec m 0) as [->|m0].
    - rewrite W0. cbn [INR]. rewrite Rmult_0_l, cos_0, sin_0, !Rmult_0_r, Rmult_1_r. replace (0 - 0) with 0 by ring. rewrite Rabs_R0. split; [|repeat apply Rmult_le_pos; try lra; apply pow_le; lra].
      set (p0 := r ^ (0 + 1) * M 0%nat 0%nat) in *. assert (p0B : Rabs (p0 - 1) <= 4.6 * u) by (unfold appr in A0; rewrite Rabs_R1 in A0; lra). assert (p01 : 0.99 <= p0 <= 1.01) by (unfold Rabs in p0B; destruct (Rcase_abs (p0 - 1)); lra).
      assert (ip : 0 <= / p0 <= 2). { split; [left; apply Rinv_0_lt_compat; lra|]. rewrite <- (Rinv_inv 2). apply Rinv_le_contravar; lra. }
      pose proof (ccolumn_normal r (degree + 2) r1 ltac:(lia) z rr 0 _ C0) as NC. apply (ncolumn_scale (/ p0)) in NC; [|exact ip|exact T0].
      assert (Az2 : appr 13.4 (2 * T) (sin th) (r * z)) by (eapply appr_le; [exact Az|lra|lra]).
      cbv beta in NC. pose proof (ncolumn_zonal (2 * T) th (r * z) (r ^ 2 * rr) ltac:(lra) kG2 Az2 Arr (degree + 2) (fun n => / p0 * (r ^ (n + 1) * M n 0%nat)) ltac:(lia) NC ltac:(cbv beta; fold p0; field; lra) n ltac:(lia)) as ZE. cbv beta in ZE. fold YY in ZE.
      pose proof (Pbar_bound n 0 th ltac:(lia)) as PB. fold YY in PB. set (Mn := r ^ (n + 1) * M n 0%nat) in *. set (P := Pbar n 0 th) in *. replace (Mn - P) with (p0 * (/ p0 * Mn - P) + (p0 - 1) * P) by (field; lra). eapply Rle_trans; [apply Rabs_triang|]. rewrite !Rabs_mult. rewrite (Rabs_right p0) by lra.
      assert (B1 : p0 * Rabs (/ p0 * Mn - P) <= 1.01 * (204 * INR n ^ 2 * YY * u)) by (apply Rmult_le_compat; try lra; apply Rabs_pos). assert (B2 : Rabs (p0 - 1) * Rabs P <= 4.6 * u * YY) by (apply Rmult_le_compat; try lra; apply Rabs_pos).
      assert (uY : 0 <= YY * u) by (apply Rmult_le_pos; lra). rewrite EN. apply Rle_trans with ((206.04 * INR n ^ 2 + 4.6) * (YY * u)); [lra|]. apply Rle_trans with (210 * (INR n + 1) ^ 2 * (YY * u)); [apply Rmult_le_compat_r; [lra|]; nra|lra].
    - assert (m1 : 1 <= INR m) by (apply (le_INR 1); lia). specialize (DE m ltac:(lia)). set (Pm := Pbar m m th) in *. pose proof (Rabs_pos Pm) as Pm0.
      assert (mB : INR m <= 200) by (replace 200 with (INR 200) by (rewrite INR_IZR_INZ; reflexivity); apply le_INR; lia).
      assert (ST : (27 * INR m + 4.6) * u * Rabs Pm + 2000 * INR m * T <= 32 * INR m * u * Rabs Pm + 1000000 * T). { assert (uP : 0 <= u * Rabs Pm) by (apply Rmult_le_pos; lra). assert ((27 * INR m + 4.6) * (u * Rabs Pm) <= 32 * INR m * (u * Rabs Pm)) by (apply Rmult_le_compat_r; lra). assert (INR m * T <= 200 * T) by (apply Rmult_le_compat_r; lra). lra. }
      assert (S1 := Rle_trans _ _ _ (len_fst _ _) (Rle_trans _ _ _ DE ST)). assert (S2 := Rle_trans _ _ _ (len_snd _ _) (Rle_trans _ _ _ DE ST)).
      assert (uY : 0 <= YY * u) by (apply Rmult_le_pos; lra).
      assert (FIN : forall w K, Rabs w <= K * INR n ^ 2 * YY * u -> 0 <= K <= 210 -> Rabs w <= 210 * INR (n + 1) ^ 2 * YY * u).
      { intros w K H HK. eapply Rle_trans; [exact H|]. rewrite EN. replace (K * INR n ^ 2 * YY * u) with (K * INR n ^ 2 * (YY * u)) by ring. replace (210 * (INR n + 1) ^ 2 * YY * u) with (210 * (INR n + 1) ^ 2 * (YY * u)) by ring. apply Rmult_le_compat_r; [lra|]. apply Rmult_le_compat; [lra|apply pow_le; lra|lra|apply pow_incr; lra]. }
      destruct (Nat.eq_dec m n) as [<-|mn].
      + pose proof (Pbar_bound m m th ltac:(lia)) as PB. fold YY Pm in PB. assert (m2 : INR m <= INR m ^ 2) by (cbn [pow]; nra).
        assert (E : 32 * INR m * u * Rabs Pm + 1000000 * T <= 33 * INR m ^ 2 * YY * u).
        { assert (u * Rabs Pm <= u * YY) by (apply Rmult_le_compat_l; lra). assert (INR m * (u * Rabs Pm) <= INR m ^ 2 * (u * YY)) by (apply Rmult_le_compat; try lra; apply Rmult_le_pos; lra). assert (1 * (YY * u) <= INR m ^ 2 * (YY * u)) by (apply Rmult_le_compat_r; lra). assert (1 * u <= YY * u) by (apply Rmult_le_compat_r; lra). lra. }
        split; (apply FIN with 33; [eapply Rle_trans; [eassumption|exact E]|lra]).
      + destruct (Co m ltac:(lia)) as (CM & CW). pose proof (ccolumn_normal r (degree + 2) r1 ltac:(lia) z rr m _ CM) as NM. pose proof (ccolumn_normal r (degree + 2) r1 ltac:(lia) z rr m _ CW) as NW.
        assert (c1 : Rabs (cos (INR m * l)) <= 1) by (apply Rabs_le; apply COS_bound). assert (s1 : Rabs (sin (INR m * l)) <= 1) by (apply Rabs_le; apply SIN_bound).
        pose proof (ncolumn_order T th (r * z) (r ^ 2 * rr) T0 kG Az Arr (cos (INR m * l)) m (degree + 2) (fun n => r ^ (n + 1) * M n m) c1 ltac:(lia) ltac:(lia) NM S1 n ltac:(lia)) as R1. pose proof (ncolumn_order T th (r * z) (r ^ 2 * rr) T0 kG Az Arr (sin (INR m * l)) m (degree + 2) (fun n => r ^ (n + 1) * W n m) s1 ltac:(lia) ltac:(lia) NW S2 n ltac:(lia)) as R2.
        split; (apply FIN with 176; [eassumption|lra]).
  Qed.
  Theorem basis_error n m : (m <= n <= degree + 2)%nat -> (m <= order + 1 \/ m = n /\ m = order + 2)%nat ->
    Rabs (M n m - Vn n m X Y Z) <= 210 * INR (n + 1) ^ 2 * sqrt (INR (2 * n + 1)) * u / r ^ (n + 1) /\
    Rabs (W n m - Wn n m X Y Z) <= 210 * INR (n + 1) ^ 2 * sqrt (INR (2 * n + 1)) * u / r ^ (n + 1).
  Proof.
    intros Hn Hm. destruct normal_error as (th & l & EX & EY & EZ & H). destruct (H n m Hn Hm) as (A & B). pose proof (spherical n m r th l ltac:(lra)) as (SV & SW). rewrite <- EX, <- EY, <- EZ in SV, SW. rewrite SV, SW. pose proof (pow_lt r (n + 1) ltac:(lra)) as RP. set (g := r ^ (n + 1)) in *.
    assert (G : forall v w E, Rabs (g * v - w) <= E -> Rabs (v - w / g) <= E / g). { intros v w E K. replace (v - w / g) with ((g * v - w) * / g) by (field; lra). rewrite Rabs_mult, (Rabs_right (/ g)) by (apply Rle_ge; left; apply Rinv_0_lt_compat; lra). apply Rmult_le_compat_r; [left; apply Rinv_0_lt_compat; lra|exact K]. }
    split; apply G; assumption.
  Qed.
End Basis.
