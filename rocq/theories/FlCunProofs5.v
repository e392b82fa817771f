From Coq Require Import Reals ZArith List Lia Lra Psatz.
From Verif Require Import FlModel FlProofs Poly AlfSpec AlfMath AlfSum FlAlfModel FlAlfProofs FlCunModel FlCunProofs FlCunProofs3.
Open Scope R_scope.

(** ** pairs *)
Definition len (x y : R) : R := sqrt (x * x + y * y).
Lemma len_pos x y : 0 <= len x y. Proof. apply sqrt_pos. Qed.
Lemma len_sq x y : len x y * len x y = x * x + y * y.
Proof. unfold len. apply sqrt_sqrt. nra. Qed.
Lemma len_le x y B : 0 <= B -> x * x + y * y <= B * B -> len x y <= B.
Proof. intros H L. unfold len. rewrite <- (sqrt_square B H). apply sqrt_le_1_alt. exact L. Qed.
Lemma len_cauchy a b c d : a * c + b * d <= len a b * len c d.
Proof. pose proof (sqrt_cauchy a b c d) as H. unfold Rsqr in H. exact H. Qed.
Lemma len_triangle a b c d : len (a + c) (b + d) <= len a b + len c d.
Proof.
  pose proof (len_pos a b). pose proof (len_pos c d). apply len_le; [lra|]. pose proof (len_cauchy a b c d). pose proof (len_sq a b). pose proof (len_sq c d).
  replace ((len a b + len c d) * (len a b + len c d)) with (len a b * len a b + len c d * len c d + 2 * (len a b * len c d)) by ring. nra.
Qed.
Lemma len_abs x y : len (Rabs x) (Rabs y) = len x y.
Proof. unfold len. rewrite <- !Rabs_mult. rewrite !Rabs_right by (apply Rle_ge; nra). reflexivity. Qed.
Lemma len_swap x y : len x y = len y x. Proof. unfold len. f_equal. ring. Qed.
Lemma abs_cauchy a b c d : Rabs a * Rabs c + Rabs b * Rabs d <= len a b * len c d.
Proof. rewrite <- (len_abs a b), <- (len_abs c d). apply len_cauchy. Qed.
Lemma len_fst x y : Rabs x <= len x y.
Proof. rewrite <- (Rabs_right (len x y)) by (apply Rle_ge, len_pos). apply Rsqr_le_abs_0. unfold Rsqr. rewrite len_sq. nra. Qed.
Lemma len_snd x y : Rabs y <= len x y. Proof. rewrite len_swap. apply len_fst. Qed.
Lemma len_both x y B : 0 <= B -> Rabs x <= B -> Rabs y <= B -> len x y <= 1.4143 * B.
Proof.
  intros H X Y. rewrite <- len_abs. apply len_le; [lra|]. pose proof (Rabs_pos x). pose proof (Rabs_pos y). assert (Rabs x * Rabs x <= B * B) by (apply Rmult_le_compat; lra). assert (Rabs y * Rabs y <= B * B) by (apply Rmult_le_compat; lra). nra.
Qed.
(** turning and stretching *)
Lemma len_turn F X Y a b : 0 <= F -> len (F * (X * a - Y * b)) (F * (Y * a + X * b)) = F * len X Y * len a b.
Proof.
  intros H. pose proof (len_pos X Y). pose proof (len_pos a b). unfold len at 1. replace (_ + _) with ((F * len X Y * len a b) * (F * len X Y * len a b)).
  - apply sqrt_square. apply Rmult_le_pos; [apply Rmult_le_pos|]; assumption.
  - replace (F * len X Y * len a b * (F * len X Y * len a b)) with (F * F * (len X Y * len X Y) * (len a b * len a b)) by ring. rewrite !len_sq. ring.
Qed.
Lemma len_polar P x : len (P * cos x) (P * sin x) = Rabs P.
Proof.
  unfold len. replace (P * cos x * (P * cos x) + P * sin x * (P * sin x)) with (P * P) by (pose proof (sin2_cos2 x) as S; unfold Rsqr in S; transitivity (P * P * (sin x * sin x + cos x * cos x)); [rewrite S; ring|ring]).
  fold (Rsqr P). apply sqrt_Rsqr_abs.
Qed.

(** ** diagonals of values divided by the power of the distance *)
Definition ndiagonal (k xt yt : R) (L : nat) (a b : nat -> R) : Prop := forall m, (m < L)%nat ->
  exists f p1 p2 q1 q2 s t, appr 2.03 0 (dfac m) f /\ appr 1 k (xt * a m) p1 /\ appr 1 k (yt * b m) p2 /\ appr 1 k (p1 - p2) s /\ appr 1 k (f * s) (a (S m)) /\
    appr 1 k (yt * a m) q1 /\ appr 1 k (xt * b m) q2 /\ appr 1 k (q1 + q2) t /\ appr 1 k (f * t) (b (S m)).
Section Diagonal.
  Variable k : R.
  Hypothesis k0 : 0 <= k.
  Hypothesis ksmall : k * 1000000000000 <= u.
  Lemma component F X Y a b f xt yt p1 p2 s v : 1 <= F <= 1.8 -> Rabs a <= 100 -> Rabs b <= 100 -> appr 2.03 0 F f -> appr 13.4 k X xt -> appr 13.4 k Y yt ->
    appr 1 k (xt * a) p1 -> appr 1 k (yt * b) p2 -> appr 1 k (p1 + p2) s -> appr 1 k (f * s) v ->
    Rabs (v - F * (X * a + Y * b)) <= 18.6 * u * (F * (Rabs X * Rabs a + Rabs Y * Rabs b)) + 1000 * k.
  Proof.
    intros HF Ha Hb Ef Ex Ey H1 H2 H3 H4. pose proof u_small as U. pose proof (kU k k0) as KU.
    assert (G : forall X xt a p, Rabs a <= 100 -> appr 13.4 k X xt -> appr 1 k (xt * a) p -> Rabs (p - X * a) <= 14.41 * u * (Rabs X * Rabs a) + 102 * k).
    { clear - U KU k0. intros X xt a p A E H. pose proof (appr_mul_exact _ _ _ _ a E) as M. assert (k * Rabs a <= k * 100) by (apply Rmult_le_compat_l; lra). apply (appr_le _ _ 13.4 (100 * k)) in M; [|lra|lra]. pose proof (appr_step _ _ _ _ _ _ M H) as N. apply (appr_le _ _ 14.41 (102 * k)) in N; [|lra|lra]. unfold appr in N. rewrite Rabs_mult in N. exact N. }
    pose proof (G X xt a p1 Ha Ex H1) as E1. pose proof (G Y yt b p2 Hb Ey H2) as E2. set (S0 := Rabs X * Rabs a + Rabs Y * Rabs b) in *.
    assert (S1 : 0 <= S0) by (unfold S0; apply Rplus_le_le_0_compat; apply Rmult_le_pos; apply Rabs_pos). set (Q := X * a + Y * b) in *. assert (QS : Rabs Q <= S0) by (unfold Q, S0; eapply Rle_trans; [apply Rabs_triang|]; rewrite !Rabs_mult; lra).
    assert (D : Rabs (p1 + p2 - Q) <= 14.41 * u * S0 + 204 * k). { unfold Q. replace (p1 + p2 - (X * a + Y * b)) with ((p1 - X * a) + (p2 - Y * b)) by ring. eapply Rle_trans; [apply Rabs_triang|]. unfold S0. lra. }
    assert (US : 0 <= u * S0) by (apply Rmult_le_pos; lra). assert (UUS : u * (u * S0) <= / 1000000000000000 * (u * S0)) by (apply Rmult_le_compat_r; lra).
    assert (R : forall x w c l, Rabs (x - w) <= c * u * S0 + l -> Rabs w <= 2 * S0 -> Rabs x <= 2 * S0 + c * u * S0 + l). { intros x w c l A B. replace x with ((x - w) + w) by ring. eapply Rle_trans; [apply Rabs_triang|]. lra. }
    assert (D2 : Rabs (s - Q) <= 15.43 * u * S0 + 206 * k).
    { unfold appr in H3. replace (s - Q) with ((s - (p1 + p2)) + (p1 + p2 - Q)) by ring. eapply Rle_trans; [apply Rabs_triang|]. assert (A : Rabs (p1 + p2) <= S0 + (14.41 * u * S0 + 204 * k)) by (replace (p1 + p2) with ((p1 + p2 - Q) + Q) by ring; eapply Rle_trans; [apply Rabs_triang|]; lra).
      apply (Rmult_le_compat_l u) in A; [|lra]. lra. }
    assert (F0 : Rabs f <= 1.0001 * F). { pose proof (near_pos 2.03 F f ltac:(lra) Ef ltac:(lra)) as P. unfold appr in Ef. rewrite (Rabs_right F) in Ef by lra. rewrite (Rabs_right f) by lra. assert (u * F <= / 1000000000000000 * F) by (apply Rmult_le_compat_r; lra). unfold Rabs in Ef. destruct (Rcase_abs (f - F)); lra. }
    assert (F1 : Rabs (f - F) <= 2.03 * u * F) by (unfold appr in Ef; rewrite (Rabs_right F) in Ef by lra; lra).
    assert (D3 : Rabs (f * s - F * Q) <= 17.47 * u * (F * S0) + 375 * k).
    { replace (f * s - F * Q) with (f * (s - Q) + (f - F) * Q) by ring. eapply Rle_trans; [apply Rabs_triang|]. rewrite !Rabs_mult.
      assert (A : Rabs f * Rabs (s - Q) <= 1.0001 * F * (15.43 * u * S0 + 206 * k)) by (apply Rmult_le_compat; try apply Rabs_pos; lra). assert (B : Rabs (f - F) * Rabs Q <= 2.03 * u * F * S0) by (apply Rmult_le_compat; try apply Rabs_pos; lra).
      assert (FUS : 0 <= F * (u * S0)) by (apply Rmult_le_pos; lra). assert (F * k <= 1.8 * k) by (apply Rmult_le_compat_r; lra). lra. }
    unfold appr in H4. replace (v - F * Q) with ((v - f * s) + (f * s - F * Q)) by ring. eapply Rle_trans; [apply Rabs_triang|].
    assert (FS : Rabs (F * Q) <= F * S0) by (rewrite Rabs_mult, (Rabs_right F) by lra; apply Rmult_le_compat_l; lra).
    assert (A : Rabs (f * s) <= F * S0 + (17.47 * u * (F * S0) + 375 * k)) by (replace (f * s) with ((f * s - F * Q) + F * Q) by ring; eapply Rle_trans; [apply Rabs_triang|]; lra).
    apply (Rmult_le_compat_l u) in A; [|lra]. assert (FS0 : 0 <= u * (F * S0)) by (apply Rmult_le_pos; [lra|apply Rmult_le_pos; lra]). assert (u * (u * (F * S0)) <= / 1000000000000000 * (u * (F * S0))) by (apply Rmult_le_compat_r; lra). lra.
  Qed.
  Lemma appr_opp c l x v : appr c l x v -> appr c l (- x) (- v).
  Proof. unfold appr. intros H. replace (- v - - x) with (- (v - x)) by ring. rewrite !Rabs_Ropp. exact H. Qed.

  Theorem ndiagonal_error th l xt yt L a b : (L <= 200)%nat -> appr 13.4 k (cos th * cos l) xt -> appr 13.4 k (cos th * sin l) yt -> appr 4.6 0 1 (a O) -> b O = 0 -> ndiagonal k xt yt L a b ->
    forall m, (m <= L)%nat -> len (a m - Pbar m m th * cos (INR m * l)) (b m - Pbar m m th * sin (INR m * l)) <= (27 * INR m + 4.6) * u * Rabs (Pbar m m th) + 2000 * INR m * k.
  Proof.
    intros HL Hx Hy A0 B0 D. pose proof u_small as U. pose proof (kU k k0) as KU. induction m as [|m IH]; intros Hm.
    - rewrite Pbar_00, B0. cbn [INR]. rewrite Rmult_0_l, cos_0, sin_0. replace (0 - 1 * 0) with 0 by ring. apply len_le.
      + rewrite Rabs_R1. lra.
      + unfold appr in A0. rewrite Rabs_R1 in *. set (d := a 0%nat - 1 * 1). assert (Rabs d <= 4.6 * u) by (unfold d; replace (a 0%nat - 1 * 1) with (a 0%nat - 1) by ring; lra). assert (Rabs d * Rabs d <= 4.6 * u * (4.6 * u)) by (apply Rmult_le_compat; try apply Rabs_pos; assumption). rewrite <- Rabs_mult, Rabs_right in * by (apply Rle_ge; nra). lra.
    - specialize (IH ltac:(lia)). destruct (D m ltac:(lia)) as (f & p1 & p2 & q1 & q2 & s & t & Ef & H1 & H2 & H3 & H4 & G1 & G2 & G3 & G4).
      pose proof (dfac_bounds m) as (FB & FB2). set (F := dfac m) in *. set (P := Pbar m m th) in *. set (A := P * cos (INR m * l)) in *. set (B := P * sin (INR m * l)) in *. set (X := cos th * cos l) in *. set (Y := cos th * sin l) in *.
      assert (I2 : 0 <= INR m <= 200) by (split; [apply pos_INR|]; replace 200 with (INR 200) by (rewrite INR_IZR_INZ; reflexivity); apply le_INR; lia).
      assert (PB : Rabs P <= 46) by (eapply Rle_trans; [apply Pbar_bound; lia|]; apply Y_le; lia). pose proof (Rabs_pos P) as P0.
      assert (C1 : len X Y = Rabs (cos th)) by (unfold X, Y; apply len_polar). assert (C2 : Rabs (cos th) <= 1) by (apply Rabs_le; apply COS_bound). pose proof (Rabs_pos (cos th)) as C0.
      assert (NP : P * P >= 0) by nra. assert (AB : len A B = Rabs P) by (unfold A, B; apply len_polar).
      set (E := len (a m - A) (b m - B)) in *. assert (E0 : 0 <= E) by apply len_pos.
      assert (cmu : 0 <= (27 * INR m + 4.6) * u <= 0.00001). { split; [apply Rmult_le_pos; lra|]. apply Rle_trans with (5404.6 * / 1000000000000000); [apply Rmult_le_compat; lra|lra]. }
      assert (E1 : E <= 1). { eapply Rle_trans; [exact IH|]. assert ((27 * INR m + 4.6) * u * Rabs P <= 0.00001 * 46) by (apply Rmult_le_compat; lra). assert (INR m * k <= 200 * k) by (apply Rmult_le_compat_r; lra). lra. }
      assert (zl : len (a m) (b m) <= Rabs P + E). { replace (a m) with (A + (a m - A)) by ring. replace (b m) with (B + (b m - B)) by ring. eapply Rle_trans; [apply len_triangle|]. rewrite AB. right. unfold E. reflexivity. }
      assert (Ha : Rabs (a m) <= 100) by (eapply Rle_trans; [apply (len_fst (a m) (b m))|]; lra). assert (Hb : Rabs (b m) <= 100) by (eapply Rle_trans; [apply (len_snd (a m) (b m))|]; lra).
      assert (L1 : Rabs (a (S m) - F * (X * a m - Y * b m)) <= 18.6 * u * (F * (Rabs (cos th) * len (a m) (b m))) + 1000 * k).
      { assert (K1 := component F X (- Y) (a m) (b m) f xt (- yt) p1 (- p2) s (a (S m)) FB Ha Hb Ef Hx (appr_opp _ _ _ _ Hy) H1). specialize (K1 ltac:(replace (- yt * b m) with (- (yt * b m)) by ring; apply appr_opp; exact H2) H3 H4). replace (X * a m + - Y * b m) with (X * a m - Y * b m) in K1 by ring. rewrite Rabs_Ropp in K1.
        eapply Rle_trans; [exact K1|]. apply Rplus_le_compat_r. apply Rmult_le_compat_l; [lra|]. apply Rmult_le_compat_l; [lra|]. rewrite <- C1. apply abs_cauchy. }
      assert (L2 : Rabs (b (S m) - F * (Y * a m + X * b m)) <= 18.6 * u * (F * (Rabs (cos th) * len (a m) (b m))) + 1000 * k).
      { pose proof (component F Y X (a m) (b m) f yt xt q1 q2 t (b (S m)) FB Ha Hb Ef Hy Hx G1 G2 G3 G4) as K1. eapply Rle_trans; [exact K1|]. apply Rplus_le_compat_r. apply Rmult_le_compat_l; [lra|]. apply Rmult_le_compat_l; [lra|]. rewrite <- C1, (len_swap X Y). apply abs_cauchy. }
      set (la := 18.6 * u * (F * (Rabs (cos th) * len (a m) (b m))) + 1000 * k) in *.
      set (FC := F * Rabs (cos th)). assert (FC0 : 0 <= FC <= 1.8) by (unfold FC; split; [apply Rmult_le_pos; lra|]; apply Rle_trans with (1.8 * 1); [apply Rmult_le_compat; lra|lra]).
      assert (P1 : Rabs (Pbar (S m) (S m) th) = FC * Rabs P). { rewrite Pbar_dfac. fold F. fold P. rewrite !Rabs_mult, (Rabs_right F) by lra. unfold FC. ring. }
      assert (A1 : Pbar (S m) (S m) th * cos (INR (S m) * l) = F * (X * A - Y * B)). { rewrite Pbar_dfac. fold F. fold P. rewrite S_INR. replace ((INR m + 1) * l) with (INR m * l + l) by ring. rewrite cos_plus. unfold X, Y, A, B. ring. }
      assert (B1 : Pbar (S m) (S m) th * sin (INR (S m) * l) = F * (Y * A + X * B)). { rewrite Pbar_dfac. fold F. fold P. rewrite S_INR. replace ((INR m + 1) * l) with (INR m * l + l) by ring. rewrite sin_plus. unfold X, Y, A, B. ring. }
      rewrite A1, B1, P1.
      replace (a (S m) - F * (X * A - Y * B)) with ((a (S m) - F * (X * a m - Y * b m)) + F * (X * (a m - A) - Y * (b m - B))) by ring.
      replace (b (S m) - F * (Y * A + X * B)) with ((b (S m) - F * (Y * a m + X * b m)) + F * (Y * (a m - A) + X * (b m - B))) by ring.
      eapply Rle_trans; [apply len_triangle|]. rewrite len_turn by lra. rewrite C1. fold E. fold FC.
      assert (la0 : 0 <= la) by (eapply Rle_trans; [apply Rabs_pos|exact L1]). pose proof (len_both _ _ la la0 L1 L2) as LB.
      assert (laB : la <= 18.6 * u * (FC * (Rabs P + E)) + 1000 * k).
      { unfold la. apply Rplus_le_compat_r. apply Rmult_le_compat_l; [lra|]. unfold FC. rewrite (Rmult_assoc F). apply Rmult_le_compat_l; [lra|]. apply Rmult_le_compat_l; lra. }
      assert (FE : FC * E <= FC * ((27 * INR m + 4.6) * u * Rabs P) + FC * (2000 * INR m * k)) by (rewrite <- Rmult_plus_distr_l; apply Rmult_le_compat_l; lra).
      assert (Fk : FC * (2000 * INR m * k) <= 2000 * INR m * k + 500 * k).
      { destruct m as [|m']; [cbn [INR]; lra|]. specialize (FB2 ltac:(lia)). assert (FC <= 1 + / (4 * INR (S (S m')))) by (unfold FC; apply Rle_trans with (F * 1); [apply Rmult_le_compat_l; lra|lra]). set (i := INR (S m')) in *. rewrite (S_INR (S m')) in *. fold i in H, FB2.
        assert (i0 : 1 <= i) by (unfold i; apply (le_INR 1); lia). apply Rle_trans with ((1 + / (4 * (i + 1))) * (2000 * i * k)); [apply Rmult_le_compat_r; [apply Rmult_le_pos; lra|exact H]|].
        assert (Q : / (4 * (i + 1)) * (2000 * i) <= 500). { apply (Rmult_le_reg_l (4 * (i + 1))); [lra|]. rewrite <- Rmult_assoc, Rinv_r by lra. lra. } apply (Rmult_le_compat_r k) in Q; [|lra]. lra. }
      set (D0 := FC * Rabs P) in *. assert (D00 : 0 <= D0) by (unfold D0; apply Rmult_le_pos; lra). assert (uD : 0 <= u * D0) by (apply Rmult_le_pos; lra).
      assert (FE2 : FC * E <= (27 * INR m + 4.6) * u * D0 + 2000 * INR m * k + 500 * k) by (unfold D0; lra).
      assert (mk : INR m * k <= 200 * k) by (apply Rmult_le_compat_r; lra).
      assert (FE3 : u * (FC * E) <= 0.00001 * (u * D0) + 0.001 * k).
      { apply (Rmult_le_compat_l u) in FE2; [|lra]. eapply Rle_trans; [exact FE2|]. replace (u * ((27 * INR m + 4.6) * u * D0 + 2000 * INR m * k + 500 * k)) with ((27 * INR m + 4.6) * u * (u * D0) + (2000 * (INR m * k) + 500 * k) * u) by ring. apply Rplus_le_compat; [apply Rmult_le_compat_r; lra|]. apply Rle_trans with (400500 * k * / 1000000000000000); [apply Rmult_le_compat; try lra; assert (0 <= INR m * k) by (apply Rmult_le_pos; lra); lra|lra]. }
      rewrite S_INR. replace (FC * (Rabs P + E)) with (D0 + FC * E) in laB by (unfold D0; ring). lra.
  Qed.
End Diagonal.
