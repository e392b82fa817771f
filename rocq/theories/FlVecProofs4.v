From Coq Require Import Reals ZArith Bool Lia Lra.
From Verif Require Import Vec FlModel FlProofs FlAlfProofs FlCunModel FlCunProofs7 FlGravProofs FlEopProofs FlVecModel FlVecProofs FlVecProofs2 FlVecProofs3 RelModel.
Open Scope R_scope.

(** ** relativistic acceleration *)
Lemma relativistic_exact r v rs vs GMe GMs J c beta gamma :
  vexact (relativistic_ex r v rs vs GMe GMs J c beta gamma) = iers2010_relativistic_acceleration (r, v) (rs, vs) GMe GMs J c beta gamma.
Proof.
  unfold relativistic_ex, iers2010_relativistic_acceleration, sscale. cbn [fst snd]. cbv zeta.
  assert (N : forall a, vexact (fneg (fscale (Cst 1e-3) (fval a))) = vmul (-1) (vmul 1e-3 a)) by (intros a; apply v3_eq; cbn; ring).
  change (vexact (fscale ?k (fscale ?f (fmap2 Mi (fmap2 Pl ?a ?b) ?g)))) with (vmul (exact k) (vmul (exact f) (vminus (vplus (vexact a) (vexact b)) (vexact g)))).
  assert (G : vexact (geodesic_ex (fscale (Cst 1e-3) (fval r)) (fscale (Cst 1e-3) (fval v)) (fneg (fscale (Cst 1e-3) (fval rs))) (fneg (fscale (Cst 1e-3) (fval vs))) (Ti (Val GMe) (Cst 1e-9)) (Ti (Val GMs) (Cst 1e-9)) (Val gamma)) =
    geodesic (vmul 1e-3 r, vmul 1e-3 v) (vmul (-1) (vmul 1e-3 rs), vmul (-1) (vmul 1e-3 vs)) (GMe * 1e-9) (GMs * 1e-9) gamma).
  { unfold geodesic, geodesic_ex. cbn [fst snd]. rewrite <- !N. change (vexact (fscale ?k (fscale ?f (fscale ?g (fcross (fcross ?a ?b) ?d))))) with (vmul (exact k) (vmul (exact f) (vmul (exact g) (cross (cross (vexact a) (vexact b)) (vexact d))))).
    f_equal. f_equal. change (vexact (fscale (Cst 1e-3) (fval v))) with (vmul 1e-3 v). generalize (cross (vexact (fneg (fscale (Cst 1e-3) (fval vs)))) (vexact (fneg (fscale (Cst 1e-3) (fval rs))))) as z. intros z. apply v3_eq; unfold cross, vmul; cbn [p1 p2 p3 exact]; ring. }
  rewrite G. reflexivity.
Qed.

Section Rel.
  Variables (r v rs vs : v3) (GMe GMs J c beta gamma V W Jm : R).
  Notation Lr := (len r). Notation Rs := (len rs).
  Hypothesis Hr : 1 <= Lr <= 2 ^ 40.
  Hypothesis Hv : len v <= V. Hypothesis HV : / 2 ^ 10 <= V <= 2 ^ 30.
  Hypothesis HR : 1 <= Rs <= 2 ^ 50.
  Hypothesis Hw : len vs <= W. Hypothesis HW : / 2 ^ 10 <= W <= 2 ^ 30.
  Hypothesis HGe : 1 <= GMe <= 2 ^ 70.
  Hypothesis HGs : 1 <= GMs <= 2 ^ 90.
  Hypothesis HJ : Rabs J <= Jm. Hypothesis HJm : 1 <= Jm <= 2 ^ 50.
  Hypothesis Hc : 1 <= c <= 2 ^ 30.
  Hypothesis Hb : / 4 <= beta <= 4. Hypothesis Hg : / 4 <= gamma <= 4.
  Notation km a := (fscale (Cst 1e-3) (fval a)).
  Notation L := (1e-3 * Lr). Notation U := (1e-3 * V). Notation Q := (1e-3 * Rs). Notation X := (1e-3 * W). Notation G := (GMe * 1e-9). Notation Gs := (GMs * 1e-9). Notation C := (c * 1e-3). Notation M := (Jm * 1e-6).
  Lemma len_le a B : 0 <= B -> len a <= B -> dot a a <= B * B.
  Proof. intros P H. rewrite len_sq. assert (0 <= len a) by apply sqrt_pos. apply Rmult_le_compat; lra. Qed.
  Lemma milli : (/ 2) ^ 10 <= 1e-3 <= 2 ^ 0. Proof. cbn [pow]. lra. Qed.
  Lemma V0 : 0 < / 2 ^ 10. Proof. apply Rinv_0_lt_compat, pow_lt. lra. Qed.
  Lemma r_fine : vfine 10 40 203 L (km r).
  Proof. apply (vfine_scale 0 40 10 0 0); [exact milli|reflexivity|]. apply vfine_val; [rewrite len_sq; apply Rle_refl|exact Hr]. Qed.
  Lemma v_fine : vfine 20 30 203 U (km v).
  Proof. apply (vfine_scale 10 30 10 0 0); [exact milli|reflexivity|]. pose proof V0. apply vfine_val; [apply len_le; lra|rewrite half_pow_2; exact HV]. Qed.
  Lemma rs_fine : vfine 10 50 203 Q (fneg (km rs)).
  Proof. apply vfine_neg. apply (vfine_scale 0 50 10 0 0); [exact milli|reflexivity|]. apply vfine_val; [rewrite len_sq; apply Rle_refl|exact HR]. Qed.
  Lemma vs_fine : vfine 20 30 203 X (fneg (km vs)).
  Proof. apply vfine_neg. apply (vfine_scale 10 30 10 0 0); [exact milli|reflexivity|]. pose proof V0. apply vfine_val; [apply len_le; lra|rewrite half_pow_2; exact HW]. Qed.
  Lemma scaled_acc n m n' m' x k : 1 <= x <= 2 ^ m -> (/ 2) ^ n' <= k <= 2 ^ m' -> (n' <=? 100)%nat = true -> n = n' -> acc n (m + m') 203 (x * k) (Ti (Val x) (Cst k)).
  Proof.
    intros Hx Hk N ->. pose proof (half_pos n'). apply (acc_ti 0 m n' m' 0 101); [apply acc_val; [rewrite Rabs_pos_eq; lra|exact Hx]|apply acc_cst; [rewrite Rabs_pos_eq; lra|exact Hk|apply Nat.leb_le in N; apply Nat.leb_le; lia]|]. apply Nat.leb_le in N. unfold fits. rewrite !andb_true_iff, !Z.leb_le, !Nat.leb_le. lia.
  Qed.
  Lemma G_acc : acc 30 (70 + 0) 203 G (Ti (Val GMe) (Cst 1e-9)). Proof. apply scaled_acc with (n' := 30%nat); [exact HGe|cbn [pow]; lra|reflexivity|reflexivity]. Qed.
  Lemma Gs_acc : acc 30 (90 + 0) 203 Gs (Ti (Val GMs) (Cst 1e-9)). Proof. apply scaled_acc with (n' := 30%nat); [exact HGs|cbn [pow]; lra|reflexivity|reflexivity]. Qed.
  Lemma C_acc : acc 10 (30 + 0) 203 C (Ti (Val c) (Cst 1e-3)). Proof. apply scaled_acc with (n' := 10%nat); [exact Hc|exact milli|reflexivity|reflexivity]. Qed.
  Lemma j_fine : vfine 20 50 203 M (mkF (Val 0) (Val 0) (Ti (Val J) (Cst 1e-6))).
  Proof.
    assert (R : (/ 2) ^ 20 <= M <= 2 ^ 50). { assert ((/ 2) ^ 20 <= 1e-6) by (cbn [pow]; lra). lra. } pose proof (half_pos 20) as P.
    assert (A : Rabs (J * 1e-6) <= M) by (rewrite Rabs_mult, (Rabs_pos_eq 1e-6) by lra; lra).
    split; [|split; [exact R|]].
    - unfold dot, vexact. cbn [f1 f2 f3 exact p1 p2 p3]. replace (0 * 0 + 0 * 0 + J * 1e-6 * (J * 1e-6)) with (Rabs (J * 1e-6) * Rabs (J * 1e-6)) by (rewrite <- Rabs_mult, Rabs_pos_eq by nra; ring). pose proof (Rabs_pos (J * 1e-6)). apply Rmult_le_compat; lra.
    - assert (Z : fine 20 50 203 M (Val 0)). { split; [cbn [exact]; rewrite Rabs_R0; lra|]. apply acc_weak with (n := 30%nat) (m := 51%nat) (k := 0%Z) (B := Rabs 0 + M / 1000); [|reflexivity|apply Rle_refl|apply (fine_range 20 50); [exact R|cbn [exact]; rewrite Rabs_R0; lra]]. apply acc_val; [rewrite Rabs_R0; lra|apply (fine_range 20 50); [exact R|cbn [exact]; rewrite Rabs_R0; lra]]. }
      split; [exact Z|]. split; [exact Z|]. split; [exact A|]. cbn [f3 exact].
      assert (T : acc (10 + 20) (51 + 0) (0 + 101 + 102) ((Rabs J + Jm / 1000) * 1e-6) (Ti (Val J) (Cst 1e-6))).
      { apply acc_ti; [apply acc_val; [lra|apply (fine_range 0 50); [exact HJm|exact HJ]]|apply acc_cst; [rewrite Rabs_pos_eq; lra|cbn [pow]; lra|reflexivity]|reflexivity]. }
      replace (Rabs (J * 1e-6) + M / 1000) with ((Rabs J + Jm / 1000) * 1e-6) by (rewrite Rabs_mult, (Rabs_pos_eq 1e-6) by lra; lra). exact T.
  Qed.
  Lemma one_acc : acc 0 0 0 1 (Val 1). Proof. apply acc_val; [rewrite Rabs_R1; lra|cbn [pow]; lra]. Qed.
  Lemma two_acc : acc 0 1 0 2 (Val 2). Proof. apply acc_val; [rewrite Rabs_pos_eq; lra|cbn [pow]; lra]. Qed.
  Lemma three_acc : acc 0 2 0 3 (Val 3). Proof. apply acc_val; [rewrite Rabs_pos_eq; lra|cbn [pow]; lra]. Qed.
  Lemma b_acc : acc 2 2 0 beta (Val beta). Proof. apply acc_val; [rewrite Rabs_pos_eq; lra|cbn [pow]; lra]. Qed.
  Lemma g_acc : acc 2 2 0 gamma (Val gamma). Proof. apply acc_val; [rewrite Rabs_pos_eq; lra|cbn [pow]; lra]. Qed.
  Lemma r_norm : exact (fnorm (km r)) = L /\ acc 10 40 465 L (fnorm (km r)).
  Proof. destruct (acc_norm _ _ _ _ _ r_fine) as (_ & E & A); [unfold dot, vexact; cbn [fscale fval f1 f2 f3 exact p1 p2 p3]; replace (L * L) with (1e-3 * 1e-3 * dot r r) by (rewrite len_sq; ring); unfold dot; ring|reflexivity|]. split; assumption. Qed.
  Lemma rs_norm : exact (fnorm (fneg (km rs))) = Q /\ acc 10 50 465 Q (fnorm (fneg (km rs))).
  Proof. destruct (acc_norm _ _ _ _ _ rs_fine) as (_ & E & A); [unfold dot, vexact; cbn [fneg fscale fval f1 f2 f3 exact p1 p2 p3]; replace (Q * Q) with (1e-3 * 1e-3 * dot rs rs) by (rewrite len_sq; ring); unfold dot; ring|reflexivity|]. split; assumption. Qed.
  (** the factor GM / (c^2 r^3) *)
  Notation s := (fnorm (km r)).
  Lemma f_acc : exists n m, (n <= 210)%nat /\ acc n m 2514 (G / (C * C * L * L * L)) (Ov (Ti (Val GMe) (Cst 1e-9)) (Ti (Ti (Ti (Ti (Ti (Val c) (Cst 1e-3)) (Ti (Val c) (Cst 1e-3))) s) s) s)).
  Proof.
    destruct r_norm as (E & A). eexists _, _. split; [|change 2514%Z with (203 + (203 + 203 + 102 + 465 + 102 + 465 + 102 + 465 + 102) + 102)%Z; eapply acc_ov; [exact G_acc| | |]].
    2: { eapply acc_ti; [eapply acc_ti; [eapply acc_ti; [eapply acc_ti; [exact C_acc|exact C_acc|reflexivity]|exact A|reflexivity]|exact A|reflexivity]|exact A|reflexivity]. }
    - cbn. lia.
    - cbn [exact]. rewrite E. reflexivity.
    - reflexivity.
  Qed.
  Lemma schwarzschild_acc i : exists n m, (n <= 300)%nat /\ acc n m 1583 ((2 * (beta + gamma) * (G / L) + gamma * (U * U)) * L + 2 * (1 + gamma) * (L * U) * U) (part i (schwarzschild_ex (km r) (km v) (Ti (Val GMe) (Cst 1e-9)) (Val beta) (Val gamma))).
  Proof.
    destruct r_norm as (E & A). destruct (vfine_parts _ _ _ _ _ r_fine eq_refl) as (X1 & X2 & X3). destruct (vfine_parts _ _ _ _ _ v_fine eq_refl) as (Y1 & Y2 & Y3).
    assert (S : forall x y, acc 10 40 204 L x -> acc 20 30 204 U y -> exists n m, (n <= 300)%nat /\ acc n m 1583 ((2 * (beta + gamma) * (G / L) + gamma * (U * U)) * L + 2 * (1 + gamma) * (L * U) * U)
      (Pl (Ti (Mi (Ti (Ti (Val 2) (Pl (Val beta) (Val gamma))) (Ov (Ti (Val GMe) (Cst 1e-9)) s)) (Ti (Val gamma) (fdot (km v) (km v)))) x) (Ti (Ti (Ti (Val 2) (Pl (Val 1) (Val gamma))) (fdot (km r) (km v))) y))).
    { intros x y Hx Hy. assert (D1 : acc (20 + 20) (30 + 30) (203 + 203 + 320) (U * U) (fdot (km v) (km v))) by (apply (acc_square _ _ _ _ _ v_fine); reflexivity).
      assert (D2 : acc (10 + 20) (40 + 30) (203 + 203 + 320) (L * U) (fdot (km r) (km v))) by (apply acc_dot with (1 := r_fine) (2 := v_fine); reflexivity).
      assert (D3 : acc (30 + 40) (70 + 0 + 10) (203 + 465 + 102) (G / L) (Ov (Ti (Val GMe) (Cst 1e-9)) s)) by (apply (acc_ov 30 (70 + 0) 10 40); [exact G_acc|exact A|exact E|reflexivity]).
      assert (D4 : acc (0 + min 2 2) (1 + S (max 2 2)) (0 + (Z.max 0 0 + 101) + 102) (2 * (beta + gamma)) (Ti (Val 2) (Pl (Val beta) (Val gamma)))) by (apply acc_ti; [exact two_acc|apply acc_pl; [exact b_acc|exact g_acc|reflexivity]|reflexivity]).
      assert (D5 : acc (0 + min 0 2) (1 + S (max 0 2)) (0 + (Z.max 0 0 + 101) + 102) (2 * (1 + gamma)) (Ti (Val 2) (Pl (Val 1) (Val gamma)))) by (apply acc_ti; [exact two_acc|apply acc_pl; [exact one_acc|exact g_acc|reflexivity]|reflexivity]).
      eexists _, _. split; [|change 1583%Z with (Z.max (Z.max (0 + (Z.max 0 0 + 101) + 102 + (203 + 465 + 102) + 102) (0 + (203 + 203 + 320) + 102) + 101 + 204 + 102) (0 + (Z.max 0 0 + 101) + 102 + (203 + 203 + 320) + 102 + 204 + 102) + 101)%Z; apply acc_pl; [apply acc_ti; [apply acc_mi; [apply acc_ti; [exact D4|exact D3|reflexivity]|apply acc_ti; [exact g_acc|exact D1|reflexivity]|reflexivity]|exact Hx|reflexivity]|apply acc_ti; [apply acc_ti; [exact D5|exact D2|reflexivity]|exact Hy|reflexivity]|reflexivity]].
      cbn. lia. }
    unfold schwarzschild_ex. destruct i as [|[|i]]; cbn [part fscale fmap2 f1 f2 f3]; apply S; assumption.
  Qed.
  Lemma lens_thirring_acc i : exists n m, (n <= 300)%nat /\ acc n m 2993 ((1 + gamma) * (L * M * (3 / L / L * (L * U)) + U * M)) (part i (lens_thirring_ex (km r) (km v) (Ti (Val J) (Cst 1e-6)) (Val gamma))).
  Proof.
    destruct r_norm as (E & A). destruct (acc_cross _ _ _ _ _ _ _ _ _ _ r_fine v_fine eq_refl) as (X1 & X2 & X3). destruct (acc_cross _ _ _ _ _ _ _ _ _ _ v_fine j_fine eq_refl) as (Y1 & Y2 & Y3).
    assert (S : forall x y, acc (10 + 20) (40 + 30) (203 + 203 + 219) (L * U) x -> acc (20 + 20) (30 + 50) (203 + 203 + 219) (U * M) y -> exists n m, (n <= 300)%nat /\ acc n m 2993 ((1 + gamma) * (L * M * (3 / L / L * (L * U)) + U * M))
      (Ti (Pl (Val 1) (Val gamma)) (Pl (Ti (fdot (km r) (mkF (Val 0) (Val 0) (Ti (Val J) (Cst 1e-6)))) (Ti (Ov (Ov (Val 3) s) s) x)) y))).
    { intros x y Hx Hy. assert (D1 : acc (10 + 20) (40 + 50) (203 + 203 + 320) (L * M) (fdot (km r) (mkF (Val 0) (Val 0) (Ti (Val J) (Cst 1e-6))))) by (apply acc_dot with (1 := r_fine) (2 := j_fine); reflexivity).
      assert (D2 : acc (0 + 40 + 40) (2 + 10 + 10) (0 + 465 + 102 + 465 + 102) (3 / L / L) (Ov (Ov (Val 3) s) s)) by (apply (acc_ov (0 + 40) (2 + 10) 10 40); [apply (acc_ov 0 2 10 40); [exact three_acc|exact A|exact E|reflexivity]|exact A|exact E|reflexivity]).
      eexists _, _. split; [|change 2993%Z with (Z.max 0 0 + 101 + (Z.max (203 + 203 + 320 + (0 + 465 + 102 + 465 + 102 + (203 + 203 + 219) + 102) + 102) (203 + 203 + 219) + 101) + 102)%Z;
        apply acc_ti; [apply acc_pl; [exact one_acc|exact g_acc|reflexivity]|apply acc_pl; [apply acc_ti; [exact D1|apply acc_ti; [exact D2|exact Hx|reflexivity]|reflexivity]|exact Hy|reflexivity]|reflexivity]].
      cbn. lia. }
    unfold lens_thirring_ex. destruct i as [|[|i]]; cbn [part fscale fmap2 f1 f2 f3]; apply S; assumption.
  Qed.
  Lemma geodesic_acc i : exists n m, (n <= 400)%nat /\ acc n m 5351 (L ^ 3 / Q ^ 3 * (Gs / G * ((1 + 2 * gamma) * (X * Q * U + X * Q * U)))) (part i (geodesic_ex (km r) (km v) (fneg (km rs)) (fneg (km vs)) (Ti (Val GMe) (Cst 1e-9)) (Ti (Val GMs) (Cst 1e-9)) (Val gamma))).
  Proof.
    destruct r_norm as (E & A). destruct rs_norm as (E' & A'). destruct (vfine_parts _ _ _ _ _ v_fine eq_refl) as (Y1 & Y2 & Y3). destruct (acc_cross _ _ _ _ _ _ _ _ _ _ vs_fine rs_fine eq_refl) as (X1 & X2 & X3).
    assert (S : forall x y x' y', acc (20 + 10) (30 + 50) (203 + 203 + 219) (X * Q) x -> acc (20 + 10) (30 + 50) (203 + 203 + 219) (X * Q) x' -> acc 20 30 (203 + 1) U y -> acc 20 30 (203 + 1) U y' ->
      exists n m, (n <= 400)%nat /\ acc n m 5351 (L ^ 3 / Q ^ 3 * (Gs / G * ((1 + 2 * gamma) * (X * Q * U + X * Q * U))))
      (Ti (Ov (Cu s) (Cu (fnorm (fneg (km rs))))) (Ti (Ov (Ti (Val GMs) (Cst 1e-9)) (Ti (Val GMe) (Cst 1e-9))) (Ti (Pl (Val 1) (Ti (Val 2) (Val gamma))) (Mi (Ti x y) (Ti x' y')))))).
    { intros x y x' y' H1 H2 H3 H4.
      assert (D1 : acc (10 + 10 + 10 + (50 + 50 + 50)) (40 + 40 + 40 + (10 + 10 + 10)) (3 * 465 + 205 + (3 * 465 + 205) + 102) (L ^ 3 / Q ^ 3) (Ov (Cu s) (Cu (fnorm (fneg (km rs)))))) by (apply acc_ov; [apply acc_cu; [exact A|reflexivity]|apply acc_cu; [exact A'|reflexivity]|cbn [exact]; rewrite E'; reflexivity|reflexivity]).
      assert (D2 : acc (30 + (70 + 0)) (90 + 0 + 30) (203 + 203 + 102) (Gs / G) (Ov (Ti (Val GMs) (Cst 1e-9)) (Ti (Val GMe) (Cst 1e-9)))) by (apply acc_ov; [exact Gs_acc|exact G_acc|reflexivity|reflexivity]).
      eexists _, _. split; [|change 5351%Z with (3 * 465 + 205 + (3 * 465 + 205) + 102 + (203 + 203 + 102 + (Z.max 0 (0 + 0 + 102) + 101 + (Z.max (203 + 203 + 219 + (203 + 1) + 102) (203 + 203 + 219 + (203 + 1) + 102) + 101) + 102) + 102) + 102)%Z;
        apply acc_ti; [exact D1|apply acc_ti; [exact D2|apply acc_ti; [apply acc_pl; [exact one_acc|apply acc_ti; [exact two_acc|exact g_acc|reflexivity]|reflexivity]|apply acc_mi; [apply acc_ti; [exact H1|exact H3|reflexivity]|apply acc_ti; [exact H2|exact H4|reflexivity]|reflexivity]|reflexivity]|reflexivity]|reflexivity]].
      cbn. lia. }
    unfold geodesic_ex. destruct i as [|[|i]]; cbn [part fscale fcross f1 f2 f3] in *; apply S; assumption.
  Qed.
  Lemma relativistic_acc i w : rounded (part i (relativistic_ex r v rs vs GMe GMs J c beta gamma)) w -> Rabs (w - exact (part i (relativistic_ex r v rs vs GMe GMs J c beta gamma))) <=
    82 * u * (/ c ^ 2 * (GMe / Lr ^ 2 * (2 * (beta + gamma) * GMe / Lr + (2 + 3 * gamma) * V ^ 2) + 4 * (1 + gamma) * GMe * V * Jm / Lr ^ 3 + 2 * (1 + 2 * gamma) * GMs * W * V / Rs ^ 2)).
  Proof.
    intros Rw. destruct f_acc as (nf & mf & Nf & Af). destruct (schwarzschild_acc i) as (n1 & m1 & N1 & A1). destruct (lens_thirring_acc i) as (n2 & m2 & N2 & A2). destruct (geodesic_acc i) as (n3 & m3 & N3 & A3).
    set (x1 := part i (schwarzschild_ex _ _ _ _ _)) in *. set (x2 := part i (lens_thirring_ex _ _ _ _)) in *. set (x3 := part i (geodesic_ex _ _ _ _ _ _ _)) in *. set (f := Ov _ _) in *.
    assert (K : acc 0 10 0 1e3 (Val 1e3)) by (apply acc_val; [rewrite Rabs_pos_eq; lra|cbn [pow]; lra]).
    assert (EX : part i (relativistic_ex r v rs vs GMe GMs J c beta gamma) = Ti (Val 1e3) (Ti f (Mi (Pl x1 x2) x3))) by (destruct i as [|[|i]]; reflexivity). rewrite EX in *.
    pose proof (acc_pl _ _ _ _ _ _ _ _ _ _ A1 A2) as A4. change (Z.max 1583 2993 + 101)%Z with 3094%Z in A4. assert (F4 : fits (min n1 n2) (Z.max 1583 2993) = true) by (unfold fits; rewrite !andb_true_iff, !Z.leb_le, !Nat.leb_le; lia). specialize (A4 F4).
    pose proof (acc_mi _ _ _ _ _ _ _ _ _ _ A4 A3) as A5. assert (F5 : fits (min (min n1 n2) n3) (Z.max 3094 5351) = true) by (unfold fits; rewrite !andb_true_iff, !Z.leb_le, !Nat.leb_le; lia). specialize (A5 F5). change (Z.max 3094 5351 + 101)%Z with 5452%Z in A5.
    pose proof (acc_ti _ _ _ _ _ _ _ _ _ _ Af A5) as A6. assert (F6 : fits (nf + min (min n1 n2) n3) 2514 && fits 0 5452 && fits 0 (2514 + 5452 + 1) = true) by (unfold fits; rewrite !andb_true_iff, !Z.leb_le, !Nat.leb_le; lia). specialize (A6 F6).
    pose proof (acc_ti _ _ _ _ _ _ _ _ _ _ K A6) as A7. assert (F7 : fits (0 + (nf + min (min n1 n2) n3)) 0 && fits 0 (2514 + 5452 + 102) && fits 0 (0 + (2514 + 5452 + 102) + 1) = true) by (unfold fits; rewrite !andb_true_iff, !Z.leb_le, !Nat.leb_le; lia). specialize (A7 F7).
    destruct (proj2 A7 w Rw) as (_ & B). eapply Rle_trans; [exact B|]. pose proof u_pos as PU. destruct (proj1 A7) as (P7 & _). pose proof (half_pos (0 + (nf + min (min n1 n2) n3))) as P0.
    pose proof V0 as PV. match goal with |- _ * _ * ?T <= _ * ?S => assert (E : T = S) end. { field. repeat split; lra. }
    rewrite E in *. apply Rmult_le_compat_r; [lra|]. apply Rmult_le_compat_r; [lra|]. change (0 + (2514 + 5452 + 102) + 102)%Z with 8170%Z. lra.
  Qed.
End Rel.
