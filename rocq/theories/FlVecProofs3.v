From Coq Require Import Reals ZArith Bool Lia Lra.
From Verif Require Import Vec FlModel FlProofs FlAlfProofs FlCunModel FlCunProofs7 FlGravProofs FlEopProofs FlVecModel FlVecProofs FlVecProofs2 PmModel RelModel.
Open Scope R_scope.

(** ** the evaluation without rounding *)
Lemma rounded_exact e : rounded e (exact e).
Proof.
  induction e as [x|x|a IH|a IHa b IHb|a IHa b IHb|a IHa b IHb|a IHa b IHb|a IH|a IH|a IHa b IHb c IHc]; cbn [rounded exact].
  - reflexivity.
  - apply near_exact.
  - rewrite Ropp_involutive. exact IH.
  - exists (exact a), (exact b). split; [exact IHa|split; [exact IHb|apply near_exact]].
  - exists (exact a), (exact b). split; [exact IHa|split; [exact IHb|apply near_exact]].
  - exists (exact a), (exact b). split; [exact IHa|split; [exact IHb|apply near_exact]].
  - exists (exact a), (exact b). split; [exact IHa|split; [exact IHb|apply near_exact]].
  - exists (exact a). split; [exact IH|apply near_exact].
  - exists (exact a). split; [exact IH|]. unfold pow3_run. replace (exact a ^ 3 - exact a ^ 3) with 0 by ring. rewrite Rabs_R0. pose proof u_pos. pose proof tiny_pos. pose proof (Rabs_pos (exact a ^ 3)). assert (0 <= 2 * u * Rabs (exact a ^ 3)) by (apply Rmult_le_pos; lra). lra.
  - exists (exact a), (exact b), (exact c). split; [exact IHa|split; [exact IHb|split; [exact IHc|]]]. exists (exact a + exact b). left. split; apply near_exact.
Qed.
Lemma vrounded_exact a : vrounded a (vexact a).
Proof. unfold vrounded, vexact. cbn [p1 p2 p3]. split; [|split]; apply rounded_exact. Qed.

(** ** components as numbers of size L *)
Lemma fine_acc n m k L e : (0 <=? k)%Z && (k <=? 900)%Z = true -> (/ 2) ^ n <= L <= 2 ^ m -> fine n m k L e -> acc n m (k + 1) L e.
Proof.
  intros F R (E & (_ & H)). apply andb_true_iff in F as (K1 & K2). apply Z.leb_le in K1, K2. apply IZR_le in K1, K2. split; [exact R|]. intros v Rv. destruct (H v Rv) as (_ & J). split; [exact E|]. eapply Rle_trans; [exact J|]. pose proof u_pos. pose proof (half_pos n). rewrite plus_IZR.
  apply Rle_trans with (IZR k / 100 * u * (1.001 * L)); [apply Rmult_le_compat_l; [apply Rmult_le_pos; lra|lra]|]. replace (IZR k / 100 * u * (1.001 * L)) with (IZR k / 100 * 1.001 * (u * L)) by ring. replace ((IZR k + 1) / 100 * u * L) with ((IZR k + 1) / 100 * (u * L)) by ring. apply Rmult_le_compat_r; [apply Rmult_le_pos; lra|lra].
Qed.
Lemma len_sq a : dot a a = len a * len a. Proof. unfold len. rewrite sqrt_sqrt; [reflexivity|apply dot_nonneg]. Qed.
Lemma vfine_parts n m k L a : vfine n m k L a -> (0 <=? k)%Z && (k <=? 900)%Z = true -> acc n m (k + 1) L (f1 a) /\ acc n m (k + 1) L (f2 a) /\ acc n m (k + 1) L (f3 a).
Proof. intros (_ & R & A & B & C) F. split; [|split]; apply fine_acc; assumption. Qed.
(** |s|^3 *)
Lemma acc_cube n m k L a : vfine n m k L a -> dot (vexact a) (vexact a) = L * L -> (n <=? 100)%nat && (0 <=? k)%Z && (k <=? 500)%Z = true ->
  exact (cube a) = L * L * L /\ acc (n + n + n) (m + m + m) (3 * k + 684) (L * L * L) (cube a).
Proof.
  intros H D F. apply andb_true_iff in F as (F & K2). apply andb_true_iff in F as (N & K1). apply Nat.leb_le in N. apply Z.leb_le in K1, K2. assert (F' : (n + n <=? 900)%nat && (0 <=? k)%Z && (k <=? 500)%Z = true) by (rewrite !andb_true_iff, Nat.leb_le, !Z.leb_le; lia).
  destruct (acc_norm n m k L a H D F') as (E1 & E2 & A). pose proof (acc_square n m k L a H F') as S. split; [unfold cube; cbn [exact]; rewrite E2; change (exact (fdot a a)) with (exact (fdot a a)) in E1; rewrite E1; reflexivity|].
  replace (3 * k + 684)%Z with (k + k + 320 + (k + 262) + 102)%Z by lia. apply acc_ti; [exact S|exact A|]. unfold fits. rewrite !andb_true_iff, !Z.leb_le, !Nat.leb_le. lia.
Qed.

(** ** third body *)
Section Pm.
  Variables (r b : v3) (GM : R).
  Notation D := (len (vminus r b)). Notation P := (len b).
  Hypothesis HD : / 2 ^ 10 <= D <= 2 ^ 60.
  Hypothesis HP : / 2 ^ 10 <= P <= 2 ^ 60.
  Hypothesis HG : 1 <= Rabs GM <= 2 ^ 90.
  Lemma D_fine : vfine 10 60 101 D (fmap2 Mi (fval r) (fval b)).
  Proof. apply vfine_sub; [reflexivity|rewrite len_sq; apply Rle_refl|rewrite half_pow_2; exact HD]. Qed.
  Lemma P_fine : vfine 10 60 0 P (fval b).
  Proof. apply vfine_val; [rewrite len_sq; apply Rle_refl|rewrite half_pow_2; exact HP]. Qed.
  Lemma G_acc : acc 0 90 0 (Rabs GM) (Val (- GM)).
  Proof. apply acc_val; [rewrite Rabs_Ropp; apply Rle_refl|exact HG]. Qed.
  Lemma pos_DP : 0 < D /\ 0 < P. Proof. pose proof (Rinv_0_lt_compat _ (pow_lt 2 10 ltac:(lra))). lra. Qed.
  Lemma pm_acc i : acc (0 + min 190 190) (90 + S (max 90 90)) 1394 (Rabs GM * (D / (D * D * D) + P / (P * P * P))) (part i (pm_ex r b GM)).
  Proof.
    destruct (acc_cube _ _ _ _ _ D_fine) as (E1 & A1); [apply len_sq|reflexivity|]. destruct (acc_cube _ _ _ _ _ P_fine) as (E2 & A2); [rewrite <- len_sq; reflexivity|reflexivity|].
    destruct (vfine_parts _ _ _ _ _ D_fine eq_refl) as (X1 & X2 & X3). destruct (vfine_parts _ _ _ _ _ P_fine eq_refl) as (Y1 & Y2 & Y3).
    assert (S : forall x y, acc 10 60 (101 + 1) D x -> acc 10 60 (0 + 1) P y -> acc (0 + min 190 190) (90 + S (max 90 90)) 1394 (Rabs GM * (D / (D * D * D) + P / (P * P * P))) (Ti (Val (- GM)) (Pl (Ov x (cube (fmap2 Mi (fval r) (fval b)))) (Ov y (cube (fval b)))))).
    { intros x y X Y. change 1394%Z with (0 + (Z.max (101 + 1 + (3 * 101 + 684) + 102) (0 + 1 + (3 * 0 + 684) + 102) + 101) + 102)%Z. apply acc_ti; [exact G_acc| |reflexivity]. apply (acc_pl 190 90 190 90); [| |reflexivity].
      - apply (acc_ov 10 60 30 180); [exact X|exact A1|exact E1|reflexivity].
      - apply (acc_ov 10 60 30 180); [exact Y|exact A2|exact E2|reflexivity]. }
    unfold pm_ex. destruct i as [|[|i]]; cbn [part fscale fmap2 fover f1 f2 f3]; apply S; assumption.
  Qed.
  Lemma pm_exact : vexact (pm_ex r b GM) = pm_acceleration r b GM.
  Proof. reflexivity. Qed.
  (** acceleration *)
  Lemma pm_error o : pm_acceleration_run r b GM o -> let a := pm_acceleration r b GM in let B := 14 * / 2 ^ 53 * Rabs GM * (/ D ^ 2 + / P ^ 2) in
    Rabs (p1 o - p1 a) <= B /\ Rabs (p2 o - p2 a) <= B /\ Rabs (p3 o - p3 a) <= B.
  Proof.
    intros (R1 & R2 & R3) a B. destruct pos_DP as (PD & PP). assert (S : forall i v, rounded (part i (pm_ex r b GM)) v -> Rabs (v - exact (part i (pm_ex r b GM))) <= B).
    { intros i v Rv. destruct (proj2 (pm_acc i) v Rv) as (_ & J). eapply Rle_trans; [exact J|]. unfold B. fold u. pose proof u_pos. assert (E : D / (D * D * D) + P / (P * P * P) = / D ^ 2 + / P ^ 2) by (field; lra). rewrite E. pose proof (Rinv_0_lt_compat _ (pow_lt D 2 PD)). pose proof (Rinv_0_lt_compat _ (pow_lt P 2 PP)). pose proof (Rabs_pos GM).
      rewrite <- Rmult_assoc. apply Rmult_le_compat_r; [lra|]. apply Rmult_le_compat_r; [lra|]. apply Rmult_le_compat_r; lra. }
    unfold a. rewrite <- pm_exact. split; [exact (S 0%nat _ R1)|]. split; [exact (S 1%nat _ R2)|exact (S 2%nat _ R3)].
  Qed.
  (** Jacobian *)
  Definition entry (J : m33) (i j : nat) : R := let v := match i with O => row1 J | S O => row2 J | _ => row3 J end in match j with O => p1 v | S O => p2 v | _ => p3 v end.
  Lemma jacobian_exact i j : (i < 3)%nat -> (j < 3)%nat -> exact (pm_jacobian_ex r b GM i j) = entry (snd (pm_partials r b GM)) i j.
  Proof. intros I J. destruct i as [|[|[|i]]]; [| | |lia]; (destruct j as [|[|[|j]]]; [| | |lia]); reflexivity. Qed.
  Lemma jacobian_error i j v : (i < 3)%nat -> (j < 3)%nat -> rounded (pm_jacobian_ex r b GM i j) v -> Rabs (v - entry (snd (pm_partials r b GM)) i j) <= 94 * / 2 ^ 53 * Rabs GM * / D ^ 3.
  Proof.
    intros I J Rv. rewrite <- jacobian_exact by assumption. destruct pos_DP as (PD & PP). destruct (acc_cube _ _ _ _ _ D_fine) as (E1 & A1); [apply len_sq|reflexivity|]. pose proof (acc_square _ _ _ _ _ D_fine eq_refl) as A2. assert (E2 : exact (fdot (fmap2 Mi (fval r) (fval b)) (fmap2 Mi (fval r) (fval b))) = D * D) by (rewrite <- len_sq; reflexivity).
    destruct (vfine_parts _ _ _ _ _ D_fine eq_refl) as (X1 & X2 & X3). assert (X : forall k, acc 10 60 (101 + 1) D (part k (fmap2 Mi (fval r) (fval b)))) by (intros [|[|k]]; assumption). set (s := fmap2 Mi (fval r) (fval b)) in *.
    assert (A3 : acc (30 + 20) (180 + 120) (3 * 101 + 684 + (101 + 101 + 320) + 102) (D * D * D * (D * D)) (Ti (cube s) (fdot s s))) by (apply acc_ti; [exact A1|exact A2|reflexivity]).
    assert (K : acc 0 0 0 1 (Val (if Nat.eqb i j then 1 else 0))) by (apply acc_val; [destruct (Nat.eqb i j); [rewrite Rabs_R1; lra|rewrite Rabs_R0; lra]|cbn [pow]; lra]).
    assert (T : acc 0 2 0 3 (Val 3)) by (apply acc_val; [rewrite Rabs_pos_eq; lra|cbn [pow]; lra]).
    assert (A4 : acc (0 + min (0 + 180) (0 + 10 + 10 + 300)) (90 + S (max (0 + 30) (2 + 60 + 60 + 50))) (0 + (Z.max (0 + (3 * 101 + 684) + 102) (0 + (101 + 1) + 102 + (101 + 1) + 102 + (3 * 101 + 684 + (101 + 101 + 320) + 102) + 102) + 101) + 102)
      (Rabs GM * (1 / (D * D * D) + 3 * D * D / (D * D * D * (D * D)))) (pm_jacobian_ex r b GM i j)).
    { unfold pm_jacobian_ex. fold s. apply acc_ti; [exact G_acc| |reflexivity]. apply acc_mi; [| |reflexivity].
      - apply (acc_ov 0 0 30 180); [exact K|exact A1|exact E1|reflexivity].
      - apply (acc_ov (0 + 10 + 10) (2 + 60 + 60) 50 300); [|exact A3|cbn [exact]; rewrite E1, E2; reflexivity|reflexivity]. apply acc_ti; [|apply X|reflexivity]. apply acc_ti; [exact T|apply X|reflexivity]. }
    destruct (proj2 A4 v Rv) as (_ & Q). eapply Rle_trans; [exact Q|]. fold u. pose proof u_pos. pose proof (Rabs_pos GM). assert (E : 1 / (D * D * D) + 3 * D * D / (D * D * D * (D * D)) = 4 * / D ^ 3) by (field; lra). rewrite E. pose proof (Rinv_0_lt_compat _ (pow_lt D 3 PD)).
    replace (Rabs GM * (4 * / D ^ 3)) with (4 * (Rabs GM * / D ^ 3)) by ring. replace (94 * u * Rabs GM * / D ^ 3) with (94 * u * (Rabs GM * / D ^ 3)) by ring. rewrite <- Rmult_assoc. apply Rmult_le_compat_r; [apply Rmult_le_pos; lra|]. cbv [Z.max Z.compare Z.add Z.mul Pos.add Pos.succ Pos.mul Pos.compare Pos.compare_cont]. lra.
  Qed.
End Pm.
