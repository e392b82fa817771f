From Coq Require Import Reals ZArith List Bool Lia Lra.
From Verif Require Import Base FlModel FlProofs Poly AlfSpec AlfMath AlfSum CunSpec CunMath CunMath2 CunModel CunReady CunProofs CunProofs2 CunProofs3 CunProofs4 CunProofs5 CunProofs6 FlAlfModel FlAlfProofs FlCunModel FlCunProofs6 FlGravModel FlGravProofs.
Import ListNotations.
Open Scope R_scope.

Definition comp1 (i : nat) (v : vec3) : R := match i with O => vx v | S O => vy v | _ => vz v end.
Definition comp2 (i : nat) (g : sym3) : R := match i with 0%nat => gxx g | 1%nat => gxy g | 2%nat => gxz g | 3%nat => gyy g | 4%nat => gyz g | _ => gzz g end.

Definition onz (f : nat -> nat -> R) (n m : Z) : R := f (Z.to_nat n) (Z.to_nat m).

(** ** the expressions without rounding *)
Section Exact.
  Variables (C S : nat -> nat -> R) (X Y Z : R).
  Notation tv := (leaves C S (fun n m => Vn n m X Y Z) (fun n m => Wn n m X Y Z)).
  Notation VX := (VZ X Y Z). Notation WX := (WZ X Y Z).
  Open Scope Z_scope.
  Lemma acc_form i n m : exact tv (part1 i (acc_ex n m)) = comp1 i (accP (onz C) (onz S) VX WX (n, m)).
  Proof.
    unfold accP, acc_ex. cbn [fst snd]. destruct (Z.eqb_spec m 0) as [-> |].
    - unfold acc_term0, okf, part1, comp1, onz, VZ, WZ, w2. cbn [bind vscale vx vy vz]. destruct i as [|[|i]]; cbn [exact leaves weight_of]; rewrite ?mult_IZR, !plus_IZR, ?mult_IZR; reflexivity.
    - unfold acc_term, okf, part1, comp1, onz, VZ, WZ, w2. cbn [bind vscale vx vy vz]. rewrite <- !mult_IZR. destruct (Z.eqb_spec m 1) as [-> |]; destruct i as [|[|i]]; cbn [exact leaves weight_of]; rewrite (plus_IZR (2 * n)), (plus_IZR (2 * n)); reflexivity.
  Qed.
  Lemma grad_form i n m : exact tv (part2 i (grad_ex n m)) = comp2 i (gradP (onz C) (onz S) VX WX (n, m)).
  Proof.
    unfold gradP, grad_ex. cbn [fst snd]. destruct (Z.eqb_spec m 0) as [-> |]; [|destruct (Z.eqb_spec m 1) as [-> |]].
    - unfold grad_term0, okf, part2, comp2, onz, VZ, WZ, w4. cbn [bind sscale gxx gxy gxz gyy gyz gzz]. rewrite <- !mult_IZR. destruct i as [|[|[|[|[|i]]]]]; cbn [exact leaves weight_of]; rewrite (plus_IZR (2 * n)), (plus_IZR (2 * n)); reflexivity.
    - unfold grad_term1, okf, part2, comp2, onz, VZ, WZ, w4. cbn [bind sscale gxx gxy gxz gyy gyz gzz]. rewrite <- !mult_IZR. destruct i as [|[|[|[|[|i]]]]]; cbn [exact leaves weight_of]; rewrite (plus_IZR (2 * n)), (plus_IZR (2 * n)); reflexivity.
    - unfold grad_term, okf, part2, comp2, onz, VZ, WZ, w4. cbn [bind sscale gxx gxy gxz gyy gyz gzz]. rewrite <- !mult_IZR. destruct (Z.eqb_spec m 2) as [-> |]; destruct i as [|[|[|[|[|i]]]]]; cbn [exact leaves weight_of]; rewrite (plus_IZR (2 * n)), (plus_IZR (2 * n)); rewrite ?Rmult_1_r; reflexivity.
  Qed.
  Lemma acc_exact n m : 0 <= m <= n -> accP (onz C) (onz S) VX WX (n, m) = acc_of X Y Z (onz C n m) (onz S n m) (Z.to_nat n) (Z.to_nat m).
  Proof.
    intros I. unfold accP. cbn [fst snd].
    assert (RM : forall lo hi, reads (okf VX) (fun n k => Vn n k X Y Z) (n + 1) lo hi) by (intros lo hi k Hk; unfold okf, VZ; rewrite Nat2Z.id; reflexivity).
    assert (RW : forall lo hi, reads (okf WX) (fun n k => Wn n k X Y Z) (n + 1) lo hi) by (intros lo hi k Hk; unfold okf, WZ; rewrite Nat2Z.id; reflexivity).
    destruct (Z.eqb_spec m 0) as [-> |].
    - pose proof (acc_term0_ok X Y Z (okf (onz C)) (okf VX) (okf WX) (Z.to_nat n) (onz C n 0) (onz S n 0)) as Q. cbv zeta in Q. rewrite Z2Nat.id in Q by lia. rewrite Q; [reflexivity|reflexivity|apply RM|apply RW].
    - pose proof (acc_term_ok X Y Z (okf (onz C)) (okf (onz S)) (okf VX) (okf WX) (Z.to_nat n) (Z.to_nat (m - 1)) (onz C n m) (onz S n m)) as Q. cbv zeta in Q. replace (Datatypes.S (Z.to_nat (m - 1))) with (Z.to_nat m) in Q by lia. rewrite !Z2Nat.id in Q by lia. rewrite Q; [reflexivity|lia|reflexivity|reflexivity|apply RM|apply RW].
  Qed.
End Exact.

(** ** magnitudes *)
Definition size (r : R) (n : nat) : R := sqrt (INR (2 * n + 1)) / r ^ (n + 1).
Definition gam : R := / 2 ^ 200.
Definition mags (C S : nat -> nat -> R) (r : R) : leaf -> R :=
  fun l => match l with LC n m => Rabs (C (Z.to_nat n) (Z.to_nat m)) + gam | LS n m => Rabs (S (Z.to_nat n) (Z.to_nat m)) + gam | LM n _ | LW n _ => size r (Z.to_nat n) end.
Lemma gam_pos : 0 < gam. Proof. apply Rinv_0_lt_compat, pow_lt. lra. Qed.
Lemma size_low r n : 0 < r <= 8 -> (n <= 200)%nat -> (/ 2) ^ 603 <= size r n.
Proof.
  intros H N. unfold size. assert (S1 : 1 <= sqrt (INR (2 * n + 1))). { rewrite <- sqrt_1. apply sqrt_le_1; [lra|apply pos_INR|]. apply (le_INR 1). lia. }
  assert (P : 0 < r ^ (n + 1)) by (apply pow_lt; lra). apply Rle_trans with (/ r ^ (n + 1)); [|unfold Rdiv; rewrite <- (Rmult_1_l (/ r ^ (n + 1))) at 1; apply Rmult_le_compat_r; [left; apply Rinv_0_lt_compat; exact P|exact S1]].
  rewrite pow_inv. apply Rinv_le_contravar; [exact P|]. apply Rle_trans with (8 ^ (n + 1)); [apply pow_incr; lra|]. apply Rle_trans with (8 ^ 201); [apply Rle_pow; [lra|lia]|].
  replace 8 with (2 ^ 3) by lra. rewrite <- pow_mult. apply Rle_pow; [lra|cbn; lia].
Qed.
Lemma function_size X Y Z n m : 0 < X * X + Y * Y + Z * Z -> (m <= n)%nat -> Rabs (Vn n m X Y Z) <= size (rad X Y Z) n /\ Rabs (Wn n m X Y Z) <= size (rad X Y Z) n.
Proof.
  intros P H. assert (R0 : 0 < rad X Y Z) by (unfold rad; apply sqrt_lt_R0; exact P). destruct (spherical_exists X Y Z) as (th & l & EX & EY & EZ). pose proof (spherical n m (rad X Y Z) th l R0) as (A & B). rewrite <- EX, <- EY, <- EZ in A, B. rewrite A, B.
  pose proof (Pbar_bound n m th H) as PB. pose proof (pow_lt _ (n + 1) R0) as G. assert (G' : 0 < / rad X Y Z ^ (n + 1)) by (apply Rinv_0_lt_compat; exact G). unfold size, Rdiv. rewrite !Rabs_mult, (Rabs_right (/ rad X Y Z ^ (n + 1))) by lra.
  assert (c1 : Rabs (cos (INR m * l)) <= 1) by (apply Rabs_le; apply COS_bound). assert (s1 : Rabs (sin (INR m * l)) <= 1) by (apply Rabs_le; apply SIN_bound). pose proof (Rabs_pos (Pbar n m th)) as P0. pose proof (Rabs_pos (cos (INR m * l))) as P1. pose proof (Rabs_pos (sin (INR m * l))) as P2.
  split; (apply Rmult_le_compat_r; [lra|]).
  - apply Rle_trans with (Rabs (Pbar n m th) * 1); [apply Rmult_le_compat_l; assumption|lra].
  - apply Rle_trans with (Rabs (Pbar n m th) * 1); [apply Rmult_le_compat_l; assumption|lra].
Qed.

(** ** the leaves *)
Section Leaves.
  Variables (rx ry rz Re : R) (degree order : nat) (C S M W : nat -> nat -> R).
  Let X := rx / Re. Let Y := ry / Re. Let Z := rz / Re. Let r := rad X Y Z.
  Hypothesis Hr : / 2 <= r <= 8.
  Hypothesis HD : (degree <= 198)%nat.
  Hypothesis HO : (order <= degree)%nat.
  Hypothesis RUN : basis_run rx ry rz Re degree order M W.
  Notation tv := (leaves C S (fun n m => Vn n m X Y Z) (fun n m => Wn n m X Y Z)).
  Notation val := (leaves C S M W).
  Notation ml := (mags C S r).
  Definition unitc (n : nat) : R := 210 * INR (n + 1) ^ 2.
  Lemma away_r : 0 < X * X + Y * Y + Z * Z.
  Proof. apply Rnot_le_lt. intros L. assert (E : r = 0) by (unfold r, rad; apply sqrt_neg_0, L). lra. Qed.
  Lemma coefficient_fine c x : bd (INR 0 * c) (Rabs x + gam) x x /\ (/ 2) ^ 200 <= Rabs x + gam.
  Proof.
    pose proof gam_pos as G. pose proof (Rabs_pos x). split; [split; [lra|]|unfold gam; rewrite pow_inv; fold gam; unfold gam in *; lra]. rewrite Rminus_diag_eq, Rabs_R0 by reflexivity. cbn [INR]. lra.
  Qed.
  Lemma fine_C c n m : fine val tv ml c (LC n m). Proof. unfold fine. cbn [own depth mags leaves]. apply coefficient_fine. Qed.
  Lemma fine_S c n m : fine val tv ml c (LS n m). Proof. unfold fine. cbn [own depth mags leaves]. apply coefficient_fine. Qed.
  Lemma fine_M n m : (0 <= m <= n)%Z -> (Z.to_nat n <= degree + 2)%nat -> (Z.to_nat m <= order + 1 \/ m = n /\ Z.to_nat m = order + 2)%nat -> fine val tv ml (unitc (Z.to_nat n)) (LM n m) /\ fine val tv ml (unitc (Z.to_nat n)) (LW n m).
  Proof.
    intros H1 H2 H3. pose proof (size_low r (Z.to_nat n) ltac:(lra) ltac:(lia)) as L. pose proof (function_size X Y Z (Z.to_nat n) (Z.to_nat m) away_r ltac:(lia)) as (F1 & F2).
    destruct (basis_error rx ry rz Re degree order M W Hr ltac:(lia) ltac:(lia) RUN (Z.to_nat n) (Z.to_nat m) ltac:(lia) ltac:(lia)) as (E1 & E2). fold X Y Z r in E1, E2, F1, F2. fold r in F1, F2.
    unfold fine. cbn [own depth mags leaves INR]. unfold bd. rewrite Rmult_1_l. unfold unitc, size in *.
    replace (210 * INR (Z.to_nat n + 1) ^ 2 * u * (sqrt (INR (2 * Z.to_nat n + 1)) / r ^ (Z.to_nat n + 1))) with (210 * INR (Z.to_nat n + 1) ^ 2 * sqrt (INR (2 * Z.to_nat n + 1)) * u / r ^ (Z.to_nat n + 1)) by (unfold Rdiv; ring).
    repeat split; assumption.
  Qed.
  (** ** the terms *)
  Open Scope Z_scope.
  Lemma weights_pos a b : 1 <= a -> 1 <= b -> 1 <= a * b. Proof. nia. Qed.
  Ltac ints := repeat first [lia|apply weights_pos].
  Lemma acc_good i n m : 0 <= m <= n -> n <= Z.of_nat degree -> m <= Z.of_nat order -> good val tv ml (unitc (Z.to_nat (n + 1))) (part1 i (acc_ex n m)).
  Proof.
    intros H1 H2 H3. assert (FM : forall k, 0 <= k <= m + 1 -> fine val tv ml (unitc (Z.to_nat (n + 1))) (LM (n + 1) k) /\ fine val tv ml (unitc (Z.to_nat (n + 1))) (LW (n + 1) k)) by (intros k Hk; apply fine_M; lia).
    unfold acc_ex. destruct (Z.eqb_spec m 0) as [-> |]; destruct i as [|[|i]]; cbn [part1 good]; repeat match goal with |- _ /\ _ => split end; first [lia|apply fine_C|apply fine_S|apply FM; lia|ints].
  Qed.
  Lemma grad_good i n m : order = degree -> 0 <= m <= n -> n <= Z.of_nat degree -> good val tv ml (unitc (Z.to_nat (n + 2))) (part2 i (grad_ex n m)).
  Proof.
    intros H0 H1 H2. assert (FM : forall k, 0 <= k <= m + 2 -> fine val tv ml (unitc (Z.to_nat (n + 2))) (LM (n + 2) k) /\ fine val tv ml (unitc (Z.to_nat (n + 2))) (LW (n + 2) k)) by (intros k Hk; apply fine_M; lia).
    unfold grad_ex. destruct (Z.eqb_spec m 0) as [-> |]; [|destruct (Z.eqb_spec m 1) as [-> |]]; destruct i as [|[|[|[|[|i]]]]]; cbn [part2 good]; repeat match goal with |- _ /\ _ => split end; first [lia|apply fine_C|apply fine_S|apply FM; lia|ints].
  Qed.
End Leaves.
Lemma acc_counts i n m : (cl (part1 i (acc_ex n m)) <= 1 /\ cn (part1 i (acc_ex n m)) <= 16 /\ cx (part1 i (acc_ex n m)) <= 806)%nat.
Proof. unfold acc_ex. destruct (Z.eqb_spec m 0); destruct i as [|[|i]]; cbn [part1 cl cn cx own depth]; repeat split; apply Nat.leb_le; reflexivity. Qed.
Lemma grad_counts i n m : (cl (part2 i (grad_ex n m)) <= 1 /\ cn (part2 i (grad_ex n m)) <= 18 /\ cx (part2 i (grad_ex n m)) <= 806)%nat.
Proof. unfold grad_ex. destruct (Z.eqb_spec m 0); [|destruct (Z.eqb_spec m 1)]; destruct i as [|[|[|[|[|i]]]]]; cbn [part2 cl cn cx own depth]; repeat split; apply Nat.leb_le; reflexivity. Qed.
