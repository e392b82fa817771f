From Coq Require Import Reals ZArith List Bool Lia Lra.
From Verif Require Import Base FlModel FlProofs AlfSpec AlfMath CunSpec CunMath CunMath2 CunModel CunReady CunProofs CunProofs2 CunProofs3 CunProofs4 CunProofs5 CunProofs6 CunProofs7 FlAlfModel FlAlfProofs FlCunModel FlCunProofs6 FlCunProofs7 FlGravModel FlGravSpec FlGravProofs FlGravProofs2 FlGravProofs3 FlGravProofs4.
Import ListNotations.
Open Scope R_scope.

Lemma eval_exact val e : eval val e (exact val e).
Proof.
  induction e; cbn [eval exact]; try reflexivity.
  - exists (sqrt (IZR p)). split; [apply near_exact|]. destruct k; cbn [weight_of]; [reflexivity| |]; exists (sqrt 2); split; apply near_exact.
  - exists (IZR p / IZR q). split; apply near_exact.
  - rewrite Ropp_involutive. exact IHe.
  - exists (exact val e1), (exact val e2). repeat split; try assumption; apply near_exact.
  - exists (exact val e1), (exact val e2). repeat split; try assumption; apply near_exact.
  - exists (exact val e1), (exact val e2). repeat split; try assumption; apply near_exact.
Qed.
Lemma sum_exact val l s : exists v, sum_run val l s v.
Proof. revert s. induction l as [|e l IH]; intros s; [exists s; reflexivity|]. destruct (IH (s + exact val e)) as (v & H). exists v, (exact val e), (s + exact val e). split; [apply eval_exact|]. split; [apply near_exact|exact H]. Qed.
Lemma component_exists val k f l : exists v, component_run val k f l v.
Proof. destruct (sum_exact val (map f l) 0) as (s & H). exists (s * k), s. split; [exact H|apply near_exact]. Qed.
Lemma acceleration_exists rx ry rz GM Re D O C S : 0 < rx / Re * (rx / Re) + ry / Re * (ry / Re) + rz / Re * (rz / Re) -> exists a, acceleration_run rx ry rz GM Re D O C S a.
Proof.
  intros P. pose proof (exact_run rx ry rz Re D O P) as B. set (M := fun n m => Vn n m _ _ _) in B. set (W := fun n m => Wn n m _ _ _) in B. set (k := GM / (2 * Re * Re)).
  destruct (component_exists (leaves C S M W) k (fun p => part1 0 (acc_ex (fst p) (snd p))) (positions (Z.of_nat D) (Z.of_nat O))) as (x & X). destruct (component_exists (leaves C S M W) k (fun p => part1 1 (acc_ex (fst p) (snd p))) (positions (Z.of_nat D) (Z.of_nat O))) as (y & Y). destruct (component_exists (leaves C S M W) k (fun p => part1 2 (acc_ex (fst p) (snd p))) (positions (Z.of_nat D) (Z.of_nat O))) as (z & Z).
  exists (fun i => match i with 0 => x | 1 => y | _ => z end%nat), M, W, k. split; [exact B|]. split; [exists (2 * Re), (2 * Re * Re); repeat split; apply near_exact|]. intros i Hi. destruct i as [|[|[|i]]]; [exact X|exact Y|exact Z|lia].
Qed.
Lemma gradient_exists rx ry rz GM Re D O C S : 0 < rx / Re * (rx / Re) + ry / Re * (ry / Re) + rz / Re * (rz / Re) -> exists g, gradient_run rx ry rz GM Re D O C S g.
Proof.
  intros P. pose proof (exact_run rx ry rz Re D O P) as B. set (M := fun n m => Vn n m _ _ _) in B. set (W := fun n m => Wn n m _ _ _) in B. set (k := GM / (4 * Re * Re * Re)).
  assert (X : forall i, exists v, component_run (leaves C S M W) k (fun p => part2 i (grad_ex (fst p) (snd p))) (positions (Z.of_nat D) (Z.of_nat O)) v) by (intros; apply component_exists).
  destruct (X 0%nat) as (x0 & X0). destruct (X 1%nat) as (x1 & X1). destruct (X 2%nat) as (x2 & X2). destruct (X 3%nat) as (x3 & X3). destruct (X 4%nat) as (x4 & X4). destruct (X 5%nat) as (x5 & X5).
  exists (fun i => match i with 0 => x0 | 1 => x1 | 2 => x2 | 3 => x3 | 4 => x4 | _ => x5 end%nat), M, W, k. split; [exact B|]. split; [exists (4 * Re), (4 * Re * Re), (4 * Re * Re * Re); repeat split; apply near_exact|]. intros i Hi. destruct i as [|[|[|[|[|[|i]]]]]]; try assumption; lia.
Qed.

Lemma many D O : (O <= D)%nat -> (D <= 198)%nat -> (9000000 + 1.01 * INR (length (positions (Z.of_nat D) (Z.of_nat O)))) * u <= / 10000 /\
  forall p, In p (positions (Z.of_nat D) (Z.of_nat O)) -> 0 <= rank (Z.of_nat D) p <= 40000.
Proof.
  intros HO HD. assert (A : forall p, In p (positions (Z.of_nat D) (Z.of_nat O)) -> 0 <= rank (Z.of_nat D) p <= 40000).
  { intros (n, m) I. apply in_positions in I. unfold rank. cbn [fst snd]. split; apply IZR_le; nia. }
  split; [|exact A]. pose proof (positions_rank (Z.of_nat D) ltac:(lia) O ltac:(lia)) as R. pose proof (origin (Z.of_nat D) (Z.of_nat O) ltac:(lia)) as I0. destruct (positions (Z.of_nat D) (Z.of_nat O)) as [|p l]; [destruct I0|]. destruct R as (R & _). pose proof (A p (or_introl eq_refl)) as B.
  pose proof u_small as U. apply Rle_trans with (10000000 * / 1000000000000000); [|lra]. apply Rmult_le_compat; try lra. pose proof (pos_INR (length (p :: l))). lra.
Qed.
Lemma unit_range n : (n <= 200)%nat -> 0 <= unitc n <= 8500000.
Proof.
  intros H. unfold unitc. pose proof (pos_INR (n + 1)) as P. assert (L : INR (n + 1) <= 201) by (replace 201 with (INR 201) by (cbn; lra); apply le_INR; lia). assert (0 <= INR (n + 1) ^ 2 <= 201 * 201) by (cbn [pow]; rewrite Rmult_1_r; split; [apply Rmult_le_pos; lra|apply Rmult_le_compat; lra]). lra.
Qed.

Section Result.
  Variables (rx ry rz GM Re : R) (D O : nat) (C S : nat -> nat -> R).
  Let X := rx / Re. Let Y := ry / Re. Let Z := rz / Re. Let r := rad X Y Z.
  Hypothesis Hr : / 2 <= r <= 8.
  Hypothesis HD : (D <= 198)%nat.
  Hypothesis HO : (O <= D)%nat.
  Hypothesis H1 : (1 <= O \/ D = 0)%nat.
  Hypothesis HG : / 2 ^ 60 <= GM.
  Hypothesis HR : 1 <= Re <= 2 ^ 30.
  Notation l := (positions (Z.of_nat D) (Z.of_nat O)).
  Notation tv := (leaves C S (fun n m => Vn n m X Y Z) (fun n m => Wn n m X Y Z)).
  Notation ml := (mags C S r).
  Section Generic.
    Variables (M W : nat -> nat -> R) (f : BinNums.Z * BinNums.Z -> ex) (sh : BinNums.Z) (N : nat).
    Hypothesis SH : (1 <= sh <= 2)%Z.
    Hypothesis NN : (N <= 18)%nat.
    Hypothesis GOOD : forall p, In p l -> good (leaves C S M W) tv ml (unitc (Z.to_nat (fst p + sh))) (f p) /\ (cl (f p) <= 1 /\ cn (f p) <= N /\ cx (f p) <= 806)%nat.
    Definition units (p : BinNums.Z * BinNums.Z) : R := unitc (Z.to_nat (fst p + sh)) + 1.01 * INR N.
    Lemma elements : Forall (element (leaves C S M W) f (fun p => exact tv (f p)) (fun p => mag ml (f p)) units 9000000) l.
    Proof.
      apply Forall_forall. intros p I. destruct (GOOD p I) as (G & L1 & L2 & L3). destruct p as (n, m). pose proof (in_positions _ _ _ _ I) as B. unfold element, units. cbv beta. cbn [fst snd] in *. set (c0 := unitc (Z.to_nat (n + sh))) in *.
      destruct (unit_range (Z.to_nat (n + sh)) ltac:(lia)) as (U1 & U2). fold c0 in U1, U2. assert (IN : 0 <= INR N <= 18) by (split; [apply pos_INR|replace 18 with (INR 18) by (cbn; lra); apply le_INR, NN]).
      assert (K : ck c0 (f (n, m)) <= c0 + 1.01 * INR N). { unfold ck. apply le_INR in L1, L2. cbn [INR] in L1. apply Rplus_le_compat; [|apply Rmult_le_compat_l; lra]. rewrite <- (Rmult_1_l c0) at 2. apply Rmult_le_compat_r; lra. }
      assert (V : forall t, eval (leaves C S M W) (f (n, m)) t -> bd (c0 + 1.01 * INR N) (mag ml (f (n, m))) (exact tv (f (n, m))) t).
      { intros t T. apply (bd_le (ck c0 (f (n, m)))); [exact K|]. apply (expression_error (leaves C S M W) tv ml c0 U1); [exact G|lra|lia|exact T]. }
      split; [exists (cx (f (n, m))); split; [exact L3|apply (low (leaves C S M W) tv ml c0); exact G]|]. split; [lra|]. split; [|exact V]. apply (V _ (eval_exact _ _)).
    Qed.
    Lemma component_bound k0 kv v : bd 6 k0 k0 kv -> (/ 2) ^ 152 <= k0 -> component_run (leaves C S M W) kv f l v ->
      Rabs (v - rs (fun p => exact tv (f p)) l * k0) <= u * k0 * rs (fun p => (units p + 1.01 * rank (Z.of_nat D) p + 7.6) * mag ml (f p)) l.
    Proof.
      intros K K0 H. destruct (many D O HO HD) as (A & B). apply (component _ _ _ _ _ 9000000 (rank (Z.of_nat D)) l k0 kv v (0, 0)%Z elements); try assumption; [apply positions_rank; lia| |apply origin; lia].
      intros (n, m) I. pose proof (B _ I) as Rk. pose proof (proj1 (Forall_forall _ _) elements _ I) as (_ & Un & _). split; lra.
    Qed.
  End Generic.
  Lemma rs_all F G : (forall n m, (m <= n)%nat -> (n <= D)%nat -> (m <= O)%nat -> F (Z.of_nat n, Z.of_nat m) = G n m) -> rs F l = upto_sum (fun n => upto_sum (fun m => G n m) (min n O)) D.
  Proof.
    intros H. apply (sum_as D O F G ltac:(lia)). intros n m I. apply in_positions in I. apply H; lia.
  Qed.
  Lemma rs_all_le F G : (forall n m, (m <= n)%nat -> (n <= D)%nat -> (m <= O)%nat -> F (Z.of_nat n, Z.of_nat m) <= G n m) -> rs F l <= upto_sum (fun n => upto_sum (fun m => G n m) (min n O)) D.
  Proof.
    intros H. rewrite <- (rs_all (fun p => G (Z.to_nat (fst p)) (Z.to_nat (snd p))) G) by (intros; cbn [fst snd]; rewrite !Nat2Z.id; reflexivity). apply rs_le. intros (n, m) I. apply in_positions in I. cbn [fst snd]. specialize (H (Z.to_nat n) (Z.to_nat m)). rewrite !Z2Nat.id in H by lia. apply H; lia.
  Qed.
  Lemma away_r' : 0 < X * X + Y * Y + Z * Z.
  Proof. apply Rnot_le_lt. intros L. assert (E : r = 0) by (unfold r, rad; apply sqrt_neg_0, L). lra. Qed.
  Notation field := (field_c C S D O).
  Definition dir (i : nat) : kind * nat * nat -> comb := match i with 0%nat => dxn | 1%nat => dyn | _ => dzn end.
  Theorem acceleration_bound a i : (i < 3)%nat -> acceleration_run rx ry rz GM Re D O C S a ->
    Rabs (a i - GM / Re / Re * evn (dc (dir i) field) X Y Z) <= u * (GM / Re ^ 2) * acceleration_error r D O C S.
  Proof.
    intros Hi (M & W & k & RUN & SC & H). specialize (H i Hi). destruct (scale2_bd GM Re k HG HR SC) as (K & K0). set (k0 := GM / (2 * Re * Re)) in *.
    pose proof (component_bound M W (fun p => part1 i (acc_ex (fst p) (snd p))) 1 16 ltac:(lia) ltac:(lia)) as B. 
    assert (B1 := B ltac:(intros (n, m) I; apply in_positions in I; cbn [fst snd]; split; [apply (acc_good rx ry rz Re D O C S M W Hr HD HO RUN); lia|apply acc_counts]) k0 k (a i) K K0 H). clear B. cbv beta in B1.
    assert (E : rs (fun p => exact tv (part1 i (acc_ex (fst p) (snd p)))) l * k0 = GM / Re / Re * evn (dc (dir i) field) X Y Z).
    { rewrite (rs_all _ (fun n m => 2 * d1 X Y Z (dir i) (C n m) (S n m) n m)).
      - rewrite field_d1. assert (RE : Re <> 0) by lra. transitivity (GM / Re / Re * upto_sum (fun n => upto_sum (fun m => d1 X Y Z (dir i) (C n m) (S n m) n m) (min n O)) D); [|reflexivity]. rewrite (upto_ext _ (fun n => 2 * upto_sum (fun m => d1 X Y Z (dir i) (C n m) (S n m) n m) (min n O))) by (intros; apply upto_scal). rewrite upto_scal. unfold k0. field. exact RE.
      - intros n m A1 A2 A3. cbn [fst snd]. rewrite acc_form, acc_exact by lia. unfold onz. rewrite !Nat2Z.id. destruct i as [|[|[|i]]]; try lia; reflexivity. }
    rewrite E in B1. eapply Rle_trans; [exact B1|]. clear B1 E. assert (U0 : 0 <= u) by (pose proof u_pos; lra). assert (G0 : 0 <= GM) by (pose proof (Rinv_0_lt_compat _ (pow_lt 2 60 ltac:(lra))); lra).
    assert (EK : u * (GM / Re ^ 2) = u * k0 * 2) by (unfold k0; field; lra). rewrite EK. rewrite (Rmult_assoc (u * k0)). apply Rmult_le_compat_l; [pose proof (half_pos 152); apply Rmult_le_pos; lra|].
    unfold acceleration_error. rewrite <- upto_scal. rewrite (upto_ext _ (fun n => upto_sum (fun m => 2 * ((217 * INR (n + 2) ^ 2 + 1.01 * INR (m * D)) * (2 * INR (n + 1)) * (sqrt (INR (2 * n + 1)) / r ^ (n + 2)) * coefficient C S n m)) (min n O))) by (intros; symmetry; apply upto_scal).
    apply rs_all_le. intros n m A1 A2 A3. unfold units. cbn [fst snd]. pose proof (acc_mag C S r ltac:(lra) i (Z.of_nat n) (Z.of_nat m) ltac:(lia)) as MG.
    replace (Z.to_nat (Z.of_nat n + 1)) with (n + 1)%nat in * by lia. pose proof (ratio_size r ltac:(lra) n 1) as RS. replace (2 * Z.of_nat n + 2 * Z.of_nat 1 + 1)%Z with (2 * Z.of_nat n + 3)%Z in RS by lia. replace (n + 1 + 1)%nat with (n + 2)%nat in * by lia.
    unfold both in MG. rewrite !Nat2Z.id in MG. fold (coefficient C S n m) in MG. set (co := coefficient C S n m) in *. set (ff := sqrt (IZR (2 * Z.of_nat n + 1) / _)) in *. set (sz := size r (n + 1)) in *.
    assert (EM : co * (4 * IZR (Z.of_nat n + 1) * sz) * ff = 2 * ((2 * INR (n + 1)) * (sqrt (INR (2 * n + 1)) / r ^ (n + 2)) * co)). { rewrite <- RS. replace (IZR (Z.of_nat n + 1)) with (INR (n + 1)) by (rewrite <- Z_INR; f_equal; lia). ring. }
    rewrite EM in MG. set (mg := mag ml _) in *. set (b := 2 * INR (n + 1) * (sqrt (INR (2 * n + 1)) / r ^ (n + 2)) * co) in *.
    assert (L0 : 0 <= mg). { pose proof (low (leaves C S M W) tv ml (unitc (n + 1)) (part1 i (acc_ex (Z.of_nat n) (Z.of_nat m)))) as L. replace (n + 1)%nat with (Z.to_nat (Z.of_nat n + 1)) in L by lia. specialize (L ltac:(apply (acc_good rx ry rz Re D O C S M W Hr HD HO RUN); lia)). eapply Rle_trans; [left; apply half_pos|exact L]. }
    replace (2 * ((217 * INR (n + 2) ^ 2 + 1.01 * INR (m * D)) * (2 * INR (n + 1)) * (sqrt (INR (2 * n + 1)) / r ^ (n + 2)) * co)) with ((217 * INR (n + 2) ^ 2 + 1.01 * INR (m * D)) * (2 * b)) by (unfold b; ring).
    assert (P2 : 0 <= INR (n + 2) ^ 2) by apply pow2_ge_0. assert (KK : unitc (n + 1) + 1.01 * INR 16 + 1.01 * rank (Z.of_nat D) (Z.of_nat n, Z.of_nat m) + 7.6 <= 217 * INR (n + 2) ^ 2 + 1.01 * INR (m * D)).
    { unfold unitc, rank. cbn [fst snd]. replace (n + 1 + 1)%nat with (n + 2)%nat by lia. replace (INR 16) with 16 by (cbn; lra). rewrite !plus_IZR, mult_IZR, !Z_INR, mult_INR. pose proof (pos_INR n). rewrite (plus_INR n 2). replace (INR 2) with 2 by (cbn; lra). cbn [pow]. nra. }
    apply Rmult_le_compat; try assumption. unfold unitc. rewrite plus_INR. unfold rank. cbn [fst snd]. rewrite !plus_IZR, mult_IZR, !Z_INR. pose proof (pos_INR n). pose proof (pos_INR m). pose proof (pos_INR D). assert (0 <= INR m * INR D) by (apply Rmult_le_pos; assumption). pose proof (pow2_ge_0 (INR (n + 1) + INR 1)). pose proof (pos_INR 16). lra.
  Qed.
  Definition dir1 (i : nat) : kind * nat * nat -> comb := match i with 0%nat | 1%nat | 2%nat => dxn | 3%nat | 4%nat => dyn | _ => dzn end.
  Definition dir2 (i : nat) : kind * nat * nat -> comb := match i with 0%nat => dxn | 1%nat | 3%nat => dyn | _ => dzn end.
  Theorem gradient_bound g i : O = D -> (i < 6)%nat -> gradient_run rx ry rz GM Re D O C S g ->
    Rabs (g i - GM / Re / Re / Re * evn (dc (dir2 i) (dc (dir1 i) field)) X Y Z) <= u * (GM / Re ^ 3) * gradient_error r D O C S.
  Proof.
    intros HE Hi (M & W & k & RUN & SC & H). specialize (H i Hi). destruct (scale3_bd GM Re k HG HR SC) as (K & K0). set (k0 := GM / (4 * Re * Re * Re)) in *.
    pose proof (component_bound M W (fun p => part2 i (grad_ex (fst p) (snd p))) 2 18 ltac:(lia) ltac:(lia)) as B. 
    assert (B1 := B ltac:(intros (n, m) I; apply in_positions in I; cbn [fst snd]; split; [apply (grad_good rx ry rz Re D O C S M W Hr HD HO RUN); lia|apply grad_counts]) k0 k (g i) K K0 H). clear B. cbv beta in B1.
    assert (E : rs (fun p => exact tv (part2 i (grad_ex (fst p) (snd p)))) l * k0 = GM / Re / Re / Re * evn (dc (dir2 i) (dc (dir1 i) field)) X Y Z).
    { rewrite (rs_all _ (fun n m => 4 * d2 X Y Z (dir1 i) (dir2 i) (C n m) (S n m) n m)).
      - rewrite field_d2. assert (RE : Re <> 0) by lra. rewrite (upto_ext _ (fun n => 4 * upto_sum (fun m => d2 X Y Z (dir1 i) (dir2 i) (C n m) (S n m) n m) (min n O))) by (intros; apply upto_scal). rewrite upto_scal. unfold k0. field. exact RE.
      - intros n m A1 A2 A3. cbn [fst snd]. rewrite grad_form. pose proof (exact_terms (V3 rx ry rz) D O Re (onz C) (onz S) (Z.of_nat n) (Z.of_nat m) ltac:(lia)) as Q. cbn [vx vy vz] in Q. fold X Y Z in Q. rewrite Q. clear Q. unfold onz. rewrite !Nat2Z.id. destruct i as [|[|[|[|[|[|i]]]]]]; try lia; reflexivity. }
    rewrite E in B1. eapply Rle_trans; [exact B1|]. clear B1 E. assert (U0 : 0 <= u) by (pose proof u_pos; lra). assert (G0 : 0 <= GM) by (pose proof (Rinv_0_lt_compat _ (pow_lt 2 60 ltac:(lra))); lra).
    assert (EK : u * (GM / Re ^ 3) = u * k0 * 4) by (unfold k0; field; lra). rewrite EK. rewrite (Rmult_assoc (u * k0)). apply Rmult_le_compat_l; [pose proof (half_pos 152); apply Rmult_le_pos; lra|].
    unfold gradient_error. rewrite <- upto_scal. rewrite (upto_ext _ (fun n => upto_sum (fun m => 4 * ((213 * INR (n + 3) ^ 2 + 1.01 * INR (m * D)) * (4 * INR (n + 1) * INR (n + 2)) * (sqrt (INR (2 * n + 1)) / r ^ (n + 3)) * coefficient C S n m)) (min n O))) by (intros; symmetry; apply upto_scal).
    apply rs_all_le. intros n m A1 A2 A3. unfold units. cbn [fst snd]. pose proof (grad_mag C S r ltac:(lra) i (Z.of_nat n) (Z.of_nat m) ltac:(lia)) as MG.
    replace (Z.to_nat (Z.of_nat n + 2)) with (n + 2)%nat in * by lia. pose proof (ratio_size r ltac:(lra) n 2) as RS. replace (2 * Z.of_nat n + 2 * Z.of_nat 2 + 1)%Z with (2 * Z.of_nat n + 5)%Z in RS by lia. replace (n + 2 + 1)%nat with (n + 3)%nat in * by lia.
    unfold both in MG. rewrite !Nat2Z.id in MG. fold (coefficient C S n m) in MG. set (co := coefficient C S n m) in *. set (ff := sqrt (IZR (2 * Z.of_nat n + 1) / _)) in *. set (sz := size r (n + 2)) in *.
    assert (EM : co * (16 * IZR ((Z.of_nat n + 1) * (Z.of_nat n + 2)) * sz) * ff = 4 * ((4 * INR (n + 1) * INR (n + 2)) * (sqrt (INR (2 * n + 1)) / r ^ (n + 3)) * co)). { rewrite <- RS. rewrite mult_IZR. replace (IZR (Z.of_nat n + 1)) with (INR (n + 1)) by (rewrite <- Z_INR; f_equal; lia). replace (IZR (Z.of_nat n + 2)) with (INR (n + 2)) by (rewrite <- Z_INR; f_equal; lia). ring. }
    rewrite EM in MG. set (mg := mag ml _) in *. set (b := 4 * INR (n + 1) * INR (n + 2) * (sqrt (INR (2 * n + 1)) / r ^ (n + 3)) * co) in *.
    assert (L0 : 0 <= mg). { pose proof (low (leaves C S M W) tv ml (unitc (n + 2)) (part2 i (grad_ex (Z.of_nat n) (Z.of_nat m)))) as L. replace (n + 2)%nat with (Z.to_nat (Z.of_nat n + 2)) in L by lia. specialize (L ltac:(apply (grad_good rx ry rz Re D O C S M W Hr HD HO RUN); lia)). eapply Rle_trans; [left; apply half_pos|exact L]. }
    replace (4 * ((213 * INR (n + 3) ^ 2 + 1.01 * INR (m * D)) * (4 * INR (n + 1) * INR (n + 2)) * (sqrt (INR (2 * n + 1)) / r ^ (n + 3)) * co)) with ((213 * INR (n + 3) ^ 2 + 1.01 * INR (m * D)) * (4 * b)) by (unfold b; ring).
    assert (P2 : 0 <= INR (n + 3) ^ 2) by apply pow2_ge_0. assert (KK : unitc (n + 2) + 1.01 * INR 18 + 1.01 * rank (Z.of_nat D) (Z.of_nat n, Z.of_nat m) + 7.6 <= 213 * INR (n + 3) ^ 2 + 1.01 * INR (m * D)).
    { unfold unitc, rank. cbn [fst snd]. replace (n + 2 + 1)%nat with (n + 3)%nat by lia. replace (INR 18) with 18 by (cbn; lra). rewrite !plus_IZR, mult_IZR, !Z_INR, mult_INR. pose proof (pos_INR n). rewrite (plus_INR n 3). replace (INR 3) with 3 by (cbn; lra). cbn [pow]. nra. }
    apply Rmult_le_compat; try assumption. unfold unitc. rewrite plus_INR. unfold rank. cbn [fst snd]. rewrite !plus_IZR, mult_IZR, !Z_INR. pose proof (pos_INR n). pose proof (pos_INR m). pose proof (pos_INR D). assert (0 <= INR m * INR D) by (apply Rmult_le_pos; assumption). pose proof (pow2_ge_0 (INR (n + 2) + INR 1)). pose proof (pos_INR 18). lra.
  Qed.
End Result.

(** ** derivatives are unique *)
Definition single (d : (R -> R -> R -> R) -> R -> R -> R -> R -> Prop) : Prop := forall f x y z v w, away x y z -> d f x y z v -> d f x y z w -> v = w.
Lemma single_x : single d_dx. Proof. intros f x y z v w _. apply uniqueness_limite. Qed.
Lemma single_y : single d_dy. Proof. intros f x y z v w _. apply uniqueness_limite. Qed.
Lemma single_z : single d_dz. Proof. intros f x y z v w _. apply uniqueness_limite. Qed.
Lemma interval x q : 0 <= q -> 0 < x * x + q -> exists a b, a < x < b /\ forall s, a < s < b -> 0 < s * s + q.
Proof.
  intros Q P. destruct (Rtotal_order x 0) as [L | [-> | L]].
  - exists (2 * x), 0. split; [lra|]. intros s Hs. nra.
  - exists (-1), 1. split; [lra|]. intros s Hs. nra.
  - exists 0, (2 * x). split; [lra|]. intros s Hs. nra.
Qed.
Lemma single_then_x d : single d -> single (then_dx d).
Proof.
  intros SD f x y z v w A (g1 & G1 & V) (g2 & G2 & W). destruct (interval x (y * y + z * z)) as (a & b & I & J); [nra|unfold away in A; lra|].
  apply (uniqueness_limite (fun s => g2 s y z) x); [|exact W]. apply (derivable_pt_lim_locally_ext (fun s => g1 s y z) _ x a b v I); [|exact V]. intros s Hs. assert (As : away s y z) by (unfold away; specialize (J s Hs); lra). exact (SD f s y z _ _ As (G1 _ _ _ As) (G2 _ _ _ As)).
Qed.
Lemma single_then_y d : single d -> single (then_dy d).
Proof.
  intros SD f x y z v w A (g1 & G1 & V) (g2 & G2 & W). destruct (interval y (x * x + z * z)) as (a & b & I & J); [nra|unfold away in A; lra|].
  apply (uniqueness_limite (fun s => g2 x s z) y); [|exact W]. apply (derivable_pt_lim_locally_ext (fun s => g1 x s z) _ y a b v I); [|exact V]. intros s Hs. assert (As : away x s z) by (unfold away; specialize (J s Hs); lra). exact (SD f x s z _ _ As (G1 _ _ _ As) (G2 _ _ _ As)).
Qed.
Lemma single_then_z d : single d -> single (then_dz d).
Proof.
  intros SD f x y z v w A (g1 & G1 & V) (g2 & G2 & W). destruct (interval z (x * x + y * y)) as (a & b & I & J); [nra|unfold away in A; lra|].
  apply (uniqueness_limite (fun s => g2 x y s) z); [|exact W]. apply (derivable_pt_lim_locally_ext (fun s => g1 x y s) _ z a b v I); [|exact V]. intros s Hs. assert (As : away x y s) by (unfold away; specialize (J s Hs); lra). exact (SD f x y s _ _ As (G1 _ _ _ As) (G2 _ _ _ As)).
Qed.
Lemma away_of x y z Re : 1 <= Re -> / 2 <= rad (x / Re) (y / Re) (z / Re) -> away x y z.
Proof.
  intros HR H. apply Rnot_le_lt. intros L. assert (E : rad (x / Re) (y / Re) (z / Re) = 0).
  { unfold rad. replace (x / Re * (x / Re) + y / Re * (y / Re) + z / Re * (z / Re)) with ((x * x + y * y + z * z) / (Re * Re)) by (field; lra). apply sqrt_neg_0. assert (I : 0 < / (Re * Re)) by (apply Rinv_0_lt_compat; nra). unfold Rdiv. nra. }
  lra.
Qed.
