(** The binary64 evaluation of the Legendre functions is one of the evaluations of FlAlfModel. *)
From Coq Require Import Reals ZArith List Bool Lia Lra Psatz.
From Flocq Require Import Core.Core IEEE754.BinarySingleNaN.
From Verif Require Import KahanModel FundModel FlModel FlProofs FlFloatModel FlFloatProofs FlCip64Proofs PiBound.
From Verif Require Import Poly AlfSpec AlfMath AlfSum AlfStable AlfError AlfGrow FlAlfModel FlAlfProofs FlAlfProofs2.
Open Scope R_scope.

Lemma dsqrt_ok x : fin x -> 0 <= val x -> fin (dsqrt x) /\ near (sqrt (val x)) (val (dsqrt x)).
Proof.
  intros F H. destruct (Bsqrt_correct 53 1024 Hprec Hmax mode_NE x) as (V & G & _). split.
  - unfold fin, dsqrt. rewrite G. destruct x as [s|s| |s m e b]; try reflexivity; try discriminate F. destruct s; [|reflexivity]. exfalso. unfold B2R, F2R in H. cbn [Fnum Fexp cond_Zopp] in H.
    pose proof (bpow_gt_0 radix2 e). assert (IZR (Z.neg m) <= -1) by (apply (IZR_le (Z.neg m) (-1)); lia). cbn [Z.opp] in H. nra.
  - unfold dsqrt. rewrite V. apply rn_near.
Qed.
Lemma ddiv_gen x y : fin x -> Rabs (val x) <= big -> / 2 ^ 59 <= Rabs (val y) -> fin (ddiv x y) /\ near (val x / val y) (val (ddiv x y)).
Proof.
  intros Fx Hx Hy. assert (P : 0 < / 2 ^ 59) by (apply Rinv_0_lt_compat, pow_lt; lra). assert (Y0 : val y <> 0) by (intros Z; rewrite Z, Rabs_R0 in Hy; lra).
  pose proof (Bdiv_correct 53 1024 Hprec Hmax mode_NE x y Y0) as C. change (round radix2 fx (round_mode mode_NE) (val x / val y)) with (rn (val x / val y)) in C. rewrite no_overflow in C.
  - destruct C as (V & F & _). split; [unfold fin, ddiv; rewrite F; exact Fx|]. unfold ddiv. rewrite V. apply rn_near.
  - unfold Rdiv. rewrite Rabs_mult, Rabs_inv. assert (I : / Rabs (val y) <= 2 ^ 59). { rewrite <- (Rinv_inv (2 ^ 59)). apply Rinv_le_contravar; [exact P|exact Hy]. }
    assert (2 ^ 59 <= big) by (unfold big; apply Rle_pow; [lra|apply Nat.leb_le; reflexivity]). apply Rmult_le_compat; [apply Rabs_pos|apply Rlt_le, Rinv_0_lt_compat; lra|exact Hx|lra].
Qed.
Lemma dmul_gen x y : fin x -> fin y -> Rabs (val x) * Rabs (val y) <= big * big -> fin (dmul x y) /\ near (val x * val y) (val (dmul x y)).
Proof.
  intros Fx Fy H. pose proof (Bmult_correct 53 1024 Hprec Hmax mode_NE x y) as C. change (round radix2 fx (round_mode mode_NE) (val x * val y)) with (rn (val x * val y)) in C. rewrite no_overflow in C.
  - destruct C as (V & F & _). split; [unfold fin, dmul; rewrite F; unfold fin in Fx, Fy; rewrite Fx, Fy; reflexivity|]. unfold dmul. rewrite V. apply rn_near.
  - rewrite Rabs_mult. exact H.
Qed.
Lemma big_val : big = 1152921504606846976.
Proof. unfold big. replace (2 ^ 60) with (IZR (2 ^ 60)) by apply (IZR_pow2 60). reflexivity. Qed.
Lemma fit n : (0 <= n < 2 ^ 53)%Z -> fit53 n = true.
Proof. intros H. apply Z.ltb_lt. rewrite Z.abs_eq; lia. Qed.
Lemma root64_ok p q : (0 <= p < 2 ^ 53)%Z -> (1 <= q < 2 ^ 53)%Z -> fin (root64 p q) /\ root_run p q (val (root64 p q)) /\ Rabs (val (root64 p q)) <= 2 ^ 57.
Proof.
  intros Hp Hq. destruct (of_int_ok p (fit p Hp)) as (Fp & Vp). destruct (of_int_ok q (fit q ltac:(lia))) as (Fq & Vq). assert (Q1 : 1 <= IZR q) by (apply (IZR_le 1); lia). assert (P0 : 0 <= IZR p <= 9007199254740992) by (split; apply IZR_le; lia).
  destruct (ddiv_ok (of_int p) (of_int q) Fp ltac:(rewrite Vq; exact Q1)) as (Fd & Nd). { rewrite Vp, Rabs_pos_eq, big_val by lra. lra. }
  rewrite Vp, Vq in Nd. assert (D0 : 0 <= IZR p / IZR q <= IZR p). { split; [apply Rmult_le_pos; [lra|apply Rlt_le, Rinv_0_lt_compat; lra]|]. assert (0 < / IZR q <= 1) by (split; [apply Rinv_0_lt_compat; lra|rewrite <- Rinv_1; apply Rinv_le_contravar; lra]). unfold Rdiv. nra. }
  set (x := ddiv (of_int p) (of_int q)) in *. pose proof u_small as U. pose proof tiny_pos as T. pose proof tiny_small as T2. pose proof (Nd) as Nd'. unfold near in Nd'. rewrite (Rabs_pos_eq (IZR p / IZR q)) in Nd' by lra.
  assert (X0 : 0 <= val x).
  { destruct (Z.eq_dec p 0) as [-> | Zp].
    - unfold x. assert (E : val (ddiv (of_int 0) (of_int q)) = 0).
      { pose proof (Bdiv_correct 53 1024 Hprec Hmax mode_NE (of_int 0) (of_int q) ltac:(rewrite Vq; lra)) as C. rewrite Vp in C. replace (0 / val (of_int q)) with 0 in C by (unfold Rdiv; ring). rewrite round_0, Rabs_R0 in C by apply valid_rnd_N. rewrite Rlt_bool_true in C by apply bpow_gt_0. apply C. }
      rewrite E. lra.
    - assert (L : / 9007199254740992 <= IZR p / IZR q). { assert (1 <= IZR p) by (apply (IZR_le 1); lia). assert (IZR q <= 9007199254740992) by (apply IZR_le; lia). assert (/ 9007199254740992 <= / IZR q) by (apply Rinv_le_contravar; lra). unfold Rdiv. assert (0 < / IZR q) by (apply Rinv_0_lt_compat; lra). nra. }
      set (d := IZR p / IZR q) in *. assert (u * d <= 0.1 * d) by (apply Rmult_le_compat_r; lra). assert (tiny <= 0.1 * / 9007199254740992). { assert (u * 0.001 <= 0.001 * / 1000000000000000) by lra. lra. }
      assert (Rabs (val x - d) <= d) by lra. apply Rabs_le_inv in H1. lra. }
  destruct (dsqrt_ok x Fd X0) as (Fs & Ns). split; [exact Fs|]. split; [exists (val x); split; [exact Nd|exact Ns]|].
  assert (XB : val x <= 2 * 9007199254740992). { set (d := IZR p / IZR q) in *. assert (u * d <= 0.1 * d) by (apply Rmult_le_compat_r; lra). apply Rabs_le_inv in Nd'. lra. }
  assert (SB : 0 <= sqrt (val x) <= val x + 1) by (pose proof (sqrt_pos (val x)); pose proof (sqrt_sqrt (val x) X0); split; nra). change (dsqrt x) with (root64 p q) in *. unfold near in Ns. rewrite (Rabs_pos_eq (sqrt (val x))) in Ns by lra.
  replace (2 ^ 57) with 144115188075855872 by (replace (2 ^ 57) with (IZR (2 ^ 57)) by apply (IZR_pow2 57); reflexivity). assert (u * sqrt (val x) <= 1 * sqrt (val x)) by (apply Rmult_le_compat_r; lra). apply Rabs_le_inv in Ns. apply Rabs_le. lra.
Qed.
Section Bounds.
  Local Open Scope Z_scope.
  Lemma a_fits n m : (m < n <= 1025)%nat -> 0 <= anum n m < 2 ^ 53 /\ 1 <= aden n m < 2 ^ 53.
  Proof. intros H. unfold anum, aden. assert (0 <= Z.of_nat m < Z.of_nat n) by lia. assert (Z.of_nat n <= 1025) by lia. set (x := Z.of_nat n) in *. set (y := Z.of_nat m) in *. nia. Qed.
  Lemma b_fits n m : (m + 1 < n <= 1025)%nat -> 0 <= bnum n m < 2 ^ 53 /\ 1 <= bden n m < 2 ^ 53.
  Proof.
    intros H. unfold bnum, bden. assert (0 <= Z.of_nat m <= Z.of_nat n - 2) by lia. assert (Z.of_nat n <= 1025) by lia. set (x := Z.of_nat n) in *. set (y := Z.of_nat m) in *.
    assert (A : 0 <= (2 * x + 1) * (x + y - 1) <= 2051 * 2050) by nia. assert (B : 0 <= x - y - 1 <= 1025) by lia. assert (C : 1 <= (x - y) * (x + y) <= 1025 * 2050) by nia. assert (D : 1 <= 2 * x - 3 <= 2050) by lia. split; nia.
  Qed.
  Lemma f_fits n m : (m < n <= 1025)%nat -> 0 <= fnum n m < 2 ^ 53 /\ 1 <= fden n m < 2 ^ 53.
  Proof.
    intros H. unfold fnum, fden. assert (0 <= Z.of_nat m < Z.of_nat n) by lia. assert (Z.of_nat n <= 1025) by lia. set (x := Z.of_nat n) in *. set (y := Z.of_nat m) in *. assert (A : 0 <= x * x - y * y <= 1025 * 1025) by nia. split; nia.
  Qed.
  Lemma s_fits m : (m <= 1025)%nat -> 0 <= snum m < 2 ^ 53 /\ 1 <= sden m < 2 ^ 53.
  Proof. intros H. unfold snum, sden. lia. Qed.
End Bounds.

(** std::sin and std::cos with errors of at most two units in the last place *)
Definition good (g : double -> double) (f : R -> R) : Prop := forall x, fin x -> Rabs (val x) <= big -> fin (g x) /\ trig (f (val x)) (val (g x)).
Lemma lib_trig_good f : (forall x, -1 <= f x <= 1) -> good (lib_trig f) f.
Proof.
  intros B x _ _. pose proof (B (val x)) as H. assert (A : Rabs (f (val x)) <= 1) by (apply Rabs_le; lra). destruct (of_real_ok (f (val x))) as [F N]; [pose proof big_ge; lra|].
  split; [exact F|]. unfold near in N. unfold trig, lib_trig. pose proof u_pos. assert (0 <= u * Rabs (f (val x))) by (apply Rmult_le_pos; [lra|apply Rabs_pos]). lra.
Qed.
Lemma two57 : 2 ^ 57 <= big. Proof. unfold big. apply Rle_pow; [lra|apply Nat.leb_le; reflexivity]. Qed.

Section Eval.
  Variables dsin dcos : double -> double.
  Hypothesis Gs : good dsin sin.
  Hypothesis Gc : good dcos cos.
  Variable theta : double.
  Hypothesis Ft : fin theta.
  Hypothesis Ht : Rabs (val theta) <= big.
  Let th := val theta.
  Let c := dcos theta.
  Let t := dsin theta.
  Local Notation P n m := (legendre64 dsin dcos theta n m).
  Local Notation D n m := (derivative64 dsin dcos theta n m).
  Local Notation dg m := (diagonal64 dcos theta m).
  Lemma two_units x v : Rabs x <= 1 -> trig x v -> Rabs v <= 2.
  Proof. intros X H. pose proof u_small. pose proof tiny_pos. pose proof tiny_small. assert (A : appr 2 tiny x v) by exact H. apply appr_abs in A. assert ((1 + 2 * u) * Rabs x <= 1.5 * 1) by (apply Rmult_le_compat; try lra; apply Rabs_pos). lra. Qed.
  Lemma c_ok : fin c /\ trig (cos th) (val c) /\ Rabs (val c) <= 2.
  Proof. destruct (Gc theta Ft Ht) as (A & B). split; [exact A|]. split; [exact B|]. apply (two_units (cos th)); [|exact B]. apply Rabs_le, COS_bound. Qed.
  Lemma t_ok : fin t /\ trig (sin th) (val t) /\ Rabs (val t) <= 2.
  Proof. destruct (Gs theta Ft Ht) as (A & B). split; [exact A|]. split; [exact B|]. apply (two_units (sin th)); [|exact B]. apply Rabs_le, SIN_bound. Qed.
  (** a product of bounded doubles *)
  Lemma mul_ok x y A B : fin x -> fin y -> Rabs (val x) <= A -> Rabs (val y) <= B -> A <= big -> B <= big -> 1 <= A -> 1 <= B -> fin (dmul x y) /\ near (val x * val y) (val (dmul x y)) /\ Rabs (val (dmul x y)) <= 2 * (A * B).
  Proof.
    intros Fx Fy Hx Hy HA HB A1 B1. destruct (dmul_ok x y Fx Fy) as (F & N); [lra|lra|]. split; [exact F|]. split; [exact N|]. pose proof u_small. pose proof tiny_small. pose proof tiny_pos. pose proof (near_appr _ _ N) as Q. apply appr_abs in Q.
    assert (R : Rabs (val x * val y) <= A * B) by (rewrite Rabs_mult; apply Rmult_le_compat; try apply Rabs_pos; assumption). assert (1 <= A * B) by nra. assert ((1 + 1 * u) * Rabs (val x * val y) <= 1.5 * (A * B)) by (apply Rmult_le_compat; try lra; apply Rabs_pos). lra.
  Qed.
  Lemma bounded_by m p N : (N <= 1024)%nat -> (m <= N)%nat -> column_run (val t) m N p -> (m = O -> p O = 1) -> appr (6.1 * INR m) (300 * INR (S m) * tiny) (Pbar m m th) (p m) -> forall n, (m <= n <= N)%nat -> Rabs (p n) <= 100.
  Proof.
    intros HN Hm C P0 Pm n Hn. destruct t_ok as (_ & Tt & _). pose proof tiny_pos as T.
    assert (Q : Rabs (p n - Pbar n m th) <= E n).
    { destruct m as [|m].
      - apply (column_zonal th (val t) N p Tt HN C (P0 eq_refl)). lia.
      - assert (IM : INR (S (S m)) <= 1025) by (replace 1025 with (INR 1025) by (rewrite INR_IZR_INZ; reflexivity); apply le_INR; lia). eapply Rle_trans; [apply (column_order th (val t) (S m) N p ltac:(lia) Tt HN C); [|exact Hn]|].
        + eapply appr_le; [exact Pm|lra|]. assert (INR (S (S m)) * tiny <= 1025 * tiny) by (apply Rmult_le_compat_r; lra). lra.
        + unfold E. pose proof u_pos as U. assert (0 <= INR n ^ 2 * sqrt (INR (2 * n + 1)) * u) by (apply Rmult_le_pos; [apply Rmult_le_pos; [apply pow2_ge_0|apply sqrt_pos]|lra]). lra. }
    pose proof (E_small n ltac:(lia)). pose proof (Pbar_bound n m th ltac:(lia)). pose proof (Y_le n ltac:(lia)). replace (p n) with ((p n - Pbar n m th) + Pbar n m th) by ring. eapply Rle_trans; [apply Rabs_triang|]. lra.
  Qed.
  Lemma small100 : 100 <= big. Proof. rewrite big_val. lra. Qed.

  (** *** the diagonal *)
  Lemma diagonal_bound m M : (m <= 1024)%nat -> (m <= M)%nat \/ (m <= 1)%nat -> diagonal_run (val c) M (fun k => val (dg k)) -> Rabs (val (dg m)) <= 100.
  Proof.
    intros H1 H2 H. destruct c_ok as (_ & Tc & _). assert (A := diagonal th (val c) M (fun k => val (dg k)) Tc H m H2 H1). cbn beta in A. apply appr_abs in A. pose proof u_small as U. pose proof tiny_pos as T. pose proof tiny_small as T2.
    assert (IM : INR m <= 1024) by (replace 1024 with (INR 1024) by (rewrite INR_IZR_INZ; reflexivity); apply le_INR; lia). pose proof (pos_INR m) as I0. rewrite S_INR in A.
    pose proof (Pbar_bound m m th ltac:(lia)) as B. pose proof (Y_le m H1) as Y. assert (INR m * u <= 1024 * / 1000000000000000) by (apply Rmult_le_compat; lra). assert (INR m * tiny <= 1024 * tiny) by (apply Rmult_le_compat_r; lra).
    assert ((1 + 6.1 * INR m * u) * Rabs (Pbar m m th) <= 2 * 46) by (apply Rmult_le_compat; try apply Rabs_pos; try lra; assert (0 <= INR m * u) by (apply Rmult_le_pos; lra); lra). lra.
  Qed.
  Lemma diagonal64_run M : (M <= 1024)%nat -> (forall m, (m <= M)%nat \/ (m <= 1)%nat -> fin (dg m)) /\ diagonal_run (val c) M (fun k => val (dg k)).
  Proof.
    destruct c_ok as (Fc & Tc & Bc). pose proof two57 as T57. pose proof small100 as S100. assert (O1 : fin (of_int 1) /\ val (of_int 1) = 1) by (apply of_int_ok; reflexivity).
    assert (F1 : fin (dg 1) /\ exists s, near (sqrt 3) s /\ near (s * val c) (val (dg 1))).
    { destruct (of_int_ok 3 eq_refl) as (F3 & V3). destruct (dsqrt_ok (of_int 3) F3 ltac:(rewrite V3; lra)) as (Fs & Ns). rewrite V3 in Ns. assert (B3 : Rabs (val (dsqrt (of_int 3))) <= 10).
      { pose proof (near_appr _ _ Ns) as Q. apply appr_abs in Q. pose proof u_small. pose proof tiny_small. assert (0 <= sqrt 3 <= 2) by (split; [apply sqrt_pos|]; replace 2 with (sqrt (2 * 2)) by (apply sqrt_square; lra); apply sqrt_le_1_alt; lra). rewrite (Rabs_pos_eq (sqrt 3)) in Q by lra. assert ((1 + 1 * u) * sqrt 3 <= 2 * 2) by (apply Rmult_le_compat; lra). lra. }
      destruct (mul_ok (dsqrt (of_int 3)) c 10 2 Fs Fc B3 Bc) as (F & N & _); try lra. split; [exact F|]. exists (val (dsqrt (of_int 3))). split; [exact Ns|exact N]. }
    induction M as [|M IH]; intros HM.
    - split; [intros m Hm; assert (Q : m = O \/ m = 1%nat) by lia; destruct Q as [-> | ->]; [apply O1|apply F1]|]. split; [apply O1|]. split; [apply F1|]. intros m Hm. lia.
    - specialize (IH ltac:(lia)). destruct IH as (F & (R0 & R1 & R2)). destruct M as [|M].
      + split; [intros m Hm; apply F; lia|]. split; [exact R0|]. split; [exact R1|]. intros m Hm. lia.
      + assert (RM : diagonal_run (val c) (S M) (fun k => val (dg k))) by (split; [exact R0|split; [exact R1|exact R2]]). pose proof (diagonal_bound (S M) (S M) ltac:(lia) ltac:(lia) RM) as B. pose proof (F (S M) ltac:(lia)) as FM.
        destruct (s_fits (S M) ltac:(lia)) as (H1 & H2). destruct (root64_ok _ _ H1 H2) as (Fr & Rr & Br). destruct (mul_ok c _ 2 (2 ^ 57) Fc Fr Bc Br) as (Fx & Nx & Bx); [rewrite big_val; lra|exact T57|lra|apply pow_R1_Rle; lra|].
        assert (E : dg (S (S M)) = dmul (dmul c (root64 (snum (S M)) (sden (S M)))) (dg (S M))) by reflexivity.
        assert (Bx' : Rabs (val (dmul c (root64 (snum (S M)) (sden (S M))))) <= big). { eapply Rle_trans; [exact Bx|]. replace (2 * (2 * 2 ^ 57)) with (2 ^ 59) by (cbn [pow]; ring). unfold big. apply Rle_pow; [lra|apply Nat.leb_le; reflexivity]. }
        destruct (mul_ok _ (dg (S M)) big 100 Fx FM Bx' B) as (Fy & Ny & _); try lra.
        split.
        * intros m Hm. destruct (Nat.eq_dec m (S (S M))) as [-> | Ne]; [rewrite E; exact Fy|apply F; lia].
        * split; [exact R0|]. split; [exact R1|]. intros m Hm. destruct (Nat.eq_dec m (S M)) as [-> | Ne]; [|apply R2; lia]. exists (val (root64 (snum (S M)) (sden (S M)))), (val (dmul c (root64 (snum (S M)) (sden (S M))))). split; [exact Rr|]. split; [exact Nx|]. rewrite E. exact Ny.
  Qed.

  (** *** the columns *)
  Local Notation col m k := (column64 dsin dcos theta m k).
  Lemma column64_next m k : col m (S (S k)) = let '(p, q) := col m (S k) in let n := (m + S (S k))%nat in (dsub (dmul (dmul (root64 (anum n m) (aden n m)) t) p) (dmul (root64 (bnum n m) (bden n m)) q), p).
  Proof. reflexivity. Qed.
  Lemma column64_snd m k : snd (col m (S k)) = fst (col m k).
  Proof. destruct k as [|k]; [reflexivity|]. rewrite column64_next. destruct (col m (S k)) as [p q]. reflexivity. Qed.
  Lemma P_diag m : P m m = dg m. Proof. unfold legendre64. rewrite Nat.sub_diag. reflexivity. Qed.
  Lemma P_first m : P (S m) m = dmul (dmul (root64 (anum (S m) m) (aden (S m) m)) t) (P m m).
  Proof. rewrite P_diag. unfold legendre64. replace (S m - m)%nat with 1%nat by lia. reflexivity. Qed.
  Lemma P_next n m : (m <= n)%nat -> P (S (S n)) m = dsub (dmul (dmul (root64 (anum (S (S n)) m) (aden (S (S n)) m)) t) (P (S n) m)) (dmul (root64 (bnum (S (S n)) m) (bden (S (S n)) m)) (P n m)).
  Proof.
    intros H. unfold legendre64. replace (S (S n) - m)%nat with (S (S (n - m))) by lia. replace (S n - m)%nat with (S (n - m)) by lia. rewrite column64_next. rewrite <- (column64_snd m (n - m)). replace (m + S (S (n - m)))%nat with (S (S n)) by lia. destruct (col m (S (n - m))) as [p q]. reflexivity.
  Qed.
  Lemma a_t n m : (m < n <= 1025)%nat -> let x := dmul (root64 (anum n m) (aden n m)) t in fin x /\ (exists a, root_run (anum n m) (aden n m) a /\ near (a * val t) (val x)) /\ Rabs (val x) <= big.
  Proof.
    intros H. destruct t_ok as (Ftt & _ & Bt). destruct (a_fits n m H) as (A & B). destruct (root64_ok _ _ A B) as (Fr & Rr & Br). pose proof two57 as T57. destruct (mul_ok _ t (2 ^ 57) 2 Fr Ftt Br Bt) as (F & N & L); [exact T57|rewrite big_val; lra|apply pow_R1_Rle; lra|lra|]. cbv zeta. split; [exact F|]. split; [exists (val (root64 (anum n m) (aden n m))); split; assumption|].
    eapply Rle_trans; [exact L|]. replace (2 * (2 ^ 57 * 2)) with (2 ^ 59) by (cbn [pow]; ring). unfold big. apply Rle_pow; [lra|apply Nat.leb_le; reflexivity].
  Qed.
  (** the factors a_n, b_n are moderate: a product with an element stays far from overflow *)
  Lemma step_bound A v y p : appr 2.01 0 A v -> 0 <= A <= 3000 -> Rabs y <= 100 -> near (v * y) p -> Rabs p <= 1000000.
  Proof.
    intros Q HA Hy N. pose proof u_small. pose proof tiny_small. apply appr_abs in Q. rewrite (Rabs_pos_eq A) in Q by lra. apply near_appr, appr_abs in N. rewrite Rabs_mult in N. assert (V : Rabs v <= 3001) by (assert ((1 + 2.01 * u) * A <= 1.0001 * 3000) by (apply Rmult_le_compat; lra); lra).
    assert (Rabs v * Rabs y <= 3001 * 100) by (apply Rmult_le_compat; try apply Rabs_pos; assumption). assert ((1 + 1 * u) * (Rabs v * Rabs y) <= 2 * (3001 * 100)) by (apply Rmult_le_compat; try lra; apply Rmult_le_pos; apply Rabs_pos). lra.
  Qed.
  Lemma b_max n m : (m <= n)%nat -> 0 <= sqrt (IZR (bnum (S (S n)) m) / IZR (bden (S (S n)) m)) <= 3000.
  Proof.
    intros H. split; [apply sqrt_pos|]. rewrite b_factor by exact H. destruct m as [|m].
    - pose proof (zonal_beta_half (S (S n)) ltac:(lia)) as (A & _). pose proof (zonal_beta_max (S n) ltac:(lia)) as B. assert (C : 0 <= beta 0 (S n)) by apply sqrt_pos. assert (D : beta 0 (S n) <= 1) by nra. assert (0 < / beta 0 (S (S n)) <= 2) by (split; [apply Rinv_0_lt_compat; lra|rewrite <- (Rinv_inv 2); apply Rinv_le_contravar; lra]). unfold Rdiv. nra.
    - pose proof (beta_inc (S m) (S n) ltac:(lia) ltac:(lia)) as I. pose proof (beta_pos (S m) (S (S n)) ltac:(lia)) as B. apply Rle_trans with 1; [|lra]. apply (Rmult_le_reg_r (beta (S m) (S (S n)))); [exact B|]. unfold Rdiv. rewrite Rmult_assoc, Rinv_l by lra. lra.
  Qed.
  Lemma column64_run m k : (m + k <= 1024)%nat -> (forall n, (m <= n <= m + k)%nat -> fin (P n m)) /\ column_run (val t) m (m + k) (fun n => val (P n m)).
  Proof.
    intros H0. destruct (diagonal64_run m ltac:(lia)) as (Fd & Rd). destruct c_ok as (_ & Tc & _). destruct t_ok as (Ftt & Tt & Bt). pose proof small100 as S100. pose proof two57 as T57.
    assert (Pm := diagonal th (val c) m (fun k => val (dg k)) Tc Rd m ltac:(lia) ltac:(lia)). cbn beta in Pm.
    assert (Bd : forall N, (m <= N <= 1024)%nat -> column_run (val t) m N (fun n => val (P n m)) -> forall n, (m <= n <= N)%nat -> Rabs (val (P n m)) <= 100).
    { intros N HN C n Hn. apply (bounded_by m (fun n => val (P n m)) N ltac:(lia) ltac:(lia) C); [|rewrite P_diag; exact Pm|exact Hn]. intros ->. rewrite P_diag. apply Rd. }
    induction k as [|k IH].
    - split; [intros n Hn; replace n with m by lia; rewrite P_diag; apply Fd; lia|]. split; [intros L; lia|intros n A B; lia].
    - specialize (IH ltac:(lia)). destruct IH as (F & C). pose proof (Bd (m + k)%nat ltac:(lia) C) as B. destruct C as (C1 & C2). destruct k as [|k].
      + assert (B0 : Rabs (val (P m m)) <= 100) by (apply B; lia). assert (F0 : fin (P m m)) by (apply F; lia). destruct (a_t (S m) m ltac:(lia)) as (Fx & (a & Ra & Nx) & Bx). destruct (mul_ok _ (P m m) big 100 Fx F0 Bx B0) as (Fy & Ny & _); try lra. rewrite <- P_first in Fy, Ny. split.
        * intros n Hn. destruct (Nat.eq_dec n m) as [-> | Ne]; [exact F0|]. replace n with (S m) by lia. exact Fy.
        * split; [intros _; exists a; eexists; split; [exact Ra|split; [exact Nx|exact Ny]]|intros n A1 A2; lia].
      + set (n := (m + k)%nat) in *. replace (m + S k)%nat with (S n) in * by lia. assert (B1 : Rabs (val (P (S n) m)) <= 100) by (apply B; lia). assert (B0 : Rabs (val (P n m)) <= 100) by (apply B; lia). assert (F1 : fin (P (S n) m)) by (apply F; lia). assert (F0 : fin (P n m)) by (apply F; lia).
        destruct (a_t (S (S n)) m ltac:(lia)) as (Fx & (a & Ra & Nx) & Bx). destruct (mul_ok _ (P (S n) m) big 100 Fx F1 Bx B1) as (Fy & Ny & By); try lra. destruct (b_fits (S (S n)) m ltac:(lia)) as (Hb1 & Hb2). destruct (root64_ok _ _ Hb1 Hb2) as (Fb & Rb & Bb). destruct (mul_ok _ (P n m) (2 ^ 57) 100 Fb F0 Bb B0) as (Fz & Nz & _); try lra.
        assert (Bz : Rabs (val (dmul (root64 (bnum (S (S n)) m) (bden (S (S n)) m)) (P n m))) <= 1000000). { apply (step_bound (beta m (S n) / beta m (S (S n))) (val (root64 (bnum (S (S n)) m) (bden (S (S n)) m))) (val (P n m))); [apply b_ok; [lia|exact Rb]| |exact B0|exact Nz]. rewrite <- b_factor by lia. apply b_max. lia. }
        assert (By' : Rabs (val (dmul (dmul (root64 (anum (S (S n)) m) (aden (S (S n)) m)) t) (P (S n) m))) <= 2000000).
        { pose proof (a_ok (S n) m a ltac:(lia) ltac:(lia) Ra) as Ea. pose proof (a_max (S n) m ltac:(lia) ltac:(lia)) as Am. assert (Bx2 : Rabs (val (dmul (root64 (anum (S (S n)) m) (aden (S (S n)) m)) t)) <= 7000).
          { pose proof u_small. pose proof tiny_small. apply appr_abs in Ea. rewrite (Rabs_pos_eq (/ _)) in Ea by lra. apply near_appr, appr_abs in Nx. rewrite Rabs_mult in Nx. assert (V : Rabs a <= 3001) by (assert ((1 + 2.01 * u) * / beta m (S (S n)) <= 1.0001 * 3000) by (apply Rmult_le_compat; lra); lra).
            assert (Rabs a * Rabs (val t) <= 3001 * 2) by (apply Rmult_le_compat; try apply Rabs_pos; assumption). assert ((1 + 1 * u) * (Rabs a * Rabs (val t)) <= 1.1 * (3001 * 2)) by (apply Rmult_le_compat; try lra; apply Rmult_le_pos; apply Rabs_pos). lra. }
          destruct (mul_ok _ (P (S n) m) 7000 100 Fx F1 Bx2 B1) as (_ & _ & L); try (rewrite ?big_val; lra). }
        destruct (dsub_ok _ _ Fy Fz) as (Fw & Nw); [rewrite big_val; lra|rewrite big_val; lra|]. rewrite <- P_next in Fw, Nw by lia. split.
        * intros q Hq. destruct (Nat.eq_dec q (S (S n))) as [-> | Ne]; [exact Fw|apply F; lia].
        * split; [intros _; apply C1; lia|]. intros q A1 A2. destruct (Nat.eq_dec q n) as [-> | Ne]; [|apply C2; lia].
          exists a. eexists. eexists. exists (val (root64 (bnum (S (S n)) m) (bden (S (S n)) m))). eexists. split; [exact Ra|]. split; [exact Nx|]. split; [exact Ny|]. split; [exact Rb|]. split; [exact Nz|exact Nw].
  Qed.
  Theorem legendre64_run N M : (N <= 1024)%nat -> (M <= N)%nat -> (forall n m, (m <= M)%nat -> (m <= n <= N)%nat -> fin (P n m)) /\ legendre_run th N M (fun n m => val (P n m)).
  Proof.
    intros HN HM. split.
    - intros n m Hm Hn. destruct (column64_run m (N - m) ltac:(lia)) as (F & _). apply F. lia.
    - exists (val c), (val t). split; [apply c_ok|]. split; [apply t_ok|]. split.
      + destruct (diagonal64_run M ltac:(lia)) as (_ & (R0 & R1 & R2)). split; [rewrite P_diag; exact R0|]. split; [rewrite P_diag; exact R1|]. intros m Hm. rewrite !P_diag. apply R2. exact Hm.
      + intros m Hm. destruct (column64_run m (N - m) ltac:(lia)) as (_ & C). replace (m + (N - m))%nat with N in C by lia. exact C.
  Qed.

  (** *** the derivatives *)
  Hypothesis Hcos : / 2 ^ 57 <= Rabs (cos th).
  Lemma near_le x v B : near x v -> Rabs x <= B -> 1 <= B -> Rabs v <= 2 * B.
  Proof. intros N H H1. pose proof u_small. pose proof tiny_small. apply near_appr, appr_abs in N. assert ((1 + 1 * u) * Rabs x <= 1.5 * B) by (apply Rmult_le_compat; try lra; apply Rabs_pos). lra. Qed.
  Lemma c_low : / 2 ^ 58 <= Rabs (val c) /\ / 2 ^ 59 <= Rabs (val c).
  Proof.
    destruct c_ok as (_ & Tc & _). pose proof u_small as U. pose proof tiny_pos as T. pose proof tiny_u as TU. unfold trig in Tc. assert (P57 : 0 < / 2 ^ 57) by (apply Rinv_0_lt_compat, pow_lt; lra).
    assert (T3 : tiny <= 0.1 * / 2 ^ 57).
    { assert (A : 0 < 2 ^ 57) by (apply pow_lt; lra). apply (Rmult_le_reg_r (2 ^ 57)); [exact A|]. rewrite (Rmult_assoc _ (/ _)), Rinv_l by lra. apply Rle_trans with (tiny * 2 ^ 1000); [apply Rmult_le_compat_l; [lra|apply Rle_pow; [lra|apply Nat.leb_le; reflexivity]]|lra]. }
    pose proof (Rabs_triang_inv (cos th) (cos th - val c)) as A. replace (cos th - (cos th - val c)) with (val c) in A by ring. rewrite (Rabs_minus_sym (cos th) (val c)) in A. assert (u * Rabs (cos th) <= 0.1 * Rabs (cos th)) by (apply Rmult_le_compat_r; [apply Rabs_pos|lra]).
    assert (E8 : / 2 ^ 58 = 0.5 * / 2 ^ 57) by (change (2 ^ 58) with (2 * 2 ^ 57); rewrite Rinv_mult; lra). assert (E9 : / 2 ^ 59 = 0.25 * / 2 ^ 57) by (change (2 ^ 59) with (2 * (2 * 2 ^ 57)); rewrite !Rinv_mult; lra). rewrite E8, E9. lra.
  Qed.
  Lemma quotient_c x : fin x -> Rabs (val x) <= 2 -> fin (ddiv x c) /\ near (val x / val c) (val (ddiv x c)) /\ Rabs (val (ddiv x c)) <= big.
  Proof.
    intros F B. destruct c_low as (L8 & L9). destruct (ddiv_gen x c F) as (G & N); [rewrite big_val; lra|exact L9|]. split; [exact G|]. split; [exact N|]. assert (P58 : 0 < / 2 ^ 58) by (apply Rinv_0_lt_compat, pow_lt; lra).
    replace big with (2 * (2 * 2 ^ 58)) by (unfold big; cbn [pow]; ring). apply (near_le _ _ _ N).
    - unfold Rdiv. rewrite Rabs_mult, Rabs_inv. apply Rmult_le_compat; [apply Rabs_pos|apply Rlt_le, Rinv_0_lt_compat; lra|exact B|]. rewrite <- (Rinv_inv (2 ^ 58)). apply Rinv_le_contravar; assumption.
    - assert (1 <= 2 ^ 58) by (apply pow_R1_Rle; lra). lra.
  Qed.
  Lemma nat_double n : (n <= 1024)%nat -> fin (of_int (Z.of_nat n)) /\ val (of_int (Z.of_nat n)) = INR n /\ 0 <= INR n <= 1024.
  Proof.
    intros H. destruct (of_int_ok (Z.of_nat n)) as (F & V); [apply fit; lia|]. split; [exact F|]. rewrite V, <- INR_IZR_INZ. split; [reflexivity|]. split; [apply pos_INR|]. replace 1024 with (INR 1024) by (rewrite INR_IZR_INZ; reflexivity). apply le_INR. lia.
  Qed.
  Lemma element64 n m : (m <= n <= 1024)%nat -> fin (P n m) /\ Rabs (val (P n m)) <= 100.
  Proof.
    intros H. destruct (legendre64_run 1024 m ltac:(lia) ltac:(lia)) as (F & L). split; [apply F; lia|]. pose proof (legendre_error th 1024 m _ ltac:(lia) ltac:(lia) L n m ltac:(lia) ltac:(lia)) as Q. cbn beta in Q. fold (E n) in Q.
    pose proof (E_small n ltac:(lia)). pose proof (Pbar_bound n m th ltac:(lia)). pose proof (Y_le n ltac:(lia)). replace (val (P n m)) with ((val (P n m) - Pbar n m th) + Pbar n m th) by ring. eapply Rle_trans; [apply Rabs_triang|]. lra.
  Qed.
  Lemma diagonal_derivative m : (m <= 1024)%nat -> fin (D m m) /\ exists q x, near (val t / val c) q /\ near (INR m * q) x /\ near (x * val (P m m)) (val (D m m)).
  Proof.
    intros H. destruct t_ok as (Ftt & _ & Bt). destruct (quotient_c t Ftt Bt) as (Fq & Nq & Bq). destruct (nat_double m H) as (Fm & Vm & Bm). destruct (element64 m m ltac:(lia)) as (Fp & Bp).
    assert (Bg := big_val). destruct (dmul_gen (of_int (Z.of_nat m)) (ddiv t c) Fm Fq) as (Fx & Nx). { rewrite Vm, (Rabs_pos_eq (INR m)) by lra. apply Rmult_le_compat; try apply Rabs_pos; lra. }
    rewrite Vm in Nx. assert (Bx : Rabs (val (dmul (of_int (Z.of_nat m)) (ddiv t c))) <= 2 * (1024 * big)). { apply (near_le _ _ _ Nx); [|lra]. rewrite Rabs_mult, (Rabs_pos_eq (INR m)) by lra. apply Rmult_le_compat; try apply Rabs_pos; lra. }
    destruct (dmul_gen _ (P m m) Fx Fp) as (Fd & Nd). { apply Rle_trans with (2 * (1024 * big) * 100); [apply Rmult_le_compat; try apply Rabs_pos; lra|]. rewrite Bg. lra. }
    assert (E0 : D m m = dmul (dmul (of_int (Z.of_nat m)) (ddiv t c)) (P m m)) by (unfold derivative64; rewrite Nat.eqb_refl; reflexivity). rewrite E0. split; [exact Fd|]. eexists. eexists. split; [exact Nq|]. split; [exact Nx|exact Nd].
  Qed.
  Lemma lower_derivative n m : (m <= n)%nat -> (S n <= 1024)%nat -> fin (D (S n) m) /\ exists i x y f z w, near (1 / val c) i /\ near (INR (S n) * val t) x /\ near (x * val (P (S n) m)) y /\
    root_run (fnum (S n) m) (fden (S n) m) f /\ near (f * val (P n m)) z /\ near (y - z) w /\ near (i * w) (val (D (S n) m)).
  Proof.
    intros Hm Hn. destruct t_ok as (Ftt & _ & Bt). destruct (of_int_ok 1 eq_refl) as (F1 & V1). destruct (quotient_c (of_int 1) F1) as (Fi & Ni & Bi); [rewrite V1, Rabs_R1; lra|]. rewrite V1 in Ni. destruct (nat_double (S n) ltac:(lia)) as (Fk & Vk & Bk). destruct (element64 (S n) m ltac:(lia)) as (Fp & Bp). destruct (element64 n m ltac:(lia)) as (Fq & Bq). assert (Bg := big_val).
    destruct (mul_ok (of_int (Z.of_nat (S n))) t 1024 2 Fk Ftt) as (Fx & Nx & Bx); try lra. { rewrite Vk, Rabs_pos_eq; lra. } rewrite Vk in Nx. destruct (mul_ok _ (P (S n) m) _ 100 Fx Fp Bx Bp) as (Fy & Ny & By); try lra.
    destruct (f_fits (S n) m ltac:(lia)) as (Hf1 & Hf2). destruct (root64_ok _ _ Hf1 Hf2) as (Ff & Rf & _). assert (Bf : Rabs (val (root64 (fnum (S n) m) (fden (S n) m))) <= 2000).
    { pose proof u_small. assert (Fq1 : / 1000 <= IZR (fnum (S n) m) / IZR (fden (S n) m)) by (pose proof (f_quotient n m Hm); lra). assert (Q := root_ok _ _ _ Fq1 Rf). apply appr_abs in Q. pose proof (f_max n m Hm) as Fm. rewrite (Rabs_pos_eq (sqrt _)) in Q by lra. eapply Rle_trans; [exact Q|]. set (r := sqrt _) in *. assert ((1 + 2.01 * u) * r <= 1.01 * 1782) by (apply Rmult_le_compat; lra). lra. }
    destruct (mul_ok _ (P n m) 2000 100 Ff Fq Bf Bq) as (Fz & Nz & Bz); try lra. destruct (dsub_ok _ _ Fy Fz) as (Fw & Nw); [lra|lra|].
    assert (Bw : Rabs (val (dsub (dmul (dmul (of_int (Z.of_nat (S n))) t) (P (S n) m)) (dmul (root64 (fnum (S n) m) (fden (S n) m)) (P n m)))) <= 2 * 10000000). { apply (near_le _ _ _ Nw); [|lra]. eapply Rle_trans; [apply Rabs_triang|]. rewrite Rabs_Ropp. lra. }
    destruct (dmul_gen (ddiv (of_int 1) c) _ Fi Fw) as (Fd & Nd). { apply Rmult_le_compat; try apply Rabs_pos; lra. }
    assert (E0 : D (S n) m = dmul (ddiv (of_int 1) c) (dsub (dmul (dmul (of_int (Z.of_nat (S n))) t) (P (S n) m)) (dmul (root64 (fnum (S n) m) (fden (S n) m)) (P n m)))).
    { unfold derivative64. rewrite (proj2 (Nat.eqb_neq (S n) m)) by lia. replace (S n - 1)%nat with n by lia. reflexivity. }
    rewrite E0. split; [exact Fd|]. do 2 eexists. eexists. exists (val (root64 (fnum (S n) m) (fden (S n) m))). do 2 eexists. split; [exact Ni|]. split; [exact Nx|]. split; [exact Ny|]. split; [exact Rf|]. split; [exact Nz|]. split; [exact Nw|exact Nd].
  Qed.
  Theorem derivative64_run N M : (N <= 1024)%nat -> (M <= N)%nat -> (forall n m, (m <= M)%nat -> (m <= n <= N)%nat -> fin (D n m)) /\ derivatives_run th N M (fun n m => val (P n m)) (fun n m => val (D n m)).
  Proof.
    intros HN HM. split.
    - intros n m Hm Hn. destruct (Nat.eq_dec n m) as [-> | Ne]; [apply diagonal_derivative; lia|]. destruct n as [|n]; [lia|]. apply lower_derivative; lia.
    - exists (val c), (val t). split; [apply c_ok|]. split; [apply t_ok|]. split.
      + destruct (diagonal64_run M ltac:(lia)) as (_ & (R0 & R1 & R2)). split; [rewrite P_diag; exact R0|]. split; [rewrite P_diag; exact R1|]. intros m Hm. rewrite !P_diag. apply R2. exact Hm.
      + intros m Hm. split.
        * destruct (column64_run m (N - m) ltac:(lia)) as (_ & C). replace (m + (N - m))%nat with N in C by lia. exact C.
        * split; [apply diagonal_derivative; lia|]. intros n A B. apply lower_derivative; lia.
  Qed.
End Eval.
