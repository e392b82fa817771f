(** binary64 evaluation is one of the evaluations of FlModel, without overflow. *)
From Coq Require Import Reals ZArith List Bool Lia Lra.
From Flocq Require Import Core.Core IEEE754.BinarySingleNaN.
From Flocq Require Import Relative.
From Verif Require Import KahanModel FundModel FlModel FlProofs FlFloatModel.
Import ListNotations.
Open Scope R_scope.

Notation fx := (SpecFloat.fexp 53 1024).
Definition rn (x : R) : R := round radix2 fx ZnearestE x.

Lemma bnds_bnd vb e : fst (bnds vb e) = bnd vb e.
Proof.
  induction e as [i|n|n k|a IH|a IHa b IHb|a IHa b IHb|a IHa b IHb|a IH d|a IH|a IH|a IH]; cbn [bnds bnd both fst]; try reflexivity; try exact IH;
    try (destruct (bnds vb a) as [[ma ea] sa], (bnds vb b) as [[mb eb] sb]; cbn [fst] in *; rewrite <- IHa, <- IHb; reflexivity);
    destruct (bnds vb a) as [[ma ea] sa]; cbn [fst] in *; rewrite <- IH; reflexivity.
Qed.
Lemma u_bpow : / 2 * bpow radix2 (- 53 + 1) = u.
Proof. unfold u. simpl. lra. Qed.
Lemma tiny_bpow : / 2 * bpow radix2 (-1074) <= tiny.
Proof.
  unfold tiny. assert (E : bpow radix2 (-1074) = / 2 ^ 1074).
  { change (-1074)%Z with (- (1074))%Z. rewrite bpow_opp. f_equal. rewrite <- IZR_Zpower by lia. change (IZR (Zpower radix2 1074)) with (IZR (2 ^ Z.of_nat 1074)). apply IZR_pow2. }
  rewrite E. assert (0 < / 2 ^ 1074) by (apply Rinv_0_lt_compat, pow_lt; lra). lra.
Qed.
Lemma rn_near x : near x (rn x).
Proof.
  unfold near, rn. change fx with (FLT_exp (-1074) 53). destruct (error_N_FLT radix2 (-1074) 53 eq_refl (fun x => negb (Z.even x)) x) as (e & h & He & Hh & _ & E).
  rewrite E. replace (x * (1 + e) + h - x) with (e * x + h) by ring. eapply Rle_trans; [apply Rabs_triang|]. rewrite Rabs_mult. assert (He' : Rabs e <= u) by (rewrite <- u_bpow; exact He). pose proof tiny_bpow.
  apply Rplus_le_compat; [apply Rmult_le_compat_r; [apply Rabs_pos|exact He']|lra].
Qed.

Definition big : R := 2 ^ 60.
Lemma big_ge : 1 <= big.
Proof. unfold big. apply pow_R1_Rle. lra. Qed.
Lemma no_overflow x : Rabs x <= big * big -> Rlt_bool (Rabs (rn x)) (bpow radix2 1024) = true.
Proof.
  intros H. apply Rlt_bool_true. pose proof (rn_near x) as N. unfold near in N. pose proof big_ge as B. pose proof u_pos as U.
  assert (U1 : u <= 1) by (unfold u; cbn [pow]; lra). assert (T1 : tiny <= 1) by (eapply Rle_trans; [exact tiny_ok|]; unfold unit120; cbn [pow]; lra).
  assert (A : Rabs (rn x) <= 4 * (big * big)).
  { replace (rn x) with (x + (rn x - x)) by ring. eapply Rle_trans; [apply Rabs_triang|]. pose proof (Rabs_pos x). assert (u * Rabs x <= big * big) by nra. assert (1 <= big * big) by nra. lra. }
  eapply Rle_lt_trans; [exact A|]. replace (4 * (big * big)) with (bpow radix2 122).
  - apply bpow_lt. lia.
  - unfold big. change 122%Z with (Z.of_nat 122). rewrite <- IZR_Zpower by lia. change (IZR (Zpower radix2 (Z.of_nat 122))) with (IZR (2 ^ Z.of_nat 122)). rewrite IZR_pow2.
    replace 122%nat with (2 + (60 + 60))%nat by reflexivity. rewrite !pow_add. lra.
Qed.
Definition fin (x : double) : Prop := is_finite x = true.
Notation val := (@B2R 53 1024).
Lemma dadd_ok x y : fin x -> fin y -> Rabs (val x) <= big -> Rabs (val y) <= big -> fin (dadd x y) /\ near (val x + val y) (val (dadd x y)).
Proof.
  intros Fx Fy Hx Hy. pose proof (Bplus_correct 53 1024 Hprec Hmax mode_NE x y Fx Fy) as C. pose proof big_ge.
  change (round radix2 fx (round_mode mode_NE) (val x + val y)) with (rn (val x + val y)) in C. rewrite no_overflow in C.
  - destruct C as (V & F & _). split; [exact F|]. unfold dadd. rewrite V. apply rn_near.
  - eapply Rle_trans; [apply Rabs_triang|]. nra || idtac.
    assert (2 <= big) by (unfold big; cbn [pow]; lra). nra.
Qed.
Lemma dsub_ok x y : fin x -> fin y -> Rabs (val x) <= big -> Rabs (val y) <= big -> fin (dsub x y) /\ near (val x - val y) (val (dsub x y)).
Proof.
  intros Fx Fy Hx Hy. pose proof (Bminus_correct 53 1024 Hprec Hmax mode_NE x y Fx Fy) as C. pose proof big_ge.
  change (round radix2 fx (round_mode mode_NE) (val x - val y)) with (rn (val x - val y)) in C. rewrite no_overflow in C.
  - destruct C as (V & F & _). split; [exact F|]. unfold dsub. rewrite V. apply rn_near.
  - unfold Rminus. eapply Rle_trans; [apply Rabs_triang|]. rewrite Rabs_Ropp. assert (2 <= big) by (unfold big; cbn [pow]; lra). nra.
Qed.
Lemma dmul_ok x y : fin x -> fin y -> Rabs (val x) <= big -> Rabs (val y) <= big -> fin (dmul x y) /\ near (val x * val y) (val (dmul x y)).
Proof.
  intros Fx Fy Hx Hy. pose proof (Bmult_correct 53 1024 Hprec Hmax mode_NE x y) as C. pose proof big_ge.
  change (round radix2 fx (round_mode mode_NE) (val x * val y)) with (rn (val x * val y)) in C. rewrite no_overflow in C.
  - destruct C as (V & F & _). split; [unfold fin, dmul; rewrite F; unfold fin in Fx, Fy; rewrite Fx, Fy; reflexivity|]. unfold dmul. rewrite V. apply rn_near.
  - rewrite Rabs_mult. apply Rmult_le_compat; try apply Rabs_pos; assumption.
Qed.
Lemma ddiv_ok x y : fin x -> 1 <= val y -> Rabs (val x) <= big -> fin (ddiv x y) /\ near (val x / val y) (val (ddiv x y)).
Proof.
  intros Fx Hy Hx. pose proof (Bdiv_correct 53 1024 Hprec Hmax mode_NE x y ltac:(lra)) as C. pose proof big_ge.
  change (round radix2 fx (round_mode mode_NE) (val x / val y)) with (rn (val x / val y)) in C. rewrite no_overflow in C.
  - destruct C as (V & F & _). split; [unfold fin, ddiv; rewrite F; exact Fx|]. unfold ddiv. rewrite V. apply rn_near.
  - unfold Rdiv. rewrite Rabs_mult, (Rabs_pos_eq (/ _)) by (apply Rlt_le, Rinv_0_lt_compat; lra). assert (/ val y <= 1) by (rewrite <- Rinv_1; apply Rinv_le_contravar; lra).
    assert (0 < / val y) by (apply Rinv_0_lt_compat; lra). pose proof (Rabs_pos (val x)). nra.
Qed.
Lemma of_int_gen n m (k : nat) : n = (m * 2 ^ Z.of_nat k)%Z -> fit53 m = true -> (k <= 50)%nat -> fin (of_int n) /\ val (of_int n) = IZR n.
Proof.
  intros En H K. apply Z.ltb_lt in H. pose proof (binary_normalize_correct 53 1024 Hprec Hmax mode_NE n 0 false) as C. cbv zeta in C.
  assert (E : F2R (Float radix2 n 0) = IZR n) by (unfold F2R; cbn [Fnum Fexp bpow]; ring). rewrite E in C.
  assert (E2 : F2R (Float radix2 m (Z.of_nat k)) = IZR n) by (unfold F2R; cbn [Fnum Fexp]; rewrite <- IZR_Zpower by lia; rewrite <- mult_IZR, En; reflexivity).
  assert (G : rn (IZR n) = IZR n).
  { unfold rn. apply round_generic; [apply valid_rnd_N|]. change fx with (FLT_exp (-1074) 53). apply generic_format_FLT. exists (Float radix2 m (Z.of_nat k)); [symmetry; exact E2|exact H|cbn [Fexp]; lia]. }
  change (round radix2 fx (round_mode mode_NE) (IZR n)) with (rn (IZR n)) in C. rewrite no_overflow in C.
  - destruct C as (V & F & _). split; [exact F|]. unfold of_int. rewrite V. exact G.
  - rewrite En, mult_IZR, IZR_pow2, Rabs_mult, <- abs_IZR, (Rabs_pos_eq (2 ^ k)) by (apply pow_le; lra).
    assert (IZR (Z.abs m) <= IZR (2 ^ Z.of_nat 53)) as H0 by (apply IZR_le; change (2 ^ Z.of_nat 53)%Z with (2 ^ 53)%Z; lia). rewrite IZR_pow2 in H0.
    assert (2 ^ 53 <= big) by (unfold big; apply Rle_pow; [lra|lia]). assert (2 ^ k <= big) by (unfold big; apply Rle_pow; [lra|lia]).
    apply Rmult_le_compat; try lra; [apply IZR_le; lia|apply pow_le; lra].
Qed.
Lemma of_int_ok n : fit53 n = true -> fin (of_int n) /\ val (of_int n) = IZR n.
Proof. intros H. apply (of_int_gen n n 0); [cbn; lia|exact H|lia]. Qed.
Lemma of_ten_ok (k : nat) : fit53 (5 ^ Z.of_nat k) = true -> fin (of_int (10 ^ Z.of_nat k)) /\ val (of_int (10 ^ Z.of_nat k)) = 10 ^ k.
Proof.
  intros H. assert (K : (k <= 50)%nat).
  { destruct (Nat.le_gt_cases k 50) as [L|L]; [exact L|]. exfalso. apply Z.ltb_lt in H. rewrite Z.abs_eq in H by (apply Z.pow_nonneg; lia).
    assert (5 ^ 50 <= 5 ^ Z.of_nat k)%Z by (apply Z.pow_le_mono_r; lia). assert (2 ^ 53 < 5 ^ 50)%Z by reflexivity. lia. }
  destruct (of_int_gen (10 ^ Z.of_nat k) (5 ^ Z.of_nat k) k) as [A B]; [|exact H|exact K|].
  - rewrite <- Z.pow_mul_l. reflexivity.
  - split; [exact A|]. rewrite B, <- pow_IZR. reflexivity.
Qed.
Lemma int_big n : fit53 n = true -> Rabs (IZR n) <= big.
Proof.
  intros H. apply Z.ltb_lt in H. rewrite <- abs_IZR. assert (IZR (Z.abs n) <= IZR (2 ^ Z.of_nat 53)) by (apply IZR_le; change (2 ^ Z.of_nat 53)%Z with (2 ^ 53)%Z; lia). rewrite IZR_pow2 in H0.
  assert (2 ^ 53 <= big) by (unfold big; apply Rle_pow; [lra|lia]). lra.
Qed.
Lemma of_dec_ok n k : fit53 n = true -> fit53 (5 ^ Z.of_nat k) = true -> fin (of_dec n k) /\ near (IZR n / 10 ^ k) (val (of_dec n k)).
Proof.
  intros Hn Hk. destruct (of_int_ok n Hn) as [F1 V1], (of_ten_ok _ Hk) as [F2 V2].
  unfold of_dec. destruct (ddiv_ok (of_int n) (of_int (10 ^ Z.of_nat k))) as [A B]; [exact F1| |rewrite V1; apply int_big, Hn|].
  - rewrite V2. apply pow_R1_Rle. lra.
  - split; [exact A|]. rewrite V1, V2 in B. exact B.
Qed.
(** the literal is rounded correctly *)
Lemma of_dec_round n k : fit53 n = true -> fit53 (5 ^ Z.of_nat k) = true -> val (of_dec n k) = rn (IZR n / 10 ^ k).
Proof.
  intros Hn Hk. destruct (of_int_ok n Hn) as [F1 V1], (of_ten_ok _ Hk) as [F2 V2]. assert (T : 1 <= 10 ^ k) by (apply pow_R1_Rle; lra).
  pose proof (Bdiv_correct 53 1024 Hprec Hmax mode_NE (of_int n) (of_int (10 ^ Z.of_nat k)) ltac:(rewrite V2; lra)) as C. rewrite V1, V2 in C.
  change (round radix2 fx (round_mode mode_NE) (IZR n / 10 ^ k)) with (rn (IZR n / 10 ^ k)) in C. rewrite no_overflow in C.
  - apply C.
  - pose proof (int_big n Hn). pose proof big_ge. unfold Rdiv. rewrite Rabs_mult, (Rabs_pos_eq (/ _)) by (apply Rlt_le, Rinv_0_lt_compat; lra). assert (/ 10 ^ k <= 1) by (rewrite <- Rinv_1; apply Rinv_le_contravar; lra).
    assert (0 < / 10 ^ k) by (apply Rinv_0_lt_compat; lra). pose proof (Rabs_pos (IZR n)). nra.
Qed.
Lemma small_big p x v : small p = true -> Rabs x <= IZR (fst p) * unit120 -> Rabs (v - x) <= IZR (snd p) * unit120 -> Rabs v <= big.
Proof.
  intros H A B. unfold small in H. apply andb_prop in H. destruct H as [_ H]. apply Z.leb_le in H. replace v with (x + (v - x)) by ring. eapply Rle_trans; [apply Rabs_triang|].
  pose proof unit_pos. apply Rle_trans with (IZR (fst p + snd p) * unit120); [rewrite plus_IZR; lra|]. apply Rle_trans with (IZR (2 ^ 180) * unit120); [apply Rmult_le_compat_r; [lra|apply IZR_le, H]|].
  apply Req_le. unfold big, unit120. change (2 ^ 180)%Z with (2 ^ Z.of_nat 180)%Z. rewrite IZR_pow2. replace 180%nat with (60 + 120)%nat by reflexivity. rewrite pow_add, Rmult_assoc, Rinv_r, Rmult_1_r by (apply Rgt_not_eq, pow_lt; lra). reflexivity.
Qed.
Lemma bnds_small vb e : snd (bnds vb e) = true -> small (bnd vb e) = true.
Proof.
  rewrite <- bnds_bnd. induction e as [i|n|n k|a IH|a IHa b IHb|a IHa b IHb|a IHa b IHb|a IH d|a IH|a IH|a IH]; cbn [bnds both fst snd]; try exact IH;
    try (intros H; apply andb_prop in H; apply H);
    try (destruct (bnds vb a) as [[ma ea] sa], (bnds vb b) as [[mb eb] sb]; cbn [both fst snd]; intros H; apply andb_prop in H; apply H);
    destruct (bnds vb a) as [[ma ea] sa]; cbn [both fst snd]; intros H; apply andb_prop in H; apply H.
Qed.

(** what is asked of the library functions *)
Definition accurate (g : double -> double) (f : R -> R) : Prop := forall x, fin x -> Rabs (val x) <= big -> fin (g x) /\ Rabs (val (g x) - f (val x)) <= / 2 ^ 52.
Definition accurate_sec (g : double -> double) : Prop :=
  forall x, fin x -> Rabs (val x) <= big -> fin (g x) /\ Rabs (val (g x) - sec2rad (val x)) <= 4 * u * Rabs (sec2rad (val x)) + tiny.
Theorem exec_run dsin dcos dsec env ex vb : accurate dsin sin -> accurate dcos cos -> accurate_sec dsec ->
  (forall i, fin (env i)) -> fits ex (fun i => val (env i)) vb ->
  forall e, snd (bnds vb e) = true -> fin (exec dsin dcos dsec env e) /\ run (fun i => val (env i)) e (val (exec dsin dcos dsec env e)).
Proof.
  intros As Ac Ax Fe Ft. assert (K : forall e, snd (bnds vb e) = true -> run (fun i => val (env i)) e (val (exec dsin dcos dsec env e)) -> Rabs (val (exec dsin dcos dsec env e)) <= big).
  { intros e S Rn. destruct (bnd_sound _ _ _ Ft e _ Rn) as [A B]. apply (small_big (bnd vb e) (eval ex e)); [apply bnds_small, S|exact A|exact B]. }
  induction e as [i|n|n k|a IH|a IHa b IHb|a IHa b IHb|a IHa b IHb|a IH d|a IH|a IH|a IH]; cbn [exec run]; intros S.
  - split; [apply Fe|reflexivity].
  - cbn [bnds both snd] in S. apply andb_prop in S. destruct (of_int_ok n (proj1 S)) as [A B]. split; assumption.
  - cbn [bnds both snd] in S. apply andb_prop in S. destruct S as [S _]. apply andb_prop in S. apply of_dec_ok; apply S.
  - destruct (IH S) as [A B]. split; [unfold fin; rewrite is_finite_Bopp; exact A|]. eexists. split; [exact B|apply B2R_Bopp].
  - assert (S' : snd (bnds vb a) = true /\ snd (bnds vb b) = true). { cbn [bnds] in S. destruct (bnds vb a) as [[ma ea] sa], (bnds vb b) as [[mb eb] sb]. cbn [both snd] in *. apply andb_prop in S. destruct S as [S _]. apply andb_prop in S. exact S. }
    destruct (IHa (proj1 S')) as [A B], (IHb (proj2 S')) as [C D]. destruct (dadd_ok _ _ A C (K a (proj1 S') B) (K b (proj2 S') D)) as [G N]. split; [exact G|]. do 2 eexists. split; [exact B|]. split; [exact D|exact N].
  - assert (S' : snd (bnds vb a) = true /\ snd (bnds vb b) = true). { cbn [bnds] in S. destruct (bnds vb a) as [[ma ea] sa], (bnds vb b) as [[mb eb] sb]. cbn [both snd] in *. apply andb_prop in S. destruct S as [S _]. apply andb_prop in S. exact S. }
    destruct (IHa (proj1 S')) as [A B], (IHb (proj2 S')) as [C D]. destruct (dsub_ok _ _ A C (K a (proj1 S') B) (K b (proj2 S') D)) as [G N]. split; [exact G|]. do 2 eexists. split; [exact B|]. split; [exact D|exact N].
  - assert (S' : snd (bnds vb a) = true /\ snd (bnds vb b) = true). { cbn [bnds] in S. destruct (bnds vb a) as [[ma ea] sa], (bnds vb b) as [[mb eb] sb]. cbn [both snd] in *. apply andb_prop in S. destruct S as [S _]. apply andb_prop in S. exact S. }
    destruct (IHa (proj1 S')) as [A B], (IHb (proj2 S')) as [C D]. destruct (dmul_ok _ _ A C (K a (proj1 S') B) (K b (proj2 S') D)) as [G N]. split; [exact G|]. do 2 eexists. split; [exact B|]. split; [exact D|exact N].
  - assert (S' : snd (bnds vb a) = true /\ fit53 (Z.pos d) = true). { cbn [bnds] in S. destruct (bnds vb a) as [[ma ea] sa]. cbn [both snd] in *. apply andb_prop in S. destruct S as [S _]. apply andb_prop in S. exact S. }
    destruct (IH (proj1 S')) as [A B]. destruct (of_int_ok _ (proj2 S')) as [_ V]. destruct (ddiv_ok (exec dsin dcos dsec env a) (of_int (Z.pos d))) as [G N]; [exact A|rewrite V; apply IZR_le; lia|apply K; [apply S'|exact B]|].
    split; [exact G|]. eexists. split; [exact B|]. rewrite V in N. exact N.
  - assert (S' : snd (bnds vb a) = true). { cbn [bnds] in S. destruct (bnds vb a) as [[ma ea] sa]. cbn [both snd] in *. apply andb_prop in S. apply S. }
    destruct (IH S') as [A B]. destruct (As _ A (K a S' B)) as [G N]. split; [exact G|]. eexists. split; [exact B|exact N].
  - assert (S' : snd (bnds vb a) = true). { cbn [bnds] in S. destruct (bnds vb a) as [[ma ea] sa]. cbn [both snd] in *. apply andb_prop in S. apply S. }
    destruct (IH S') as [A B]. destruct (Ac _ A (K a S' B)) as [G N]. split; [exact G|]. eexists. split; [exact B|exact N].
  - assert (S' : snd (bnds vb a) = true). { cbn [bnds] in S. destruct (bnds vb a) as [[ma ea] sa]. cbn [both snd] in *. apply andb_prop in S. apply S. }
    destruct (IH S') as [A B]. destruct (Ax _ A (K a S' B)) as [G N]. split; [exact G|]. eexists. split; [exact B|exact N].
Qed.

(** functions as accurate as asked exist: the exact value rounded *)
Definition of_real (x : R) : double := binary_normalize 53 1024 Hprec Hmax mode_NE (Ztrunc (scaled_mantissa radix2 fx (rn x))) (cexp radix2 fx (rn x)) false.
Lemma of_real_ok x : Rabs x <= big -> fin (of_real x) /\ near x (val (of_real x)).
Proof.
  intros H. pose proof (binary_normalize_correct 53 1024 Hprec Hmax mode_NE (Ztrunc (scaled_mantissa radix2 fx (rn x))) (cexp radix2 fx (rn x)) false) as C. cbv zeta in C.
  assert (G : generic_format radix2 fx (rn x)) by (apply generic_format_round; [change fx with (FLT_exp (-1074) 53); apply FLT_exp_valid; reflexivity|apply valid_rnd_N]).
  assert (E : F2R (Float radix2 (Ztrunc (scaled_mantissa radix2 fx (rn x))) (cexp radix2 fx (rn x))) = rn x) by (symmetry; exact G). rewrite E in C.
  assert (I : rn (rn x) = rn x) by (unfold rn at 1; apply round_generic; [apply valid_rnd_N|exact G]).
  change (round radix2 fx (round_mode mode_NE) (rn x)) with (rn (rn x)) in C. rewrite I, no_overflow in C.
  - destruct C as (V & F & _). split; [exact F|]. unfold of_real. rewrite V. apply rn_near.
  - pose proof big_ge. nra.
Qed.
