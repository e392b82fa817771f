(** Proofs about FlEraModel. *)
From Coq Require Import Reals ZArith List Bool Lia Lra.
From Flocq Require Import Core.Core IEEE754.BinarySingleNaN.
From Verif Require Import Poly Angles PiBound KahanModel FundModel FundSpec FundProofs FlModel FlProofs FlFloatModel FlFloatProofs FlCipProofs FlCipProofs2 FlEraModel.
From Verif Require FlCip64Proofs.
Import ListNotations.
Open Scope R_scope.

(** bounds of the variables *)
Definition evb (i : nat) : Z * Z :=
  nth i [(one120, one120 / 2 ^ 53 + 1); (36525 * one120, one120 / 2 ^ 37 + 1); (one120, one120 / 2 ^ 53 + 1); (62832 * one120 / 10000 + 1, one120 / 2 ^ 50 + 1);
         (31416 * one120 / 10000 + 1, one120 / 2 ^ 50 + 1); (86400 * one120, one120 / 2 ^ 36 + 1); (one120, one120 / 2 ^ 53 + 1)]%Z (0, 0)%Z.
(** exact epochs and the doubles handed out for them *)
Definition exact_times (tt ut1 : epoch) : times :=
  mkTimes (mfrac ut1) (mjd ut1 - 51544.5) (jcenturies_sinceJ2000 tt) (2 * PI) PI (86400 * mfrac ut1) (jcenturies_sinceJ2000 ut1).
Definition handed_out (tt ut1 : epoch) (T : times) : Prop :=
  let E := exact_times tt ut1 in
  Rabs (tf T - tf E) <= / 2 ^ 53 /\ Rabs (ttu T - ttu E) <= / 2 ^ 37 /\ Rabs (ttt T - ttt E) <= / 2 ^ 53 /\ Rabs (td2pi T - td2pi E) <= / 2 ^ 50 /\ Rabs (tdpi T - tdpi E) <= / 2 ^ 50 /\
  Rabs (tsec T - tsec E) <= / 2 ^ 36 /\ Rabs (tut T - tut E) <= / 2 ^ 53.
Definition in_century (tt ut1 : epoch) : Prop := 0 <= mfrac ut1 <= 1 /\ Rabs (jcenturies_sinceJ2000 tt) <= 1 /\ Rabs (jcenturies_sinceJ2000 ut1) <= 1.
Lemma pow2_up (k : nat) : / 2 ^ k <= IZR (one120 / 2 ^ Z.of_nat k + 1) * unit120.
Proof. pose proof (scaled_up 1 (2 ^ Z.of_nat k) ltac:(lia)) as S. rewrite Z.mul_1_l, IZR_pow2 in S. unfold Rdiv in S. rewrite Rmult_1_l in S. exact S. Qed.
Lemma fits_times tt ut1 T : in_century tt ut1 -> handed_out tt ut1 T -> fits (teenv (exact_times tt ut1)) (teenv T) evb.
Proof.
  intros (Hf & Ht & Hu) (A0 & A1 & A2 & A3 & A4 & A5 & A6). pose proof unit_inv as U. pose proof unit_pos as P. pose proof pi_bounds as PB.
  assert (W : forall n : Z, IZR (n * one120) * unit120 = IZR n) by (intros n; rewrite mult_IZR; unfold one120; rewrite Rmult_assoc, U; ring).
  assert (O : IZR one120 * unit120 = 1) by exact U.
  intros i. unfold teenv, evb. destruct i as [|[|[|[|[|[|[|i]]]]]]]; cbn [nth fst snd exact_times tf ttu ttt td2pi tdpi tsec tut] in *.
  - split; [|eapply Rle_trans; [exact A0|exact (pow2_up 53)]]. rewrite O. apply Rabs_le. lra.
  - split; [|eapply Rle_trans; [exact A1|exact (pow2_up 37)]]. rewrite W. unfold jcenturies_sinceJ2000 in Hu. apply Rabs_le_inv in Hu. apply Rabs_le. lra.
  - split; [|eapply Rle_trans; [exact A2|exact (pow2_up 53)]]. rewrite O. exact Ht.
  - split; [|eapply Rle_trans; [exact A3|exact (pow2_up 50)]]. pose proof (scaled_up 62832 10000 ltac:(lia)). rewrite Rabs_pos_eq; lra.
  - split; [|eapply Rle_trans; [exact A4|exact (pow2_up 50)]]. pose proof (scaled_up 31416 10000 ltac:(lia)). rewrite Rabs_pos_eq; lra.
  - split; [|eapply Rle_trans; [exact A5|exact (pow2_up 36)]]. rewrite W. rewrite Rabs_pos_eq; lra.
  - split; [|eapply Rle_trans; [exact A6|exact (pow2_up 53)]]. rewrite O. exact Hu.
  - destruct i; cbn [nth fst snd]; rewrite Rminus_diag_eq, Rabs_R0 by reflexivity; split; lra.
Qed.

(** values of the expressions *)
Lemma era_link tt ut1 : eval (teenv (exact_times tt ut1)) era00e = D2PI * (mfrac ut1 + 0.7790572732640 + 0.00273781191135448 * (mjd ut1 - 51544.5)) + PI.
Proof. unfold era00e, D2PI. cbn [eval teenv nth exact_times tf ttu ttt td2pi tdpi pow]. lra. Qed.
Lemma era_exact tt ut1 : eqm (eval (teenv (exact_times tt ut1)) era00e) (earth_rotation_angle (julian_date (mjd ut1))).
Proof. rewrite era_link. eapply eqm_trans; [apply eqm_sym, anp_eqm|]. apply era_eqm. Qed.
Lemma gmst_link tt ut1 : eval (teenv (exact_times tt ut1)) gmst_polye = arcsec (peval sidereal_poly (centuries (julian_date (mjd tt)))).
Proof.
  unfold gmst_polye. cbn [eval teenv nth exact_times tf ttu ttt td2pi tdpi]. replace (centuries (julian_date (mjd tt))) with (jcenturies_sinceJ2000 tt) by (unfold centuries, julian_date, jcenturies_sinceJ2000; lra).
  rewrite sec2rad_arcsec. f_equal. unfold sidereal_poly, peval. cbn [fold_right pow]. lra.
Qed.
Lemma gmst82_link tt ut1 : hsec2rad (eval (teenv (exact_times tt ut1)) gmst82e) = sidereal_1982 (julian_date (mjd ut1)) (86400 * mfrac ut1).
Proof.
  unfold gmst82e. cbn [eval teenv nth exact_times tf ttu ttt td2pi tdpi tsec tut]. unfold sidereal_1982.
  replace (centuries (julian_date (mjd ut1))) with (jcenturies_sinceJ2000 ut1) by (unfold centuries, julian_date, jcenturies_sinceJ2000; lra). unfold hsec2rad. cbn [pow]. lra.
Qed.

(** ** errors *)
Lemma check_era : (fst (bnd evb era00e) <=? 643 * one120)%Z = true /\ (snd (bnd evb era00e) <=? 6 * one120 / 10 ^ 13)%Z = true.
Proof. split; vm_compute; reflexivity. Qed.
Lemma check_gmst : (fst (bnd evb gmst_polye) <=? 3 * one120 / 10 ^ 2)%Z = true /\ (snd (bnd evb gmst_polye) <=? 3 * one120 / 10 ^ 17)%Z = true.
Proof. split; vm_compute; reflexivity. Qed.
Lemma check_gmst82 : (fst (bnd evb gmst82e) <=? 8838000 * one120)%Z = true /\ (snd (bnd evb gmst82e) <=? 68 * one120 / 10 ^ 10)%Z = true.
Proof. split; vm_compute; reflexivity. Qed.
Lemma check_sp00 : (snd (bnd evb sp00e) <=? 4 * one120 / 10 ^ 25)%Z = true.
Proof. vm_compute. reflexivity. Qed.
Lemma check_safe : forallb (fun e => snd (bnds evb e)) [era00e; gmst_polye; gmst82e; sp00e] = true.
Proof. vm_compute. reflexivity. Qed.

Lemma anp_error p q v e M : anp_run q v -> Rabs (q - p) <= e -> Rabs q <= M -> exists a, eqm a p /\ Rabs (v - a) <= e + (M / 6 + 2) * / 2 ^ 50.
Proof.
  intros (_ & k & K & V) E HM. exists (p - 2 * PI * IZR k). split; [exists (- k)%Z; rewrite opp_IZR; ring|].
  replace (v - (p - 2 * PI * IZR k)) with ((v - (q - 2 * PI * IZR k)) + (q - p)) by ring. eapply Rle_trans; [apply Rabs_triang|].
  assert (P : 0 < / 2 ^ 50) by (apply Rinv_0_lt_compat, pow_lt; lra). assert ((Rabs (IZR k) + 1) * / 2 ^ 50 <= (M / 6 + 2) * / 2 ^ 50) by (apply Rmult_le_compat_r; lra). lra.
Qed.
Lemma p50 : 0 < / 2 ^ 50 <= 8.9e-16.
Proof. cbn [pow]. lra. Qed.
Lemma bound_of e n d m k v ex co : fits ex co evb -> run co e v -> (fst (bnd evb e) <=? n * one120 / d)%Z = true -> (snd (bnd evb e) <=? m * one120 / k)%Z = true -> (0 < d)%Z -> (0 < k)%Z ->
  Rabs (eval ex e) <= IZR n / IZR d /\ Rabs (v - eval ex e) <= IZR m / IZR k.
Proof. intros F Rn A B D K. destruct (bnd_sound _ _ _ F e v Rn) as [X Y]. split; [eapply Rle_trans; [exact X|apply units; assumption]|eapply Rle_trans; [exact Y|apply units; assumption]]. Qed.
Lemma near_close x y : Rabs (y - x) <= 1 -> Rabs y <= Rabs x + 1.
Proof. intros H. replace y with (x + (y - x)) by ring. eapply Rle_trans; [apply Rabs_triang|]. lra. Qed.
Section Errors.
  Variables (tt ut1 : epoch) (T : times).
  Hypotheses (HC : in_century tt ut1) (HO : handed_out tt ut1 T).
  Lemma era_error v : era_run T v -> Rabs v <= 7 /\ exists a, eqm a (earth_rotation_angle (julian_date (mjd ut1))) /\ Rabs (v - a) <= 8e-13.
  Proof.
    intros (p & Rp & A). split; [apply A|]. destruct check_era as [K1 K2].
    destruct (bound_of era00e 643 1 6 (10 ^ 13) p _ _ (fits_times tt ut1 T HC HO) Rp ltac:(rewrite Z.div_1_r; exact K1) K2 ltac:(lia) ltac:(lia)) as [X Y]. change (10 ^ 13)%Z with 10000000000000%Z in Y.
    destruct (anp_error _ p v _ 644 A Y) as (a & E & B). { eapply Rle_trans; [apply (near_close (eval (teenv (exact_times tt ut1)) era00e))|]; lra. }
    exists a. split; [eapply eqm_trans; [exact E|apply era_exact]|]. eapply Rle_trans; [exact B|]. pose proof p50. lra.
  Qed.
  Lemma gmst_error v : gmst_run T v -> exists a, eqm a (sidereal_time (julian_date (mjd tt)) (julian_date (mjd ut1))) /\ Rabs (v - a) <= 9e-13.
  Proof.
    intros (e & p & s & He & Rp & Ns & A). destruct (era_error e He) as (B7 & a & Ea & Da). destruct check_gmst as [K1 K2].
    destruct (bound_of gmst_polye 3 (10 ^ 2) 3 (10 ^ 17) p _ _ (fits_times tt ut1 T HC HO) Rp K1 K2 ltac:(lia) ltac:(lia)) as [X Y]. change (10 ^ 2)%Z with 100%Z in X. change (10 ^ 17)%Z with 100000000000000000%Z in Y.
    set (q := eval (teenv (exact_times tt ut1)) gmst_polye) in *. destruct u_small as (U1 & U2 & T1 & T2). unfold near in Ns.
    assert (S : Rabs (e + p) <= 7.1). { apply Rabs_le_inv in X, Y, B7. apply Rabs_le. lra. }
    assert (Ns' : Rabs (s - (e + p)) <= 9e-16) by (pose proof (Rabs_pos (e + p)); nra).
    assert (D : Rabs (s - (a + q)) <= 8.02e-13). { apply Rabs_le_inv in Ns', Da, Y. apply Rabs_le. lra. }
    destruct (anp_error (a + q) s v _ 8 A D) as (b & Eb & Db). { apply Rabs_le_inv in Ns', S. apply Rabs_le. lra. }
    exists b. split; [|eapply Rle_trans; [exact Db|]; pose proof p50; lra]. eapply eqm_trans; [exact Eb|]. unfold sidereal_time. apply eqm_add; [exact Ea|]. unfold q. rewrite gmst_link. apply eqm_refl.
  Qed.
  Lemma gmst82_error v : gmst82_run T v -> exists a, eqm a (sidereal_1982 (julian_date (mjd ut1)) (86400 * mfrac ut1)) /\ Rabs (v - a) <= 1e-12.
  Proof.
    intros (p & h & Rp & Nh & A). destruct check_gmst82 as [K1 K2].
    destruct (bound_of gmst82e 8838000 1 68 (10 ^ 10) p _ _ (fits_times tt ut1 T HC HO) Rp ltac:(rewrite Z.div_1_r; exact K1) K2 ltac:(lia) ltac:(lia)) as [X Y]. change (10 ^ 10)%Z with 10000000000%Z in Y.
    set (q := eval (teenv (exact_times tt ut1)) gmst82e) in *. destruct u_small as (U1 & U2 & T1 & T2). pose proof pi_bounds as PB.
    assert (H : forall x, hsec2rad x = x * (PI / 43200)) by (intros x; unfold hsec2rad; field).
    set (c := PI / 43200) in *. assert (C : 7.27e-5 <= c <= 7.2723e-5) by (unfold c; lra).
    assert (Px : Rabs p <= 8838001) by (apply Rabs_le_inv in X, Y; apply Rabs_le; lra).
    assert (HP : Rabs (hsec2rad p) <= 643). { rewrite H, Rabs_mult, (Rabs_pos_eq c) by lra. pose proof (Rabs_pos p). nra. }
    assert (Nh' : Rabs (h - hsec2rad p) <= 3.1e-13) by (pose proof (Rabs_pos (hsec2rad p)); nra).
    assert (D1 : Rabs (hsec2rad p - hsec2rad q) <= 5e-13). { rewrite !H, <- Rmult_minus_distr_r, Rabs_mult, (Rabs_pos_eq c) by lra. pose proof (Rabs_pos (p - q)). nra. }
    assert (D : Rabs (h - hsec2rad q) <= 8.1e-13). { apply Rabs_le_inv in Nh', D1. apply Rabs_le. lra. }
    destruct (anp_error (hsec2rad q) h v _ 644 A D) as (b & Eb & Db). { apply Rabs_le_inv in Nh', HP. apply Rabs_le. lra. }
    exists b. split; [|eapply Rle_trans; [exact Db|]; pose proof p50; lra]. unfold q in Eb. rewrite gmst82_link in Eb. exact Eb.
  Qed.
  Lemma sp00_error v : sp00_run T v -> Rabs (v - arcsec (-47e-6 * centuries (julian_date (mjd tt)))) <= 4e-25.
  Proof.
    intros Rp. destruct (bnd_sound _ _ _ (fits_times tt ut1 T HC HO) sp00e v Rp) as [_ Y]. unfold sp00e in Y at 1. cbn [eval teenv nth exact_times tf ttu ttt] in Y. rewrite sec2rad_arcsec in Y.
    replace (IZR (-47) / 10 ^ 6 * jcenturies_sinceJ2000 tt) with (-47e-6 * centuries (julian_date (mjd tt))) in Y by (unfold centuries, julian_date, jcenturies_sinceJ2000; lra).
    eapply Rle_trans; [exact Y|]. eapply Rle_trans; [apply (units 4 (10 ^ 25)); [exact check_sp00|lia]|]. change (10 ^ 25)%Z with 10000000000000000000000000%Z. lra.
  Qed.
End Errors.

(** ** binary64 *)
Definition accurate_anp (g : double -> double) : Prop := forall x, fin x -> Rabs (val x) <= big -> fin (g x) /\ anp_run (val x) (val (g x)).
Definition accurate_hsec (g : double -> double) : Prop := forall x, fin x -> Rabs (val x) <= big -> fin (g x) /\ Rabs (val (g x) - hsec2rad (val x)) <= 4 * u * Rabs (hsec2rad (val x)) + tiny.
Section Doubles.
  Variables dsin dcos dsec dhsec danp : double -> double.
  Hypothesis (As : accurate dsin sin) (Ac : accurate dcos cos) (Ax : accurate_sec dsec) (Ah : accurate_hsec dhsec) (An : accurate_anp danp).
  Variables (f tu t d2pi dpi sec ut : double) (tt ut1 : epoch).
  Notation E := (env64e f tu t d2pi dpi sec ut).
  Definition times64 : times := mkTimes (val f) (val tu) (val t) (val d2pi) (val dpi) (val sec) (val ut).
  Hypotheses (HC : in_century tt ut1) (HO : handed_out tt ut1 times64) (Fe : Forall fin [f; tu; t; d2pi; dpi; sec; ut]).
  Lemma env64e_val i : val (E i) = teenv times64 i.
  Proof. unfold env64e, teenv, times64. cbn [tf ttu ttt td2pi tdpi tsec tut]. do 7 (destruct i as [|i]; [reflexivity|]). destruct i; reflexivity. Qed.
  Lemma env64e_fin i : fin (E i).
  Proof. unfold env64e. repeat (match goal with H : Forall fin (_ :: _) |- _ => inversion H; subst; clear H end). do 7 (destruct i as [|i]; [assumption|]). destruct i; reflexivity. Qed.
  Lemma exec_env e : snd (bnds evb e) = true -> fin (exec dsin dcos dsec E e) /\ run (teenv times64) e (val (exec dsin dcos dsec E e)) /\ Rabs (val (exec dsin dcos dsec E e)) <= big.
  Proof.
    intros S. pose proof (fits_times tt ut1 times64 HC HO) as Ft. assert (Ft' : fits (teenv (exact_times tt ut1)) (fun i => val (E i)) evb) by (intros i; rewrite env64e_val; apply Ft).
    destruct (exec_run dsin dcos dsec E _ evb As Ac Ax env64e_fin Ft' e S) as [A B]. split; [exact A|].
    destruct (bnd_sound _ _ _ Ft' e _ B) as [X Y]. split; [|apply (small_big (bnd evb e) (eval (teenv (exact_times tt ut1)) e)); [apply bnds_small, S|exact X|exact Y]].
    revert B. generalize (val (exec dsin dcos dsec E e)). clear -f. assert (H : forall i, val (E i) = teenv times64 i) by exact env64e_val.
    intros v. apply FlCip64Proofs.run_ext. exact H.
  Qed.
  Lemma safe_of e : In e [era00e; gmst_polye; gmst82e; sp00e] -> snd (bnds evb e) = true.
  Proof. intros H. pose proof check_safe as C. rewrite forallb_forall in C. exact (C e H). Qed.
  Lemma era64_run : fin (era64 dsin dcos dsec danp E) /\ era_run times64 (val (era64 dsin dcos dsec danp E)).
  Proof. destruct (exec_env era00e (safe_of _ ltac:(cbn; tauto))) as (A & B & C). destruct (An _ A C) as [F G]. split; [exact F|]. exists (val (exec dsin dcos dsec E era00e)). split; [exact B|exact G]. Qed.
  Lemma gmst64_run : fin (gmst64 dsin dcos dsec danp E) /\ gmst_run times64 (val (gmst64 dsin dcos dsec danp E)).
  Proof.
    destruct era64_run as [Fe' Re]. destruct (exec_env gmst_polye (safe_of _ ltac:(cbn; tauto))) as (A & B & C).
    destruct check_gmst as [K1 K2]. destruct (bound_of gmst_polye 3 (10 ^ 2) 3 (10 ^ 17) _ _ _ (fits_times tt ut1 times64 HC HO) B K1 K2 ltac:(lia) ltac:(lia)) as [X Y]. change (10 ^ 2)%Z with 100%Z in X. change (10 ^ 17)%Z with 100000000000000000%Z in Y.
    destruct (era_error tt ut1 times64 HC HO _ Re) as [B7 _].
    assert (S : Rabs (val (era64 dsin dcos dsec danp E) + val (exec dsin dcos dsec E gmst_polye)) <= 8) by (apply Rabs_le_inv in X, Y, B7; apply Rabs_le; lra).
    assert (BG : 16 <= big) by (unfold big; cbn [pow]; lra). destruct u_small as (U1 & U2 & T1 & T2).
    destruct (dadd_ok _ _ Fe' A ltac:(lra) C) as [Fs Ns].
    assert (Sb : Rabs (val (dadd (era64 dsin dcos dsec danp E) (exec dsin dcos dsec E gmst_polye))) <= big).
    { unfold near in Ns. eapply Rle_trans; [apply near_close|]; [eapply Rle_trans; [exact Ns|]; pose proof (Rabs_pos (val (era64 dsin dcos dsec danp E) + val (exec dsin dcos dsec E gmst_polye))); nra|lra]. }
    destruct (An _ Fs Sb) as [F G]. split; [exact F|]. exists (val (era64 dsin dcos dsec danp E)), (val (exec dsin dcos dsec E gmst_polye)), (val (dadd (era64 dsin dcos dsec danp E) (exec dsin dcos dsec E gmst_polye))).
    split; [exact Re|]. split; [exact B|]. split; [exact Ns|exact G].
  Qed.
  Lemma gmst82_64_run : fin (gmst82_64 dsin dcos dsec dhsec danp E) /\ gmst82_run times64 (val (gmst82_64 dsin dcos dsec dhsec danp E)).
  Proof.
    destruct (exec_env gmst82e (safe_of _ ltac:(cbn; tauto))) as (A & B & C). destruct (Ah _ A C) as [Fh Nh].
    destruct check_gmst82 as [K1 K2]. destruct (bound_of gmst82e 8838000 1 68 (10 ^ 10) _ _ _ (fits_times tt ut1 times64 HC HO) B ltac:(rewrite Z.div_1_r; exact K1) K2 ltac:(lia) ltac:(lia)) as [X Y]. change (10 ^ 10)%Z with 10000000000%Z in Y.
    set (p := val (exec dsin dcos dsec E gmst82e)) in *. pose proof pi_bounds as PB. destruct u_small as (U1 & U2 & T1 & T2).
    assert (Px : Rabs p <= 8838001) by (apply Rabs_le_inv in X, Y; apply Rabs_le; lra).
    assert (HP : Rabs (hsec2rad p) <= 643). { replace (hsec2rad p) with (p * (PI / 43200)) by (unfold hsec2rad; field). rewrite Rabs_mult, (Rabs_pos_eq (PI / 43200)) by lra. pose proof (Rabs_pos p). assert (0 <= PI / 43200 <= 7.2723e-5) by lra. nra. }
    assert (Sb : Rabs (val (dhsec (exec dsin dcos dsec E gmst82e))) <= big).
    { assert (1000 <= big) by (unfold big; cbn [pow]; lra). eapply Rle_trans; [apply (near_close (hsec2rad p))|lra]. eapply Rle_trans; [exact Nh|]. pose proof (Rabs_pos (hsec2rad p)). nra. }
    destruct (An _ Fh Sb) as [F G]. split; [exact F|]. exists p, (val (dhsec (exec dsin dcos dsec E gmst82e))). split; [exact B|]. split; [exact Nh|exact G].
  Qed.
  Lemma sp00_64_run : fin (exec dsin dcos dsec E sp00e) /\ sp00_run times64 (val (exec dsin dcos dsec E sp00e)).
  Proof. destruct (exec_env sp00e (safe_of _ ltac:(cbn; tauto))) as (A & B & _). split; [exact A|exact B]. Qed.
End Doubles.

(** ** such library functions exist *)
Lemma lib_hsec_ok : accurate_hsec (FlCip64Proofs.lib_trig hsec2rad).
Proof.
  intros x _ H. assert (S : Rabs (hsec2rad (val x)) <= Rabs (val x)). { pose proof pi_bounds. replace (hsec2rad (val x)) with (val x * (PI / 43200)) by (unfold hsec2rad; field).
    rewrite Rabs_mult, (Rabs_pos_eq (PI / 43200)) by lra. pose proof (Rabs_pos (val x)). assert (PI / 43200 <= 1) by lra. assert (0 <= PI / 43200) by lra. nra. }
  destruct (of_real_ok (hsec2rad (val x))) as [F N]; [lra|]. split; [exact F|]. unfold near in N. eapply Rle_trans; [exact N|]. pose proof u_pos. pose proof (Rabs_pos (hsec2rad (val x))). nra.
Qed.
(** the remainder by D2PI, one turn added if it is negative *)
Definition fmod_anp (dfmod : double -> double -> double) (d2pi x : double) : double := let w := dfmod x d2pi in if Bltb w dzero then dadd w d2pi else w.
Lemma fmod_anp_ok dfmod d2pi : FlCip64Proofs.exact_fmod dfmod -> fin d2pi -> Rabs (val d2pi - 2 * PI) <= / 2 ^ 50 -> accurate_anp (fmod_anp dfmod d2pi).
Proof.
  intros Em Fp Hp x Fx Hx. pose proof pi_bounds as PB. pose proof p50 as P5. assert (D : 6.28 <= val d2pi <= 6.29) by (apply Rabs_le_inv in Hp; lra).
  destruct (Em x d2pi Fx Fp ltac:(lra)) as [Fw Vw]. pose proof (fmod_bound (val x) (val d2pi) ltac:(lra)) as Bw. rewrite <- Vw in Bw.
  pose proof (trunc_abs (val x / val d2pi)) as TA. set (k := trunc (val x / val d2pi)) in *.
  assert (Q : Rabs (val x / val d2pi) <= Rabs (val x) / 6). { unfold Rdiv. rewrite Rabs_mult. apply Rmult_le_compat_l; [apply Rabs_pos|]. rewrite Rabs_pos_eq by (apply Rlt_le, Rinv_0_lt_compat; lra). apply Rinv_le_contravar; lra. }
  assert (VW : val (dfmod x d2pi) = val x - val d2pi * IZR k) by (rewrite Vw; reflexivity).
  unfold fmod_anp. rewrite Bltb_correct by (exact Fw || reflexivity). change (B2R dzero) with 0. unfold Rlt_bool. destruct (Rcompare_spec (B2R (dfmod x d2pi)) 0) as [L|L|L].
  - assert (S : Rabs (val (dfmod x d2pi) + val d2pi) <= 6.3) by (apply Rabs_le; lra). assert (BG : 16 <= big) by (unfold big; cbn [pow]; lra). destruct (dadd_ok (dfmod x d2pi) d2pi Fw Fp ltac:(apply Rabs_le; lra) ltac:(apply Rabs_le; lra)) as [Fs Ns].
    unfold near in Ns. destruct u_small as (U1 & U2 & T1 & T2). pose proof u_pos as UP. assert (E8 : / 2 ^ 50 = 8 * u) by (unfold u; cbn [pow]; lra).
    assert (TU : tiny <= u) by (unfold tiny, u; apply Rinv_le_contravar; [apply pow_lt; lra|apply Rle_pow; [lra|apply Nat.leb_le; vm_compute; reflexivity]]).
    assert (Ns' : Rabs (val (dadd (dfmod x d2pi) d2pi) - (val (dfmod x d2pi) + val d2pi)) <= / 2 ^ 50) by (pose proof (Rabs_pos (val (dfmod x d2pi) + val d2pi)); nra).
    split; [exact Fs|]. split; [apply Rabs_le_inv in Ns'; apply Rabs_le; lra|]. exists (k - 1)%Z. rewrite minus_IZR.
    assert (KM : Rabs (IZR k - 1) <= Rabs (IZR k) + 1) by (unfold Rminus; eapply Rle_trans; [apply Rabs_triang|]; rewrite Rabs_Ropp, Rabs_R1; lra). split; [lra|].
    replace (val (dadd (dfmod x d2pi) d2pi) - (val x - 2 * PI * (IZR k - 1))) with ((val (dadd (dfmod x d2pi) d2pi) - (val (dfmod x d2pi) + val d2pi)) + - ((val d2pi - 2 * PI) * (IZR k - 1))) by (rewrite VW; ring).
    eapply Rle_trans; [apply Rabs_triang|]. rewrite Rabs_Ropp, Rabs_mult. assert (Rabs (val d2pi - 2 * PI) * Rabs (IZR k - 1) <= / 2 ^ 50 * Rabs (IZR k - 1)) by (apply Rmult_le_compat_r; [apply Rabs_pos|exact Hp]). lra.
  - split; [exact Fw|]. split; [apply Rabs_le; lra|]. exists k. split; [lra|]. replace (val (dfmod x d2pi) - (val x - 2 * PI * IZR k)) with (- ((val d2pi - 2 * PI) * IZR k)) by (rewrite VW; ring).
    rewrite Rabs_Ropp, Rabs_mult. assert (Rabs (val d2pi - 2 * PI) * Rabs (IZR k) <= / 2 ^ 50 * Rabs (IZR k)) by (apply Rmult_le_compat_r; [apply Rabs_pos|exact Hp]). lra.
  - split; [exact Fw|]. split; [apply Rabs_le; lra|]. exists k. split; [lra|]. replace (val (dfmod x d2pi) - (val x - 2 * PI * IZR k)) with (- ((val d2pi - 2 * PI) * IZR k)) by (rewrite VW; ring).
    rewrite Rabs_Ropp, Rabs_mult. assert (Rabs (val d2pi - 2 * PI) * Rabs (IZR k) <= / 2 ^ 50 * Rabs (IZR k)) by (apply Rmult_le_compat_r; [apply Rabs_pos|exact Hp]). lra.
Qed.
