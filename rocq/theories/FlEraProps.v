(** Property theorems for C71: rounding errors of the sidereal angles. *)
From Coq Require Import Reals ZArith List Bool Lia Lra.
From Flocq Require Import Core.Core IEEE754.BinarySingleNaN.
From Verif Require Import Poly Angles PiBound KahanModel FundModel FundSpec FundProofs FlModel FlProofs FlFloatModel FlFloatProofs FlCipProofs FlCipProofs2 FlEraModel FlEraProofs.
From Verif Require FlCip64Proofs FlCipProps.
Import ListNotations.
Open Scope R_scope.

(** ** the expressions are the code's: evaluated exactly they are the functions of C48 *)
Theorem c71_expressions tt ut1 : let E := teenv (exact_times tt ut1) in
  eqm (eval E era00e) (era00 ut1) /\ eqm (era00 ut1 + eval E gmst_polye) (gmst tt ut1) /\ eqm (hsec2rad (eval E gmst82e)) (gmst82 ut1) /\ eval E sp00e = sec2rad (-47e-6 * jcenturies_sinceJ2000 tt).
Proof.
  cbv zeta. split; [eapply eqm_trans; [apply era_exact|apply eqm_sym, era_eqm]|]. split.
  { eapply eqm_trans; [|apply eqm_sym, gmst_eqm]. unfold sidereal_time. apply eqm_add; [apply era_eqm|]. rewrite gmst_link. apply eqm_refl. }
  split; [eapply eqm_trans; [|apply eqm_sym, gmst82_eqm]; rewrite gmst82_link; apply eqm_refl|].
  unfold sp00e. cbn [eval teenv nth exact_times tf ttu ttt td2pi tdpi pow]. f_equal. lra.
Qed.

(** ** whatever the roundings, within a century *)
(** handed_out: the epochs are those of the datetime library to 2^-53 days, 2^-37 days, 2^-53 centuries and 2^-36 seconds *)
Theorem c71_era tt ut1 T v : in_century tt ut1 -> handed_out tt ut1 T -> era_run T v ->
  exists a, eqm a (earth_rotation_angle (julian_date (mjd ut1))) /\ Rabs (v - a) <= 8e-13.
Proof. intros C H R. exact (proj2 (era_error tt ut1 T C H v R)). Qed.
Theorem c71_gmst tt ut1 T v : in_century tt ut1 -> handed_out tt ut1 T -> gmst_run T v ->
  exists a, eqm a (sidereal_time (julian_date (mjd tt)) (julian_date (mjd ut1))) /\ Rabs (v - a) <= 9e-13.
Proof. intros C H. exact (gmst_error tt ut1 T C H v). Qed.
Theorem c71_gmst82 tt ut1 T v : in_century tt ut1 -> handed_out tt ut1 T -> gmst82_run T v ->
  exists a, eqm a (sidereal_1982 (julian_date (mjd ut1)) (86400 * mfrac ut1)) /\ Rabs (v - a) <= 1e-12.
Proof. intros C H. exact (gmst82_error tt ut1 T C H v). Qed.
Theorem c71_sp00 tt ut1 T v : in_century tt ut1 -> handed_out tt ut1 T -> sp00_run T v -> Rabs (v - arcsec (-47e-6 * centuries (julian_date (mjd tt)))) <= 4e-25.
Proof. intros C H. exact (sp00_error tt ut1 T C H v). Qed.
(** sine and cosine of the rotation angle, which is all the rotation matrix uses *)
Theorem c71_rotation tt ut1 T v : in_century tt ut1 -> handed_out tt ut1 T -> era_run T v ->
  let a := earth_rotation_angle (julian_date (mjd ut1)) in Rabs (sin v - sin a) <= 8e-13 /\ Rabs (cos v - cos a) <= 8e-13.
Proof.
  intros C H R a. destruct (c71_era _ _ _ _ C H R) as (b & E & D). fold a in E. rewrite <- (eqm_sin _ _ E), <- (eqm_cos _ _ E).
  split; (eapply Rle_trans; [first [apply sin_lip | apply cos_lip]|exact D]).
Qed.
(** the point of the equator is placed to a hundredth of a millimetre *)
Theorem c71_equator tt ut1 T v : in_century tt ut1 -> handed_out tt ut1 T -> era_run T v -> exists a, eqm a (earth_rotation_angle (julian_date (mjd ut1))) /\ 6378137 * Rabs (v - a) <= 1e-5.
Proof. intros C H R. destruct (c71_era _ _ _ _ C H R) as (a & E & D). exists a. split; [exact E|lra]. Qed.
(** two builds agree *)
Theorem c71_builds tt ut1 T T' v v' : in_century tt ut1 -> handed_out tt ut1 T -> handed_out tt ut1 T' -> gmst_run T v -> gmst_run T' v' -> exists w, eqm w v' /\ Rabs (v - w) <= 1.8e-12.
Proof.
  intros C H H' R R'. destruct (c71_gmst _ _ _ _ C H R) as (a & E & D), (c71_gmst _ _ _ _ C H' R') as (b & E' & D').
  exists (v' + (a - b)). split; [|apply Rabs_le_inv in D, D'; apply Rabs_le; lra].
  destruct E as [k E], E' as [k' E']. exists (k - k')%Z. rewrite minus_IZR. lra.
Qed.

(** ** in binary64 *)
Section Library.
  Variables dsin dcos dsec dhsec danp : double -> double.
  Definition library : Prop := accurate dsin sin /\ accurate dcos cos /\ accurate_sec dsec /\ accurate_hsec dhsec /\ accurate_anp danp.
  Variables (f tu t d2pi dpi sec ut : double) (tt ut1 : epoch).
  Let E := env64e f tu t d2pi dpi sec ut.
  Theorem c71_binary64 : library -> in_century tt ut1 -> Forall fin [f; tu; t; d2pi; dpi; sec; ut] -> handed_out tt ut1 (times64 f tu t d2pi dpi sec ut) ->
    (fin (era64 dsin dcos dsec danp E) /\ exists a, eqm a (earth_rotation_angle (julian_date (mjd ut1))) /\ Rabs (B2R (era64 dsin dcos dsec danp E) - a) <= 8e-13) /\
    (fin (gmst64 dsin dcos dsec danp E) /\ exists a, eqm a (sidereal_time (julian_date (mjd tt)) (julian_date (mjd ut1))) /\ Rabs (B2R (gmst64 dsin dcos dsec danp E) - a) <= 9e-13) /\
    (fin (gmst82_64 dsin dcos dsec dhsec danp E) /\ exists a, eqm a (sidereal_1982 (julian_date (mjd ut1)) (86400 * mfrac ut1)) /\ Rabs (B2R (gmst82_64 dsin dcos dsec dhsec danp E) - a) <= 1e-12) /\
    fin (exec dsin dcos dsec E sp00e) /\ Rabs (B2R (exec dsin dcos dsec E sp00e) - arcsec (-47e-6 * centuries (julian_date (mjd tt)))) <= 4e-25.
  Proof.
    intros (As & Ac & Ax & Ah & An) C F H.
    destruct (era64_run dsin dcos dsec danp As Ac Ax An f tu t d2pi dpi sec ut tt ut1 C H F) as [F1 R1]. split; [split; [exact F1|exact (c71_era _ _ _ _ C H R1)]|].
    destruct (gmst64_run dsin dcos dsec danp As Ac Ax An f tu t d2pi dpi sec ut tt ut1 C H F) as [F2 R2]. split; [split; [exact F2|exact (c71_gmst _ _ _ _ C H R2)]|].
    destruct (gmst82_64_run dsin dcos dsec dhsec danp As Ac Ax Ah An f tu t d2pi dpi sec ut tt ut1 C H F) as [F3 R3]. split; [split; [exact F3|exact (c71_gmst82 _ _ _ _ C H R3)]|].
    destruct (sp00_64_run dsin dcos dsec As Ac Ax f tu t d2pi dpi sec ut tt ut1 C H F) as [F4 R4]. split; [exact F4|exact (c71_sp00 _ _ _ _ C H R4)].
  Qed.
End Library.
(** a remainder by D2PI with one turn added to negative results is accurate enough *)
Theorem c71_anp dfmod d2pi : FlCip64Proofs.exact_fmod dfmod -> fin d2pi -> Rabs (B2R d2pi - 2 * PI) <= / 2 ^ 50 -> accurate_anp (fmod_anp dfmod d2pi).
Proof. exact (fmod_anp_ok dfmod d2pi). Qed.
Theorem c71_library : library (FlCip64Proofs.lib_trig sin) (FlCip64Proofs.lib_trig cos) (FlCip64Proofs.lib_trig sec2rad) (FlCip64Proofs.lib_trig hsec2rad) (fmod_anp FlCip64Proofs.lib_fmod (of_real (2 * PI))).
Proof.
  destruct FlCipProps.c70_library as (A & B & C & D & E & F). split; [exact A|]. split; [exact B|]. split; [exact C|]. split; [exact lib_hsec_ok|]. exact (c71_anp _ _ D E F).
Qed.

Example c71_nonvacuous tt ut1 : in_century tt ut1 -> handed_out tt ut1 (exact_times tt ut1) /\ exists v, era_run (exact_times tt ut1) v.
Proof.
  intros _. assert (Z : forall k x, Rabs (x - x) <= / 2 ^ k) by (intros k x; rewrite Rminus_diag_eq, Rabs_R0 by reflexivity; apply Rlt_le, Rinv_0_lt_compat, pow_lt; lra).
  split; [unfold handed_out; cbv zeta; repeat split; apply Z|].
  set (p := eval (teenv (exact_times tt ut1)) era00e). exists (fmod p (2 * PI)), p. split; [apply FlCipProps.c70_exact_run|]. pose proof pi_bounds.
  pose proof (fmod_bound p (2 * PI) ltac:(lra)). split; [apply Rabs_le; lra|]. exists (trunc (p / (2 * PI))). pose proof (trunc_abs (p / (2 * PI))) as TA.
  assert (Q : Rabs (p / (2 * PI)) <= Rabs p / 6). { unfold Rdiv. rewrite Rabs_mult. apply Rmult_le_compat_l; [apply Rabs_pos|]. rewrite Rabs_pos_eq by (apply Rlt_le, Rinv_0_lt_compat; lra). apply Rinv_le_contravar; lra. }
  split; [lra|]. unfold fmod. rewrite Rminus_diag_eq, Rabs_R0 by reflexivity. pose proof (Rabs_pos (IZR (trunc (p / (2 * PI))))). pose proof p50. nra.
Qed.
Example c71_epoch : exists tt ut1, in_century tt ut1 /\ mjd ut1 = 60000.25.
Proof.
  exists (mkT 60000 0.25), (mkT 60000 0.25). unfold in_century, jcenturies_sinceJ2000, mjd. cbn [mday mfrac]. split; [|lra]. split; [lra|]. split; apply Rabs_le; lra.
Qed.
Print Assumptions c71_expressions.
Print Assumptions c71_era.
Print Assumptions c71_gmst.
Print Assumptions c71_gmst82.
Print Assumptions c71_sp00.
Print Assumptions c71_rotation.
Print Assumptions c71_equator.
Print Assumptions c71_builds.
Print Assumptions c71_binary64.
Print Assumptions c71_anp.
Print Assumptions c71_library.
