From Coq Require Import Reals ZArith List Lia Lra.
From Verif Require Import Angles Poly PiBound FundModel FundSpec FundProofs.
Import ListNotations.
Open Scope R_scope.

(** ** C46: derivatives of the lunisolar arguments *)
(** the true derivative of every argument function, where the reduction does not jump *)
Theorem c46_true_derivative i t : (i < 5)%nat -> (forall z, peval (nth i lunisolar []) t <> 1296000 * IZR z) ->
  derivable_pt_lim (fun s => nth i (fundarg s) 0) t (arcsec (peval (pderiv (nth i lunisolar [])) t)).
Proof. exact (args_derivative i t). Qed.
(** the library returns it at J2000 only; the factors 2, 3, 4 of the higher powers are missing *)
Theorem c46_derivative_partial : Forall2 (fun d c => d = arcsec (peval (pderiv c) 0)) (fundarg_derivs 0) lunisolar.
Proof. exact derivs_at_0. Qed.
(** within a century the error is at most 32 arc seconds per century, times the distance in centuries *)
Theorem c46_derivative_error_partial t : Rabs t <= 1 -> Forall2 (fun d c => Rabs (arcsec (peval (pderiv c) t) - d) <= arcsec (32 * Rabs t)) (fundarg_derivs t) lunisolar.
Proof. exact (derivs_bound t). Qed.
Theorem c46_derivative_value t : Forall2 (fun d c => d = arcsec (peval (tl c) t)) (fundarg_derivs t) lunisolar.
Proof. rewrite derivs_arg. apply forall2_map. reflexivity. Qed.
(** none of the five is the derivative, at any time within a century of J2000 other than J2000 *)
Theorem c46_derivative_refuted i t : (i < 5)%nat -> 0 < Rabs t <= 1 -> (forall z, peval (nth i lunisolar []) t <> 1296000 * IZR z) ->
  ~ derivable_pt_lim (fun s => nth i (fundarg s) 0) t (nth i (fundarg_derivs t) 0).
Proof. exact (args_derivative_wrong i t). Qed.
(** overloads for an epoch *)
Theorem c46_overloads_partial tt : let t := centuries (julian_date (mjd tt)) in
  fundarg_mjd tt = fundarg t /\ fundarg_derivs_mjd tt = fundarg_derivs t /\
  [fal03_mjd tt; falp03_mjd tt; faf03_mjd tt; fad03_mjd tt; faom03_mjd tt] = fundarg t /\
  dfal03_mjd tt = dfal03 t /\ dfalp03_mjd tt = dfalp03 t /\ dfad03_mjd tt = dfad03 t /\ dfaom03_mjd tt = dfaom03 t /\
  [fame03_mjd tt; fave03_mjd tt; fae03_mjd tt; fama03_mjd tt; faju03_mjd tt; fasa03_mjd tt; faur03_mjd tt; fane03_mjd tt] =
    [fame03 t; fave03 t; fae03 t; fama03 t; faju03 t; fasa03 t; faur03 t; fane03 t] /\ fapa03_mjd tt = fapa03 t.
Proof. exact (overloads tt). Qed.
(** dfaf03 of an epoch is the argument itself, never the rate *)
Theorem c46_dfaf03_overload_refuted tt : dfaf03_mjd tt = faf03 (centuries (julian_date (mjd tt))) /\
  (Rabs (centuries (julian_date (mjd tt))) <= 10 -> dfaf03_mjd tt <> dfaf03 (centuries (julian_date (mjd tt)))).
Proof. exact (conj (dfaf03_mjd_is tt) (dfaf03_mjd_wrong tt)). Qed.
Example c46_nonvacuous : 0 < Rabs 0.1 <= 1 /\ Rabs (centuries (julian_date (mjd (mkT 60000 0.5)))) <= 10 /\
  (forall z, peval (nth 4 lunisolar []) 0.1 <> 1296000 * IZR z).
Proof.
  split; [rewrite Rabs_right; lra|]. split.
  - unfold centuries, julian_date, mjd. cbn [mday mfrac]. rewrite Rabs_right; lra.
  - intros z H. cbn [nth lunisolar] in H. unfold node, degrees in H. rewrite quartic in H.
    assert (A : IZR z < IZR 0) by lra. assert (B : IZR (-1) < IZR z) by lra. apply lt_IZR in A, B. lia.
Qed.

(** ** C47: range and congruence *)
Theorem c47_congruent t : Forall2 (fun a c => eqm a (arcsec (peval c t))) (fundarg t) lunisolar.
Proof. exact (args_congruent t). Qed.
Theorem c47_congruent_planets t : Forall2 (fun a c => eqm a (peval c t)) [fame03 t; fave03 t; fae03 t; fama03 t; faju03 t; fasa03 t; faur03 t; fane03 t] planetary.
Proof. exact (planets_congruent t). Qed.
Theorem c47_precession t : fapa03 t = peval precession t.
Proof. exact (fapa_value t). Qed.
(** fmod keeps the sign: [0,2 pi) where the polynomial is not negative, (-2 pi,0] where it is not positive *)
Theorem c47_range_partial t :
  Forall2 (fun a c => (0 <= peval c t -> 0 <= a < 2 * PI) /\ (peval c t <= 0 -> - (2 * PI) < a <= 0)) (fundarg t) lunisolar /\
  Forall2 (fun a c => (0 <= peval c t -> 0 <= a < 2 * PI) /\ (peval c t <= 0 -> - (2 * PI) < a <= 0))
    [fame03 t; fave03 t; fae03 t; fama03 t; faju03 t; fasa03 t; faur03 t; fane03 t] planetary.
Proof. exact (conj (args_sign t) (planets_sign t)). Qed.
(** the thousand years after J2000: all but the node *)
Theorem c47_range_after_J2000_partial t : 0 <= t <= 10 -> Forall (fun a => 0 <= a < 2 * PI)
  [fal03 t; falp03 t; faf03 t; fad03 t; fame03 t; fave03 t; fae03 t; fama03 t; faju03 t; fasa03 t; faur03 t; fane03 t].
Proof. exact (args_after t). Qed.
Theorem c47_node t : (- 10 <= t <= 0.0646 -> 0 <= faom03 t < 2 * PI) /\ (0.0647 <= t <= 10 -> - (2 * PI) < faom03 t <= 0).
Proof. exact (conj (node_before t) (node_after t)). Qed.
Theorem c47_precession_range_partial t : 0 <= t <= 200 -> 0 <= fapa03 t < 2 * PI.
Proof. exact (fapa_range t). Qed.
(** every one of the fourteen leaves the documented range *)
Theorem c47_range_refuted : fal03 (-0.001) < 0 /\ falp03 (-0.015) < 0 /\ faf03 (-0.0003) < 0 /\ fad03 (-0.001) < 0 /\ faom03 0.1 < 0 /\
  fame03 (-0.002) < 0 /\ fave03 (-0.004) < 0 /\ fae03 (-0.004) < 0 /\ fama03 (-0.02) < 0 /\ faju03 (-0.02) < 0 /\ fasa03 (-0.1) < 0 /\ faur03 (-1) < 0 /\ fane03 (-2) < 0 /\ fapa03 (-1) < 0.
Proof. exact all_negative. Qed.
(** the node in practice: from the middle of 2006 on it is never in the range, except exactly at zero *)
Theorem c47_node_since_2006_refuted t : 0.0647 <= t <= 10 -> faom03 t <> 0 -> ~ (0 <= faom03 t < 2 * PI).
Proof. intros T N H. pose proof (node_after t T). lra. Qed.
Theorem c47_precession_range_refuted : 2 * PI <= fapa03 1000.
Proof. exact fapa_large. Qed.
Example c47_nonvacuous : 0 <= peval mean_anomaly_moon 0.25 /\ peval node 0.25 <= 0.
Proof. unfold mean_anomaly_moon, node, degrees. rewrite !quartic. lra. Qed.

(** ** C48: Earth rotation angle and sidereal time *)
Theorem c48_era ut1 : eqm (era00 ut1) (earth_rotation_angle (julian_date (mjd ut1))) /\ 0 <= era00 ut1 < 2 * PI.
Proof. exact (conj (era_eqm ut1) (anp_range _)). Qed.
Theorem c48_gmst tt ut1 : eqm (gmst tt ut1) (sidereal_time (julian_date (mjd tt)) (julian_date (mjd ut1))) /\ 0 <= gmst tt ut1 < 2 * PI.
Proof. exact (conj (gmst_eqm tt ut1) (anp_range _)). Qed.
(** IAU 1982, with the seconds of the day UT1 *)
Theorem c48_gmst82 ut1 : eqm (gmst82 ut1) (sidereal_1982 (julian_date (mjd ut1)) (86400 * mfrac ut1)) /\ 0 <= gmst82 ut1 < 2 * PI.
Proof. exact (conj (gmst82_eqm ut1) (anp_range _)). Qed.
(** the rate of the specification is the derivative, UT1 and TT advancing together *)
Theorem c48_rate jt ju : derivable_pt_lim (fun s => sidereal_time (jt + s) (ju + s)) 0 (sidereal_rate jt).
Proof. exact (sidereal_derivative jt ju). Qed.
(** the value of the library: the rotation counted twice, and the factors of the higher powers missing *)
Theorem c48_dgmst_partial tt : let T := centuries (julian_date (mjd tt)) in
  dgmst tt = sidereal_rate (julian_date (mjd tt)) + 2 * PI * 1.00273781191135448 - arcsec (T * (1.3915817 + T * (- 0.00000044 * 2 + T * (- 0.000029956 * 3 + T * (- 0.0000000368 * 4))))) / 36525.
Proof. exact (dgmst_value tt). Qed.
(** more than six radians per day too fast *)
Theorem c48_dgmst_refuted tt ju : Rabs (centuries (julian_date (mjd tt))) <= 10 ->
  sidereal_rate (julian_date (mjd tt)) + 6 < dgmst tt /\ ~ derivable_pt_lim (fun s => sidereal_time (julian_date (mjd tt) + s) (ju + s)) 0 (dgmst tt).
Proof.
  intros T. pose proof (dgmst_wrong tt T) as W. split; [exact W|]. intros D.
  pose proof (uniqueness_limite _ _ _ _ (sidereal_derivative (julian_date (mjd tt)) ju) D). lra.
Qed.
Example c48_nonvacuous : Rabs (centuries (julian_date (mjd (mkT 60000 0.5)))) <= 10 /\ era00 (mkT 51544 0.5) = 2 * PI * 0.7790572732640.
Proof.
  split.
  - unfold centuries, julian_date, mjd. cbn [mday mfrac]. rewrite Rabs_right; lra.
  - pose proof PI_RGT_0. apply eqm_unique; [apply anp_range|split; lra|]. eapply eqm_trans; [apply era_eqm|]. apply eqm_eq. unfold earth_rotation_angle, julian_date, mjd. cbn [mday mfrac]. lra.
Qed.
Print Assumptions c46_true_derivative.
Print Assumptions c46_derivative_partial.
Print Assumptions c46_derivative_error_partial.
Print Assumptions c46_derivative_value.
Print Assumptions c46_derivative_refuted.
Print Assumptions c46_overloads_partial.
Print Assumptions c46_dfaf03_overload_refuted.
Print Assumptions c47_congruent.
Print Assumptions c47_congruent_planets.
Print Assumptions c47_precession.
Print Assumptions c47_range_partial.
Print Assumptions c47_range_after_J2000_partial.
Print Assumptions c47_node.
Print Assumptions c47_precession_range_partial.
Print Assumptions c47_range_refuted.
Print Assumptions c47_node_since_2006_refuted.
Print Assumptions c47_precession_range_refuted.
Print Assumptions c48_era.
Print Assumptions c48_gmst.
Print Assumptions c48_gmst82.
Print Assumptions c48_rate.
Print Assumptions c48_dgmst_partial.
Print Assumptions c48_dgmst_refuted.
