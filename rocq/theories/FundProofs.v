(** Proofs about fundamental arguments and sidereal time. *)
From Coq Require Import Reals ZArith List Lia Lra.
From Verif Require Import Angles Poly FundModel FundSpec.
Import ListNotations.
Open Scope R_scope.

(** ** truncated division *)
Lemma int_part_range x : IZR (Int_part x) <= x < IZR (Int_part x) + 1.
Proof. destruct (base_Int_part x) as [A B]. lra. Qed.
Lemma int_part_uniq x k : IZR k <= x < IZR k + 1 -> Int_part x = k.
Proof.
  intros H. pose proof (int_part_range x) as I. assert (A : IZR k < IZR (Int_part x + 1)) by (rewrite plus_IZR; lra).
  assert (B : IZR (Int_part x) < IZR (k + 1)) by (rewrite plus_IZR; lra). apply lt_IZR in A, B. lia.
Qed.
Lemma trunc_nonneg x : 0 <= x -> IZR (trunc x) <= x < IZR (trunc x) + 1.
Proof. intros H. unfold trunc. destruct (Rle_dec 0 x); [apply int_part_range|lra]. Qed.
Lemma trunc_nonpos x : x <= 0 -> IZR (trunc x) - 1 < x <= IZR (trunc x).
Proof.
  intros H. unfold trunc. destruct (Rle_dec 0 x) as [P|P].
  - assert (x = 0) by lra. subst. rewrite (int_part_uniq 0 0); lra.
  - rewrite opp_IZR. pose proof (int_part_range (- x)). lra.
Qed.
Lemma fmod_nonneg x y : 0 < y -> 0 <= x -> 0 <= fmod x y < y.
Proof.
  intros Y X. unfold fmod. assert (Q : 0 <= x / y) by (apply Rmult_le_pos; [exact X|left; apply Rinv_0_lt_compat, Y]).
  pose proof (trunc_nonneg _ Q) as T. assert (E : x = y * (x / y)) by (field; lra). set (q := x / y) in *. rewrite E at 1 2. nra.
Qed.
Lemma fmod_nonpos x y : 0 < y -> x <= 0 -> - y < fmod x y <= 0.
Proof.
  intros Y X. unfold fmod. assert (E : x = y * (x / y)) by (field; lra).
  assert (Q : x / y <= 0) by (assert (0 < / y) by (apply Rinv_0_lt_compat, Y); unfold Rdiv; nra).
  pose proof (trunc_nonpos _ Q) as T. set (q := x / y) in *. rewrite E at 1 2. nra.
Qed.
Lemma fmod_bound x y : 0 < y -> - y < fmod x y < y.
Proof.
  intros Y. destruct (Rle_dec 0 x) as [P|P].
  - pose proof (fmod_nonneg x y Y P). lra.
  - pose proof (fmod_nonpos x y Y ltac:(lra)). lra.
Qed.
Lemma fmod_small x y : 0 < y -> - y < x < y -> fmod x y = x.
Proof.
  intros Y H. unfold fmod. assert (E : trunc (x / y) = 0%Z).
  2:{ rewrite E. ring. }
  assert (I : 0 < / y) by (apply Rinv_0_lt_compat, Y). assert (J : y * / y = 1) by (field; lra). unfold trunc.
  destruct (Rle_dec 0 (x / y)) as [P|P].
  - apply int_part_uniq. unfold Rdiv in *. split; [exact P|]. nra.
  - rewrite (int_part_uniq _ 0); [reflexivity|]. unfold Rdiv in *. split; [lra|]. nra.
Qed.
(** locally constant away from the integers *)
Lemma trunc_local q0 : (forall z, q0 <> IZR z) -> exists e, 0 < e /\ forall q, Rabs (q - q0) < e -> trunc q = trunc q0.
Proof.
  intros H. pose proof (int_part_range q0) as I. set (k := Int_part q0) in *.
  assert (K : IZR k < q0) by (destruct I as [[A|A] _]; [exact A|destruct (H k); auto]).
  exists (Rmin (q0 - IZR k) (IZR k + 1 - q0)). split; [apply Rmin_pos; lra|].
  intros q D. assert (D' : IZR k < q < IZR k + 1).
  { apply Rabs_def2 in D. pose proof (Rmin_l (q0 - IZR k) (IZR k + 1 - q0)). pose proof (Rmin_r (q0 - IZR k) (IZR k + 1 - q0)). lra. }
  assert (C : forall x, IZR k < x < IZR k + 1 -> trunc x = (if Z_le_dec 0 k then k else k + 1)%Z).
  { intros x X. unfold trunc. destruct (Rle_dec 0 x) as [P|P], (Z_le_dec 0 k) as [Q|Q].
    - apply int_part_uniq. lra.
    - assert (N : (k + 1 <= 0)%Z) by lia. apply IZR_le in N. rewrite plus_IZR in N. lra.
    - apply IZR_le in Q. lra.
    - rewrite (int_part_uniq (- x) (- k - 1)); [lia|]. rewrite minus_IZR, opp_IZR. lra. }
  rewrite (C q D'), (C q0); [reflexivity|lra].
Qed.
Lemma fmod_derivative (f : R -> R) (y t l : R) : 0 < y -> (forall z, f t <> y * IZR z) -> derivable_pt_lim f t l -> derivable_pt_lim (fun s => fmod (f s) y) t l.
Proof.
  intros Y N D. destruct (trunc_local (f t / y)) as (e & Pe & L).
  { intros z E. apply (N z). rewrite <- E. field. lra. }
  assert (Cf : continuity_pt f t) by (apply derivable_continuous_pt; exists l; exact D).
  intros eps Heps. destruct (D eps Heps) as [d1 H1]. destruct (Cf (e * y) ltac:(nra)) as (d2 & P2 & H2).
  assert (P : 0 < Rmin d1 d2) by (apply Rmin_pos; [apply d1|exact P2]). exists (mkposreal _ P). cbn [pos]. intros h Hh Sh.
  assert (S1 : Rabs h < d1) by (eapply Rlt_le_trans; [exact Sh|apply Rmin_l]).
  assert (S2 : Rabs h < d2) by (eapply Rlt_le_trans; [exact Sh|apply Rmin_r]).
  unfold fmod. rewrite (L (f (t + h) / y)).
  - replace (f (t + h) - y * IZR (trunc (f t / y)) - (f t - y * IZR (trunc (f t / y)))) with (f (t + h) - f t) by ring. apply H1; auto.
  - assert (Q : Rabs (f (t + h) - f t) < e * y).
    { apply (H2 (t + h)). split; [split; [exact I|intros E; apply Hh; lra]|]. simpl. unfold R_dist. replace (t + h - t) with h by ring. exact S2. }
    replace (f (t + h) / y - f t / y) with ((f (t + h) - f t) / y) by (field; lra). unfold Rdiv. rewrite Rabs_mult, (Rabs_right (/ y)) by (left; apply Rinv_0_lt_compat, Y).
    apply (Rmult_lt_reg_r y); [exact Y|]. rewrite Rmult_assoc, Rinv_l, Rmult_1_r by lra. exact Q.
Qed.

(** ** polynomials *)
Lemma peval_dcoef n c x : peval (dcoef (n + 1) c) x = peval (dcoef n c) x + peval c x.
Proof. revert n; induction c as [|a c IH]; intros n; simpl; [ring|]. rewrite IH. ring. Qed.
Lemma peval_derivative c t : derivable_pt_lim (peval c) t (peval (pderiv c) t).
Proof.
  induction c as [|a c IH].
  - apply derivable_pt_lim_const.
  - unfold pderiv in *. cbn [tl].
    assert (E : peval (dcoef 1 c) t = 0 + (1 * peval c t + t * peval (dcoef 1 (tl c)) t)).
    { destruct c as [|b c]; [simpl; ring|]. cbn [tl dcoef]. change (peval (1 * b :: dcoef (1 + 1) c) t) with (1 * b + t * peval (dcoef (1 + 1) c) t).
      rewrite peval_dcoef. change (peval (b :: c) t) with (b + t * peval c t). ring. }
    rewrite E. apply (derivable_pt_lim_plus (fun _ => a) (fun s => s * peval c s)); [apply derivable_pt_lim_const|].
    apply (derivable_pt_lim_mult id (peval c)); [apply derivable_pt_lim_id|exact IH].
Qed.
Lemma arcsec_linear x : arcsec x = PI / 648000 * x.
Proof. unfold arcsec. field. Qed.
Lemma sec2rad_arcsec x : sec2rad x = arcsec x.
Proof. unfold sec2rad, arcsec. field. Qed.
Lemma arcsec_derivative f t l : derivable_pt_lim f t l -> derivable_pt_lim (fun s => arcsec (f s)) t (arcsec l).
Proof.
  intros D eps He. destruct (derivable_pt_lim_scal f (PI / 648000) t l D eps He) as [d H]. exists d. intros h Hh Sh. specialize (H h Hh Sh).
  unfold mult_real_fct in H. rewrite !arcsec_linear. exact H.
Qed.
Lemma arcsec_inj x y : arcsec x = arcsec y -> x = y.
Proof. rewrite !arcsec_linear. intros H. pose proof PI_RGT_0. apply Rmult_eq_reg_l in H; [exact H|]. intros E. apply (Rmult_eq_compat_r 648000) in E. unfold Rdiv in E. rewrite Rmult_assoc, Rinv_l in E; lra. Qed.
Lemma arcsec_lt x y : x < y -> arcsec x < arcsec y.
Proof. intros. rewrite !arcsec_linear. apply Rmult_lt_compat_l; [|exact H]. pose proof PI_RGT_0. lra. Qed.
Lemma arcsec_le x y : x <= y -> arcsec x <= arcsec y.
Proof. intros [H|H]; [left; apply arcsec_lt, H|right; rewrite H; reflexivity]. Qed.

(** ** one argument *)
Definition arg_of (c : list R) (t : R) : R := sec2rad (fmod (peval c t) TURNAS).
Definition parg_of (c : list R) (t : R) : R := fmod (peval c t) D2PI.
Lemma turn_pos : 0 < TURNAS. Proof. unfold TURNAS. lra. Qed.
Lemma turn_arcsec : arcsec TURNAS = 2 * PI. Proof. unfold arcsec, TURNAS. field. Qed.
Lemma arg_cong a b y : a = b -> sec2rad (fmod a y) = sec2rad (fmod b y). Proof. congruence. Qed.
Lemma parg_cong a b y : a = b -> fmod a y = fmod b y. Proof. congruence. Qed.
Lemma fundarg_arg t : fundarg t = map (fun c => arg_of c t) lunisolar.
Proof.
  unfold fundarg, lunisolar, arg_of, fal03, falp03, faf03, fad03, faom03, mean_anomaly_moon, mean_anomaly_sun, latitude_argument, elongation, node, degrees. cbn [map peval fold_right].
  repeat (apply f_equal2; [apply arg_cong; lra|]). reflexivity.
Qed.
Definition planets (t : R) : list R := [fame03 t; fave03 t; fae03 t; fama03 t; faju03 t; fasa03 t; faur03 t; fane03 t].
Lemma planets_arg t : planets t = map (fun c => parg_of c t) planetary.
Proof.
  unfold planets, planetary, parg_of, fame03, fave03, fae03, fama03, faju03, fasa03, faur03, fane03. cbn [map peval fold_right].
  repeat (apply f_equal2; [apply parg_cong; lra|]). reflexivity.
Qed.
Lemma derivs_arg t : fundarg_derivs t = map (fun c => arcsec (peval (tl c) t)) lunisolar.
Proof.
  unfold fundarg_derivs, lunisolar, dfal03, dfalp03, dfaf03, dfad03, dfaom03, mean_anomaly_moon, mean_anomaly_sun, latitude_argument, elongation, node, degrees. cbn [map tl peval fold_right].
  rewrite !sec2rad_arcsec. repeat (apply f_equal2; [apply f_equal; lra|]). reflexivity.
Qed.
Lemma arg_eqm c t : eqm (arg_of c t) (arcsec (peval c t)).
Proof.
  exists (- trunc (peval c t / TURNAS))%Z. unfold arg_of, fmod. rewrite sec2rad_arcsec, opp_IZR, !arcsec_linear. unfold TURNAS. field.
Qed.
Lemma parg_eqm c t : eqm (parg_of c t) (peval c t).
Proof. exists (- trunc (peval c t / D2PI))%Z. unfold parg_of, fmod, D2PI. rewrite opp_IZR. ring. Qed.
Lemma arg_bound c t : - (2 * PI) < arg_of c t < 2 * PI.
Proof.
  unfold arg_of. rewrite sec2rad_arcsec. destruct (fmod_bound (peval c t) TURNAS turn_pos) as [A B]. apply arcsec_lt in A, B.
  rewrite turn_arcsec in B. replace (arcsec (- TURNAS)) with (- (2 * PI)) in A by (rewrite <- turn_arcsec, !arcsec_linear; ring). lra.
Qed.
Lemma arg_nonneg c t : 0 <= peval c t -> 0 <= arg_of c t < 2 * PI.
Proof.
  intros H. unfold arg_of. rewrite sec2rad_arcsec. destruct (fmod_nonneg _ TURNAS turn_pos H) as [A B]. apply arcsec_le in A. apply arcsec_lt in B.
  rewrite turn_arcsec in B. replace (arcsec 0) with 0 in A by (rewrite arcsec_linear; ring). lra.
Qed.
Lemma arg_nonpos c t : peval c t <= 0 -> - (2 * PI) < arg_of c t <= 0.
Proof.
  intros H. unfold arg_of. rewrite sec2rad_arcsec. destruct (fmod_nonpos _ TURNAS turn_pos H) as [A B]. apply arcsec_lt in A. apply arcsec_le in B.
  replace (arcsec (- TURNAS)) with (- (2 * PI)) in A by (rewrite <- turn_arcsec, !arcsec_linear; ring). replace (arcsec 0) with 0 in B by (rewrite arcsec_linear; ring). lra.
Qed.
Lemma arg_negative c t : - 1296000 < peval c t < 0 -> arg_of c t < 0.
Proof.
  intros H. unfold arg_of. rewrite sec2rad_arcsec, fmod_small; [|apply turn_pos|unfold TURNAS; lra]. replace 0 with (arcsec 0) by (rewrite arcsec_linear; ring). apply arcsec_lt, H.
Qed.
Lemma parg_nonneg c t : 0 <= peval c t -> 0 <= parg_of c t < 2 * PI.
Proof. apply fmod_nonneg, two_pi_pos. Qed.
Lemma parg_nonpos c t : peval c t <= 0 -> - (2 * PI) < parg_of c t <= 0.
Proof. apply fmod_nonpos, two_pi_pos. Qed.
Lemma parg_bound c t : - (2 * PI) < parg_of c t < 2 * PI.
Proof. apply fmod_bound, two_pi_pos. Qed.
Lemma parg_negative c t : - 6 < peval c t < 0 -> parg_of c t < 0.
Proof.
  intros H. unfold parg_of. rewrite fmod_small; [apply H|apply two_pi_pos|]. unfold D2PI. pose proof PI2_3_2. lra.
Qed.
Lemma arg_derivative c t : (forall z, peval c t <> 1296000 * IZR z) -> derivable_pt_lim (arg_of c) t (arcsec (peval (pderiv c) t)).
Proof.
  intros N. assert (D : derivable_pt_lim (fun s => arcsec (fmod (peval c s) TURNAS)) t (arcsec (peval (pderiv c) t))).
  { apply arcsec_derivative. apply fmod_derivative; [apply turn_pos|exact N|apply peval_derivative]. }
  intros eps He. destruct (D eps He) as [d H]. exists d. intros h Hh Sh. unfold arg_of. rewrite !sec2rad_arcsec. apply H; auto.
Qed.
Lemma forall2_map {A B} (P : B -> A -> Prop) (f : A -> B) l : (forall x, In x l -> P (f x) x) -> Forall2 P (map f l) l.
Proof. induction l; intros H; simpl; constructor; [apply H; left; auto|]. apply IHl. intros. apply H. right; auto. Qed.

Lemma Rabs_le_inv x y : Rabs x <= y -> - y <= x <= y.
Proof. intros H. unfold Rabs in H. destruct (Rcase_abs x); lra. Qed.
(** ** C46 *)
(** excess of the derivative over the function of the library, arc seconds per century *)
Definition second_order (c : list R) : list R := match c with _ :: _ :: c2 :: c3 :: c4 :: _ => [c2; 2 * c3; 3 * c4] | _ => [] end.
Lemma deriv_defect c t : In c lunisolar -> peval (pderiv c) t = peval (tl c) t + t * peval (second_order c) t.
Proof. intros H. repeat (destruct H as [<-|H]; [cbn; ring|]). destruct H. Qed.
Lemma second_bound c t : In c lunisolar -> Rabs t <= 1 -> Rabs (t * peval (second_order c) t) <= 32 * Rabs t.
Proof.
  intros H T. rewrite Rabs_mult, Rmult_comm. apply Rmult_le_compat_r; [apply Rabs_pos|]. apply Rabs_le_inv in T.
  assert (Q : 0 <= t * t <= 1) by nra. apply Rabs_le.
  repeat (destruct H as [<-|H]; [cbn; set (u := t * t) in *; match goal with |- _ <= ?a + t * (?b + t * (?d + t * 0)) <= _ => replace (a + t * (b + t * (d + t * 0))) with (a + b * t + d * u) by (unfold u; ring) end; lra|]). destruct H.
Qed.
Lemma second_nonzero c t : In c lunisolar -> Rabs t <= 1 -> peval (second_order c) t <> 0.
Proof.
  intros H T. apply Rabs_le_inv in T. assert (Q : 0 <= t * t <= 1) by nra.
  repeat (destruct H as [<-|H]; [cbn; set (u := t * t) in *; match goal with |- ?a + t * (?b + t * (?d + t * 0)) <> _ => replace (a + t * (b + t * (d + t * 0))) with (a + b * t + d * u) by (unfold u; ring) end; lra|]). destruct H.
Qed.
Lemma derivs_bound t : Rabs t <= 1 -> Forall2 (fun d c => Rabs (arcsec (peval (pderiv c) t) - d) <= arcsec (32 * Rabs t)) (fundarg_derivs t) lunisolar.
Proof.
  intros T. rewrite derivs_arg. apply forall2_map. intros c H. rewrite (deriv_defect c t H), !arcsec_linear.
  replace (PI / 648000 * (peval (tl c) t + t * peval (second_order c) t) - PI / 648000 * peval (tl c) t) with (PI / 648000 * (t * peval (second_order c) t)) by ring.
  pose proof PI_RGT_0. rewrite Rabs_mult, (Rabs_right (PI / 648000)) by lra. apply Rmult_le_compat_l; [lra|]. apply second_bound; auto.
Qed.
Lemma derivs_at_0 : Forall2 (fun d c => d = arcsec (peval (pderiv c) 0)) (fundarg_derivs 0) lunisolar.
Proof. rewrite derivs_arg. apply forall2_map. intros c H. rewrite (deriv_defect c 0 H). f_equal. ring. Qed.
Lemma derivs_wrong t : 0 < Rabs t <= 1 -> Forall2 (fun d c => d <> arcsec (peval (pderiv c) t)) (fundarg_derivs t) lunisolar.
Proof.
  intros [T0 T]. rewrite derivs_arg. apply forall2_map. intros c H E. apply arcsec_inj in E. rewrite (deriv_defect c t H) in E.
  assert (Z : t * peval (second_order c) t = 0) by lra. apply Rmult_integral in Z. destruct Z as [Z|Z].
  - subst. rewrite Rabs_R0 in T0. lra.
  - exact (second_nonzero c t H T Z).
Qed.
Lemma nth_map_lt {A B} (f : A -> B) l i d d' : (i < length l)%nat -> nth i (map f l) d = f (nth i l d').
Proof. revert i; induction l; intros [|i] H; simpl in *; try lia; auto. apply IHl. lia. Qed.
Lemma args_derivative i t : (i < 5)%nat -> (forall z, peval (nth i lunisolar []) t <> 1296000 * IZR z) ->
  derivable_pt_lim (fun s => nth i (fundarg s) 0) t (arcsec (peval (pderiv (nth i lunisolar [])) t)).
Proof.
  intros Hi N. pose proof (arg_derivative _ t N) as D. intros eps He. destruct (D eps He) as [d H]. exists d. intros h Hh Sh.
  rewrite !fundarg_arg, !(nth_map_lt _ _ i 0 []) by exact Hi. apply H; auto.
Qed.
Lemma args_derivative_wrong i t : (i < 5)%nat -> 0 < Rabs t <= 1 -> (forall z, peval (nth i lunisolar []) t <> 1296000 * IZR z) ->
  ~ derivable_pt_lim (fun s => nth i (fundarg s) 0) t (nth i (fundarg_derivs t) 0).
Proof.
  intros Hi T N D. pose proof (uniqueness_limite _ _ _ _ (args_derivative i t Hi N) D) as E.
  pose proof (derivs_wrong t T) as F. rewrite derivs_arg in E, F. rewrite (nth_map_lt _ _ i 0 []) in E by exact Hi.
  do 5 (destruct i as [|i]; [inversion F; subst; clear F; try (match goal with H : Forall2 _ _ _ |- _ => inversion H; subst; clear H end);
    try (match goal with H : Forall2 _ _ _ |- _ => inversion H; subst; clear H end); try (match goal with H : Forall2 _ _ _ |- _ => inversion H; subst; clear H end);
    try (match goal with H : Forall2 _ _ _ |- _ => inversion H; subst; clear H end); cbn [nth] in E; symmetry in E; contradiction|]). lia.
Qed.
Lemma dfaf03_mjd_wrong tt : Rabs (centuries (julian_date (mjd tt))) <= 10 -> dfaf03_mjd tt <> dfaf03 (centuries (julian_date (mjd tt))).
Proof.
  intros T. set (t := centuries (julian_date (mjd tt))) in *. unfold dfaf03_mjd.
  replace (jcenturies_sinceJ2000 tt) with t by (unfold t, centuries, julian_date, jcenturies_sinceJ2000; lra).
  apply Rabs_le_inv in T. assert (A : faf03 t < 2 * PI).
  { replace (faf03 t) with (nth 2 (fundarg t) 0) by reflexivity. rewrite fundarg_arg. apply arg_bound. }
  assert (B : 2 * PI < dfaf03 t); [|lra]. unfold dfaf03. rewrite sec2rad_arcsec, <- turn_arcsec. apply arcsec_lt. unfold TURNAS.
  assert (Q : 0 <= t * t <= 100) by nra. assert (C : -1000 <= t * (t * t) <= 1000) by nra. set (u := t * t) in *. set (v := t * u) in *.
  replace (t * (-12.7512 + t * (-0.001037 + t * 0.00000417))) with (-12.7512 * t + -0.001037 * u + 0.00000417 * v) by (unfold v, u; ring). lra.
Qed.

(** ** C48 *)
Lemma era_eqm ut1 : eqm (era00 ut1) (earth_rotation_angle (julian_date (mjd ut1))).
Proof.
  unfold era00. eapply eqm_trans; [apply anp_eqm|]. exists (51545 - mday ut1)%Z. unfold earth_rotation_angle, julian_date, D2PI, mjd. rewrite minus_IZR.
  replace 1.00273781191135448 with (1 + 0.00273781191135448) by lra. set (x := IZR (mday ut1)). set (f := mfrac ut1). set (a := 0.00273781191135448). set (b := 0.7790572732640).
  replace (x + f - 51544.5) with (x + f - 51545 + / 2) by lra. replace (x + f + 2400000.5 - 2451545.0) with (x + f - 51545 + / 2) by lra. field.
Qed.
Lemma gmst_eqm tt ut1 : eqm (gmst tt ut1) (sidereal_time (julian_date (mjd tt)) (julian_date (mjd ut1))).
Proof.
  unfold gmst. eapply eqm_trans; [apply anp_eqm|]. unfold sidereal_time. apply eqm_add; [apply era_eqm|]. apply eqm_eq. rewrite sec2rad_arcsec. f_equal.
  replace (centuries (julian_date (mjd tt))) with (jcenturies_sinceJ2000 tt) by (unfold centuries, julian_date, jcenturies_sinceJ2000; lra).
  unfold sidereal_poly. cbn [peval fold_right]. ring.
Qed.
Lemma gmst82_eqm ut1 : eqm (gmst82 ut1) (sidereal_1982 (julian_date (mjd ut1)) (86400 * mfrac ut1)).
Proof.
  unfold gmst82. eapply eqm_trans; [apply anp_eqm|]. apply eqm_eq. unfold sidereal_1982.
  replace (centuries (julian_date (mjd ut1))) with (jcenturies_sinceJ2000 ut1) by (unfold centuries, julian_date, jcenturies_sinceJ2000; lra).
  set (t := jcenturies_sinceJ2000 ut1). unfold hsec2rad. unfold Rdiv.
  transitivity (PI * / 43200 * (24110.54841 + (8640184.812866 + (0.093104 + - 6.2e-6 * t) * t) * t + 86400 * mfrac ut1)); [|lra]. lra.
Qed.
Lemma sidereal_derivative jt ju : derivable_pt_lim (fun s => sidereal_time (jt + s) (ju + s)) 0 (sidereal_rate jt).
Proof.
  unfold sidereal_rate, sidereal_time.
  apply (derivable_pt_lim_plus (fun s => earth_rotation_angle (ju + s)) (fun s => arcsec (peval sidereal_poly (centuries (jt + s))))).
  - unfold earth_rotation_angle. intros eps He. exists (mkposreal 1 Rlt_0_1). intros h Hh _.
    replace (_ / h - _) with 0 by (field; exact Hh). rewrite Rabs_R0. exact He.
  - replace (arcsec (peval (pderiv sidereal_poly) (centuries jt)) / 36525) with (arcsec (peval (pderiv sidereal_poly) (centuries jt) * (1 / 36525))) by (rewrite !arcsec_linear; field).
    apply (arcsec_derivative (fun s => peval sidereal_poly (centuries (jt + s)))).
    apply (derivable_pt_lim_comp (fun s => centuries (jt + s)) (peval sidereal_poly)).
    + unfold centuries. intros eps He. exists (mkposreal 1 Rlt_0_1). intros h Hh _. replace (_ / h - _) with 0 by (field; exact Hh). rewrite Rabs_R0. exact He.
    + replace (centuries (jt + 0)) with (centuries jt) by (rewrite Rplus_0_r; reflexivity). apply peval_derivative.
Qed.
Lemma dgmst_value tt : let T := centuries (julian_date (mjd tt)) in
  dgmst tt = sidereal_rate (julian_date (mjd tt)) + 2 * PI * 1.00273781191135448 - arcsec (T * (1.3915817 + T * (- 0.00000044 * 2 + T * (- 0.000029956 * 3 + T * (- 0.0000000368 * 4))))) / 36525.
Proof.
  cbv zeta. unfold dgmst, sidereal_rate. replace (jcenturies_sinceJ2000 tt) with (centuries (julian_date (mjd tt))) by (unfold centuries, julian_date, jcenturies_sinceJ2000; lra).
  set (T := centuries (julian_date (mjd tt))). unfold pderiv, sidereal_poly. cbn [tl dcoef peval fold_right]. rewrite sec2rad_arcsec, !arcsec_linear. unfold D2PI. field.
Qed.
Lemma dgmst_wrong tt : Rabs (centuries (julian_date (mjd tt))) <= 10 -> sidereal_rate (julian_date (mjd tt)) + 6 < dgmst tt.
Proof.
  intros T. rewrite dgmst_value. set (t := centuries (julian_date (mjd tt))) in *. apply Rabs_le_inv in T. rewrite arcsec_linear.
  pose proof PI2_3_2 as P3. pose proof PI_4 as P4.
  assert (Q : 0 <= t * t <= 100) by nra. assert (C : -1000 <= t * (t * t) <= 1000) by nra. assert (D : 0 <= (t * t) * (t * t) <= 10000) by nra.
  set (u := t * t) in *. set (v := t * u) in *. set (w := u * u) in *.
  set (p := t * _). replace p with (1.3915817 * t - 0.00000088 * u - 0.000089868 * v - 0.0000001472 * w) by (unfold p, w, v, u; lra).
  set (q := 1.3915817 * t - 0.00000088 * u - 0.000089868 * v - 0.0000001472 * w). assert (Hq : -20 <= q <= 20) by (unfold q; lra).
  assert (B : PI / 648000 * q / 36525 <= PI * (20 / 648000 / 36525)).
  { replace (PI / 648000 * q / 36525) with (PI * (q / 648000 / 36525)) by field. apply Rmult_le_compat_l; lra. }
  lra.
Qed.

(** ** C47 *)
Lemma args_congruent t : Forall2 (fun a c => eqm a (arcsec (peval c t))) (fundarg t) lunisolar.
Proof. rewrite fundarg_arg. apply forall2_map. intros. apply arg_eqm. Qed.
Lemma planets_congruent t : Forall2 (fun a c => eqm a (peval c t)) (planets t) planetary.
Proof. rewrite planets_arg. apply forall2_map. intros. apply parg_eqm. Qed.
Lemma fapa_value t : fapa03 t = peval precession t.
Proof. unfold fapa03, precession. cbn [peval fold_right]. lra. Qed.
Lemma args_sign t : Forall2 (fun a c => (0 <= peval c t -> 0 <= a < 2 * PI) /\ (peval c t <= 0 -> - (2 * PI) < a <= 0)) (fundarg t) lunisolar.
Proof. rewrite fundarg_arg. apply forall2_map. intros. split; [apply arg_nonneg|apply arg_nonpos]. Qed.
Lemma planets_sign t : Forall2 (fun a c => (0 <= peval c t -> 0 <= a < 2 * PI) /\ (peval c t <= 0 -> - (2 * PI) < a <= 0)) (planets t) planetary.
Proof. rewrite planets_arg. apply forall2_map. intros. split; [apply parg_nonneg|apply parg_nonpos]. Qed.
Lemma cubes t : 0 <= t <= 10 -> 0 <= t * t <= 100 /\ 0 <= t * (t * t) <= 1000 /\ 0 <= (t * t) * (t * t) <= 10000.
Proof. intros H. assert (0 <= t * t <= 100) by nra. split; [exact H0|]. split; nra. Qed.
Lemma quartic a b c d e t : peval [a; b; c; d; e] t = a + b * t + c * (t * t) + d * (t * (t * t)) + e * ((t * t) * (t * t)).
Proof. cbn [peval fold_right]. ring. Qed.
Lemma args_after t : 0 <= t <= 10 -> Forall (fun a => 0 <= a < 2 * PI) ([fal03 t; falp03 t; faf03 t; fad03 t] ++ planets t).
Proof.
  intros T. destruct (cubes t T) as (A & B & C). pose proof (args_sign t) as S. unfold fundarg, lunisolar in S.
  apply Forall_app; split.
  - inversion_clear S as [|? ? ? ? S1 S']. inversion_clear S' as [|? ? ? ? S2 S'']. inversion_clear S'' as [|? ? ? ? S3 S3']. inversion_clear S3' as [|? ? ? ? S4 S4'].
    apply Forall_cons; [apply S1; unfold mean_anomaly_moon, degrees; rewrite quartic; lra|].
    apply Forall_cons; [apply S2; unfold mean_anomaly_sun, degrees; rewrite quartic; lra|].
    apply Forall_cons; [apply S3; unfold latitude_argument, degrees; rewrite quartic; lra|].
    apply Forall_cons; [apply S4; unfold elongation, degrees; rewrite quartic; lra|]. apply Forall_nil.
  - pose proof (planets_sign t) as P. rewrite planets_arg in *. apply Forall_forall. intros x I. apply in_map_iff in I. destruct I as (c & <- & I). apply parg_nonneg.
    repeat (destruct I as [<-|I]; [cbn; lra|]). destruct I.
Qed.
Lemma node_before t : - 10 <= t <= 0.0646 -> 0 <= faom03 t < 2 * PI.
Proof.
  intros T. replace (faom03 t) with (nth 4 (fundarg t) 0) by reflexivity. rewrite fundarg_arg. apply arg_nonneg. unfold node, degrees. rewrite quartic.
  assert (A : 0 <= t * t <= 100) by nra. assert (B : -1000 <= t * (t * t) <= 1000) by nra. assert (C : (t * t) * (t * t) <= 100 * (t * t)) by nra.
  assert (B' : -100 * (t * t) <= t * (t * t)) by nra. lra.
Qed.
Lemma node_after t : 0.0647 <= t <= 10 -> - (2 * PI) < faom03 t <= 0.
Proof.
  intros T. replace (faom03 t) with (nth 4 (fundarg t) 0) by reflexivity. rewrite fundarg_arg. apply arg_nonpos. unfold node, degrees. rewrite quartic.
  assert (A : 0 <= t * t <= 10 * t) by nra. assert (B : 0 <= t * (t * t) <= 100 * t) by nra. assert (C : 0 <= (t * t) * (t * t)) by nra. lra.
Qed.
Ltac quart := unfold mean_anomaly_moon, mean_anomaly_sun, latitude_argument, elongation, node, degrees; rewrite quartic; lra.
Lemma all_negative : fal03 (-0.001) < 0 /\ falp03 (-0.015) < 0 /\ faf03 (-0.0003) < 0 /\ fad03 (-0.001) < 0 /\ faom03 0.1 < 0 /\
  fame03 (-0.002) < 0 /\ fave03 (-0.004) < 0 /\ fae03 (-0.004) < 0 /\ fama03 (-0.02) < 0 /\ faju03 (-0.02) < 0 /\ fasa03 (-0.1) < 0 /\ faur03 (-1) < 0 /\ fane03 (-2) < 0 /\ fapa03 (-1) < 0.
Proof.
  assert (F : forall t i, nth i (fundarg t) 0 = nth i (map (fun c => arg_of c t) lunisolar) 0) by (intros; rewrite fundarg_arg; reflexivity).
  assert (P : forall t i, nth i (planets t) 0 = nth i (map (fun c => parg_of c t) planetary) 0) by (intros; rewrite planets_arg; reflexivity).
  split; [change (fal03 (-0.001)) with (nth 0 (fundarg (-0.001)) 0); rewrite F; apply arg_negative; quart|].
  split; [change (falp03 (-0.015)) with (nth 1 (fundarg (-0.015)) 0); rewrite F; apply arg_negative; quart|].
  split; [change (faf03 (-0.0003)) with (nth 2 (fundarg (-0.0003)) 0); rewrite F; apply arg_negative; quart|].
  split; [change (fad03 (-0.001)) with (nth 3 (fundarg (-0.001)) 0); rewrite F; apply arg_negative; quart|].
  split; [change (faom03 0.1) with (nth 4 (fundarg 0.1) 0); rewrite F; apply arg_negative; quart|].
  split; [change (fame03 (-0.002)) with (nth 0 (planets (-0.002)) 0); rewrite P; apply parg_negative; cbn; lra|].
  split; [change (fave03 (-0.004)) with (nth 1 (planets (-0.004)) 0); rewrite P; apply parg_negative; cbn; lra|].
  split; [change (fae03 (-0.004)) with (nth 2 (planets (-0.004)) 0); rewrite P; apply parg_negative; cbn; lra|].
  split; [change (fama03 (-0.02)) with (nth 3 (planets (-0.02)) 0); rewrite P; apply parg_negative; cbn; lra|].
  split; [change (faju03 (-0.02)) with (nth 4 (planets (-0.02)) 0); rewrite P; apply parg_negative; cbn; lra|].
  split; [change (fasa03 (-0.1)) with (nth 5 (planets (-0.1)) 0); rewrite P; apply parg_negative; cbn; lra|].
  split; [change (faur03 (-1)) with (nth 6 (planets (-1)) 0); rewrite P; apply parg_negative; cbn; lra|].
  split; [change (fane03 (-2)) with (nth 7 (planets (-2)) 0); rewrite P; apply parg_negative; cbn; lra|].
  unfold fapa03. lra.
Qed.
Lemma fapa_range t : 0 <= t <= 200 -> 0 <= fapa03 t < 2 * PI.
Proof. intros T. unfold fapa03. pose proof PI2_3_2. assert (0 <= t * t <= 200 * t) by nra. nra. Qed.
Lemma fapa_large : 2 * PI <= fapa03 1000.
Proof. unfold fapa03. pose proof PI_4. lra. Qed.
(** ** overloads *)
Lemma overloads tt : let t := centuries (julian_date (mjd tt)) in
  fundarg_mjd tt = fundarg t /\ fundarg_derivs_mjd tt = fundarg_derivs t /\
  [fal03_mjd tt; falp03_mjd tt; faf03_mjd tt; fad03_mjd tt; faom03_mjd tt] = fundarg t /\
  dfal03_mjd tt = dfal03 t /\ dfalp03_mjd tt = dfalp03 t /\ dfad03_mjd tt = dfad03 t /\ dfaom03_mjd tt = dfaom03 t /\
  [fame03_mjd tt; fave03_mjd tt; fae03_mjd tt; fama03_mjd tt; faju03_mjd tt; fasa03_mjd tt; faur03_mjd tt; fane03_mjd tt] = planets t /\ fapa03_mjd tt = fapa03 t.
Proof.
  cbv zeta. replace (centuries (julian_date (mjd tt))) with (jcenturies_sinceJ2000 tt) by (unfold centuries, julian_date, jcenturies_sinceJ2000; lra).
  repeat split; reflexivity.
Qed.
Lemma dfaf03_mjd_is tt : dfaf03_mjd tt = faf03 (centuries (julian_date (mjd tt))).
Proof. unfold dfaf03_mjd. f_equal. unfold centuries, julian_date, jcenturies_sinceJ2000. lra. Qed.
(** ** rate of the Earth rotation angle *)
Lemma era_derivative jd : derivable_pt_lim earth_rotation_angle jd (2 * PI * 1.00273781191135448).
Proof.
  unfold earth_rotation_angle. intros eps He. exists (mkposreal 1 Rlt_0_1). intros h Hh _. replace (_ / h - _) with 0 by (field; exact Hh). rewrite Rabs_R0. exact He.
Qed.
