(** Claim C89: the libration in polar motion of the library is exactly that of the reference program of the IERS in the repository, for all
    arguments; so are the long-period waves, which the library does not use. UT1 and length of day differ in three amplitudes, by at
    most 0.01 and 0.2 microseconds. The reference takes the sidereal time of 1982; that of 2006 changes less than 1e-4. *)
From Coq Require Import Reals ZArith List Bool Lia Lra.
From Verif Require Import Angles Poly PiBound DoodsonModel DoodsonArgModel DoodsonArgSpec FundModel FundSpec FundProofs SolidSpec EtvModel EtvSpec FortLibModel FortLibSpec FortLibProofs.
Import ListNotations.
Open Scope R_scope.

(** the first argument of the reference is the sidereal time of 1982, half a turn later *)
Theorem c89_sidereal : forall mjd, eqm (arg1 (julian mjd)) (sidereal_1982_at mjd + PI).
Proof. exact gmst_turn. Qed.
(** ** equal for all arguments *)
Theorem c89_pole : forall fundarg mjd g F, same_angles (fundarg (julian mjd)) F -> eqm (sidereal_1982_at mjd) g ->
  PMSDNUT2 IBAND fundarg mjd = (dxp (deop_libration F g), dyp (deop_libration F g)).
Proof. intros fundarg mjd g F. apply pm_short. Qed.
(** the full table, with the secular part *)
Theorem c89_long : forall fundarg mjd g F iband, same_angles (fundarg (julian mjd)) F -> eqm (sidereal_1982_at mjd) g -> iband <> 1%Z ->
  PMSDNUT2 iband fundarg mjd = (dxp (deop Table5 F g) + secular (-3.8) mjd, dyp (deop Table5 F g) + secular (-4.3) mjd).
Proof. intros fundarg mjd g F iband A B. apply pm_long; assumption. Qed.
(** ** UT1 and length of day: the waves T2, N2 and S2 have other amplitudes *)
Theorem c89_ut1_partial : forall fundarg mjd g F, same_angles (fundarg (julian mjd)) F -> eqm (sidereal_1982_at mjd) g ->
  fst (UTLIBR fundarg mjd) = dut1 (deop_libration F g) - 0.01 * sin (iers_argument T2 F g) /\
  snd (UTLIBR fundarg mjd) = dlod (deop_libration F g) + 0.1 * cos (iers_argument N2 F g) - 0.1 * cos (iers_argument S2 F g).
Proof. intros fundarg mjd g F. apply ut_diff. Qed.
Theorem c89_ut1_bound : forall fundarg mjd g F, same_angles (fundarg (julian mjd)) F -> eqm (sidereal_1982_at mjd) g ->
  Rabs (fst (UTLIBR fundarg mjd) - dut1 (deop_libration F g)) <= 0.01 /\ Rabs (snd (UTLIBR fundarg mjd) - dlod (deop_libration F g)) <= 0.2.
Proof.
  intros fundarg mjd g F A B. destruct (ut_diff fundarg mjd g F A B) as [-> ->]. pose proof (SIN_bound (iers_argument T2 F g)). pose proof (COS_bound (iers_argument N2 F g)). pose proof (COS_bound (iers_argument S2 F g)).
  split; apply Rabs_le; lra.
Qed.
(** at a date with the sidereal time any arguments occur: the bounds are attained *)
Theorem c89_ut1_refuted : forall mjd, exists f, let F := f (julian mjd) in let g := sidereal_1982_at mjd in
  fst (UTLIBR f mjd) = dut1 (deop_libration F g) - 0.01 /\ snd (UTLIBR f mjd) <> dlod (deop_libration F g).
Proof.
  intros mjd. set (g := sidereal_1982_at mjd).
  exists (fun _ => mkDel (- (PI / 2)) 0 (g + PI - PI / 4) 0 0). cbv zeta. set (F := mkDel _ _ _ _ _).
  destruct (ut_diff (fun _ => F) mjd g F) as [-> ->]; [repeat split; apply eqm_refl|apply eqm_refl|].
  assert (E1 : iers_argument T2 F g = PI / 2) by (unfold iers_argument, F; cbn [el elp ef ed eom]; change (n0 T2) with 2%Z; change (nl T2) with 0%Z; change (nlp T2) with 1%Z; change (nF T2) with 2%Z; change (nD T2) with (-2)%Z; change (nOm T2) with 2%Z; lra).
  assert (E2 : iers_argument S2 F g = PI / 2) by (unfold iers_argument, F; cbn [el elp ef ed eom]; change (n0 S2) with 2%Z; change (nl S2) with 0%Z; change (nlp S2) with 0%Z; change (nF S2) with 2%Z; change (nD S2) with (-2)%Z; change (nOm S2) with 2%Z; lra).
  assert (E3 : iers_argument N2 F g = PI) by (unfold iers_argument, F; cbn [el elp ef ed eom]; change (n0 N2) with 2%Z; change (nl N2) with 1%Z; change (nlp N2) with 0%Z; change (nF N2) with 2%Z; change (nD N2) with 0%Z; change (nOm N2) with 2%Z; lra).
  rewrite E1, E2, E3, sin_PI2, cos_PI2, cos_PI. split; lra.
Qed.
(** ** at a date within a century of J2000, with the arguments of the Conventions and the sidereal time of 2006 *)
Theorem c89_date : forall fundarg mjd, Rabs (centuries (julian_date mjd)) <= 1 -> same_angles (fundarg (julian mjd)) (arguments_at (julian_date mjd)) ->
  let a := deop_libration (arguments_at (julian_date mjd)) (sidereal_time (julian_date mjd) (julian_date mjd)) in
  Rabs (fst (PMSDNUT2 IBAND fundarg mjd) - dxp a) <= 1e-4 /\ Rabs (snd (PMSDNUT2 IBAND fundarg mjd) - dyp a) <= 1e-4 /\
  Rabs (fst (UTLIBR fundarg mjd) - dut1 a) <= 0.0101 /\ Rabs (snd (UTLIBR fundarg mjd) - dlod a) <= 0.2003.
Proof.
  intros fundarg mjd T A. cbv zeta. destruct (sidereal_near mjd T) as (g & G & N). set (F := arguments_at (julian_date mjd)) in *. set (h := sidereal_time _ _) in *.
  rewrite (pm_short fundarg mjd g F A G). destruct (c89_ut1_bound fundarg mjd g F A G) as [U L]. destruct (libration_step F g h) as (S1 & S2 & S3 & S4). cbn [fst snd].
  apply (fun h => scaled 62 _ _ _ h S1) in N as X1; [|lra]. apply (fun h => scaled 62 _ _ _ h S2) in N as X2; [|lra]. apply (fun h => scaled 12 _ _ _ h S3) in N as X3; [|lra]. apply (fun h => scaled 140 _ _ _ h S4) in N as X4; [|lra].
  split; [eapply Rle_trans; [exact X1|lra]|]. split; [eapply Rle_trans; [exact X2|lra]|]. split; (eapply Rle_trans; [eapply chain; eassumption|lra]).
Qed.

(** the hypotheses are met at the date of the test case of the programs, 54335 *)
Example c89_nonvacuous : let f := fun t : R => arguments_at (julian_date 54335) in
  Rabs (centuries (julian_date 54335)) <= 1 /\ same_angles (f (julian 54335)) (arguments_at (julian_date 54335)) /\ eqm (sidereal_1982_at 54335) (sidereal_1982_at 54335) /\ IBAND = 1%Z /\ 0%Z <> 1%Z /\ secular (-3.8) 54335 < -29.
Proof.
  cbv zeta. split; [unfold centuries, julian_date; apply Rabs_le; lra|]. split; [repeat split; apply eqm_refl|]. split; [apply eqm_refl|]. split; [reflexivity|]. split; [discriminate|]. unfold secular. lra.
Qed.
Print Assumptions c89_sidereal.
Print Assumptions c89_pole.
Print Assumptions c89_long.
Print Assumptions c89_ut1_partial.
Print Assumptions c89_ut1_bound.
Print Assumptions c89_ut1_refuted.
Print Assumptions c89_date.
