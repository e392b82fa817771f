(** C64: displacement of a site by the solid Earth tide. *)
From Coq Require Import Reals ZArith List Bool Lia Lra.
From Verif Require Import Base DoodsonModel DoodsonArgModel FundModel FundSpec SolidModel Vec SolidSpec SolidProofs SolidProofs2 SsdModel SsdSpec SsdProofs SsdProofs2 SsdProofs3.
Import ListNotations.
Open Scope R_scope.

(** the displacement in Earth-fixed axes, for any spherical coordinates of site, Moon and Sun, poles included *)
Theorem c64_displacement o tt ut1 rsta rmoon rsun F p pm ps : is_at rsta p -> is_at rmoon pm -> is_at rsun ps ->
  displacement o tt ut1 rsta rmoon rsun F =
  site (mRe o) (mSEratio o) (mMEratio o) p ps pm (phase F (julian_date (mjd tt)) (julian_date (mjd ut1))) code_table table_73b.
Proof. exact (displacement_ok o tt ut1 rsta rmoon rsun F p pm ps). Qed.
(** the tables: the used one has another sign in the line of Q1 than the unused one, which is that of the Conventions *)
Theorem c64_tables : Tables7 = map row_of (table_73a ++ table_73b) /\ (forall r, In r Tables7Extended <-> In r (map row_of (code_table ++ table_73b))) /\
  length Tables7Extended = 36%nat /\ NoDup (map md Tables7Extended).
Proof. exact tables_ok. Qed.
Theorem c64_tables_refuted : ~ (forall r, In r Tables7 -> In r Tables7Extended).
Proof. exact q1_missing. Qed.
Theorem c64_tables_partial r : In r Tables7 -> md r <> of_code 135655 -> In r Tables7Extended.
Proof. exact (others_present r). Qed.
(** with the amplitudes of the Conventions: wrong at some sites on the equator, whatever the date and the bodies *)
Theorem c64_conventions_refuted o tt ut1 rmoon rsun F pm ps : is_at rmoon pm -> is_at rsun ps -> exists p,
  latitude p = 0 /\ displacement o tt ut1 (position (radius p) (latitude p) (longitude p)) rmoon rsun F <>
  site (mRe o) (mSEratio o) (mMEratio o) p ps pm (phase F (julian_date (mjd tt)) (julian_date (mjd ut1))) (table_73a ++ further) table_73b.
Proof. exact (q1_wrong o tt ut1 rmoon rsun F pm ps). Qed.
(** but never by more than 0.02 mm *)
Theorem c64_conventions_partial o tt ut1 rsta rmoon rsun F p pm ps : is_at rsta p -> is_at rmoon pm -> is_at rsun ps ->
  len (vminus (displacement o tt ut1 rsta rmoon rsun F)
    (site (mRe o) (mSEratio o) (mMEratio o) p ps pm (phase F (julian_date (mjd tt)) (julian_date (mjd ut1))) (table_73a ++ further) table_73b)) <= 2e-5.
Proof. intros P M S. rewrite (displacement_ok o tt ut1 rsta rmoon rsun F p pm ps P M S), q1_difference. apply q1_bound. Qed.
(** the deprecated functions together are step 1 *)
Theorem c64_deprecated Re k v w k' w' : let t := geodetic2lvlh (slat (cartesian2spherical v)) (slon (cartesian2spherical v)) in
  SsdModel.step1 Re v w w' k k' (point_trigs v) (point_trigs w) (point_trigs w') =
  vplus (vplus (step1_outof_phase Re k w (point_trigs w) (point_trigs v)) (step1_outof_phase Re k' w' (point_trigs w') (point_trigs v)))
    (app3 (transp t) (vplus (step1_in_phase Re k w v) (step1_in_phase Re k' w' v))).
Proof. exact (deprecated_ok Re k v w k' w'). Qed.

(** ** what the formulas mean *)
(** in phase: Love and Shida numbers times potential and gradient of P_2 and P_3 of the angle to the body *)
Theorem c64_in_phase Re k p q : cos (latitude p) <> 0 -> exists d2 d3,
  deforms (h2 (latitude p)) (l2 (latitude p)) (fun x y => leg2 (cosangle (mkPl 1 x y) q)) p d2 /\ deforms 0.292 0.015 (fun x y => leg3 (cosangle (mkPl 1 x y) q)) p d3 /\
  in_phase Re k p q = vplus (vmul (strength 2 Re k q) d2) (vmul (strength 3 Re k q) d3).
Proof. exact (in_phase_deforms Re k p q). Qed.
(** out of phase: the diurnal and semi-diurnal part of P_2, a quarter and an eighth of a turn further *)
Theorem c64_parts p q : leg2 (cosangle p q) =
  part20 (latitude p) (latitude q) + part21 (latitude p) (latitude q) (longitude p - longitude q) + part22 (latitude p) (latitude q) (longitude p - longitude q).
Proof. exact (parts p q). Qed.
Theorem c64_out_diurnal p q : cos (latitude p) <> 0 -> deforms (-0.0025) (-0.0007) (fun x y => part21 x (latitude q) (y - longitude q + PI / 2)) p (out_diurnal p q).
Proof. exact (out_diurnal_deforms p q). Qed.
Theorem c64_out_semidiurnal p q : cos (latitude p) <> 0 -> deforms (-0.0022) (-0.0007) (fun x y => part22 x (latitude q) (y - longitude q + PI / 4)) p (out_semidiurnal p q).
Proof. exact (out_semidiurnal_deforms p q). Qed.
(** the waves of step 2 *)
Theorem c64_diurnal p th l : cos (latitude p) <> 0 -> let a := th (of_code (code l)) in exists d1 d2,
  deforms (amp (rip l)) (amp (tip l) / 2) (fun x y => sin (2 * x) * sin (a + y)) p d1 /\ deforms (amp (rop l)) (amp (top l) / 2) (fun x y => sin (2 * x) * cos (a + y)) p d2 /\
  diurnal p th l = vplus d1 d2.
Proof. exact (diurnal_deforms p th l). Qed.
Theorem c64_long_period p th l : let a := th (of_code (code l)) in exists d1 d2,
  deforms (amp (rip l)) (2 / 3 * amp (tip l)) (fun x _ => (3 / 2 * sin x ^ 2 - 1 / 2) * cos a) p d1 /\
  deforms (amp (rop l)) (2 / 3 * amp (top l)) (fun x _ => (3 / 2 * sin x ^ 2 - 1 / 2) * sin a) p d2 /\
  long_period p th l = vplus d1 d2.
Proof. exact (long_deforms p th l). Qed.
(** step 1 turns with the Earth *)
Theorem c64_rotation a Re k p q : one_body Re k (turn a p) (turn a q) = rotz a (one_body Re k p q).
Proof. exact (one_body_turn a Re k p q). Qed.
(** coordinates do not matter, at the poles neither *)
Theorem c64_coordinates v w p p' q q' Re k : is_at v p -> is_at v p' -> is_at w q -> is_at w q' -> one_body Re k p q = one_body Re k p' q'.
Proof. exact (coordinates v w p p' q q' Re k). Qed.

(** a site at the north pole, Moon above the equator, Sun in between *)
Example c64_nonvacuous : is_at (mk3 0 0 6356752) (mkPl 6356752 (PI / 2) 1) /\ is_at (mk3 0 384400000 0) (mkPl 384400000 0 (PI / 2)) /\ is_at (mk3 149600000000 0 0) (mkPl 149600000000 0 0) /\
  in_phase 6378136 1 (mkPl 1 0 0) (mkPl 6378136 0 0) <> v0.
Proof.
  refine (conj _ (conj _ (conj _ _))).
  1-3: split; [cbn; lra|]; unfold position; cbn [radius latitude longitude]; rewrite ?cos_0, ?sin_0, ?cos_PI2, ?sin_PI2; apply v3_eq; cbn; ring.
  unfold in_phase, cosangle, strength, h2, l2. flat. rewrite cos_0, sin_0. unfold v0. intros H. injection H as H _ _.
  replace (6378136 / 6378136) with 1 in H by (symmetry; apply Rinv_r; lra). lra.
Qed.
Print Assumptions c64_displacement.
Print Assumptions c64_tables.
Print Assumptions c64_tables_refuted.
Print Assumptions c64_tables_partial.
Print Assumptions c64_conventions_refuted.
Print Assumptions c64_conventions_partial.
Print Assumptions c64_deprecated.
Print Assumptions c64_in_phase.
Print Assumptions c64_parts.
Print Assumptions c64_out_diurnal.
Print Assumptions c64_out_semidiurnal.
Print Assumptions c64_diurnal.
Print Assumptions c64_long_period.
Print Assumptions c64_rotation.
Print Assumptions c64_coordinates.
