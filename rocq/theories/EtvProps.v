From Coq Require Import Reals ZArith List Bool Lia Lra.
From Verif Require Import Angles Poly PiBound DoodsonModel DoodsonArgModel DoodsonArgSpec FundModel FundSpec FundProofs SolidSpec SsdProofs3 EopModel EtvModel EtvSpec EtvProofs EtvProofs2.
Import ListNotations.
Open Scope R_scope.

(** ** C65: tidal variations of the Earth orientation parameters *)
(** sums over the waves of Tables 5.1, 8.2 and 8.3; libration moves the pole on prograde circles *)
Theorem c65_libration F gmst : deop_libration F gmst =
  mkEop (series (fun a => a) libration_pole F gmst) (series behind libration_pole F gmst) (series fst libration_ut1 F gmst) (series snd libration_ut1 F gmst).
Proof. exact (libration_ok F gmst). Qed.
Theorem c65_ocean F gmst : deop_ocean_tide F gmst = mkEop (series px ocean F gmst) (series py ocean F gmst) (series pu ocean F gmst) (series pl ocean F gmst).
Proof. exact (ocean_ok F gmst). Qed.
(** (8.1) *)
Theorem c65_zonal F : deop_zonal_tide F = mkZeop (zonal_ut1 F) (zonal_lod F) (zonal_omega F).
Proof. exact (zonal_ok F). Qed.
(** arguments matter up to full turns only *)
Theorem c65_periodic F G g h : same_angles F G -> eqm g h ->
  deop_libration F g = deop_libration G h /\ deop_ocean_tide F g = deop_ocean_tide G h /\ deop_zonal_tide F = deop_zonal_tide G.
Proof. intros A B. exact (conj (deop_same Table5NoLongTides F G g h A B) (conj (deop_same Table8 F G g h A B) (zonal_same F G A))). Qed.

(** ** length of day is minus the rate of UT1 *)
(** microseconds; the bounds are the sum of the rounding errors of the tables *)
Theorem c65_libration_rate F g t r : moving F g t r -> near r -> rate_within (fun s => dut1 (deop_libration (F s) (g s))) (dlod (deop_libration (F t) (g t))) t 0.9.
Proof. exact (libration_rate F g t r). Qed.
Theorem c65_zonal_rate F g t r : moving F g t r -> near r -> rate_within (fun s => zut1 (deop_zonal_tide (F s))) (zlod (deop_zonal_tide (F t))) t 0.06.
Proof. exact (zonal_rate_ok F g t r). Qed.
(** includes 1.22 from the wave M2 *)
Theorem c65_ocean_rate_partial F g t r : moving F g t r -> near r -> rate_within (fun s => dut1 (deop_ocean_tide (F s) (g s))) (dlod (deop_ocean_tide (F t) (g t))) t 6.1.
Proof. exact (ocean_rate F g t r). Qed.
(** at the arguments the library computes for a date within a century of J2000; UT1 runs at a rate within 1e-7 of TT *)
Theorem c65_dates tt ut t r : (forall s, mjd (tt s) = mjd (tt 0) + s) -> derivable_pt_lim (fun s => mjd (ut s)) t r -> Rabs (r - 1) <= 1e-7 ->
  Rabs (centuries (julian_date (mjd (tt t)))) <= 1 ->
  rate_within (fun s => dut1 (deop_libration (from_array (fundarg_mjd (tt s))) (gmst (tt s) (ut s)))) (dlod (deop_libration (from_array (fundarg_mjd (tt t))) (gmst (tt t) (ut t)))) t 0.9 /\
  rate_within (fun s => dut1 (deop_ocean_tide (from_array (fundarg_mjd (tt s))) (gmst (tt s) (ut s)))) (dlod (deop_ocean_tide (from_array (fundarg_mjd (tt t))) (gmst (tt t) (ut t)))) t 6.1 /\
  rate_within (fun s => zut1 (deop_zonal_tide (from_array (fundarg_mjd (tt s))))) (zlod (deop_zonal_tide (from_array (fundarg_mjd (tt t))))) t 0.06.
Proof. intros A B C D. exact (conj (dates_libration tt ut t r A B C D) (conj (dates_ocean tt ut t r A B C D) (dates_zonal tt ut t r A B C D))). Qed.
(** wave by wave: rounding of UT1 to 0.01, of length of day to 0.1 microseconds *)
Theorem c65_libration_rows r : near r -> Forall (fun x => row_within (wave_rate (of_code (fst x)) r) (fst (snd x)) (snd (snd x)) 0.12) libration_ut1.
Proof. exact (rows_libration r). Qed.
Theorem c65_ocean_rows_partial r : near r -> Forall (fun x => fst x <> 255555%Z -> row_within (wave_rate (of_code (fst x)) r) (pu (snd x)) (pl (snd x)) 0.12) ocean.
Proof. exact (rows_ocean r). Qed.
(** M2: the sine of length of day is -86.8 where UT1 calls for -88.0 *)
Theorem c65_ocean_rows_refuted r : near r -> ~ Forall (fun x => row_within (wave_rate (of_code (fst x)) r) (pu (snd x)) (pl (snd x)) 1.2) ocean /\
  1.22 <= -86.8 - wave_rate (of_code 255555) r * -7.25 <= 1.2221.
Proof. intros N. exact (conj (rows_ocean_wrong r N) (m2_gap r N)). Qed.
Theorem c65_zonal_rows r : near r -> Forall (fun x => let '(n, (u, l, _)) := x in zonal_row_within (zonal_rate n r) u l 6.2e-9) zonal.
Proof. exact (rows_zonal r). Qed.

(** ** rate of rotation, pole *)
(** rad/s: the rate of rotation follows from the length of day *)
Theorem c65_omega F : Rabs (zomega (deop_zonal_tide F) * 1e-14 - - omega_earth * (zlod (deop_zonal_tide F) * 1e-6 / 86400)) <= 2e-17.
Proof. exact (omega_ok F). Qed.
(** diurnal waves of the ocean tide: prograde up to 0.1 microarcseconds *)
Theorem c65_prograde : Forall (fun x => (fst x < 200000)%Z -> Rabs (IZR (snd (py (snd x)) - fst (px (snd x)))) <= 10 /\ Rabs (IZR (fst (py (snd x)) + snd (px (snd x)))) <= 10) ocean.
Proof. eapply Forall_impl; [|exact prograde]. intros x H B. apply H. unfold diurnal. apply Z.ltb_lt, B. Qed.

(** ** other tables *)
(** the unused table of libration.cpp contains the used one *)
Theorem c65_long_period : skipn 15 Table5 = Table5NoLongTides /\ Forall (fun w => n0 (dn w) = 0%Z) (firstn 15 Table5) /\ Forall (fun w => n0 (dn w) <> 0%Z) Table5NoLongTides.
Proof. split; [vm_compute; reflexivity|]. split; repeat (apply Forall_cons; [cbn; lia|]); apply Forall_nil. Qed.
(** zonal_tides_iers.cpp is not the same function: 0.01 microseconds in UT1 *)
Theorem c65_two_files_refuted : exists F, deop_zonal_tide_iers F <> deop_zonal_tide F.
Proof.
  exists (mkDel 0 0 0 0 (PI / 2)). intros H. pose proof (iers_gap (mkDel 0 0 0 0 (PI / 2))) as (G & _). rewrite H in G. cbn [eom] in G. rewrite sin_PI2 in G. lra.
Qed.
Theorem c65_two_files_partial F : Rabs (zut1 (deop_zonal_tide_iers F) - zut1 (deop_zonal_tide F)) <= 0.01 /\
  zlod (deop_zonal_tide_iers F) = zlod (deop_zonal_tide F) /\ zomega (deop_zonal_tide_iers F) = zomega (deop_zonal_tide F).
Proof. destruct (iers_gap F) as (-> & B). split; [|exact B]. pose proof (SIN_bound (eom F)). apply Rabs_le. lra. Qed.

(** ** regularised series: seconds, at the arguments of the epoch of each record *)
Theorem c65_regularize s : Forall2 (fun x y => rt epoch y = rt epoch x /\
    dut epoch y = dut epoch x - zonal_ut1 (arguments_at (julian_date (mjd (rt epoch x)))) * 1e-6 /\
    lod epoch y = lod epoch x - zonal_lod (arguments_at (julian_date (mjd (rt epoch x)))) * 1e-6)
  (mvec epoch s) (mvec epoch (regularize epoch zonal_of s)).
Proof. exact (regularize_ok s). Qed.

(** mean motion from J2000, 2023 *)
Example c65_nonvacuous :
  near mean_rates /\
  moving (fun s => mkDel (rl mean_rates * s) (rlp mean_rates * s) (rF mean_rates * s) (rD mean_rates * s) (rOm mean_rates * s)) (fun s => rg mean_rates * s) 0 mean_rates /\
  (forall s, mjd (mkT 60000 s) = mjd (mkT 60000 0) + s) /\ derivable_pt_lim (fun s => mjd (mkT 60000 (s - 0.0008))) 0 1 /\ Rabs (1 - 1) <= 1e-7 /\
  Rabs (centuries (julian_date (mjd (mkT 60000 0)))) <= 1.
Proof.
  assert (L : forall k, derivable_pt_lim (fun s => k * s) 0 k).
  { intros k. eapply d_ext; [intros y; reflexivity| |apply d_prod; [apply d_const|apply d_id]]. cbn beta. ring. }
  refine (conj _ (conj _ (conj _ (conj _ (conj _ _))))).
  - unfold near. rewrite !Rminus_diag_eq, Rabs_R0 by reflexivity. lra.
  - unfold moving. cbn [el elp ef ed eom]. refine (conj _ (conj _ (conj _ (conj _ (conj _ _))))); apply L.
  - intros s. unfold mjd. cbn [mday mfrac]. ring.
  - unfold mjd. cbn [mday mfrac]. eapply d_ext; [| |apply (d_sum (fun s => s) (fun _ => 60000 - 0.0008)); [apply d_id|apply d_const]]; [intros y; cbn beta; ring|ring].
  - rewrite Rminus_diag_eq, Rabs_R0 by reflexivity. lra.
  - unfold centuries, julian_date, mjd. cbn [mday mfrac]. apply Rabs_le. lra.
Qed.
Print Assumptions c65_libration.
Print Assumptions c65_ocean.
Print Assumptions c65_zonal.
Print Assumptions c65_periodic.
Print Assumptions c65_libration_rate.
Print Assumptions c65_zonal_rate.
Print Assumptions c65_ocean_rate_partial.
Print Assumptions c65_dates.
Print Assumptions c65_libration_rows.
Print Assumptions c65_ocean_rows_partial.
Print Assumptions c65_ocean_rows_refuted.
Print Assumptions c65_zonal_rows.
Print Assumptions c65_omega.
Print Assumptions c65_prograde.
Print Assumptions c65_long_period.
Print Assumptions c65_two_files_refuted.
Print Assumptions c65_two_files_partial.
Print Assumptions c65_regularize.
