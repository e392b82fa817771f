(** C65: single waves, rate of rotation, dates. *)
From Coq Require Import Reals ZArith List Bool Lia Lra.
From Verif Require Import Angles Poly PiBound DoodsonModel DoodsonArgModel DoodsonArgSpec FundModel FundSpec FundProofs TideModel TideProofs2 SolidSpec SsdProofs3 EopModel EtvModel EtvSpec EtvProofs.
Import ListNotations.
Open Scope R_scope.

(** ** single waves *)
Definition okey {A} (k : A -> list Z) u l tol rows : bool := forallb (fits k u l tol) rows.
Lemma okey_ok {A} (k : A -> list Z) u l tol rows r : near r -> okey k u l tol rows = true -> Forall (fun x => row_within (lin (k x) (rate_list r)) (u x) (l x) (IZR tol / 100000000000000)) rows.
Proof. intros N H. apply Forall_forall. intros x Hx. unfold okey in H. rewrite forallb_forall in H. apply fits_ok; [exact N|apply H, Hx]. Qed.
Lemma rows_libration r : near r -> Forall (fun x => row_within (wave_rate (of_code (fst x)) r) (fst (snd x)) (snd (snd x)) 0.12) libration_ut1.
Proof.
  intros N. pose proof (okey_ok (fun x : Z * ((Z * Z) * (Z * Z)) => mult (of_code (fst x))) (fun x => fst (snd x)) (fun x => snd (snd x)) 12000000000000 libration_ut1 r N ltac:(vm_compute; reflexivity)) as H.
  eapply Forall_impl; [|exact H]. intros x. cbn beta. rewrite wave_rate_lin. replace 0.12 with (12000000000000 / 100000000000000) by lra. exact (fun E => E).
Qed.
Lemma rows_ocean r : near r -> Forall (fun x => fst x <> 255555%Z -> row_within (wave_rate (of_code (fst x)) r) (pu (snd x)) (pl (snd x)) 0.12) ocean.
Proof.
  intros N. pose proof (okey_ok (fun x : Z * ((Z * Z) * (Z * Z) * (Z * Z) * (Z * Z)) => mult (of_code (fst x))) (fun x => pu (snd x)) (fun x => pl (snd x)) 12000000000000 (filter (fun x => negb (fst x =? 255555)%Z) ocean) r N ltac:(vm_compute; reflexivity)) as H.
  rewrite Forall_forall in H. apply Forall_forall. intros x Hx C. rewrite wave_rate_lin. replace 0.12 with (12000000000000 / 100000000000000) by lra.
  apply H. apply filter_In. split; [exact Hx|]. apply negb_true_iff, Z.eqb_neq, C.
Qed.
Lemma row_m2 : In (255555, ((-33020, -2700), (3760, 19590), (-1619, -725), (-8680, 19660)))%Z ocean.
Proof. unfold ocean. repeat (first [left; reflexivity | right]). Qed.
Lemma m2_gap r : near r -> 1.22 <= -86.8 - wave_rate (of_code 255555) r * -7.25 <= 1.2221.
Proof.
  intros N. rewrite wave_rate_lin. pose proof (appr_ok r (mult (of_code 255555)) N) as H. apply abs_between in H.
  set (x := lin (mult (of_code 255555)) (rate_list r)) in *. replace (appr (mult (of_code 255555))) with (12140833193872, 2040006)%Z in H by (vm_compute; reflexivity). cbn [fst snd] in H. lra.
Qed.
Lemma rows_ocean_wrong r : near r -> ~ Forall (fun x => row_within (wave_rate (of_code (fst x)) r) (pu (snd x)) (pl (snd x)) 1.2) ocean.
Proof.
  intros N H. rewrite Forall_forall in H. destruct (H _ row_m2) as [E _]. unfold pu, pl in E. cbn [fst snd] in E. apply abs_between in E. pose proof (m2_gap r N). lra.
Qed.
Definition zrow (x : list Z * ((Z * Z) * (Z * Z) * (Z * Z))) : Z * Z := let '(_, (u, _, _)) := x in u.
Definition zrow2 (x : list Z * ((Z * Z) * (Z * Z) * (Z * Z))) : Z * Z := let '(_, (_, l, _)) := x in l.
Lemma rows_zonal r : near r -> Forall (fun x => let '(n, (u, l, _)) := x in zonal_row_within (zonal_rate n r) u l 6.2e-9) zonal.
Proof.
  intros N. pose proof (okey_ok (fun x : list Z * ((Z * Z) * (Z * Z) * (Z * Z)) => zmult (fst x)) (fun x => ((10 * fst (zrow x))%Z, (10 * snd (zrow x))%Z)) (fun x => (snd (zrow2 x), fst (zrow2 x))) 6200000000000 zonal r N ltac:(vm_compute; reflexivity)) as H.
  eapply Forall_impl; [|exact H]. intros (n & ((u & l) & o)). cbn [fst snd zrow zrow2]. rewrite <- zonal_rate_lin. intros [E1 E2]. cbn [fst snd] in E1, E2. rewrite !mult_IZR in E1, E2.
  generalize dependent (zonal_rate n r). intros w E1 E2. apply abs_between in E1, E2. split; apply Rabs_le; lra.
Qed.
(** retrograde part of the diurnal waves of the pole *)
Definition diurnal (c : Z) : bool := (c <? 200000)%Z.
Lemma prograde : Forall (fun x => diurnal (fst x) = true -> Rabs (IZR (snd (py (snd x)) - fst (px (snd x)))) <= 10 /\ Rabs (IZR (fst (py (snd x)) + snd (px (snd x)))) <= 10) ocean.
Proof.
  assert (H : forallb (fun x => negb (diurnal (fst x)) || ((Z.abs (snd (py (snd x)) - fst (px (snd x))) <=? 10)%Z && (Z.abs (fst (py (snd x)) + snd (px (snd x))) <=? 10)%Z)) ocean = true) by (vm_compute; reflexivity).
  rewrite forallb_forall in H. apply Forall_forall. intros x Hx D. specialize (H x Hx). rewrite D in H. cbn [negb orb] in H. apply andb_prop in H. destruct H as [H1 H2].
  apply Z.leb_le, IZR_le in H1, H2. rewrite abs_IZR in H1, H2. split; assumption.
Qed.

(** ** rate of rotation *)
Definition oerr (w : zwave) : Z := (Z.abs (8640000 * domegaB w + 7292115 * dlodB w) + Z.abs (8640000 * domegaC w + 7292115 * dlodC w))%Z.
Lemma osum t F : Rabs (zsum zo t F + 7292115 / 8640000 * zsum zl t F) <= IZR (zsumZ (map oerr t)) / 86400000000.
Proof.
  unfold zsum. induction t as [|w t IH]; cbn [map]; [unfold sum, zsumZ; cbn; rewrite Rmult_0_r, Rplus_0_l, Rabs_R0; lra|].
  rewrite !sum_cons. change (zsumZ (oerr w :: map oerr t)) with (oerr w + zsumZ (map oerr t))%Z. rewrite plus_IZR.
  set (X := sum (map (fun w => zterm zo w F) t)) in *. set (Y := sum (map (fun w => zterm zl w F) t)) in *.
  replace (zterm zo w F + X + 7292115 / 8640000 * (zterm zl w F + Y)) with ((zterm zo w F + 7292115 / 8640000 * zterm zl w F) + (X + 7292115 / 8640000 * Y)) by ring.
  eapply Rle_trans; [apply Rabs_triang|]. rewrite Rdiv_plus_distr. apply Rplus_le_compat; [|exact IH].
  unfold zterm, zo, zl, oerr. rewrite plus_IZR, !abs_IZR, !plus_IZR, !mult_IZR.
  pose proof (SIN_bound (zonal_argument (zlist w) F)) as S. pose proof (COS_bound (zonal_argument (zlist w) F)) as C.
  set (s := sin (zonal_argument (zlist w) F)) in *. set (c := cos (zonal_argument (zlist w) F)) in *.
  set (p := 8640000 * IZR (domegaB w) + 7292115 * IZR (dlodB w)). set (q := 8640000 * IZR (domegaC w) + 7292115 * IZR (dlodC w)).
  match goal with |- Rabs ?e <= _ => replace e with ((p * c + q * s) / 86400000000) by (unfold p, q; field) end.
  unfold Rdiv. rewrite Rabs_mult, (Rabs_right (/ _)) by lra. apply Rmult_le_compat_r; [lra|]. eapply Rle_trans; [apply Rabs_triang|]. rewrite !Rabs_mult.
  assert (Rabs s <= 1) by (apply Rabs_le; lra). assert (Rabs c <= 1) by (apply Rabs_le; lra). pose proof (Rabs_pos p). pose proof (Rabs_pos q). nra.
Qed.
Lemma omega_ok F : Rabs (zomega (deop_zonal_tide F) * 1e-14 - - omega_earth * (zlod (deop_zonal_tide F) * 1e-6 / 86400)) <= 2e-17.
Proof.
  rewrite zonal_sums. cbn [zomega zlod]. pose proof (osum Table81 F) as H.
  assert (B : IZR (zsumZ (map oerr Table81)) <= IZR 172000000) by (apply IZR_le, Z.leb_le; vm_compute; reflexivity).
  unfold omega_earth. set (X := zsum zo Table81 F) in *. set (Y := zsum zl Table81 F) in *. set (Z := IZR (zsumZ (map oerr Table81))) in *. clearbody X Y Z. apply abs_between in H. apply Rabs_le. lra.
Qed.

(** ** arguments up to full turns *)
Lemma iers_same n F G g h : same_angles F G -> eqm g h -> eqm (iers_argument n F g) (iers_argument n G h).
Proof.
  intros (H1 & H2 & H3 & H4 & H5) H6. unfold iers_argument. rewrite !(Rmult_comm (IZR _)).
  apply eqm_sub; [apply eqm_scale, eqm_add; [exact H6|apply eqm_refl]|]. repeat apply eqm_add; apply eqm_scale; assumption.
Qed.
Lemma deop_same t F G g h : same_angles F G -> eqm g h -> deop t F g = deop t G h.
Proof.
  intros A B. rewrite !deop_eq. unfold waves. apply f_equal4; apply sum_ext; intros w _; unfold wave_at;
    rewrite (eqm_sin _ _ (iers_same (dn w) F G g h A B)), (eqm_cos _ _ (iers_same (dn w) F G g h A B)); reflexivity.
Qed.
Lemma zonal_same F G : same_angles F G -> deop_zonal_tide F = deop_zonal_tide G.
Proof.
  intros (H1 & H2 & H3 & H4 & H5). rewrite !zonal_sums.
  assert (E : forall w, eqm (zonal_argument (zlist w) F) (zonal_argument (zlist w) G)).
  { intros w. unfold zonal_argument. rewrite !(Rmult_comm (IZR _)). repeat apply eqm_add; apply eqm_scale; assumption. }
  unfold zsum. apply f_equal3; repeat (apply f_equal2; [|reflexivity]); try apply sum_ext; intros w _; unfold zterm; rewrite (eqm_sin _ _ (E w)), (eqm_cos _ _ (E w)); reflexivity.
Qed.

(** ** dates *)
Lemma fundarg_same tt : same_angles (from_array (fundarg_mjd tt)) (arguments_at (julian_date (mjd tt))).
Proof.
  unfold fundarg_mjd, arguments_at. replace (jcenturies_sinceJ2000 tt) with (centuries (julian_date (mjd tt))) by (unfold centuries, julian_date, jcenturies_sinceJ2000; lra).
  generalize (centuries (julian_date (mjd tt))). intros t. pose proof (args_congruent t) as H. unfold fundarg, lunisolar in *.
  inversion H as [|? ? ? ? E1 H1]; subst. inversion H1 as [|? ? ? ? E2 H2]; subst. inversion H2 as [|? ? ? ? E3 H3]; subst. inversion H3 as [|? ? ? ? E4 H4]; subst. inversion H4 as [|? ? ? ? E5 H5]; subst.
  unfold same_angles, from_array. cbn [map nth el elp ef ed eom]. repeat split; assumption.
Qed.
Lemma d_centuries j t : (forall s, j s = j 0 + s) -> derivable_pt_lim (fun s => centuries (julian_date (j s))) t (/ 36525).
Proof.
  intros H. eapply d_ext; [| |apply (d_sum (fun s => / 36525 * s) (fun _ => (j 0 + 2400000.5 - 2451545.0) / 36525)); [apply d_prod; [apply d_const|apply d_id]|apply d_const]].
  - intros y. unfold centuries, julian_date. rewrite (H y). field.
  - cbn beta. ring.
Qed.
Lemma d_comp f g x a b : derivable_pt_lim f x a -> derivable_pt_lim g (f x) b -> derivable_pt_lim (fun s => g (f s)) x (b * a).
Proof. intros A B. exact (derivable_pt_lim_comp f g x a b A B). Qed.
Lemma d_arg j t c : (forall s, j s = j 0 + s) -> derivable_pt_lim (fun s => arcsec (peval c (centuries (julian_date (j s))))) t (arcsec (peval (pderiv c) (centuries (julian_date (j t)))) / 36525).
Proof.
  intros H. eapply d_ext; [intros y; reflexivity| |apply (d_comp (fun s => centuries (julian_date (j s))) (fun u => arcsec (peval c u)) t); [apply d_centuries, H|apply arcsec_derivative, peval_derivative]].
  unfold Rdiv. reflexivity.
Qed.
Lemma powers c : Rabs c <= 1 -> -1 <= c <= 1 /\ 0 <= c * c <= 1 /\ -1 <= c * (c * c) <= 1 /\ 0 <= (c * c) * (c * c) <= 1.
Proof.
  intros H. apply abs_between in H. assert (0 <= c * c <= 1) by nra. split; [lra|]. split; [assumption|]. split; nra.
Qed.
Definition rates_at (c r : R) : rates :=
  let f p := arcsec (peval (pderiv p) c) / 36525 in
  mkRates (f mean_anomaly_moon) (f mean_anomaly_sun) (f latitude_argument) (f elongation) (f node) (2 * PI * 1.00273781191135448 * r + f sidereal_poly).
Lemma rates_near c r : Rabs c <= 1 -> Rabs (r - 1) <= 1e-7 -> near (rates_at c r).
Proof.
  intros H Hr. destruct (powers c H) as (B1 & B2 & B3 & B4). apply abs_between in Hr. pose proof pi_bounds as P.
  assert (K : forall a b k, - k <= a - b <= k -> 0 <= k -> Rabs (arcsec a / 36525 - arcsec b / 36525) <= arcsec k / 36525).
  { intros a b k A Hk. unfold arcsec. replace (a / 3600 / 360 * (2 * PI) / 36525 - b / 3600 / 360 * (2 * PI) / 36525) with ((a - b) * (2 * PI / 3600 / 360 / 36525)) by field.
    replace (k / 3600 / 360 * (2 * PI) / 36525) with (k * (2 * PI / 3600 / 360 / 36525)) by field. assert (0 <= 2 * PI / 3600 / 360 / 36525) by lra.
    rewrite Rabs_mult, (Rabs_right (2 * PI / 3600 / 360 / 36525)) by lra. apply Rmult_le_compat_r; [assumption|]. apply Rabs_le. exact A. }
  assert (S : arcsec 64.5 / 36525 <= 1e-8) by (unfold arcsec; lra).
  assert (Q : forall a b d e f, -32 <= d <= 32 -> -0.1 <= e <= 0.1 -> -0.05 <= f <= 0.05 -> Rabs (arcsec (peval (pderiv [a; b; d; e; f]) c) / 36525 - arcsec b / 36525) <= 1e-8).
  { intros a b d e f Bd Be Bf. assert (Ad : Rabs (2 * d) <= 64) by (apply Rabs_le; lra). assert (Ae : Rabs (3 * e) <= 0.3) by (apply Rabs_le; lra). assert (Af : Rabs (4 * f) <= 0.2) by (apply Rabs_le; lra). eapply Rle_trans; [apply (K _ _ 64.5)|exact S]; [|lra].
    assert (E : peval (pderiv [a; b; d; e; f]) c - b = 2 * d * c + 3 * e * (c * c) + 4 * f * (c * (c * c))) by (unfold pderiv; cbn [tl dcoef peval fold_right]; ring).
    rewrite E. apply abs_between. eapply Rle_trans; [apply Rabs_triang|]. eapply Rle_trans; [apply Rplus_le_compat_r, Rabs_triang|]. rewrite !(Rabs_mult _ (_ * _)), (Rabs_mult (2 * d) c).
    assert (Rabs (c * c) <= 1) by (apply Rabs_le; lra). assert (Rabs (c * (c * c)) <= 1) by (apply Rabs_le; lra).
    assert (M : forall x y, 0 <= x -> y <= 1 -> x * y <= x) by (intros; nra).
    rewrite <- (Rabs_mult c (c * c)). pose proof (M _ _ (Rabs_pos (2 * d)) H). pose proof (M _ _ (Rabs_pos (3 * e)) H0). pose proof (M _ _ (Rabs_pos (4 * f)) H1). lra. }
  unfold near, rates_at, mean_rates. cbn [rl rlp rF rD rOm rg].
  refine (conj _ (conj _ (conj _ (conj _ (conj _ _))))).
  1-5: apply Q; lra.
  replace (2 * PI * 1.00273781191135448 * r + arcsec (peval (pderiv sidereal_poly) c) / 36525 - (2 * PI * 1.00273781191135448 + arcsec 4612.156534 / 36525))
    with (2 * PI * 1.00273781191135448 * (r - 1) + (arcsec (peval (pderiv sidereal_poly) c) / 36525 - arcsec 4612.156534 / 36525)) by ring.
  eapply Rle_trans; [apply Rabs_triang|].
  assert (A : Rabs (arcsec (peval (pderiv sidereal_poly) c) / 36525 - arcsec 4612.156534 / 36525) <= 1e-8).
  { eapply Rle_trans; [apply (K _ _ 64.5)|exact S]; [|lra].
    assert (E : peval (pderiv sidereal_poly) c - 4612.156534 = 2 * 1.3915817 * c + 3 * - 0.00000044 * (c * c) + 4 * - 0.000029956 * (c * (c * c)) + 5 * - 0.0000000368 * ((c * c) * (c * c)))
      by (unfold pderiv, sidereal_poly; cbn [tl dcoef peval fold_right]; ring).
    rewrite E. lra. }
  assert (A2 : Rabs (2 * PI * 1.00273781191135448 * (r - 1)) <= 7e-7).
  { rewrite Rabs_mult, (Rabs_right (2 * PI * 1.00273781191135448)) by lra. assert (Rabs (r - 1) <= 1e-7) by (apply Rabs_le; lra).
    assert (2 * PI * 1.00273781191135448 <= 6.301) by lra. pose proof (Rabs_pos (r - 1)). nra. }
  lra.
Qed.
Section Dates.
  Variables (tt ut : R -> epoch) (t r : R).
  Hypothesis Htt : forall s, mjd (tt s) = mjd (tt 0) + s.
  Hypothesis Hut : derivable_pt_lim (fun s => mjd (ut s)) t r.
  Hypothesis Hr : Rabs (r - 1) <= 1e-7.
  Hypothesis Hc : Rabs (centuries (julian_date (mjd (tt t)))) <= 1.
  Definition F' (s : R) : delaunay := arguments_at (julian_date (mjd (tt s))).
  Definition g' (s : R) : R := sidereal_time (julian_date (mjd (tt s))) (julian_date (mjd (ut s))).
  Lemma dates_moving : moving F' g' t (rates_at (centuries (julian_date (mjd (tt t)))) r).
  Proof.
    unfold moving, F', arguments_at, from_array, rates_at. cbn [map lunisolar nth el elp ef ed eom rl rlp rF rD rOm rg].
    refine (conj _ (conj _ (conj _ (conj _ (conj _ _))))); try (apply (d_arg (fun s => mjd (tt s))); exact Htt).
    unfold g', sidereal_time. apply d_sum; [|apply (d_arg (fun s => mjd (tt s))); exact Htt].
    unfold earth_rotation_angle, julian_date.
    eapply d_ext; [| |apply (d_sum (fun s => 2 * PI * 1.00273781191135448 * mjd (ut s)) (fun _ => 2 * PI * (0.7790572732640 + 1.00273781191135448 * (2400000.5 - 2451545.0))));
      [apply d_prod; [apply d_const|exact Hut]|apply d_const]]; [intros y; cbn beta; ring|cbn beta; ring].
  Qed.
  Lemma dates_near : near (rates_at (centuries (julian_date (mjd (tt t)))) r).
  Proof. apply rates_near; assumption. Qed.
  Lemma rate_ext u v l e : (forall s, u s = v s) -> rate_within v l t e -> rate_within u l t e.
  Proof. intros H (d & D & B). exists d. split; [|exact B]. apply (d_ext v u t d d); [intros y; symmetry; apply H|reflexivity|exact D]. Qed.
  Lemma dates_fun (f : delaunay -> R -> eop) e : (forall F G g h, same_angles F G -> eqm g h -> f F g = f G h) ->
    rate_within (fun s => dut1 (f (F' s) (g' s))) (dlod (f (F' t) (g' t))) t e ->
    rate_within (fun s => dut1 (f (from_array (fundarg_mjd (tt s))) (gmst (tt s) (ut s)))) (dlod (f (from_array (fundarg_mjd (tt t))) (gmst (tt t) (ut t)))) t e.
  Proof.
    intros E H. assert (D : forall s, f (from_array (fundarg_mjd (tt s))) (gmst (tt s) (ut s)) = f (F' s) (g' s)) by (intros s; apply E; [apply fundarg_same|apply gmst_eqm]).
    rewrite D. eapply rate_ext; [|exact H]. intros s. cbn beta. rewrite D. reflexivity.
  Qed.
  Lemma dates_libration : rate_within (fun s => dut1 (deop_libration (from_array (fundarg_mjd (tt s))) (gmst (tt s) (ut s)))) (dlod (deop_libration (from_array (fundarg_mjd (tt t))) (gmst (tt t) (ut t)))) t 0.9.
  Proof. exact (dates_fun deop_libration _ (deop_same Table5NoLongTides) (libration_rate F' g' t _ dates_moving dates_near)). Qed.
  Lemma dates_ocean : rate_within (fun s => dut1 (deop_ocean_tide (from_array (fundarg_mjd (tt s))) (gmst (tt s) (ut s)))) (dlod (deop_ocean_tide (from_array (fundarg_mjd (tt t))) (gmst (tt t) (ut t)))) t 6.1.
  Proof. exact (dates_fun deop_ocean_tide _ (deop_same Table8) (ocean_rate F' g' t _ dates_moving dates_near)). Qed.
  Lemma dates_zonal : rate_within (fun s => zut1 (deop_zonal_tide (from_array (fundarg_mjd (tt s))))) (zlod (deop_zonal_tide (from_array (fundarg_mjd (tt t))))) t 0.06.
  Proof.
    rewrite (zonal_same _ (F' t) (fundarg_same (tt t))). apply (rate_ext _ (fun s => zut1 (deop_zonal_tide (F' s)))); [intros s; rewrite (zonal_same _ (F' s) (fundarg_same (tt s))); reflexivity|].
    exact (zonal_rate_ok F' g' t _ dates_moving dates_near).
  Qed.
End Dates.

(** ** regularised series *)
Definition zonal_of (e : epoch) : R * R := let d := deop_zonal_tide (from_array (fundarg_mjd e)) in (zut1 d, zlod d).
Lemma zonal_of_ok e : zonal_of e = (zonal_ut1 (arguments_at (julian_date (mjd e))), zonal_lod (arguments_at (julian_date (mjd e)))).
Proof. unfold zonal_of. rewrite (zonal_same _ _ (fundarg_same e)), zonal_ok. reflexivity. Qed.
Lemma regularize_ok s : Forall2 (fun x y => rt epoch y = rt epoch x /\
    dut epoch y = dut epoch x - zonal_ut1 (arguments_at (julian_date (mjd (rt epoch x)))) * 1e-6 /\
    lod epoch y = lod epoch x - zonal_lod (arguments_at (julian_date (mjd (rt epoch x)))) * 1e-6)
  (mvec epoch s) (mvec epoch (regularize epoch zonal_of s)).
Proof.
  unfold regularize, regularize_impl. cbn [mvec]. induction (mvec epoch s) as [|x l IH]; cbn [map]; constructor; [|exact IH].
  rewrite zonal_of_ok. cbn [rt dut lod]. change (0 <? -1)%Z with false. cbv iota. refine (conj eq_refl (conj _ _)); lra.
Qed.
