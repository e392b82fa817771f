(** C65: series, derivatives, computation on the tables. *)
From Coq Require Import Reals ZArith List Bool Lia Lra.
From Verif Require Import Angles Poly PiBound DoodsonModel DoodsonArgModel DoodsonArgSpec FundModel FundSpec FundProofs TideModel TideProofs2 SolidSpec SsdProofs3 EtvModel EtvSpec.
Import ListNotations.
Open Scope R_scope.

(** ** sums *)
Lemma sum_cons x l : sum (x :: l) = x + sum l.
Proof. reflexivity. Qed.
Lemma sum_app a b : sum (a ++ b) = sum a + sum b.
Proof. induction a as [|x a IH]; cbn [app]; [unfold sum; cbn; ring|]. rewrite !sum_cons, IH. ring. Qed.
Lemma sum_plus {A} (f g : A -> R) l : sum (map f l) + sum (map g l) = sum (map (fun x => f x + g x) l).
Proof. induction l as [|x l IH]; cbn [map]; [unfold sum; cbn; ring|]. rewrite !sum_cons, <- IH. ring. Qed.
Lemma sum_scale {A} k (f : A -> R) l : sum (map (fun x => k * f x) l) = k * sum (map f l).
Proof. induction l as [|x l IH]; cbn [map]; [unfold sum; cbn; ring|]. rewrite !sum_cons, IH. ring. Qed.
Lemma sum_ext {A} (f g : A -> R) l : (forall x, In x l -> f x = g x) -> sum (map f l) = sum (map g l).
Proof. intros H. f_equal. apply map_ext_in. exact H. Qed.
Lemma sum_le {A} (f g : A -> R) l : (forall x, In x l -> f x <= g x) -> sum (map f l) <= sum (map g l).
Proof.
  induction l as [|x l IH]; intros H; cbn [map]; [lra|]. rewrite !sum_cons. pose proof (H x (or_introl eq_refl)). pose proof (IH (fun y Hy => H y (or_intror Hy))). lra.
Qed.
Lemma sum_abs {A} (f : A -> R) l : Rabs (sum (map f l)) <= sum (map (fun x => Rabs (f x)) l).
Proof. induction l as [|x l IH]; cbn [map]; [unfold sum; cbn; rewrite Rabs_R0; lra|]. rewrite !sum_cons. eapply Rle_trans; [apply Rabs_triang|]. lra. Qed.
Definition nz (a : Z * Z) : bool := negb ((fst a =? 0)%Z && (snd a =? 0)%Z).
Lemma sum_nz {A} (amp : A -> Z * Z) (th : A -> R) l : sum (map (fun x => wave_at (amp x) (th x)) l) = sum (map (fun x => wave_at (amp x) (th x)) (filter (fun x => nz (amp x)) l)).
Proof.
  induction l as [|x l IH]; [reflexivity|]. cbn [filter]. destruct (nz (amp x)) eqn:E.
  - cbn [map]. rewrite !sum_cons, IH. reflexivity.
  - rewrite <- IH. cbn [map]. rewrite sum_cons. unfold nz in E. apply Bool.negb_false_iff, andb_prop in E. destruct E as [E1 E2]. apply Z.eqb_eq in E1, E2. unfold wave_at. rewrite E1, E2. lra.
Qed.

(** ** the loops *)
Definition ax (w : wave) := (xps w, xpc w).
Definition ay (w : wave) := (yps w, ypc w).
Definition au (w : wave) := (ut1s w, ut1c w).
Definition al (w : wave) := (lods w, lodc w).
Definition waves (amp : wave -> Z * Z) (t : list wave) (F : delaunay) (g : R) : R := sum (map (fun w => wave_at (amp w) (iers_argument (dn w) F g)) t).
Lemma deop_fold F g t : forall a, let r := fold_left (add_wave (delaunay2doodson F g)) t a in
  dxp r = dxp a + waves ax t F g /\ dyp r = dyp a + waves ay t F g /\ dut1 r = dut1 a + waves au t F g /\ dlod r = dlod a + waves al t F g.
Proof.
  induction t as [|w t IH]; intros a; cbv zeta; [unfold waves; cbn; repeat split; ring|]. cbn [fold_left].
  destruct (IH (add_wave (delaunay2doodson F g) a w)) as (-> & -> & -> & ->). unfold add_wave. destruct (cos_argument (dn w) F g) as (-> & ->). cbn [dxp dyp dut1 dlod].
  unfold waves. cbn [map]. rewrite !sum_cons. unfold wave_at at 2 5 8 11. unfold ax, ay, au, al, hundredths. cbn [fst snd]. repeat split; ring.
Qed.
Lemma deop_eq t F g : deop t F g = mkEop (waves ax t F g) (waves ay t F g) (waves au t F g) (waves al t F g).
Proof.
  unfold deop. destruct (deop_fold F g t (mkEop 0 0 0 0)) as (E1 & E2 & E3 & E4). revert E1 E2 E3 E4. generalize (fold_left (add_wave (delaunay2doodson F g)) t (mkEop 0 0 0 0)).
  intros [a b c d]. cbn [dxp dyp dut1 dlod]. rewrite !Rplus_0_l. intros -> -> -> ->. reflexivity.
Qed.
(** a table against a specification, waves of amplitude zero left out *)
Definition same {A} (am : wave -> Z * Z) (amp : A -> Z * Z) (t : list wave) (s : list (Z * A)) : Prop :=
  map (fun w => (dn w, am w)) (filter (fun w => nz (am w)) t) = map (fun r => (of_code (fst r), amp (snd r))) (filter (fun r => nz (amp (snd r))) s).
Lemma waves_series {A} am (amp : A -> Z * Z) t s F g : same am amp t s -> waves am t F g = series amp s F g.
Proof.
  intros H. unfold waves, series. rewrite (sum_nz am), (sum_nz (fun r : Z * A => amp (snd r))).
  transitivity (sum (map (fun x => wave_at (snd x) (iers_argument (fst x) F g)) (map (fun w => (dn w, am w)) (filter (fun w => nz (am w)) t)))).
  - rewrite map_map. reflexivity.
  - unfold same in H. rewrite H, map_map. reflexivity.
Qed.
Lemma libration_ok F g : deop_libration F g =
  mkEop (series (fun a => a) libration_pole F g) (series behind libration_pole F g) (series fst libration_ut1 F g) (series snd libration_ut1 F g).
Proof. unfold deop_libration. rewrite deop_eq. apply f_equal4; apply waves_series; vm_compute; reflexivity. Qed.
Lemma ocean_ok F g : deop_ocean_tide F g = mkEop (series px ocean F g) (series py ocean F g) (series pu ocean F g) (series pl ocean F g).
Proof. unfold deop_ocean_tide. rewrite deop_eq. apply f_equal4; apply waves_series; vm_compute; reflexivity. Qed.

(** ** zonal tides *)
Definition zlist (w : zwave) : list Z := [lm w; lpm w; fm w; dm w; om w].
Definition zterm (f : zwave -> Z * Z) (w : zwave) (F : delaunay) : R := let '(a, b) := f w in 1e-4 * IZR a * sin (zonal_argument (zlist w) F) + 1e-4 * IZR b * cos (zonal_argument (zlist w) F).
Definition zu (w : zwave) := (dut1B w, dut1C w).
Definition zl (w : zwave) := (dlodC w, dlodB w).
Definition zo (w : zwave) := (domegaC w, domegaB w).
Definition zsum f t F := sum (map (fun w => zterm f w F) t).
Lemma zonal_fold F arg t : (forall w, eqm (arg w) (zonal_argument (zlist w) F)) -> forall a, let r := fold_left (add_zonal arg) t a in
  zut1 r = zut1 a + zsum zu t F /\ zlod r = zlod a + zsum zl t F /\ zomega r = zomega a + zsum zo t F.
Proof.
  intros H. induction t as [|w t IH]; intros a; cbv zeta; [unfold zsum; cbn; repeat split; ring|]. cbn [fold_left].
  destruct (IH (add_zonal arg a w)) as (-> & -> & ->). unfold add_zonal. rewrite (eqm_cos _ _ (H w)), (eqm_sin _ _ (H w)). cbn [zut1 zlod zomega].
  unfold zsum. cbn [map]. rewrite !sum_cons. unfold zterm at 2 5 8. unfold zu, zl, zo, units81. cbn [fst snd]. repeat split; field.
Qed.
Lemma ksi_eqm F w : eqm (ksi w F) (zonal_argument (zlist w) F).
Proof. unfold ksi. eapply eqm_trans; [apply anp_eqm|]. apply eqm_eq. unfold zonal_argument, zlist. cbn [nth]. ring. Qed.
Lemma xi_eqm F w : eqm (xi w F) (zonal_argument (zlist w) F).
Proof. unfold xi. eapply eqm_trans; [apply anp_eqm|]. eapply eqm_trans; [apply anp_eqm|]. apply eqm_eq. unfold zonal_argument, zlist. cbn [nth]. ring. Qed.
Definition unrow (r : list Z * ((Z * Z) * (Z * Z) * (Z * Z))) : zwave :=
  let '(n, (u, l, o)) := r in mkZ (nth 0 n 0%Z) (nth 1 n 0%Z) (nth 2 n 0%Z) (nth 3 n 0%Z) (nth 4 n 0%Z) (fst u) (snd u) (fst l) (snd l) (fst o) (snd o).
Lemma table81_ok : Table81 = map unrow zonal.
Proof. vm_compute. reflexivity. Qed.
Lemma zonal_sums F : deop_zonal_tide F = mkZeop (zsum zu Table81 F * 1e2) (zsum zl Table81 F * 1e1) (zsum zo Table81 F).
Proof.
  unfold deop_zonal_tide. destruct (zonal_fold F (fun w => ksi w F) Table81 (ksi_eqm F) (mkZeop 0 0 0)) as (E1 & E2 & E3). cbv zeta. rewrite E1, E2, E3. cbn [zut1 zlod zomega]. rewrite !Rplus_0_l. reflexivity.
Qed.
Lemma iers_sums F : deop_zonal_tide_iers F = mkZeop (zsum zu Table8_iers F * 1e2) (zsum zl Table8_iers F * 1e1) (zsum zo Table8_iers F).
Proof.
  unfold deop_zonal_tide_iers. destruct (zonal_fold F (fun w => xi w F) Table8_iers (xi_eqm F) (mkZeop 0 0 0)) as (E1 & E2 & E3). cbv zeta. rewrite E1, E2, E3. cbn [zut1 zlod zomega]. rewrite !Rplus_0_l.
  replace 1e1 with 10 by lra. reflexivity.
Qed.
Lemma zonal_ok F : deop_zonal_tide F = mkZeop (zonal_ut1 F) (zonal_lod F) (zonal_omega F).
Proof.
  rewrite zonal_sums. unfold zsum, zonal_ut1, zonal_lod, zonal_omega. rewrite table81_ok, !map_map.
  apply f_equal3; [replace (1e-4 / 1e-6) with 1e2 by lra; f_equal|replace (1e-5 / 1e-6) with 1e1 by lra; f_equal|];
    apply sum_ext; intros (n & ((u & l) & o)) _; unfold zterm, unrow, zu, zl, zo; cbn [dut1B dut1C dlodB dlodC domegaB domegaC fst snd];
    change (zonal_argument (zlist _) F) with (zonal_argument n F); ring.
Qed.
(** the file left out of the build: last row *)
Lemma iers_differs : Table8_iers = firstn 61 Table81 ++ [mkZ 0 0 0 0 1 (-16172680) 0 (-149471) 0 126153 0].
Proof. vm_compute. reflexivity. Qed.
Lemma table81_last : Table81 = firstn 61 Table81 ++ [mkZ 0 0 0 0 1 (-16172681) 0 (-149471) 0 126153 0].
Proof. vm_compute. reflexivity. Qed.
Lemma iers_gap F : zut1 (deop_zonal_tide_iers F) - zut1 (deop_zonal_tide F) = 0.01 * sin (eom F) /\
  zlod (deop_zonal_tide_iers F) = zlod (deop_zonal_tide F) /\ zomega (deop_zonal_tide_iers F) = zomega (deop_zonal_tide F).
Proof.
  rewrite zonal_sums, iers_sums. cbn [zut1 zlod zomega]. unfold zsum. rewrite iers_differs. rewrite table81_last at 2 4 6. rewrite !map_app, !sum_app.
  generalize (firstn 61 Table81). intros t. unfold zterm, zu, zl, zo, zlist, zonal_argument, sum. cbn [map fold_right dut1B dut1C dlodB dlodC domegaB domegaC nth lm lpm fm dm om].
  replace (0 * el F + 0 * elp F + 0 * ef F + 0 * ed F + 1 * eom F) with (eom F) by ring. repeat split; lra.
Qed.

(** ** differentiation of a sum of waves *)
Section Waves.
  Context {A : Type} (th : A -> R -> R) (w : A -> R) (u l : A -> Z * Z) (t : R).
  Definition usum (rows : list A) (s : R) : R := sum (map (fun r => wave_at (u r) (th r s)) rows).
  Definition dsum (rows : list A) : R := sum (map (fun r => w r * (IZR (fst (u r)) / 100 * cos (th r t) - IZR (snd (u r)) / 100 * sin (th r t))) rows).
  Lemma usum_deriv rows : (forall r, In r rows -> derivable_pt_lim (th r) t (w r)) -> derivable_pt_lim (usum rows) t (dsum rows).
  Proof.
    induction rows as [|r rows IH]; intros H; [apply (d_ext (fun _ => 0) _ _ 0); [intros y; reflexivity|reflexivity|apply d_const]|].
    apply (d_ext (fun s => wave_at (u r) (th r s) + usum rows s) _ t (w r * (IZR (fst (u r)) / 100 * cos (th r t) - IZR (snd (u r)) / 100 * sin (th r t)) + dsum rows)); [intros y; reflexivity|reflexivity|].
    apply d_sum; [|apply IH; intros x Hx; apply H; right; exact Hx].
    pose proof (H r (or_introl eq_refl)) as D.
    eapply d_ext; [intros y; unfold wave_at; reflexivity| |apply d_sum; apply d_prod; [apply d_const|apply d_sin, D|apply d_const|apply d_cos, D]]. cbn beta. ring.
  Qed.
  Definition gap1 (r : A) : R := IZR (fst (l r)) / 100 - w r * (IZR (snd (u r)) / 100).
  Definition gap2 (r : A) : R := IZR (snd (l r)) / 100 + w r * (IZR (fst (u r)) / 100).
  Lemma gap_bound rows : Rabs (sum (map (fun r => wave_at (l r) (th r t)) rows) - - dsum rows) <= sum (map (fun r => Rabs (gap1 r) + Rabs (gap2 r)) rows).
  Proof.
    replace (sum (map (fun r => wave_at (l r) (th r t)) rows) - - dsum rows) with (sum (map (fun r => gap1 r * sin (th r t) + gap2 r * cos (th r t)) rows)).
    - eapply Rle_trans; [apply sum_abs|]. apply sum_le. intros r _. eapply Rle_trans; [apply Rabs_triang|]. rewrite !Rabs_mult.
      pose proof (SIN_bound (th r t)). pose proof (COS_bound (th r t)). pose proof (Rabs_pos (gap1 r)). pose proof (Rabs_pos (gap2 r)).
      assert (Rabs (sin (th r t)) <= 1) by (apply Rabs_le; lra). assert (Rabs (cos (th r t)) <= 1) by (apply Rabs_le; lra). nra.
    - transitivity (sum (map (fun r => wave_at (l r) (th r t)) rows) + dsum rows); [|ring]. unfold dsum. rewrite sum_plus. apply sum_ext. intros r _. unfold gap1, gap2, wave_at. ring.
  Qed.
End Waves.

(** ** rates as integers, 10^-12 radians per day: value and uncertainty *)
Definition rate_list (r : rates) : list R := [rg r; rl r; rlp r; rF r; rD r; rOm r].
Definition Wr : list (Z * Z) := [(6300388098948, 1000001); (228027143757, 10001); (17201970025, 10001); (230895719560, 10001); (212768710352, 10001); (-924217548, 10001)]%Z.
Lemma abs_between x e : Rabs x <= e -> - e <= x <= e.
Proof. unfold Rabs. destruct (Rcase_abs x); lra. Qed.
Lemma near_list r : near r -> Forall2 (fun x w => Rabs (x * 1000000000000 - IZR (fst w)) <= IZR (snd w)) (rate_list r) Wr.
Proof.
  intros (H1 & H2 & H3 & H4 & H5 & H6). unfold mean_rates in *. cbn [rl rlp rF rD rOm rg] in *. unfold arcsec in *. pose proof pi_bounds.
  apply abs_between in H1, H2, H3, H4, H5, H6. unfold rate_list, Wr. repeat (apply Forall2_cons; [cbn [fst snd]; apply Rabs_le; split; lra|]). apply Forall2_nil.
Qed.
Fixpoint lin (k : list Z) (x : list R) : R := match k, x with a :: k, b :: x => IZR a * b + lin k x | _, _ => 0 end.
Fixpoint linZ (k : list Z) (x : list Z) : Z := match k, x with a :: k, b :: x => (a * b + linZ k x)%Z | _, _ => 0%Z end.
Lemma lin_near k rs ws : Forall2 (fun x w => Rabs (x * 1000000000000 - IZR (fst w)) <= IZR (snd w)) rs ws ->
  Rabs (lin k rs * 1000000000000 - IZR (linZ k (map fst ws))) <= IZR (linZ (map Z.abs k) (map snd ws)).
Proof.
  intros H. revert k. induction H as [|x w rs ws Hx H IH]; intros [|a k]; cbn [lin linZ map]; try (rewrite Rmult_0_l, Rminus_0_r, Rabs_R0; lra).
  rewrite !plus_IZR, !mult_IZR, abs_IZR.
  replace ((IZR a * x + lin k rs) * 1000000000000 - (IZR a * IZR (fst w) + IZR (linZ k (map fst ws))))
    with (IZR a * (x * 1000000000000 - IZR (fst w)) + (lin k rs * 1000000000000 - IZR (linZ k (map fst ws)))) by ring.
  eapply Rle_trans; [apply Rabs_triang|]. apply Rplus_le_compat; [|apply IH]. rewrite Rabs_mult. apply Rmult_le_compat_l; [apply Rabs_pos|exact Hx].
Qed.
(** bounds of the two amplitudes of a wave, 10^-14 *)
Definition e1 (w e : Z) (u l : Z * Z) : Z := (Z.abs (fst l * 1000000000000 - w * snd u) + e * Z.abs (snd u))%Z.
Definition e2 (w e : Z) (u l : Z * Z) : Z := (Z.abs (snd l * 1000000000000 + w * fst u) + e * Z.abs (fst u))%Z.
Lemma e_ok x w e (u l : Z * Z) : Rabs (x * 1000000000000 - IZR w) <= IZR e ->
  Rabs (IZR (fst l) / 100 - x * (IZR (snd u) / 100)) <= IZR (e1 w e u l) / 100000000000000 /\ Rabs (IZR (snd l) / 100 + x * (IZR (fst u) / 100)) <= IZR (e2 w e u l) / 100000000000000.
Proof.
  intros H. unfold e1, e2. rewrite !plus_IZR, !mult_IZR, !abs_IZR, minus_IZR, plus_IZR, !mult_IZR. destruct u as (a & b), l as (c & d). cbn [fst snd].
  split.
  - replace (IZR c / 100 - x * (IZR b / 100)) with ((IZR c * 1000000000000 - IZR w * IZR b - (x * 1000000000000 - IZR w) * IZR b) / 100000000000000) by field.
    unfold Rdiv. rewrite Rabs_mult, (Rabs_right (/ _)) by lra. apply Rmult_le_compat_r; [lra|]. unfold Rminus at 1. eapply Rle_trans; [apply Rabs_triang|].
    apply Rplus_le_compat; [lra|]. rewrite Rabs_Ropp, Rabs_mult. apply Rmult_le_compat_r; [apply Rabs_pos|exact H].
  - replace (IZR d / 100 + x * (IZR a / 100)) with ((IZR d * 1000000000000 + IZR w * IZR a + (x * 1000000000000 - IZR w) * IZR a) / 100000000000000) by field.
    unfold Rdiv. rewrite Rabs_mult, (Rabs_right (/ _)) by lra. apply Rmult_le_compat_r; [lra|]. eapply Rle_trans; [apply Rabs_triang|].
    apply Rplus_le_compat; [lra|]. rewrite Rabs_mult. apply Rmult_le_compat_r; [apply Rabs_pos|exact H].
Qed.
Definition appr (k : list Z) : Z * Z := (linZ k (map fst Wr), linZ (map Z.abs k) (map snd Wr)).
Lemma appr_ok r k : near r -> Rabs (lin k (rate_list r) * 1000000000000 - IZR (fst (appr k))) <= IZR (snd (appr k)).
Proof. intros H. apply lin_near, near_list, H. Qed.
Definition zsumZ (l : list Z) : Z := fold_right Z.add 0%Z l.
Lemma zsumZ_IZR {A} (f : A -> Z) l : sum (map (fun x => IZR (f x) / 100000000000000) l) = IZR (zsumZ (map f l)) / 100000000000000.
Proof. induction l as [|x l IH]; cbn [map]; [unfold sum, zsumZ; cbn; lra|]. rewrite sum_cons, IH. change (zsumZ (f x :: map f l)) with (f x + zsumZ (map f l))%Z. rewrite plus_IZR. field. Qed.
Section Bound.
  Context {A : Type} (k : A -> list Z) (u l : A -> Z * Z).
  Definition err (x : A) : Z := let '(w, e) := appr (k x) in (e1 w e (u x) (l x) + e2 w e (u x) (l x))%Z.
  Lemma total_bound r rows : near r ->
    sum (map (fun x => Rabs (gap1 (fun y => lin (k y) (rate_list r)) u l x) + Rabs (gap2 (fun y => lin (k y) (rate_list r)) u l x)) rows) <= IZR (zsumZ (map err rows)) / 100000000000000.
  Proof.
    intros H. rewrite <- zsumZ_IZR. apply sum_le. intros x _. unfold gap1, gap2, err. pose proof (appr_ok r (k x) H) as E. destruct (appr (k x)) as (w & e). cbn [fst snd] in E.
    destruct (e_ok _ w e (u x) (l x) E) as [E1 E2]. rewrite plus_IZR. lra.
  Qed.
  (** every wave, up to [tol] in 10^-14 *)
  Definition fits (tol : Z) (x : A) : bool := let '(w, e) := appr (k x) in ((e1 w e (u x) (l x) <=? tol) && (e2 w e (u x) (l x) <=? tol))%Z.
  Lemma fits_ok tol r x : near r -> fits tol x = true -> row_within (lin (k x) (rate_list r)) (u x) (l x) (IZR tol / 100000000000000).
  Proof.
    intros H. unfold fits, row_within. pose proof (appr_ok r (k x) H) as E. destruct (appr (k x)) as (w & e). cbn [fst snd] in E.
    intros B. apply andb_prop in B. destruct B as [B1 B2]. apply Z.leb_le in B1, B2. apply IZR_le in B1, B2. destruct (e_ok _ w e (u x) (l x) E) as [E1 E2]. split; lra.
  Qed.
End Bound.
Definition mult (n : doodson) : list Z := [n0 n; - nl n; - nlp n; - nF n; - nD n; - nOm n]%Z.
Lemma wave_rate_lin n r : wave_rate n r = lin (mult n) (rate_list r).
Proof. unfold wave_rate, mult, rate_list. cbn [lin]. rewrite !opp_IZR. ring. Qed.
Definition zmult (n : list Z) : list Z := [0; nth 0 n 0; nth 1 n 0; nth 2 n 0; nth 3 n 0; nth 4 n 0]%Z.
Lemma zonal_rate_lin n r : zonal_rate n r = lin (zmult n) (rate_list r).
Proof. unfold zonal_rate, zmult, rate_list. cbn [lin]. ring. Qed.
Lemma d_phase F g t r n : moving F g t r -> derivable_pt_lim (fun s => iers_argument n (F s) (g s)) t (wave_rate n r).
Proof.
  intros (H1 & H2 & H3 & H4 & H5 & H6).
  pose proof (d_sum _ _ t _ _ (d_prod _ _ t _ _ (d_const (IZR (n0 n)) t) (d_sum _ _ t _ _ H6 (d_const PI t)))
    (d_prod _ _ t _ _ (d_const (-1) t) (d_sum _ _ t _ _ (d_sum _ _ t _ _ (d_sum _ _ t _ _ (d_sum _ _ t _ _
      (d_prod _ _ t _ _ (d_const (IZR (nl n)) t) H1) (d_prod _ _ t _ _ (d_const (IZR (nlp n)) t) H2)) (d_prod _ _ t _ _ (d_const (IZR (nF n)) t) H3))
      (d_prod _ _ t _ _ (d_const (IZR (nD n)) t) H4)) (d_prod _ _ t _ _ (d_const (IZR (nOm n)) t) H5)))) as D.
  eapply d_ext; [| |exact D]; [intros y; unfold iers_argument; cbn beta; ring|unfold wave_rate; ring].
Qed.
Lemma d_zphase F g t r n : moving F g t r -> derivable_pt_lim (fun s => zonal_argument n (F s)) t (zonal_rate n r).
Proof.
  intros (H1 & H2 & H3 & H4 & H5 & _).
  pose proof (d_sum _ _ t _ _ (d_sum _ _ t _ _ (d_sum _ _ t _ _ (d_sum _ _ t _ _
      (d_prod _ _ t _ _ (d_const (IZR (nth 0 n 0%Z)) t) H1) (d_prod _ _ t _ _ (d_const (IZR (nth 1 n 0%Z)) t) H2)) (d_prod _ _ t _ _ (d_const (IZR (nth 2 n 0%Z)) t) H3))
      (d_prod _ _ t _ _ (d_const (IZR (nth 3 n 0%Z)) t) H4)) (d_prod _ _ t _ _ (d_const (IZR (nth 4 n 0%Z)) t) H5)) as D.
  eapply d_ext; [| |exact D]; [intros y; reflexivity|unfold zonal_rate; ring].
Qed.

(** ** length of day and UT1 *)
Lemma deop_rate tab F g t r tol : moving F g t r -> near r -> (zsumZ (map (err (fun w => mult (dn w)) au al) tab) <=? tol)%Z = true ->
  rate_within (fun s => dut1 (deop tab (F s) (g s))) (dlod (deop tab (F t) (g t))) t (IZR tol / 100000000000000).
Proof.
  intros M N B. apply Z.leb_le, IZR_le in B. rewrite deop_eq. cbn [dlod].
  exists (dsum (fun w s => iers_argument (dn w) (F s) (g s)) (fun w => lin (mult (dn w)) (rate_list r)) au t tab). split.
  - eapply d_ext; [| reflexivity |apply usum_deriv; intros w _; rewrite <- wave_rate_lin; apply d_phase; exact M].
    intros y. rewrite deop_eq. reflexivity.
  - unfold waves. eapply Rle_trans; [apply (gap_bound (fun w s => iers_argument (dn w) (F s) (g s)) (fun w => lin (mult (dn w)) (rate_list r)) au al t tab)|].
    eapply Rle_trans; [apply total_bound; exact N|]. lra.
Qed.
Lemma libration_rate F g t r : moving F g t r -> near r -> rate_within (fun s => dut1 (deop_libration (F s) (g s))) (dlod (deop_libration (F t) (g t))) t 0.9.
Proof.
  intros M N. replace 0.9 with (IZR 90000000000000 / 100000000000000) by lra. apply (deop_rate Table5NoLongTides F g t r 90000000000000 M N). vm_compute. reflexivity.
Qed.
Lemma ocean_rate F g t r : moving F g t r -> near r -> rate_within (fun s => dut1 (deop_ocean_tide (F s) (g s))) (dlod (deop_ocean_tide (F t) (g t))) t 6.1.
Proof.
  intros M N. replace 6.1 with (IZR 610000000000000 / 100000000000000) by lra. apply (deop_rate Table8 F g t r 610000000000000 M N). vm_compute. reflexivity.
Qed.
(** Table 8.1: microseconds; UT1 in 10^-3, length of day in 10^-3 *)
Definition zu10 (w : zwave) : Z * Z := ((10 * dut1B w)%Z, (10 * dut1C w)%Z).
Lemma zsum_u t F : zsum zu t F * 1e2 = / 10 * sum (map (fun w => wave_at (zu10 w) (zonal_argument (zlist w) F)) t).
Proof.
  unfold zsum. rewrite Rmult_comm, <- !sum_scale. apply sum_ext. intros w _. unfold zterm, zu, zu10, wave_at. cbn [fst snd]. rewrite !mult_IZR. field.
Qed.
Lemma zsum_l t F : zsum zl t F * 1e1 = / 10 * sum (map (fun w => wave_at (zl w) (zonal_argument (zlist w) F)) t).
Proof. unfold zsum. rewrite Rmult_comm, <- !sum_scale. apply sum_ext. intros w _. unfold zterm, zl, wave_at. cbn [fst snd]. field. Qed.
Lemma zonal_rate_ok F g t r : moving F g t r -> near r -> rate_within (fun s => zut1 (deop_zonal_tide (F s))) (zlod (deop_zonal_tide (F t))) t 0.06.
Proof.
  intros M N. rewrite zonal_sums. cbn [zlod]. rewrite zsum_l.
  exists (/ 10 * dsum (fun w s => zonal_argument (zlist w) (F s)) (fun w => lin (zmult (zlist w)) (rate_list r)) zu10 t Table81). split.
  - eapply d_ext; [| |apply d_prod; [apply (d_const (/ 10))|apply (usum_deriv (fun w s => zonal_argument (zlist w) (F s)) (fun w => lin (zmult (zlist w)) (rate_list r)) zu10 t Table81); intros w _; rewrite <- zonal_rate_lin; apply (d_zphase F g); exact M]].
    + intros y. cbn beta. rewrite zonal_sums. cbn [zut1]. rewrite zsum_u. reflexivity.
    + cbn beta. ring.
  - match goal with |- Rabs (/ 10 * ?a - - (/ 10 * ?b)) <= _ => replace (/ 10 * a - - (/ 10 * b)) with (/ 10 * (a - - b)) by ring end.
    rewrite Rabs_mult, (Rabs_right (/ 10)) by lra.
    pose proof (gap_bound (fun w s => zonal_argument (zlist w) (F s)) (fun w => lin (zmult (zlist w)) (rate_list r)) zu10 zl t Table81) as G.
    pose proof (total_bound (fun w => zmult (zlist w)) zu10 zl r Table81 N) as T.
    assert (B : IZR (zsumZ (map (err (fun w => zmult (zlist w)) zu10 zl) Table81)) <= IZR 60000000000000) by (apply IZR_le, Z.leb_le; vm_compute; reflexivity).
    assert (K : forall x y z : R, x <= y -> y <= z / 100000000000000 -> z <= 60000000000000 -> / 10 * x <= 0.06) by (intros; lra).
    exact (K _ _ _ G T B).
Qed.
