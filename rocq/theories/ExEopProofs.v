From Coq Require Import Reals ZArith List Bool Lia Lra.
From Verif Require Import Base Angles Poly PiBound DoodsonModel DoodsonArgModel DoodsonArgSpec FundModel FundSpec FundProofs SolidSpec EopModel EopSpec EopProofs EopProps EtvModel EtvSpec EtvProofs EtvProofs2 EtvProps ExEopModel ExEopSpec.
Import ListNotations.
Open Scope R_scope.

Notation recE := (rec epoch).
Lemma earlier_ok : epochs earlier mjd.
Proof. intros a b. unfold earlier. destruct (Rlt_dec (mjd a) (mjd b)); split; intros; auto; try discriminate; contradiction. Qed.
Lemma add_seconds_mjd t s : mjd (add_seconds t s) = mjd t + s / 86400.
Proof. unfold add_seconds, mjd. cbn [mday mfrac]. rewrite plus_IZR. lra. Qed.
Lemma zonal_at_ok t : zonal_at t = zonal_of t.
Proof. reflexivity. Qed.

(** ** regularised series *)
Definition off (x : recE) : recE := let (u, l) := zonal_at (rt epoch x) in
  mkR epoch (rt epoch x) (xp epoch x) (yp epoch x) (dut epoch x + u * - (1 / 1000000)) (lod epoch x + l * - (1 / 1000000)) (dX epoch x) (dY epoch x) (rdat epoch x) (xrt epoch x) (yrt epoch x).
Lemma reg_map s : mvec epoch (regularize epoch zonal_at s) = map off (mvec epoch s).
Proof. reflexivity. Qed.
Lemma off_ok x : without_zonal x (off x).
Proof. unfold off, without_zonal. rewrite zonal_at_ok, zonal_of_ok. cbn [rt xp yp dut lod rdat]. refine (conj eq_refl (conj eq_refl (conj eq_refl (conj eq_refl (conj _ _))))); lra. Qed.
Lemma off_rt x : rt epoch (off x) = rt epoch x.
Proof. exact (proj1 (off_ok x)). Qed.
Lemma off_sorted l : sorted mjd l -> sorted mjd (map off l).
Proof.
  induction l as [|x l IH]; cbn [map sorted]; [auto|]. intros (A & B). split; [|exact (IH B)]. rewrite off_rt. apply Forall_map. eapply Forall_impl; [|exact A]. intros q H. cbn beta. rewrite off_rt. exact H.
Qed.
Lemma reg_ready s : ready s -> ready (regularize epoch zonal_at s).
Proof. intros (k & A & B). exists k. split; [exact A|]. rewrite reg_map, map_length. exact B. Qed.

Section Run.
  Variable leap : epoch -> R.
  Variable tt2ut1 : epoch -> R -> epoch.
  Notation interp := (interpolate epoch earlier mjd leap).
  Notation approx := (approx_dut1 epoch earlier mjd leap).
  Notation bodyE := (body leap tt2ut1).
  Notation loopE := (loop leap tt2ut1).

  Lemma approx_ok s t b p q a : sorted mjd (mvec epoch s) -> ready s -> cut mjd (mvec epoch s) t (b ++ [p]) (q :: a) ->
    exists r s', approx s t = Ok (Linear, r, s') /\ interpolates mjd [p; q] (fun r => dut epoch r - rdat epoch r) (mjd t) (r - leap t) /\ mvec epoch s' = mvec epoch s /\ ready s'.
  Proof.
    intros S Rd C. pose proof (hunt_upper earlier mjd earlier_ok s t S Rd) as HT. rewrite (cut_upper earlier mjd earlier_ok _ _ _ _ C) in HT. destruct C as (E & _ & _).
    assert (L : approx s t = Ok (Linear, linear epoch mjd p q t (fun r => dut epoch r - rdat epoch r) + leap t, mkSer epoch (mvec epoch s) (Some (length (b ++ [p]))))).
    { unfold approx_dut1. rewrite HT. cbn [bind]. rewrite E, !app_length. cbn [length]. destruct (Nat.eqb_spec (length b + 1) 0); [lia|]. destruct (Nat.eqb_spec (length b + 1) (length b + 1 + Datatypes.S (length a))); [lia|].
      assert (Xp : nth_error ((b ++ [p]) ++ q :: a) (length b + 1 - 1) = Some p). { rewrite <- app_assoc, nth_error_app2 by lia. replace (length b + 1 - 1 - length b)%nat with O by lia. reflexivity. }
      assert (Xq : nth_error ((b ++ [p]) ++ q :: a) (length b + 1) = Some q). { rewrite nth_error_app2 by (rewrite app_length; cbn; lia). rewrite app_length. cbn [length]. replace (length b + 1 - (length b + 1))%nat with O by lia. reflexivity. }
      rewrite Xp, Xq. reflexivity. }
    assert (SN : sorted mjd [p; q]). { rewrite E in S. pose proof (nearest_sorted mjd (b ++ [p]) (q :: a) 1 S ltac:(rewrite app_length; cbn; lia) ltac:(cbn; lia)) as X. unfold nearest in X. rewrite app_length in X. cbn [length firstn] in X. replace (length b + 1 - 1)%nat with (length b) in X by lia. rewrite skipn_app, skipn_all, Nat.sub_diag in X. exact X. }
    eexists _, _. split; [exact L|]. split; [replace (linear epoch mjd p q t (fun r => dut epoch r - rdat epoch r) + leap t - leap t) with (linear epoch mjd p q t (fun r => dut epoch r - rdat epoch r)) by (generalize (linear epoch mjd p q t (fun r => dut epoch r - rdat epoch r)); intros; lra); apply linear_interpolates; exact SN|].
    split; [reflexivity|]. exists (length (b ++ [p])). split; [reflexivity|]. cbn [mvec]. rewrite E, !app_length. lia.
  Qed.

  Notation line_ok := (printed leap tt2ut1).
  Lemma fargs_ok t : fargs t = from_array (fundarg_mjd t).
  Proof. reflexivity. Qed.
  Lemma lib_ok t ut F g : same_angles (fargs t) F -> eqm (gmst t ut) g -> deop_libration (fargs t) (gmst t ut) =
    mkEop (series (fun a => a) libration_pole F g) (series behind libration_pole F g) (series fst libration_ut1 F g) (series snd libration_ut1 F g).
  Proof. generalize (fargs t) (gmst t ut). intros G h A B. rewrite <- c65_libration. exact (proj1 (c65_periodic G F h g A B)). Qed.
  Lemma oc_ok t ut F g : same_angles (fargs t) F -> eqm (gmst t ut) g -> deop_ocean_tide (fargs t) (gmst t ut) =
    mkEop (series px ocean F g) (series py ocean F g) (series pu ocean F g) (series pl ocean F g).
  Proof. generalize (fargs t) (gmst t ut). intros G h A B. rewrite <- c65_ocean. exact (proj1 (proj2 (c65_periodic G F h g A B))). Qed.
  Lemma scale2 a b c : a + b * 1e-6 + c * 1e-6 = a + (b + c) * 1e-6.
  Proof. lra. Qed.
  Lemma body_ok s t e b p q a : sorted mjd (mvec epoch s) -> ready s -> cut mjd (mvec epoch s) t (b ++ [p]) (q :: a) ->
    exists l s', bodyE s t e = Ok (Some (l, s')) /\ line_ok (mvec epoch s) t l /\ mvec epoch s' = mvec epoch s /\ ready s'.
  Proof.
    intros S Rd C. destruct (c14_inside epoch earlier mjd leap earlier_ok s t e 5 (b ++ [p]) (q :: a) S Rd ltac:(lia) C ltac:(destruct b; discriminate) ltac:(discriminate)) as (r & s1 & H). cbv zeta in H. destruct H as (E1 & I1 & T1 & _ & _ & _ & M1 & R1).
    assert (C1 : cut mjd (mvec epoch s1) t (b ++ [p]) (q :: a)) by (rewrite M1; exact C). destruct (approx_ok s1 t b p q a ltac:(rewrite M1; exact S) R1 C1) as (u & s2 & E2 & I2 & M2 & R2).
    unfold body. rewrite E1. cbn [bind]. match goal with |- context [out_of_bounds ?x] => assert (O : out_of_bounds x = false) by (destruct (Nat.eqb _ 1); [reflexivity|]; destruct (_ =? _)%Z; reflexivity) end. rewrite O, E2. cbn [bind].
    eexists _, s2. split; [reflexivity|]. split; [|split; [rewrite M2; exact M1|exact R2]].
    exists b, p, q, a, u. split; [exact C|]. cbn [raw cor]. split; [exact I1|]. split; [exact I2|]. split; [exact T1|]. unfold add_variation. cbn [rt xp yp dut lod]. split; [exact T1|]. cbv zeta.
    assert (SA : same_angles (fargs t) (arguments_at (julian_date (mjd t)))) by (rewrite fargs_ok; apply fundarg_same). pose proof (gmst_eqm t (tt2ut1 t u)) as GE.
    rewrite (lib_ok _ _ _ _ SA GE), (oc_ok _ _ _ _ SA GE). generalize (arguments_at (julian_date (mjd t))) (sidereal_time (julian_date (mjd t)) (julian_date (mjd (tt2ut1 t u)))). intros F g. cbn [dxp dyp dut1 dlod]. unfold short_x, short_y, short_ut1, short_lod.
    repeat match goal with |- context [series ?f ?t ?F ?g] => generalize (series f t F g); intros ? end. rewrite !scale2. exact (conj eq_refl (conj eq_refl (conj eq_refl eq_refl))).
  Qed.

  Lemma cut_in tab x l y t : sorted mjd tab -> tab = x :: l -> nth_error tab (length tab - 1) = Some y -> mjd (rt epoch x) <= mjd t < mjd (rt epoch y) ->
    exists b p q a, cut mjd tab t (b ++ [p]) (q :: a).
  Proof.
    intros S E N H. destruct (cut_exists mjd tab t S) as (b & a & C). destruct b as [|b0 b] using rev_ind; [|clear IHb].
    - destruct C as (E' & _ & A). cbn in E'. subst a. rewrite E in A. inversion A; subst. lra.
    - destruct a as [|q a].
      + destruct C as (E' & B & _). rewrite app_nil_r in E'. rewrite <- E' in B. apply nth_error_In in N. rewrite Forall_forall in B. specialize (B y N). cbn beta in B. lra.
      + exists b, b0, q, a. exact C.
  Qed.

  Lemma last_ok s y : nth_error (mvec epoch s) (length (mvec epoch s) - 1) = Some y -> last_epoch s = Ok (rt epoch y).
  Proof. intros H. unfold last_epoch. rewrite H. reflexivity. Qed.
  Lemma loop_ok tab x l0 y : sorted mjd tab -> tab = x :: l0 -> nth_error tab (length tab - 1) = Some y -> forall n s t e,
    mvec epoch s = tab -> ready s -> mjd (rt epoch x) <= mjd t -> epochs_between (mjd t) (mjd (rt epoch y)) n ->
    exists out, (forall fuel, (n <= fuel)%nat -> loopE fuel s t e = Ok (Exit 0, out)) /\ (forall fuel, (fuel < n)%nat -> exists o, loopE fuel s t e = Ok (Running, o)) /\ length out = n /\
      (forall k l, nth_error out k = Some l -> exists tk, mjd tk = mjd t + INR k * half_minute /\ line_ok tab tk l) /\
      (forall l, nth_error out 0 = Some l -> line_ok tab t l).
  Proof.
    intros S E N. induction n as [|n IH]; intros s t e M Rd B (Hi & Lo).
    - exists []. split.
      + intros fuel _. assert (X : earlier t (rt epoch y) = false). { unfold earlier. destruct (Rlt_dec _ _); [|reflexivity]. cbn in Hi. lra. }
        destruct fuel; cbn [loop]; rewrite (last_ok s y) by (rewrite M; exact N); cbn [bind]; rewrite X; reflexivity.
      + split; [intros fuel F; lia|]. split; [reflexivity|]. split; [intros k l H; destruct k; discriminate|intros l H; discriminate].
    - destruct Lo as [Lo|Lo]; [discriminate|]. rewrite S_INR in Hi, Lo. unfold half_minute in Hi, Lo. pose proof (pos_INR n) as P.
      assert (X : earlier t (rt epoch y) = true). { apply earlier_ok. nra. }
      assert (X' : mjd t < mjd (rt epoch y)) by (apply earlier_ok; exact X).
      destruct (cut_in tab x l0 y t S E N ltac:(lra)) as (b & p & q & a & C). destruct (body_ok s t e b p q a ltac:(rewrite M; exact S) Rd ltac:(rewrite M; exact C)) as (l & s' & EB & LO & M' & R'). rewrite M in LO.
      assert (T30 : mjd (add_seconds t 30) = mjd t + half_minute) by (rewrite add_seconds_mjd; reflexivity).
      destruct (IH s' (add_seconds t 30) (cor l)) as (out & O1 & O1' & O2 & O3 & _).
      { rewrite M'. exact M. } { exact R'. } { rewrite T30. unfold half_minute. lra. } { rewrite T30. unfold epochs_between, half_minute. split; [lra|]. destruct n; [left; reflexivity|right]. lra. }
      exists (l :: out). split; [|split; [|split; [|split]]].
      + intros fuel F. destruct fuel as [|fuel]; [lia|]. cbn [loop]. rewrite (last_ok s y) by (rewrite M; exact N). cbn [bind]. rewrite X, EB. cbn [bind]. rewrite O1 by lia. reflexivity.
      + intros fuel F. destruct fuel as [|fuel]; cbn [loop]; rewrite (last_ok s y) by (rewrite M; exact N); cbn [bind]; rewrite X; [eexists; reflexivity|]. rewrite EB. cbn [bind]. destruct (O1' fuel ltac:(lia)) as (o & ->). eexists. reflexivity.
      + cbn [length]. rewrite O2. reflexivity.
      + intros k l' H. destruct k as [|k]; cbn [nth_error] in H.
        * injection H as <-. exists t. split; [cbn; lra|exact LO].
        * destruct (O3 k l' H) as (tk & Ek & Lk). exists tk. split; [|exact Lk]. rewrite Ek, T30, S_INR. lra.
      + intros l' H. injection H as <-. exact LO.
  Qed.

  Lemma count_exists a b : exists n, epochs_between a b n.
  Proof.
    unfold epochs_between, half_minute. destruct (Rle_dec b a) as [H|H]; [exists O; split; [cbn; lra|left; reflexivity]|].
    assert (P : 0 < (b - a) * 2880) by lra. destruct (archimed ((b - a) * 2880)) as (A1 & A2). set (z := up ((b - a) * 2880)) in *.
    assert (Z0 : (0 < z)%Z) by (apply lt_IZR; lra).
    destruct (Rle_dec (IZR z - 1) ((b - a) * 2880 - 1 + 1)) as [_|X]; [|lra].
    destruct (Req_dec (IZR z - 1) ((b - a) * 2880)) as [Q|Q].
    - exists (Z.to_nat (z - 1)). rewrite INR_IZR_INZ, Z2Nat.id, minus_IZR by lia. split; [lra|right; lra].
    - exists (Z.to_nat z). rewrite INR_IZR_INZ, Z2Nat.id by lia. split; [lra|right; lra].
  Qed.

  Lemma main_ok s x l0 y e : sorted mjd (mvec epoch s) -> ready s -> length (mvec epoch s) = 9%nat -> mvec epoch s = x :: l0 -> nth_error (mvec epoch s) 8 = Some y ->
    exists out, epochs_between (mjd (rt epoch x)) (mjd (rt epoch y)) (length out) /\
      (forall fuel, (length out <= fuel)%nat -> main leap tt2ut1 fuel (Some s) e = Ok (Exit 0, out)) /\
      (forall fuel, (fuel < length out)%nat -> exists o, main leap tt2ut1 fuel (Some s) e = Ok (Running, o)) /\
      (forall k l, nth_error out k = Some l -> exists tk, mjd tk = mjd (rt epoch x) + INR k * half_minute /\ line_ok (map off (mvec epoch s)) tk l) /\
      (forall l, nth_error out 0 = Some l -> line_ok (map off (mvec epoch s)) (rt epoch x) l).
  Proof.
    intros S Rd L E N. destruct (count_exists (mjd (rt epoch x)) (mjd (rt epoch y))) as (n & Hn).
    assert (N' : nth_error (map off (mvec epoch s)) (length (map off (mvec epoch s)) - 1) = Some (off y)). { rewrite map_length, L. apply map_nth_error. exact N. }
    destruct (loop_ok (map off (mvec epoch s)) (off x) (map off l0) (off y) (off_sorted _ S) ltac:(rewrite E; reflexivity) N' n (regularize epoch zonal_at s) (rt epoch x) e (reg_map s) (reg_ready s Rd)) as (out & O1 & O1' & O2 & O3 & O4).
    { rewrite off_rt. lra. } { rewrite off_rt. exact Hn. }
    assert (F : forall fuel, main leap tt2ut1 fuel (Some s) e = loopE fuel (regularize epoch zonal_at s) (rt epoch x) e).
    { intros fuel. unfold main. rewrite L. cbn [Nat.eqb negb]. unfold first_epoch. rewrite reg_map, E. cbn [map bind]. rewrite off_rt. reflexivity. }
    exists out. rewrite O2. split; [exact Hn|]. split; [intros fuel Hf; rewrite F; apply O1; exact Hf|]. split; [intros fuel Hf; rewrite F; apply O1'; exact Hf|]. split; [exact O3|exact O4].
  Qed.

  (** at a tabulated epoch *)
  Lemma usable_pos b (p q : recE) a : (1 <= usable (b ++ [p]) (q :: a) 5)%nat.
  Proof. unfold usable. rewrite app_length. change (Z.to_nat ((5 + 1) / 2)) with 3%nat. cbn [length]. lia. Qed.
  Lemma in_nearest b (p q : recE) a : In p (nearest (b ++ [p]) (q :: a) (usable (b ++ [p]) (q :: a) 5)).
  Proof.
    pose proof (usable_pos b p q a) as U. set (n := usable (b ++ [p]) (q :: a) 5) in *. unfold nearest. apply in_or_app. left. rewrite app_length. cbn [length]. rewrite skipn_app.
    apply in_or_app. right. replace (length b + 1 - n - length b)%nat with O by lia. left. reflexivity.
  Qed.
  Lemma node_value nodes (v : recE -> R) r t y : interpolates mjd nodes v (mjd t) y -> In r nodes -> mjd (rt epoch r) = mjd t -> y = v r.
  Proof. intros ((f & P & Q) & U) I H. rewrite (U f P Q), <- H. apply Q, I. Qed.
  Lemma cut_last tab t b (p q : recE) a r : sorted mjd tab -> cut mjd tab t (b ++ [p]) (q :: a) -> In r tab -> mjd (rt epoch r) = mjd t -> r = p.
  Proof.
    intros S (E & B & A) I H. rewrite E in I, S. apply in_app_or in I. destruct I as [I|I].
    - apply in_app_or in I. destruct I as [I|[I|[]]]; [|symmetry; exact I]. exfalso. rewrite sorted_app in S. destruct S as (S & _ & _). rewrite sorted_app in S. destruct S as (_ & _ & S).
      rewrite Forall_forall in S. specialize (S r I). inversion S; subst. apply Forall_app in B. destruct B as (_ & B). inversion B; subst. lra.
    - exfalso. rewrite Forall_forall in A. specialize (A r I). cbn beta in A. lra.
  Qed.
  Lemma forall2_in {A B} (P : A -> B -> Prop) l m x : Forall2 P l m -> In x l -> exists y, In y m /\ P x y.
  Proof. induction 1 as [|? ? ? ? ? ? IHForall2]; [intros []|]. intros [<-|I]; [eexists; split; [left; reflexivity|assumption]|]. destruct (IHForall2 I) as (y' & I' & Q). exists y'. split; [right; exact I'|exact Q]. Qed.
  Lemma tab_sorted l tab : Forall2 without_zonal l tab -> sorted mjd l -> sorted mjd tab.
  Proof.
    induction 1 as [|x y l tab W F IH]; cbn [sorted]; [auto|]. intros (A & B). split; [|exact (IH B)]. destruct W as (-> & _). clear - A F. induction F as [|a b l tab W F IH]; constructor; inversion A; subst.
    - destruct W as (-> & _). assumption.
    - apply IH. assumption.
  Qed.
  Lemma node_any l0 tab x t l : sorted mjd l0 -> Forall2 without_zonal l0 tab -> line_ok tab t l -> In x l0 -> mjd (rt epoch x) = mjd t -> exists u,
    let F := arguments_at (julian_date (mjd t)) in let g := sidereal_time (julian_date (mjd t)) (julian_date (mjd (tt2ut1 t u))) in
    u = dut epoch x - rdat epoch x + leap t - zonal_ut1 F * 1e-6 /\
    xp epoch (cor l) = xp epoch x + short_x F g /\ yp epoch (cor l) = yp epoch x + short_y F g /\
    dut epoch (cor l) = dut epoch x - rdat epoch x + leap t + short_ut1 F g - zonal_ut1 F * 1e-6 /\
    lod epoch (cor l) = lod epoch x + short_lod F g - zonal_lod F * 1e-6.
  Proof.
    intros S W (b & p & q & a & u & C & I1 & I2 & T1 & T2 & X & Y & U & D) I H. exists u. cbv zeta in *.
    destruct (forall2_in _ _ _ x W I) as (x' & I' & (O1 & O2 & O3 & O4 & O5 & O6)).
    assert (P : x' = p) by (apply (cut_last tab t b p q a); [exact (tab_sorted _ _ W S)|exact C|exact I'|rewrite O1; exact H]). subst x'.
    assert (Hp : mjd (rt epoch p) = mjd t) by (rewrite O1; exact H). pose proof (in_nearest b p q a) as IN.
    destruct I1 as (Ix & Iy & Iu & Il & _ & _). apply (fun h => node_value _ _ p t _ h IN Hp) in Ix, Iy, Iu, Il. assert (IP : In p [p; q]) by (left; reflexivity). apply (fun h => node_value _ _ p t _ h IP Hp) in I2.
    cbn beta in Iu, I2. rewrite H in O5, O6.
    rewrite O5, O4 in Iu, I2. rewrite O2 in Ix. rewrite O3 in Iy. rewrite O6 in Il. rewrite X, Y, U, D, Ix, Iy, Il. clear - Iu I2.
    revert Iu I2. generalize (zonal_ut1 (arguments_at (julian_date (mjd t)))) (zonal_lod (arguments_at (julian_date (mjd t)))). intros zu zl Iu I2.
    repeat match goal with |- context [?f (arguments_at ?j) ?g] => generalize (f (arguments_at j) g); intros ? end. repeat split; lra.
  Qed.
  Lemma off_all l : Forall2 without_zonal l (map off l).
  Proof. induction l; constructor; [apply off_ok|assumption]. Qed.
End Run.

(** ** size of the zonal tides in the days of the program *)
Definition zmag (r : list Z * ((Z * Z) * (Z * Z) * (Z * Z))) : Z := let '(_, (u, _, _)) := r in (Z.abs (fst u) + Z.abs (snd u))%Z.
Definition zval (F : delaunay) (r : list Z * ((Z * Z) * (Z * Z) * (Z * Z))) : R :=
  let '(n, (u, _, _)) := r in 1e-4 * IZR (fst u) * sin (zonal_argument n F) + 1e-4 * IZR (snd u) * cos (zonal_argument n F).
Lemma prod_bound a s : -1 <= s <= 1 -> Rabs (1e-4 * IZR a * s) <= 1e-4 * IZR (Z.abs a).
Proof. intros H. apply Rabs_le in H. rewrite !Rabs_mult, abs_IZR, (Rabs_pos_eq 1e-4) by lra. pose proof (Rabs_pos (IZR a)) as P. generalize dependent (Rabs (IZR a)). generalize dependent (Rabs s). intros v V w W. assert (w * v <= w * 1) by (apply Rmult_le_compat_l; lra). lra. Qed.
Lemma zval_bound F r : Rabs (zval F r) <= 1e-4 * IZR (zmag r).
Proof.
  destruct r as (n & ((u & v) & w)). cbn [zval zmag]. rewrite plus_IZR. pose proof (prod_bound (fst u) _ (SIN_bound (zonal_argument n F))). pose proof (prod_bound (snd u) _ (COS_bound (zonal_argument n F))).
  eapply Rle_trans; [apply Rabs_triang|]. lra.
Qed.
Lemma zsum_bound F l : Rabs (sum (map (zval F) l)) <= 1e-4 * IZR (fold_right Z.add 0%Z (map zmag l)).
Proof.
  induction l as [|r l IH]; cbn [map fold_right]; [unfold sum; cbn [fold_right]; rewrite Rabs_R0; lra|]. rewrite plus_IZR. change (sum (zval F r :: map (zval F) l)) with (zval F r + sum (map (zval F) l)).
  pose proof (zval_bound F r). eapply Rle_trans; [apply Rabs_triang|]. lra.
Qed.
Lemma zonal_split : zonal = firstn 61 zonal ++ [([0; 0; 0; 0; 1]%Z, ((-16172681, 0), (-149471, 0), (126153, 0))%Z)].
Proof. reflexivity. Qed.
Lemma zmag_rest : (fold_right Z.add 0 (map zmag (firstn 61 zonal)) <= 1100000)%Z.
Proof. apply Z.leb_le. vm_compute. reflexivity. Qed.
Lemma zonal_node F : Rabs (zonal_ut1 F + 161726.81 * sin (eom F)) <= 11000.
Proof.
  unfold zonal_ut1. change (fun r : list Z * ((Z * Z) * (Z * Z) * (Z * Z)) => let '(n, (u, _, _)) := r in 1e-4 * IZR (fst u) * sin (zonal_argument n F) + 1e-4 * IZR (snd u) * cos (zonal_argument n F)) with (zval F).
  rewrite zonal_split, map_app. pose proof (zsum_bound F (firstn 61 zonal)) as B. pose proof (IZR_le _ _ zmag_rest) as M. revert B M. generalize (firstn 61 zonal). intros l B M.
  assert (E : sum (map (zval F) l ++ map (zval F) [([0; 0; 0; 0; 1]%Z, ((-16172681, 0), (-149471, 0), (126153, 0))%Z)]) = sum (map (zval F) l) + (1e-4 * -16172681 * sin (eom F))).
  { rewrite sum_app. f_equal. unfold sum, zval, zonal_argument. cbn [map fold_right nth fst snd]. replace (0 * el F + 0 * elp F + 0 * ef F + 0 * ed F + 1 * eom F) with (eom F) by ring. lra. }
  rewrite E. apply Rabs_le_inv in B. apply Rabs_le. set (v := sin (eom F)) in *. set (w := sum _) in *. lra.
Qed.
Lemma sin_32 y : 0.4 <= y <= 0.43 -> 0.32 <= sin y.
Proof.
  intros H. pose proof pi_bounds. destruct (MVT_cor2 sin cos 0 y) as (c & E & Hc); [lra|intros c _; apply derivable_pt_lim_sin|]. rewrite sin_0 in E.
  assert (C : 0.81 <= cos c). { destruct (MVT_cor2 cos (fun x => - sin x) 0 c) as (d & E' & Hd); [lra|intros d _; apply derivable_pt_lim_cos|]. rewrite cos_0 in E'. assert (S : sin d <= d). { destruct (MVT_cor2 sin cos 0 d) as (d' & E'' & Hd'); [lra|intros ? _; apply derivable_pt_lim_sin|]. rewrite sin_0 in E''. pose proof (COS_bound d'). nra. } nra. }
  nra.
Qed.
Lemma node_days t : 57750 <= t <= 57760 -> 0.32 <= sin (eom (arguments_at (julian_date t))).
Proof.
  intros H. unfold arguments_at, from_array. cbn [lunisolar map nth eom]. unfold arcsec. set (P := peval node (centuries (julian_date t))).
  assert (B : -734780 <= P <= -732700). { unfold P, node, peval, centuries, julian_date. cbn [fold_right]. unfold degrees. set (c := (t + 2400000.5 - 2451545.0) / 36525). assert (C : 0.1698 <= c <= 0.1702) by (unfold c; lra).
    assert (C' : 6205.5 / 36525 <= c <= 6215.5 / 36525) by (unfold c; lra). set (a := - 0.00005939 + c * 0). assert (A : -0.0001 <= a <= 0) by (unfold a; lra). set (a' := 0.007702 + c * a). assert (A' : 0 <= a' <= 0.008) by (unfold a'; nra). set (a'' := 7.4722 + c * a'). assert (A'' : 7 <= a'' <= 8) by (unfold a''; nra).
    set (w := - 6962890.5431 + c * a''). assert (W : -6962890 <= w <= -6962889) by (unfold w; nra). assert (L : 6962889 * c <= - (c * w) <= 6962890 * c) by nra.
    fold w. lra. }
  replace (P / 3600 / 360 * (2 * PI)) with (- (- (P / 648000 * PI))) by (field).
  assert (E : sin (- - (P / 648000 * PI)) = sin (- (P / 648000 + 1) * PI)).
  { rewrite Ropp_involutive. replace (- (P / 648000 + 1) * PI) with (- (P / 648000 * PI + PI)) by ring. rewrite sin_neg, neg_sin. lra. }
  rewrite E. apply sin_32. pose proof pi_bounds. set (z := - (P / 648000 + 1)). assert (Z : 0.1307 <= z <= 0.134) by (unfold z; lra). nra.
Qed.
Lemma zonal_days t : 57750 <= t <= 57760 -> zonal_ut1 (arguments_at (julian_date t)) <= -40000.
Proof. intros H. pose proof (zonal_node (arguments_at (julian_date t))) as B. pose proof (node_days t H). apply Rabs_le_inv in B. lra. Qed.
