(** C64: proofs, the whole displacement. *)
From Coq Require Import Reals ZArith List Bool Lia Lra Permutation.
From Verif Require Import Base DoodsonModel DoodsonArgModel FundModel FundSpec TideModel Angles RotModel SolidModel Vec SolidSpec SolidProofs SolidProofs2 SsdModel SsdSpec SsdProofs.
Import ListNotations.
Open Scope R_scope.

Lemma vplus_0 v : vplus v0 v = v.
Proof. destruct v. apply v3_eq; cbn; ring. Qed.
Lemma vplus_r0 v : vplus v v0 = v.
Proof. destruct v. apply v3_eq; cbn; ring. Qed.
Lemma vsum_app a b : vsum (a ++ b) = vplus (vsum a) (vsum b).
Proof. induction a as [|x a IH]; cbn [app vsum fold_right]; [symmetry; apply vplus_0|]. fold (vsum (a ++ b)). fold (vsum a). rewrite IH. apply vplus_assoc. Qed.
Lemma vsum_perm a b : Permutation a b -> vsum a = vsum b.
Proof.
  induction 1; cbn; [reflexivity| | |congruence]; fold (vsum l); [fold (vsum l'); rewrite IHPermutation; reflexivity|].
  rewrite !vplus_assoc, (vplus_comm x y). reflexivity.
Qed.
(** ** the loop *)
Definition pass (f : variables) (t : trigs) (tc : table7) : v3 := step2_pass f t v0 tc.
Lemma step2_pass_add f t d tc : step2_pass f t d tc = vplus d (pass f t tc).
Proof. unfold pass, step2_pass. cbv zeta. destruct (n0 (md tc) =? 1)%Z; apply v3_eq; cbn; ring. Qed.
Lemma fold_pass f t l : forall d, fold_left (step2_pass f t) l d = vplus d (vsum (map (pass f t) l)).
Proof.
  induction l as [|x l IH]; intros d; cbn [fold_left map vsum fold_right]; [symmetry; apply vplus_r0|]. fold (vsum (map (pass f t) l)). rewrite IH, step2_pass_add, vplus_assoc. reflexivity.
Qed.
(** the order of the lines does not matter *)
Definition line_eqb (a b : line) : bool := ((code a =? code b) && (rip a =? rip b) && (rop a =? rop b) && (tip a =? tip b) && (top a =? top b))%Z.
Lemma line_eqb_eq a b : line_eqb a b = true -> a = b.
Proof. destruct a, b. unfold line_eqb. cbn. rewrite !andb_true_iff, !Z.eqb_eq. intros ((((-> & ->) & ->) & ->) & ->). reflexivity. Qed.
Definition in_order_a : list line := [
  mkLine 125755 (-1) (-1) 0 0; mkLine 127555 (-1) (-1) 0 0; mkLine 135645 (-2) (-1) 0 0; q1_code; mkLine 137455 (-2) (-1) 0 0; mkLine 145545 (-10) 0 0 0; mkLine 145555 (-51) 0 (-2) 3;
  mkLine 147555 1 0 0 0; mkLine 153655 1 0 0 0; mkLine 155455 2 1 0 0; mkLine 155655 6 0 0 0; mkLine 155665 1 0 0 0; mkLine 157455 1 0 0 0; mkLine 162556 (-6) 0 0 0; mkLine 163565 1 0 0 0;
  mkLine 163555 (-123) (-7) 6 1; mkLine 164554 2 0 0 0; mkLine 164556 4 0 0 0; mkLine 165545 (-22) 1 1 0; mkLine 165555 1200 (-78) (-67) (-3); mkLine 165565 173 (-12) (-10) 0;
  mkLine 165575 (-4) 0 0 0; mkLine 166554 (-50) (-1) 3 0; mkLine 166556 1 0 0 0; mkLine 166564 (-1) 0 0 0; mkLine 167355 (-1) 0 0 0; mkLine 167555 (-11) 1 1 0;
  mkLine 173655 (-1) 0 0 0; mkLine 175455 (-2) 2 0 1; mkLine 185555 0 1 0 1; mkLine 185565 0 1 0 0]%Z.
Lemma tables_order : Tables7Extended = map row_of (in_order_a ++ table_73b).
Proof. reflexivity. Qed.
Lemma order_perm : Permutation in_order_a code_table.
Proof.
  apply NoDup_Permutation_bis.
  - apply (NoDup_map_inv code). cbn [map code in_order_a q1_code]. repeat (apply NoDup_cons; [cbn [In]; intros H; repeat (destruct H as [H|H]; [discriminate H|]); exact H|]). apply NoDup_nil.
  - cbn. lia.
  - intros x H. assert (T : forallb (fun x => existsb (line_eqb x) code_table) in_order_a = true) by (vm_compute; reflexivity).
    rewrite forallb_forall in T. specialize (T x H). apply existsb_exists in T. destruct T as (y & Hy & E). apply line_eqb_eq in E. rewrite E. exact Hy.
Qed.
Lemma unused_table : Tables7 = map row_of (table_73a ++ table_73b).
Proof. reflexivity. Qed.

Section One.
  Variables (F : delaunay) (tt ut1 : epoch) (v : v3).
  Let f := delaunay2doodson F (gmst tt ut1).
  Let th := phase F (julian_date (mjd tt)) (julian_date (mjd ut1)).
  Let p := to_place (cartesian2spherical v).
  Definition enu (d : v3) : v3 := local p (p1 d) (p2 d) (p3 d).
  Lemma enu_plus a b : enu (vplus a b) = vplus (enu a) (enu b).
  Proof. unfold enu. rewrite local_plus. reflexivity. Qed.
  Lemma enu_mul k a : enu (vmul k a) = vmul k (enu a).
  Proof. unfold enu. rewrite local_mul. reflexivity. Qed.
  Lemma enu_0 : enu v0 = v0.
  Proof. unfold enu. flat. apply v3_eq; cbn; ring. Qed.
  Lemma mm_amp x : 1e-3 * mm x = amp x.
  Proof. unfold mm, amp. lra. Qed.
  Lemma trig_shift d l : let a := argument d f in sin (anp (a + l)) = sin (th d + l) /\ cos (anp (a + l)) = cos (th d + l).
  Proof.
    cbv zeta. pose proof (anp_eqm (argument d f + l)) as E. rewrite (eqm_sin _ _ E), (eqm_cos _ _ E), !sin_plus, !cos_plus.
    destruct (phase_ok F tt ut1 d) as [C S]. fold f in C, S. rewrite C, S. split; reflexivity.
  Qed.
  Lemma pass_diurnal l : n0 (of_code (code l)) = 1%Z -> vmul 1e-3 (enu (pass f (point_trigs v) (row_of l))) = diurnal p th l.
  Proof.
    intros H. unfold pass, step2_pass, row_of, diurnal. cbn [md dRip dRop dTip dTop]. rewrite H. cbv zeta. cbn [Z.eqb Pos.eqb].
    destruct (trig_shift (of_code (code l)) (slon (msph (point_trigs v)))) as [-> ->].
    unfold enu. rewrite local_mul. unfold v0, point_trigs. cbn [p1 p2 p3 vplus mslat mclat msph]. change (slon (cartesian2spherical v)) with (longitude p). change (slat (cartesian2spherical v)) with (latitude p).
    rewrite <- (mm_amp (rip l)), <- (mm_amp (rop l)), <- (mm_amp (tip l)), <- (mm_amp (top l)), sin2, cos2.
    generalize 1e-3. intros k. apply f_equal3; ring.
  Qed.
  Lemma pass_long l : n0 (of_code (code l)) = 0%Z -> vmul 1e-3 (enu (pass f (point_trigs v) (row_of l))) = long_period p th l.
  Proof.
    intros H. unfold pass, step2_pass, row_of, long_period. cbn [md dRip dRop dTip dTop]. rewrite H. cbv zeta. cbn [Z.eqb].
    destruct (phase_ok F tt ut1 (of_code (code l))) as [C S]. fold f th in C, S. rewrite C, S.
    unfold enu. rewrite local_mul. unfold v0, point_trigs. cbn [p1 p2 p3 vplus mslat mclat msph]. change (slon (cartesian2spherical v)) with (longitude p). change (slat (cartesian2spherical v)) with (latitude p).
    rewrite <- (mm_amp (rip l)), <- (mm_amp (rop l)), <- (mm_amp (tip l)), <- (mm_amp (top l)), sin2. replace 1.5 with (3 / 2) by lra. replace 0.5 with (1 / 2) by lra.
    generalize 1e-3. intros k. apply f_equal3; field.
  Qed.
  Lemma vsum_scaled g h l : (forall x, In x l -> vmul 1e-3 (enu (g (row_of x))) = h x) -> vmul 1e-3 (enu (vsum (map g (map row_of l)))) = vsum (map h l).
  Proof.
    induction l as [|x l IH]; intros H; cbn; [rewrite enu_0; apply v3_eq; cbn; ring|]. fold (vsum (map g (map row_of l))). fold (vsum (map h l)).
    rewrite enu_plus, <- IH by (intros y Hy; apply H; right; exact Hy). rewrite <- (H x) by (left; reflexivity). apply v3_eq; cbn; ring.
  Qed.
  Lemma all_order k l : forallb (fun x => (n0 (of_code (code x)) =? k)%Z) l = true -> forall x, In x l -> n0 (of_code (code x)) = k.
  Proof. intros H x Hx. rewrite forallb_forall in H. apply Z.eqb_eq, (H x Hx). Qed.
  Lemma frequency_ok : enu (step2_displacement tt ut1 (point_trigs v) F) = frequency_part p th code_table table_73b.
  Proof.
    unfold step2_displacement. cbv zeta. fold f. rewrite fold_pass, enu_mul, enu_plus, enu_0.
    replace (vplus v0 (enu (vsum (map (pass f (point_trigs v)) Tables7Extended)))) with (enu (vsum (map (pass f (point_trigs v)) Tables7Extended))) by (apply v3_eq; cbn [vplus v0 p1 p2 p3]; ring).
    rewrite tables_order, map_app, map_app, vsum_app, enu_plus. unfold frequency_part.
    rewrite <- (vsum_perm _ _ (Permutation_map (diurnal p th) order_perm)).
    rewrite <- (vsum_scaled (pass f (point_trigs v)) (diurnal p th) in_order_a), <- (vsum_scaled (pass f (point_trigs v)) (long_period p th) table_73b).
    - apply v3_eq; cbn [vplus vmul p1 p2 p3]; ring.
    - intros x Hx. apply pass_long, (all_order 0 table_73b); [vm_compute; reflexivity|exact Hx].
    - intros x Hx. apply pass_diurnal, (all_order 1 in_order_a); [vm_compute; reflexivity|exact Hx].
  Qed.
End One.

(** ** the whole *)
Lemma not_zero v p : is_at v p -> v <> v0.
Proof. intros H Z. pose proof (len_at v p H) as L. rewrite Z in L. destruct H as [H _]. unfold len, dot, v0 in L. cbn in L. replace (0 * 0 + 0 * 0 + 0 * 0) with 0 in L by ring. rewrite sqrt_0 in L. lra. Qed.
Lemma own_dir v p : is_at v p -> same_dir (to_place (cartesian2spherical v)) p.
Proof. intros H. apply (same_direction v); [apply spherical_at, (not_zero v p H)|exact H]. Qed.
Lemma displacement_ok o tt ut1 rsta rmoon rsun F p pm ps : is_at rsta p -> is_at rmoon pm -> is_at rsun ps ->
  displacement o tt ut1 rsta rmoon rsun F =
  site (mRe o) (mSEratio o) (mMEratio o) p ps pm (phase F (julian_date (mjd tt)) (julian_date (mjd ut1))) code_table table_73b.
Proof.
  intros P M S. unfold displacement, step1_displacement, SsdModel.step1. cbv zeta. rewrite !app3_plus.
  replace (slat (msph (point_trigs rsta))) with (slat (cartesian2spherical rsta)) by reflexivity. replace (slon (msph (point_trigs rsta))) with (slon (cartesian2spherical rsta)) by reflexivity.
  rewrite !lvlh_orth, !app3_mul, !(app_local (sr (cartesian2spherical rsta))).
  change (mkPl (sr (cartesian2spherical rsta)) (slat (cartesian2spherical rsta)) (slon (cartesian2spherical rsta))) with (to_place (cartesian2spherical rsta)).
  rewrite !drs_local. fold (enu rsta (step2_displacement tt ut1 (point_trigs rsta) F)). rewrite frequency_ok.
  rewrite (in_phase_ok _ _ _ _ p ps P S), (in_phase_ok _ _ _ _ p pm P M).
  rewrite (extra_dir _ _ p ps (own_dir _ _ P) (own_dir _ _ S)), (extra_dir _ _ p pm (own_dir _ _ P) (own_dir _ _ M)), (frequency_dir _ p _ _ _ (own_dir _ _ P)).
  unfold site, one_body. fold (extra p ps) (extra p pm).
  assert (K : forall k w q, is_at w q -> factor (mRe o) k w = strength 2 (mRe o) k q) by (intros k w q Q; unfold factor, strength; rewrite (len_at w q Q); cbn [Nat.add]; ring).
  rewrite (K _ rsun ps S), (K _ rmoon pm M). generalize (extra p ps), (extra p pm), (in_phase (mRe o) (mSEratio o) p ps), (in_phase (mRe o) (mMEratio o) p pm), (frequency_part p (phase F (julian_date (mjd tt)) (julian_date (mjd ut1))) code_table table_73b).
  intros a b c d e. apply v3_eq; cbn [vplus vmul p1 p2 p3]; ring.
Qed.
Lemma deprecated_ok Re k v w : let t := geodetic2lvlh (slat (cartesian2spherical v)) (slon (cartesian2spherical v)) in forall k' w',
  SsdModel.step1 Re v w w' k k' (point_trigs v) (point_trigs w) (point_trigs w') =
  vplus (vplus (step1_outof_phase Re k w (point_trigs w) (point_trigs v)) (step1_outof_phase Re k' w' (point_trigs w') (point_trigs v)))
    (app3 (transp t) (vplus (step1_in_phase Re k w v) (step1_in_phase Re k' w' v))).
Proof.
  intros t k' w'. unfold SsdModel.step1. cbv zeta. replace (geodetic2lvlh (slat (msph (point_trigs v))) (slon (msph (point_trigs v)))) with t by reflexivity.
  unfold step1_in_phase. f_equal. assert (E : forall k w, vmul (factor Re k w) (drs (point_trigs v) (point_trigs w)) = step1_outof_phase Re k w (point_trigs w) (point_trigs v)).
  { intros k0 w0. unfold step1_outof_phase. cbv zeta. f_equal. unfold drs. cbv zeta. apply v3_eq; cbn [vplus p1 p2 p3]; ring. }
  rewrite !E. reflexivity.
Qed.

(** ** the line of Q1 *)
Lemma q1_difference Re ks km p ps pm th :
  vminus (site Re ks km p ps pm th code_table table_73b) (site Re ks km p ps pm th (table_73a ++ further) table_73b) =
  let a := th (of_code 135655) + longitude p in local p (2e-5 * cos a * sin (latitude p)) (2e-5 * sin a * cos (2 * latitude p)) 0.
Proof.
  unfold site, frequency_part. change (table_73a ++ further) with (q1_iers :: tl table_73a ++ further). unfold code_table. cbn [map vsum fold_right]. fold (vsum (map (diurnal p th) (tl table_73a ++ further))).
  generalize (vsum (map (diurnal p th) (tl table_73a ++ further))) (vsum (map (long_period p th) table_73b)) (vplus (one_body Re ks p ps) (one_body Re km p pm)). intros x y z.
  unfold diurnal, q1_code, q1_iers. cbn [code rip rop tip top]. cbv zeta.
  transitivity (vminus (local p ((amp 1 * cos (th (of_code 135655) + longitude p) - amp 1 * sin (th (of_code 135655) + longitude p)) * sin (latitude p))
     ((amp 1 * sin (th (of_code 135655) + longitude p) + amp 1 * cos (th (of_code 135655) + longitude p)) * cos (2 * latitude p)) 0)
     (local p ((amp (-1) * cos (th (of_code 135655) + longitude p) - amp 1 * sin (th (of_code 135655) + longitude p)) * sin (latitude p))
     ((amp (-1) * sin (th (of_code 135655) + longitude p) + amp 1 * cos (th (of_code 135655) + longitude p)) * cos (2 * latitude p)) 0)).
  - unfold local. apply v3_eq; cbn [vplus vminus vmul p1 p2 p3]; ring.
  - unfold local, amp. replace 2e-5 with (2 * 1e-5) by lra. generalize 1e-5. intros k. apply v3_eq; cbn [vplus vminus vmul p1 p2 p3]; ring.
Qed.
Lemma len_local p e n : len (local p e n 0) = sqrt (e * e + n * n).
Proof.
  unfold len. f_equal. pose proof (sc1 (latitude p)) as A. pose proof (sc1 (longitude p)) as B. flat. ring [A B].
Qed.
