(** C89: the reference programs as sums over the waves of the library. *)
From Coq Require Import Reals ZArith List Bool Lia Lra.
From Verif Require Import Angles Poly PiBound DoodsonModel DoodsonArgModel DoodsonArgSpec FundModel FundSpec FundProofs SolidSpec EtvModel EtvSpec EtvProofs EtvProofs2 FortLibModel FortLibSpec.
From Verif Require FlProofs.
Import ListNotations.
Open Scope R_scope.

Lemma fmod_turn x : eqm (fmod x (2 * PI)) x.
Proof. unfold fmod. exists (- trunc (x / (2 * PI)))%Z. rewrite opp_IZR. ring. Qed.

(** ** sums *)
Definition mults (n : doodson) : list Z := [n0 n; - nl n; - nlp n; - nF n; - nD n; - nOm n]%Z.
Definition inner (n : list Z) (arg : list R) : R := fold_left (fun a p => a + IZR (fst p) * snd p) (combine n arg) 0.
Definition vec (F : delaunay) (g : R) : list R := [g + PI; el F; elp F; ef F; ed F; eom F].
Definition first (r : term) : Z * Z := let '(_, (a, b, _, _)) := r in (a, b).
Definition second (r : term) : Z * Z := let '(_, (_, _, c, d)) := r in (c, d).
Definition fsum (amp : term -> Z * Z) (t : list term) (arg : list R) : R := sum (map (fun r => wave_at (amp r) (inner (fst r) arg)) t).
Lemma inner_mults n F g : inner (mults n) (vec F g) = iers_argument n F g.
Proof. unfold inner, mults, vec, iers_argument. cbn [combine fold_left fst snd]. rewrite !opp_IZR. ring. Qed.
Lemma terms_fold arg t : forall s, fold_left (add_term arg) t s = (fst s + fsum first t arg, snd s + fsum second t arg).
Proof.
  induction t as [|r t IH]; intros s; [unfold fsum; cbn; rewrite !Rplus_0_r; destruct s; reflexivity|]. cbn [fold_left]. rewrite IH. unfold fsum. cbn [map]. rewrite !sum_cons. destruct r as [n [[[a b] c] d]].
  unfold add_term, wave_at. cbn [fst snd first second]. pose proof (fmod_turn (inner n arg)) as E. fold (angle n arg) in *. change (fmod (inner n arg) (2 * PI)) with (angle n arg) in E. rewrite (eqm_sin _ _ E), (eqm_cos _ _ E). f_equal; ring.
Qed.
(** arguments up to turns *)
Lemma inner_eqm n : forall a b, Forall2 eqm a b -> eqm (inner n a) (inner n b).
Proof.
  unfold inner. intros a b H. assert (K : forall x y, eqm x y -> eqm (fold_left (fun a p => a + IZR (fst p) * snd p) (combine n a) x) (fold_left (fun a p => a + IZR (fst p) * snd p) (combine n b) y)); [|apply K, eqm_refl].
  revert n. induction H as [|u v a b E H IH]; intros [|z n] x y X; cbn [combine fold_left]; try exact X. apply IH. cbn [fst snd]. apply eqm_add; [exact X|]. rewrite (Rmult_comm _ u), (Rmult_comm _ v). apply eqm_scale, E.
Qed.
Lemma fsum_eqm amp t a b : Forall2 eqm a b -> fsum amp t a = fsum amp t b.
Proof. intros H. unfold fsum. apply sum_ext. intros r _. unfold wave_at. pose proof (inner_eqm (fst r) a b H) as E. rewrite (eqm_sin _ _ E), (eqm_cos _ _ E). reflexivity. Qed.
(** ** sidereal time *)
Lemma turn_alg S S' q f k : S = S' + 86400 * (f - k) -> (S - 86400 * q) / (86400 / (2 * PI)) = S' / 86400 * (2 * PI) + 2 * PI * (- q + f - k).
Proof. intros ->. pose proof PI_RGT_0. field. lra. Qed.
Lemma gmst_turn mjd : eqm (arg1 (julian mjd)) (sidereal_1982_at mjd + PI).
Proof.
  unfold arg1. eapply eqm_trans; [apply fmod_turn|]. apply eqm_add; [|apply eqm_refl]. unfold gmst_seconds, fmod, sidereal_1982_at, sidereal_1982, seconds_of_day, rad2sec, centuries, julian_date, julian, rmjd0. cbv zeta.
  match goal with |- context [trunc ?x] => set (q := trunc x) end. set (f := Int_part mjd). exists (- q + f - 51544)%Z. rewrite minus_IZR, plus_IZR, opp_IZR.
  replace (mjd + 2400000.5 - 2451545.0) with (mjd - 51544.5) by lra. set (t := (mjd - 51544.5) / 36525). assert (M : mjd = 36525 * t + 51544.5) by (unfold t; lra). clearbody t q f.
  match goal with |- (?S - 86400 * IZR q) / _ = ?S' / 86400 * (2 * PI) + _ => apply (turn_alg S S') end. rewrite M. lra.
Qed.
(** ** the same waves *)
Lemma terms_waves amp am t ws F g : map (fun r => (fst r, amp r)) (filter (fun r => nz (amp r)) t) = map (fun w => (mults (dn w), am w)) (filter (fun w => nz (am w)) ws) ->
  fsum amp t (vec F g) = waves am ws F g.
Proof.
  intros H. unfold fsum, waves. rewrite (sum_nz amp), (sum_nz am). transitivity (sum (map (fun x => wave_at (snd x) (inner (fst x) (vec F g))) (map (fun r => (fst r, amp r)) (filter (fun r => nz (amp r)) t)))).
  - rewrite map_map. reflexivity.
  - rewrite H, map_map. cbn [fst snd]. apply sum_ext. intros w _. rewrite inner_mults. reflexivity.
Qed.
Lemma args_vec fundarg mjd F g : same_angles (fundarg (julian mjd)) F -> eqm (sidereal_1982_at mjd) g -> Forall2 eqm (args fundarg mjd) (vec F g).
Proof.
  intros (E1 & E2 & E3 & E4 & E5) G. unfold args, vec. cbv zeta. constructor; [eapply eqm_trans; [apply gmst_turn|]; apply eqm_add; [exact G|apply eqm_refl]|]. repeat constructor; assumption.
Qed.
Section Same.
  Variable fundarg : R -> delaunay.
  Variables (mjd g : R) (F : delaunay).
  Hypothesis HF : same_angles (fundarg (julian mjd)) F.
  Hypothesis HG : eqm (sidereal_1982_at mjd) g.
  Lemma pm_short : PMSDNUT2 IBAND fundarg mjd = (dxp (deop_libration F g), dyp (deop_libration F g)).
  Proof.
    unfold PMSDNUT2, IBAND. cbn [Z.eqb Pos.eqb]. rewrite terms_fold, !(fsum_eqm _ _ _ _ (args_vec _ _ _ _ HF HG)). cbn [fst snd]. rewrite !Rplus_0_l. unfold deop_libration. rewrite deop_eq. cbn [dxp dyp].
    f_equal; apply terms_waves; vm_compute; reflexivity.
  Qed.
  Lemma pm_long iband : iband <> 1%Z -> PMSDNUT2 iband fundarg mjd = (dxp (deop Table5 F g) + secular (-3.8) mjd, dyp (deop Table5 F g) + secular (-4.3) mjd).
  Proof.
    intros I. unfold PMSDNUT2. destruct (Z.eqb_spec iband 1) as [|_]; [contradiction|]. change (Z.to_nat (1 - 1)) with 0%nat. cbn [skipn]. rewrite terms_fold, !(fsum_eqm _ _ _ _ (args_vec _ _ _ _ HF HG)). cbn [fst snd]. rewrite !Rplus_0_l, deop_eq. cbn [dxp dyp].
    unfold secular, rmjd0. f_equal; f_equal; apply terms_waves; vm_compute; reflexivity.
  Qed.
  Lemma ut_diff : fst (UTLIBR fundarg mjd) = dut1 (deop_libration F g) - 0.01 * sin (iers_argument T2 F g) /\
    snd (UTLIBR fundarg mjd) = dlod (deop_libration F g) + 0.1 * cos (iers_argument N2 F g) - 0.1 * cos (iers_argument S2 F g).
  Proof.
    unfold UTLIBR. rewrite terms_fold, !(fsum_eqm _ _ _ _ (args_vec _ _ _ _ HF HG)). cbn [fst snd]. rewrite !Rplus_0_l. unfold deop_libration. rewrite deop_eq. cbn [dut1 dlod].
    assert (E : forall am, waves am Table5NoLongTides F g = sum (map (fun x => wave_at (snd x) (inner (fst x) (vec F g))) (map (fun w => (mults (dn w), am w)) (filter (fun w => nz (am w)) Table5NoLongTides)))).
    { intros am. unfold waves. rewrite (sum_nz am), map_map. cbn [fst snd]. apply sum_ext. intros w _. rewrite inner_mults. reflexivity. }
    rewrite !E, <- !inner_mults.
    assert (K : forall l, fsum l ut_terms (vec F g) = sum (map (fun x => wave_at (snd x) (inner (fst x) (vec F g))) (map (fun r => (fst r, l r)) ut_terms))) by (intros l; unfold fsum; rewrite map_map; reflexivity).
    rewrite !K.
    match goal with |- sum (map _ ?a) = sum (map _ ?b) - _ * sin (inner ?m _) /\ sum (map _ ?c) = sum (map _ ?d) + _ * cos (inner ?n _) - _ * cos (inner ?k _) =>
      let a' := eval vm_compute in a in change a with a'; let b' := eval vm_compute in b in change b with b'; let c' := eval vm_compute in c in change c with c'; let d' := eval vm_compute in d in change d with d';
      let m' := eval vm_compute in m in change m with m'; let n' := eval vm_compute in n in change n with n'; let k' := eval vm_compute in k in change k with k' end.
    cbn [map]. rewrite !sum_cons. unfold wave_at. cbn [fst snd].
    repeat match goal with |- context [inner ?n (vec F g)] => generalize (inner n (vec F g)); intro end. unfold sum. cbn [fold_right]. split; lra.
  Qed.
End Same.

(** ** the sidereal time of 2006 instead of that of 1982 *)
Lemma Rabs_def2' x a : Rabs x <= a -> - a <= x <= a.
Proof. intros H. unfold Rabs in H. destruct (Rcase_abs x); lra. Qed.
Lemma sidereal_near mjd : Rabs (centuries (julian_date mjd)) <= 1 -> exists g, eqm (sidereal_1982_at mjd) g /\ Rabs (g - sidereal_time (julian_date mjd) (julian_date mjd)) <= 1.5e-6.
Proof.
  intros T. exists (sidereal_1982_at mjd + 2 * PI * IZR (Int_part mjd - 51544)). split; [exists (- (Int_part mjd - 51544))%Z; rewrite opp_IZR; ring|].
  unfold sidereal_1982_at, sidereal_1982, seconds_of_day, sidereal_time, earth_rotation_angle. cbv zeta. rewrite minus_IZR. set (f := IZR (Int_part mjd)). clearbody f.
  assert (D : julian_date mjd - 2451545.0 = 36525 * centuries (julian_date mjd)) by (unfold centuries; lra). rewrite D.
  assert (M : mjd = 36525 * centuries (julian_date mjd) + 51544.5) by (unfold centuries, julian_date; lra). rewrite M at 1. set (t := centuries (julian_date mjd)) in *. clearbody t. unfold arcsec, sidereal_poly. cbn [peval].
  pose proof pi_bounds as PB.
  match goal with |- Rabs (?S / 86400 * (2 * PI) + 2 * PI * (f - 51544) - (2 * PI * ?e + ?p / 3600 / 360 * (2 * PI))) <= _ =>
    assert (B : Rabs (S + 86400 * (f - 51544) - 86400 * e - p / 15) <= 0.0199);
    [|set (s := S) in *; set (x := e) in *; set (y := p) in *; replace (s / 86400 * (2 * PI) + 2 * PI * (f - 51544) - (2 * PI * x + y / 3600 / 360 * (2 * PI))) with ((s + 86400 * (f - 51544) - 86400 * x - y / 15) * (2 * PI / 86400)) by lra] end.
  - assert (P : forall n, Rabs (t ^ n) <= 1) by (intros n; rewrite <- RPow_abs, <- (pow1 n); apply pow_incr; split; [apply Rabs_pos|exact T]). pose proof (P 1%nat) as P1. pose proof (P 2%nat) as P2. pose proof (P 3%nat) as P3. pose proof (P 4%nat) as P4. pose proof (P 5%nat) as P5.
    apply Rabs_def2' in P1. apply Rabs_def2' in P2. apply Rabs_def2' in P3. apply Rabs_def2' in P4. apply Rabs_def2' in P5. unfold peval. cbn [fold_right pow] in *. apply Rabs_le. split; lra.
  - rewrite Rabs_mult. rewrite (Rabs_right (2 * PI / 86400)) by lra. pose proof (Rabs_pos (s + 86400 * (f - 51544) - 86400 * x - y / 15)). apply Rle_trans with (0.0199 * (2 * PI / 86400)); [apply Rmult_le_compat_r; lra|lra].
Qed.

(** ** a small change of the sidereal time *)
Lemma wave_step sc x y : Rabs (wave_at sc x - wave_at sc y) <= IZR (Z.abs (fst sc) + Z.abs (snd sc)) / 100 * Rabs (x - y).
Proof.
  unfold wave_at. rewrite plus_IZR, !abs_IZR. pose proof (FlProofs.sin_lip x y) as S. pose proof (FlProofs.cos_lip x y) as C.
  replace (IZR (fst sc) / 100 * sin x + IZR (snd sc) / 100 * cos x - (IZR (fst sc) / 100 * sin y + IZR (snd sc) / 100 * cos y)) with (IZR (fst sc) / 100 * (sin x - sin y) + IZR (snd sc) / 100 * (cos x - cos y)) by ring.
  eapply Rle_trans; [apply Rabs_triang|]. rewrite !Rabs_mult. unfold Rdiv. rewrite !Rabs_mult, (Rabs_right (/ 100)) by lra. pose proof (Rabs_pos (IZR (fst sc))) as P1. pose proof (Rabs_pos (IZR (snd sc))) as P2. nra.
Qed.
Definition weight (am : wave -> Z * Z) (t : list wave) : Z := fold_right (fun w a => ((Z.abs (fst (am w)) + Z.abs (snd (am w))) * Z.abs (n0 (dn w)) + a)%Z) 0%Z t.
Lemma waves_step am t F g h : Rabs (waves am t F g - waves am t F h) <= IZR (weight am t) / 100 * Rabs (g - h).
Proof.
  unfold waves. induction t as [|w t IH]; cbn [map weight fold_right].
  - unfold sum. cbn [fold_right]. rewrite Rminus_0_r, Rabs_R0. lra.
  - rewrite !sum_cons. fold (weight am t). match goal with |- Rabs (?a + ?b - (?c + ?d)) <= _ => replace (a + b - (c + d)) with ((a - c) + (b - d)) by ring end.
    eapply Rle_trans; [apply Rabs_triang|]. eapply Rle_trans; [apply Rplus_le_compat; [apply wave_step|exact IH]|]. rewrite (plus_IZR (_ * _) _), mult_IZR.
    assert (E : Rabs (iers_argument (dn w) F g - iers_argument (dn w) F h) = IZR (Z.abs (n0 (dn w))) * Rabs (g - h)) by (rewrite abs_IZR, <- Rabs_mult; f_equal; unfold iers_argument; ring). rewrite E. lra.
Qed.
Lemma libration_step F g h : let a := deop_libration F g in let b := deop_libration F h in
  Rabs (dxp a - dxp b) <= 62 * Rabs (g - h) /\ Rabs (dyp a - dyp b) <= 62 * Rabs (g - h) /\ Rabs (dut1 a - dut1 b) <= 12 * Rabs (g - h) /\ Rabs (dlod a - dlod b) <= 140 * Rabs (g - h).
Proof.
  cbv zeta. unfold deop_libration. rewrite !deop_eq. cbn [dxp dyp dut1 dlod]. pose proof (Rabs_pos (g - h)) as P.
  assert (K : forall am n, (weight am Table5NoLongTides <= 100 * n)%Z -> Rabs (waves am Table5NoLongTides F g - waves am Table5NoLongTides F h) <= IZR n * Rabs (g - h)).
  { intros am n L. eapply Rle_trans; [apply waves_step|]. apply Rmult_le_compat_r; [exact P|]. apply IZR_le in L. rewrite mult_IZR in L. lra. }
  repeat split; apply K; apply Z.leb_le; vm_compute; reflexivity.
Qed.
Lemma chain a b c p q : Rabs (a - b) <= p -> Rabs (b - c) <= q -> Rabs (a - c) <= p + q.
Proof. intros A B. replace (a - c) with ((a - b) + (b - c)) by ring. eapply Rle_trans; [apply Rabs_triang|]. lra. Qed.
Lemma scaled k x y e : 0 <= k -> Rabs x <= k * Rabs y -> Rabs y <= e -> Rabs x <= k * e.
Proof. intros K A B. pose proof (Rmult_le_compat_l k _ _ K B). lra. Qed.
