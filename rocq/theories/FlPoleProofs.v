(** Proofs about FlPoleModel. *)
From Coq Require Import Reals ZArith List Bool Lia Lra.
From Flocq Require Import Core.Core IEEE754.BinarySingleNaN.
From Verif Require Import PiBound KahanModel FundModel FlModel FlProofs FlFloatModel FlFloatProofs FlCipProofs FlCipProofs2 FlEraProofs PoleModel PoleSpec FlPoleModel FlPoleSpec.
From Verif Require FlCip64Proofs.
Import ListNotations.
Open Scope R_scope.

(** ** bounds *)
Definition pvb (i : nat) : Z * Z :=
  nth i [(128 * one120, one120 / 2 ^ 44 + 1); (2 * one120, 0); (2 * one120, 0); (158 * one120 / 100 + 1, 0); (7 * one120, 0); (31416 * one120 / 10000 + 1, one120 / 2 ^ 50 + 1);
         (one120, 0); (one120, 0); (one120, 0); (one120, 0); (one120, 0); (one120, 0); (5400 * one120, 4 * one120 / 10 ^ 11 + 1)]%Z (0, 0)%Z.
Definition in_range (dt xp yp lat lon : R) (c : desai) : Prop :=
  Rabs dt <= 128 /\ Rabs xp <= 2 /\ Rabs yp <= 2 /\ Rabs lat <= 1.58 /\ Rabs lon <= 7 /\ Rabs (rR c) <= 1 /\ Rabs (rI c) <= 1 /\ Rabs (nR c) <= 1 /\ Rabs (nI c) <= 1 /\ Rabs (eR c) <= 1 /\ Rabs (eI c) <= 1.
Definition handed_out (dt dt' dpi : R) : Prop := Rabs (dt' - dt) <= / 2 ^ 44 /\ Rabs (dpi - PI) <= / 2 ^ 50.
Lemma fits_pole dt dt' xp yp lat lon dpi c K K' : in_range dt xp yp lat lon c -> handed_out dt dt' dpi -> 0 <= K <= 5400 -> Rabs (K' - K) <= 4e-11 ->
  fits (penv dt xp yp lat lon PI c K) (penv dt' xp yp lat lon dpi c K') pvb.
Proof.
  intros (B0 & B1 & B2 & B3 & B4 & B6 & B7 & B8 & B9 & B10 & B11) (A0 & A5) BK AK. pose proof unit_inv as U. pose proof unit_pos as P. pose proof pi_bounds as PB.
  assert (W : forall n : Z, IZR (n * one120) * unit120 = IZR n) by (intros n; rewrite mult_IZR; unfold one120; rewrite Rmult_assoc, U; ring).
  assert (O : IZR one120 * unit120 = 1) by exact U.
  assert (Z0 : forall x, Rabs (x - x) <= 0 * unit120) by (intros x; rewrite Rminus_diag_eq, Rabs_R0 by reflexivity; lra).
  intros i. unfold penv, pvb. do 13 try (match goal with k : nat |- _ => destruct k end; [cbn [nth fst snd]; try (split; [first [rewrite W | rewrite O]; assumption|apply Z0])|]).
  - split; [rewrite W; exact B0|eapply Rle_trans; [exact A0|exact (pow2_up 44)]].
  - split; [|apply Z0]. pose proof (scaled_up 158 100 ltac:(lia)). lra.
  - split; [|eapply Rle_trans; [exact A5|exact (pow2_up 50)]]. pose proof (scaled_up 31416 10000 ltac:(lia)). rewrite Rabs_pos_eq; lra.
  - split; [rewrite W, Rabs_pos_eq; lra|]. eapply Rle_trans; [exact AK|]. pose proof (scaled_up 4 (10 ^ 11) ltac:(lia)) as S. change (10 ^ 11)%Z with 100000000000%Z in *. lra.
  - match goal with k : nat |- _ => destruct k end; cbn [nth fst snd]; rewrite Rminus_diag_eq, Rabs_R0 by reflexivity; split; lra.
Qed.

(** ** values *)
Section Values.
  Variables (dt xp yp lat lon : R) (c : desai) (K : R).
  Notation E := (penv dt xp yp lat lon PI c K).
  Lemma m1_link : eval E m1e = m1 dt xp.
  Proof. unfold m1e, m1, xs. cbn [eval penv nth pow]. lra. Qed.
  Lemma m2_link : eval E m2e = m2 dt yp.
  Proof. unfold m2e, m2, ys. cbn [eval penv nth pow]. lra. Qed.
  Lemma coeffs_link : eval E solidCe = -1.333e-9 * (m1 dt xp + 0.0115 * m2 dt yp) /\ eval E solidSe = -1.333e-9 * (m2 dt yp - 0.0115 * m1 dt xp) /\
    eval E oceanCe = -2.1778e-10 * (m1 dt xp - 0.01724 * m2 dt yp) /\ eval E oceanSe = -1.7232e-10 * (m2 dt yp - 0.03365 * m1 dt xp).
  Proof. unfold solidCe, solidSe, oceanCe, oceanSe. cbn [eval]. rewrite m1_link, m2_link. cbn [pow]. repeat split; lra. Qed.
  Lemma variants_link k x y z a b d e : In e (row_variants k (x, y, z) (a, b, d)) -> eval E e = eval E k * (eval E x * eval E a + eval E y * eval E b + eval E z * eval E d).
  Proof. unfold row_variants, sums. cbn [map app In]. intros [<-|[<-|[<-|[<-|[<-|[<-|[]]]]]]]; cbn [eval]; ring. Qed.
  Lemma theta_link : eval E thetae = PI / 2 - lat.
  Proof. reflexivity. Qed.
  Lemma solid_link i e : In e (solid_variants i) -> eval E e = comp i (solid_displacement dt xp yp lat lon).
  Proof.
    unfold solid_variants, solid_displacement, solid_se. cbv zeta. set (th := PI / 2 - lat). unfold s_theta, s_lambda, s_r. rewrite sin_2a, cos_2a_cos.
    assert (X : forall k r v, In e (row_variants k r v) -> eval E e = eval E k * (eval E (fst (fst r)) * eval E (fst (fst v)) + eval E (snd (fst r)) * eval E (snd (fst v)) + eval E (snd r) * eval E (snd v))).
    { intros k ((x, y), z) ((a, b), d) H. apply variants_link, H. }
    intros H. rewrite (X _ _ _ H). cbn [fst snd eval]. unfold alonge, acrosse, s2te, c2te. cbn [eval]. rewrite m1_link, m2_link. unfold ste, cte, sle, cle. cbn [eval]. rewrite theta_link. change (E 4%nat) with lon. fold th.
    unfold comp, times, addv, e_theta, e_lambda, e_r. destruct i as [|[|i]]; cbn [solid_rows fst snd eval]; unfold ste, cte, sle, cle; cbn [eval]; rewrite ?theta_link; change (E 4%nat) with lon; fold th; cbn [pow]; replace 0.001 with (1 / (10 * (10 * (10 * 1)))) by lra; ring.
  Qed.
  Lemma sec_link x : FundModel.sec2rad x = arcsec x.
  Proof. unfold FundModel.sec2rad, arcsec. field. Qed.
  Lemma ocean_link i e : K = Kp -> In e (ocean_variants i) -> eval E e = comp i (ocean_displacement dt xp yp lat lon c).
  Proof.
    intros HK. unfold ocean_variants, ocean_displacement, ocean_se. cbv zeta. rewrite <- HK.
    assert (X : forall k r v, In e (row_variants k r v) -> eval E e = eval E k * (eval E (fst (fst r)) * eval E (fst (fst v)) + eval E (snd (fst r)) * eval E (snd (fst v)) + eval E (snd r) * eval E (snd v))).
    { intros k ((x, y), z) ((a, b), d) H. apply variants_link, H. }
    intros H. rewrite (X _ _ _ H). cbn [fst snd eval].
    assert (GR : eval E gre = g_real (m1 dt xp) (m2 dt yp)). { unfold gre, g_real. cbn [eval]. rewrite m1_link, m2_link, !sec_link. cbn [pow]. lra. }
    assert (GI : eval E gie = g_imag (m1 dt xp) (m2 dt yp)). { unfold gie, g_imag. cbn [eval]. rewrite m1_link, m2_link, !sec_link. cbn [pow]. lra. }
    rewrite GR, GI. set (gr := g_real _ _). set (gi := g_imag _ _). change (E 12%nat) with K. change (E 10%nat) with (eR c). change (E 11%nat) with (eI c). change (E 8%nat) with (nR c). change (E 9%nat) with (nI c). change (E 6%nat) with (rR c). change (E 7%nat) with (rI c).
    unfold comp, times, addv, e_theta, e_lambda, e_r.
    assert (S : sin (PI / 2 - lat) = cos lat) by (rewrite sin_shift; reflexivity). assert (C : cos (PI / 2 - lat) = sin lat) by (rewrite cos_shift; reflexivity). rewrite S, C.
    destruct i as [|[|i]]; cbn [lvlh_rows fst snd eval]; unfold sle, cle; cbn [eval]; change (E 4%nat) with lon; change (E 3%nat) with lat; ring.
  Qed.
End Values.

(** ** bounds of the errors *)
Definition ok (n k : Z) (e : expr) : bool := (snd (bnd pvb e) <=? n * one120 / k)%Z && snd (bnds pvb e).
Lemma check_solid_coeffs : forallb (ok 25 (10 ^ 25)) [solidCe; solidSe] = true.
Proof. vm_compute. reflexivity. Qed.
Lemma check_ocean_coeffs : forallb (ok 34 (10 ^ 26)) [oceanCe; oceanSe] = true.
Proof. vm_compute. reflexivity. Qed.
Lemma check_solid : forallb (fun i => forallb (ok 27 (10 ^ 16)) (solid_variants i)) [0; 1; 2]%nat = true.
Proof. vm_compute. reflexivity. Qed.
Lemma check_ocean : forallb (fun i => forallb (ok 27 (10 ^ 16)) (ocean_variants i)) [0; 1; 2]%nat = true.
Proof. vm_compute. reflexivity. Qed.
Lemma solid_ok i e : In e (solid_variants i) -> ok 27 (10 ^ 16) e = true.
Proof.
  pose proof check_solid as C. rewrite forallb_forall in C. intros H. destruct i as [|[|i]].
  - pose proof (C 0%nat ltac:(cbn; tauto)) as D. rewrite forallb_forall in D. exact (D e H).
  - pose proof (C 1%nat ltac:(cbn; tauto)) as D. rewrite forallb_forall in D. exact (D e H).
  - pose proof (C 2%nat ltac:(cbn; tauto)) as D. rewrite forallb_forall in D. exact (D e H).
Qed.
Lemma ocean_ok i e : In e (ocean_variants i) -> ok 27 (10 ^ 16) e = true.
Proof.
  pose proof check_ocean as C. rewrite forallb_forall in C. intros H. destruct i as [|[|i]].
  - pose proof (C 0%nat ltac:(cbn; tauto)) as D. rewrite forallb_forall in D. exact (D e H).
  - pose proof (C 1%nat ltac:(cbn; tauto)) as D. rewrite forallb_forall in D. exact (D e H).
  - pose proof (C 2%nat ltac:(cbn; tauto)) as D. rewrite forallb_forall in D. exact (D e H).
Qed.
Lemma error_of n k ex co e v : fits ex co pvb -> ok n k e = true -> (0 < k)%Z -> run co e v -> Rabs (v - eval ex e) <= IZR n / IZR k.
Proof. intros F O K Rn. apply andb_prop in O. destruct O as [O _]. destruct (bnd_sound _ _ _ F e v Rn) as [_ Y]. eapply Rle_trans; [exact Y|apply units; assumption]. Qed.

(** ** relative errors *)
Definition rl (k x v : R) : Prop := Rabs (v - x) <= k * u * Rabs x.
Lemma tiny_tiny : tiny <= 1e-40.
Proof.
  unfold tiny. apply Rle_trans with (/ 2 ^ 150). { apply Rinv_le_contravar; [apply pow_lt; lra|]. apply Rle_pow; [lra|]. apply Nat.leb_le. vm_compute. reflexivity. }
  apply Rle_trans with (/ (10 ^ 40)); [apply Rinv_le_contravar; cbn [pow]; lra|cbn [pow]; lra].
Qed.
Lemma u_low : 1.1e-16 <= u.
Proof. unfold u. cbn [pow]. lra. Qed.
Lemma rl_weak a b x v : a <= b -> rl a x v -> rl b x v.
Proof. unfold rl. intros H A. eapply Rle_trans; [exact A|]. apply Rmult_le_compat_r; [apply Rabs_pos|]. destruct u_small as (U & _). apply Rmult_le_compat_r; lra. Qed.
Lemma rl_self x : rl 0 x x.
Proof. unfold rl. rewrite Rminus_diag_eq, Rabs_R0 by reflexivity. lra. Qed.
Lemma rl_close k x y v : 0 <= k <= 100 -> rl k x y -> 1e-12 <= Rabs x -> Rabs (v - y) <= 2 * u * Rabs y + tiny -> rl (k + 2.01) x v.
Proof.
  unfold rl. intros K A P N. destruct u_small as (U1 & U2 & T1 & T2). pose proof tiny_tiny as T. pose proof u_low as UL.
  assert (Y : Rabs y <= Rabs x * 1.0001). { replace y with (x + (y - x)) by ring. eapply Rle_trans; [apply Rabs_triang|]. assert (k * u * Rabs x <= 0.0001 * Rabs x) by (apply Rmult_le_compat_r; [lra|nra]). lra. }
  replace (v - x) with ((v - y) + (y - x)) by ring. eapply Rle_trans; [apply Rabs_triang|].
  assert (2 * u * Rabs y <= 2.0002 * (u * Rabs x)) by nra. assert (1.1e-28 <= u * Rabs x) by nra. assert (tiny <= 0.001 * (u * Rabs x)) by lra. lra.
Qed.
Lemma rl_near k x y v : 0 <= k <= 100 -> rl k x y -> 1e-12 <= Rabs x -> near y v -> rl (k + 1.01) x v.
Proof.
  unfold rl, near. intros K A P N. destruct u_small as (U1 & U2 & T1 & T2). pose proof tiny_tiny as T. pose proof u_low as UL.
  assert (Y : Rabs y <= Rabs x * 1.0001). { replace y with (x + (y - x)) by ring. eapply Rle_trans; [apply Rabs_triang|]. assert (k * u * Rabs x <= 0.0001 * Rabs x) by (apply Rmult_le_compat_r; [lra|nra]). lra. }
  replace (v - x) with ((v - y) + (y - x)) by ring. eapply Rle_trans; [apply Rabs_triang|].
  assert (u * Rabs y <= 1.0001 * (u * Rabs x)) by nra. assert (1.1e-28 <= u * Rabs x) by nra. assert (tiny <= 0.001 * (u * Rabs x)) by lra. lra.
Qed.
Lemma rl_mul a b x y v w : 0 <= a <= 100 -> 0 <= b <= 100 -> rl a x v -> rl b y w -> rl (a + b + 0.01) (x * y) (v * w).
Proof.
  unfold rl. intros A B X Y. destruct u_small as (U1 & U2 & _). rewrite Rabs_mult.
  replace (v * w - x * y) with ((v - x) * y + x * (w - y) + (v - x) * (w - y)) by ring. eapply Rle_trans; [apply Rabs_triang|]. eapply Rle_trans; [apply Rplus_le_compat_r, Rabs_triang|]. rewrite !Rabs_mult.
  pose proof (Rabs_pos x). pose proof (Rabs_pos y). pose proof (Rabs_pos (v - x)). pose proof (Rabs_pos (w - y)).
  assert (Rabs (v - x) * Rabs y <= a * u * Rabs x * Rabs y) by (apply Rmult_le_compat_r; lra).
  assert (Rabs x * Rabs (w - y) <= Rabs x * (b * u * Rabs y)) by (apply Rmult_le_compat_l; lra).
  assert (Rabs (v - x) * Rabs (w - y) <= (a * u * Rabs x) * (b * u * Rabs y)) by (apply Rmult_le_compat; lra).
  assert (P : 0 <= Rabs x * Rabs y) by (apply Rmult_le_pos; lra). set (p := Rabs x * Rabs y) in *.
  replace (a * u * Rabs x * (b * u * Rabs y)) with (a * b * u * u * p) in * by (unfold p; ring). replace (a * u * Rabs x * Rabs y) with (a * u * p) in * by (unfold p; ring). replace (Rabs x * (b * u * Rabs y)) with (b * u * p) in * by (unfold p; ring).
  assert (a * b <= 10000) by nra. assert (a * b * u <= 0.01) by nra. assert (a * b * u * u * p <= 0.01 * u * p) by (apply Rmult_le_compat_r; [exact P|apply Rmult_le_compat_r; lra]). lra.
Qed.
Lemma rl_inv b y w : 0 <= b <= 100 -> y <> 0 -> rl b y w -> rl (b + 0.01) (/ y) (/ w).
Proof.
  unfold rl. intros B N Y. destruct u_small as (U1 & U2 & _). pose proof (Rabs_pos_lt y N) as P.
  assert (BU : b * u <= 1.3e-14) by nra. assert (W : (1 - b * u) * Rabs y <= Rabs w). { replace w with (y + (w - y)) by ring. pose proof (Rabs_triang_inv y (- (w - y))) as T. rewrite Rabs_Ropp in T. replace (y - - (w - y)) with (y + (w - y)) in T by ring. lra. }
  assert (W0 : 0 < Rabs w) by nra. assert (Nw : w <> 0) by (intros E; subst w; rewrite Rabs_R0 in W0; lra).
  replace (/ w - / y) with (- ((w - y) * / (w * y))) by (field; tauto). rewrite Rabs_Ropp, Rabs_mult, Rabs_inv, Rabs_mult, Rabs_inv.
  assert (I : / (Rabs w * Rabs y) <= (1 + 2 * (b * u)) * / Rabs y * / Rabs y).
  { rewrite Rinv_mult. apply Rmult_le_compat_r; [apply Rlt_le, Rinv_0_lt_compat; lra|].
    apply Rmult_le_reg_r with (Rabs w); [exact W0|]. rewrite Rinv_l by lra. apply Rle_trans with ((1 + 2 * (b * u)) * / Rabs y * ((1 - b * u) * Rabs y)).
    - replace ((1 + 2 * (b * u)) * / Rabs y * ((1 - b * u) * Rabs y)) with ((1 + 2 * (b * u)) * (1 - b * u)) by (field; lra). assert (0 <= b * u) by nra. nra.
    - apply Rmult_le_compat_l; [apply Rmult_le_pos; [nra|apply Rlt_le, Rinv_0_lt_compat; lra]|exact W]. }
  eapply Rle_trans; [apply Rmult_le_compat; [apply Rabs_pos|apply Rlt_le, Rinv_0_lt_compat, Rmult_lt_0_compat; lra|exact Y|exact I]|].
  replace (b * u * Rabs y * ((1 + 2 * (b * u)) * / Rabs y * / Rabs y)) with (b * (1 + 2 * (b * u)) * u * / Rabs y) by (field; lra).
  apply Rmult_le_compat_r; [apply Rlt_le, Rinv_0_lt_compat; lra|]. apply Rmult_le_compat_r; [lra|]. nra.
Qed.
Lemma rl_div a b x y v w : 0 <= a <= 99 -> 0 <= b <= 99 -> y <> 0 -> rl a x v -> rl b y w -> rl (a + b + 0.02) (x / y) (v / w).
Proof. intros A B N X Y. unfold Rdiv. eapply rl_weak; [|apply (rl_mul a (b + 0.01)); [lra|lra|exact X|apply rl_inv; [lra|exact N|exact Y]]]. lra. Qed.
Lemma rl_pos k x v : 0 <= k <= 100 -> 0 < x -> rl k x v -> 0 < v.
Proof. unfold rl. intros K P H. destruct u_small as (U1 & U2 & _). rewrite (Rabs_pos_eq x) in H by lra. apply Rabs_le_inv in H. assert (k * u <= 0.5) by nra. nra. Qed.
Lemma rl_sqrt k x v : 0 <= k <= 100 -> 0 < x -> rl k x v -> rl k (sqrt x) (sqrt v).
Proof.
  intros K P H. pose proof (rl_pos k x v K P H) as Q. unfold rl in *. pose proof (sqrt_lt_R0 _ P) as S. pose proof (sqrt_lt_R0 _ Q) as T. rewrite (Rabs_pos_eq x) in H by lra. rewrite (Rabs_pos_eq (sqrt x)) by lra.
  pose proof (sqrt_sqrt v ltac:(lra)) as Ev. pose proof (sqrt_sqrt x ltac:(lra)) as Ex. set (sv := sqrt v) in *. set (sx := sqrt x) in *.
  replace (v - x) with ((sv - sx) * (sv + sx)) in H by (rewrite <- Ev, <- Ex; ring). rewrite Rabs_mult, (Rabs_pos_eq (sv + sx)) in H by lra. rewrite <- Ex in H.
  pose proof (Rabs_pos (sv - sx)). assert (Rabs (sv - sx) * sx <= k * u * sx * sx) by nra. apply Rmult_le_reg_r with sx; [exact S|lra].
Qed.

(** ** the factor *)
Lemma root_bounds : 1.29 <= sqrt (8 * PI / 15) <= 1.2945.
Proof.
  pose proof pi_bounds as P. split.
  - rewrite <- (sqrt_square 1.29) by lra. apply sqrt_le_1; lra.
  - rewrite <- (sqrt_square 1.2945) by lra. apply sqrt_le_1; lra.
Qed.
Lemma Kp_bounds : 5300 <= Kp <= 5400.
Proof.
  unfold Kp, Hp. pose proof root_bounds as S. pose proof pi_bounds as P. set (s := sqrt _) in *.
  replace (4 * PI * 6.67428e-11 * 6378136.6 * 1025 * (s * (7.2921151467064e-5 ^ 2 * 6378136.6 ^ 4 / 3.986004418e14)) / (3 * 9.7803278))
    with ((s * PI) * (4 * 6.67428e-11 * 6378136.6 * 1025 * (7.2921151467064e-5 ^ 2 * 6378136.6 ^ 4 / 3.986004418e14) / (3 * 9.7803278))) by (unfold Rdiv; ring).
  set (q := 4 * 6.67428e-11 * 6378136.6 * 1025 * (7.2921151467064e-5 ^ 2 * 6378136.6 ^ 4 / 3.986004418e14) / (3 * 9.7803278)).
  assert (Q : 1312 <= q <= 1314) by (unfold q; cbn [pow]; lra). assert (1.29 * 3.1415 <= s * PI <= 1.2945 * 3.1416) by nra. nra.
Qed.
Lemma lit x v : 1e-12 <= Rabs x -> near x v -> rl 1.01 x v.
Proof. intros P N. apply (rl_weak (0 + 1.01)); [lra|]. apply (rl_near 0 x x); [lra|apply rl_self|exact P|exact N]. Qed.
Lemma far x : 1e-12 <= x -> 1e-12 <= Rabs x.
Proof. intros H. rewrite Rabs_pos_eq; lra. Qed.
Lemma low x y a b c : 0 <= a -> 0 <= b -> a <= x -> b <= y -> c <= a * b -> c <= x * y.
Proof. intros A B X Y C. eapply Rle_trans; [exact C|]. apply Rmult_le_compat; assumption. Qed.
Lemma two_pi d : Rabs (d - 2 * PI) <= / 2 ^ 50 -> rl 2 (2 * PI) d.
Proof. intros H. unfold rl. pose proof pi_bounds. rewrite (Rabs_pos_eq (2 * PI)) by lra. eapply Rle_trans; [exact H|]. unfold u. cbn [pow]. lra. Qed.
Lemma factor_error d K : Rabs (d - 2 * PI) <= / 2 ^ 50 -> K_run d K -> rl 31 Kp K.
Proof.
  intros D (Re & Om & G & ge & a & b & s & o & c & p & q & H & k1 & k2 & k3 & k4 & k5 & k6 & N1 & N2 & N3 & N4 & Na & Nb & Ns & No & Nc & Np & Nq & NH & M1 & M2 & M3 & M4 & M5 & M6 & M7).
  pose proof pi_bounds as P. pose proof root_bounds as S. apply two_pi in D.
  apply lit in N1; [|apply far; lra]. apply lit in N2; [|apply far; lra]. apply lit in N3; [|apply far; lra]. apply lit in N4; [|apply far; lra].
  assert (X1 : rl 3.1 (8 * PI) a). { apply (rl_weak (2.01 + 1.01)); [lra|]. apply (rl_near _ _ (4 * d)); [lra| |apply far; lra|exact Na]. replace (8 * PI) with (4 * (2 * PI)) by ring. apply (rl_weak (0 + 2 + 0.01)); [lra|]. apply rl_mul; [lra|lra|apply rl_self|exact D]. }
  assert (X2 : rl 4.2 (8 * PI / 15) b). { apply (rl_weak (3.12 + 1.01)); [lra|]. apply (rl_near _ _ (a / 15)); [lra| |apply far; lra|exact Nb]. apply (rl_weak (3.1 + 0 + 0.02)); [lra|]. apply rl_div; [lra|lra|lra|exact X1|apply rl_self]. }
  assert (X3 : rl 5.3 (sqrt (8 * PI / 15)) s). { apply (rl_weak (4.2 + 1.01)); [lra|]. apply (rl_near _ _ (sqrt b)); [lra|apply rl_sqrt; [lra|lra|exact X2]|apply far; lra|exact Ns]. }
  set (w := sqrt (8 * PI / 15)) in *.
  assert (X4 : rl 3.1 (7.2921151467064e-5 * 7.2921151467064e-5) o). { apply (rl_weak (2.04 + 1.01)); [lra|]. apply (rl_near _ _ (Om * Om)); [lra| |apply far; lra|exact No]. apply (rl_weak (1.01 + 1.01 + 0.01)); [lra|]. apply rl_mul; [lra|lra|exact N2|exact N2]. }
  set (o2 := 7.2921151467064e-5 * 7.2921151467064e-5) in *. assert (O2 : 5e-9 <= o2) by (unfold o2; lra).
  assert (X5 : rl 9.5 (w * o2) c). { apply (rl_weak (8.42 + 1.01)); [lra|]. apply (rl_near _ _ (s * o)); [lra| |apply far; apply (low _ _ 1 5e-9); lra|exact Nc]. apply (rl_weak (5.3 + 3.1 + 0.01)); [lra|]. apply rl_mul; [lra|lra|exact X3|exact X4]. }
  assert (X6 : rl 6.2 (6378136.6 ^ 4) p). { apply (rl_weak (4.08 + 2.01)); [lra|]. apply (rl_close _ _ (Re ^ 4)); [lra| |apply far; cbn [pow]; lra|exact Np]. cbn [pow]. rewrite !Rmult_1_r.
    assert (Y2 : rl 2.03 (6378136.6 * 6378136.6) (Re * Re)) by (apply (rl_weak (1.01 + 1.01 + 0.01)); [lra|]; apply rl_mul; [lra|lra|exact N1|exact N1]).
    assert (Y3 : rl 3.05 (6378136.6 * (6378136.6 * 6378136.6)) (Re * (Re * Re))) by (apply (rl_weak (1.01 + 2.03 + 0.01)); [lra|]; apply rl_mul; [lra|lra|exact N1|exact Y2]).
    eapply rl_weak; [|apply (rl_mul 1.01 3.05); [lra|lra|exact N1|exact Y3]]. lra. }
  set (r4 := 6378136.6 ^ 4) in *. assert (R4 : 1e27 <= r4) by (unfold r4; cbn [pow]; lra).
  assert (LP : 5e-9 <= w * o2) by (apply (low _ _ 1 5e-9); lra).
  assert (X7 : rl 16.8 (w * o2 * r4) q). { apply (rl_weak (15.71 + 1.01)); [lra|]. apply (rl_near _ _ (c * p)); [lra| |apply far; apply (low _ _ 5e-9 1e27); lra|exact Nq]. apply (rl_weak (9.5 + 6.2 + 0.01)); [lra|]. apply rl_mul; [lra|lra|exact X5|exact X6]. }
  assert (LQ : 5e18 <= w * o2 * r4) by (apply (low _ _ 5e-9 1e27); lra).
  assert (X8 : rl 17.9 (w * o2 * r4 / 3.986004418e14) H). { apply (rl_weak (16.82 + 1.01)); [lra|]. apply (rl_near _ _ (q / 3.986004418e14)); [lra| |apply far; lra|exact NH]. apply (rl_weak (16.8 + 0 + 0.02)); [lra|]. apply rl_div; [lra|lra|lra|exact X7|apply rl_self]. }
  assert (EH : w * o2 * r4 / 3.986004418e14 = Hp). { unfold Hp. fold w r4. unfold o2. cbn [pow]. unfold Rdiv. ring. } rewrite EH in X8.
  assert (LH : 1e4 <= Hp) by (rewrite <- EH; lra).
  assert (Z1 : rl 3.1 (4 * PI) k1). { apply (rl_weak (2.01 + 1.01)); [lra|]. apply (rl_near _ _ (2 * d)); [lra| |apply far; lra|exact M1]. replace (4 * PI) with (2 * (2 * PI)) by ring. apply (rl_weak (0 + 2 + 0.01)); [lra|]. apply rl_mul; [lra|lra|apply rl_self|exact D]. }
  assert (L2 : 6e-10 <= 4 * PI * 6.67428e-11) by lra.
  assert (Z2 : rl 5.2 (4 * PI * 6.67428e-11) k2). { apply (rl_weak (4.12 + 1.01)); [lra|]. apply (rl_near _ _ (k1 * G)); [lra| |apply far; lra|exact M2]. apply (rl_weak (3.1 + 1.01 + 0.01)); [lra|]. apply rl_mul; [lra|lra|exact Z1|exact N3]. }
  assert (L3 : 3e-3 <= 4 * PI * 6.67428e-11 * 6378136.6) by lra.
  assert (Z3 : rl 7.3 (4 * PI * 6.67428e-11 * 6378136.6) k3). { apply (rl_weak (6.22 + 1.01)); [lra|]. apply (rl_near _ _ (k2 * Re)); [lra| |apply far; lra|exact M3]. apply (rl_weak (5.2 + 1.01 + 0.01)); [lra|]. apply rl_mul; [lra|lra|exact Z2|exact N1]. }
  assert (L4 : 3 <= 4 * PI * 6.67428e-11 * 6378136.6 * 1025) by lra.
  assert (Z4 : rl 8.4 (4 * PI * 6.67428e-11 * 6378136.6 * 1025) k4). { apply (rl_weak (7.31 + 1.01)); [lra|]. apply (rl_near _ _ (k3 * 1025)); [lra| |apply far; lra|exact M4]. apply (rl_weak (7.3 + 0 + 0.01)); [lra|]. apply rl_mul; [lra|lra|exact Z3|apply rl_self]. }
  set (f := 4 * PI * 6.67428e-11 * 6378136.6 * 1025) in *. assert (L5 : 3e4 <= f * Hp) by (apply (low _ _ 3 1e4); lra).
  assert (Z5 : rl 27.4 (f * Hp) k5). { apply (rl_weak (26.31 + 1.01)); [lra|]. apply (rl_near _ _ (k4 * H)); [lra| |apply far; lra|exact M5]. apply (rl_weak (8.4 + 17.9 + 0.01)); [lra|]. apply rl_mul; [lra|lra|exact Z4|exact X8]. }
  assert (Z6 : rl 28.5 (f * Hp / 3) k6). { apply (rl_weak (27.42 + 1.01)); [lra|]. apply (rl_near _ _ (k5 / 3)); [lra| |apply far; lra|exact M6]. apply (rl_weak (27.4 + 0 + 0.02)); [lra|]. apply rl_div; [lra|lra|lra|exact Z5|apply rl_self]. }
  apply (rl_weak (29.53 + 1.01)); [lra|]. assert (EK : Kp = f * Hp / 3 / 9.7803278) by (unfold Kp; fold f; field; lra). rewrite EK. apply (rl_near _ _ (k6 / ge)); [lra| |apply far; lra|exact M7]. apply (rl_weak (28.5 + 1.01 + 0.02)); [lra|]. apply rl_div; [lra|lra|lra|exact Z6|exact N4].
Qed.
Lemma factor_close d K : Rabs (d - 2 * PI) <= / 2 ^ 50 -> K_run d K -> Rabs (K - Kp) <= 2.1e-11.
Proof. intros D H. pose proof (factor_error d K D H) as F. unfold rl in F. pose proof Kp_bounds as B. rewrite (Rabs_pos_eq Kp) in F by lra. destruct u_small as (U1 & U2 & _). eapply Rle_trans; [exact F|]. apply Rle_trans with (31 * 1.2e-16 * 5400); [apply Rmult_le_compat; lra|lra]. Qed.

(** ** binary64 *)
Section Doubles.
  Variables dsin dcos dsec : double -> double.
  Hypothesis (As : accurate dsin sin) (Ac : accurate dcos cos) (Ax : accurate_sec dsec).
  Variables (dt' xp yp lat lon dpi r1 r2 n1 n2 e1 e2 K' : double) (dt K : R).
  Notation L := [dt'; xp; yp; lat; lon; dpi; r1; r2; n1; n2; e1; e2; K'].
  Notation c := (mkDs (val r1) (val r2) (val n1) (val n2) (val e1) (val e2)).
  Hypothesis (FL : Forall fin L) (HR : in_range dt (val xp) (val yp) (val lat) (val lon) c) (HH : handed_out dt (val dt') (val dpi)) (HK : 0 <= K <= 5400) (HK' : Rabs (val K' - K) <= 4e-11).
  Lemma exec_pole e n k : ok n k e = true -> fin (exec dsin dcos dsec (penv64 L) e) /\ run (penv (val dt') (val xp) (val yp) (val lat) (val lon) (val dpi) c (val K')) e (val (exec dsin dcos dsec (penv64 L) e)).
  Proof.
    intros O. apply andb_prop in O. destruct O as [_ S].
    assert (V : forall i, val (penv64 L i) = penv (val dt') (val xp) (val yp) (val lat) (val lon) (val dpi) c (val K') i) by (intros i; do 13 (destruct i; [reflexivity|]); destruct i; reflexivity).
    assert (Ff : forall i, fin (penv64 L i)). { intros i. unfold penv64. destruct (nth_in_or_default i L dzero) as [I| ->]; [rewrite Forall_forall in FL; exact (FL _ I)|reflexivity]. }
    assert (Ft : fits (penv dt (val xp) (val yp) (val lat) (val lon) PI c K) (fun i => val (penv64 L i)) pvb). { pose proof (fits_pole _ _ _ _ _ _ _ c K (val K') HR HH HK HK') as T. intros i. rewrite V. apply T. }
    destruct (exec_run dsin dcos dsec (penv64 L) _ pvb As Ac Ax Ff Ft e S) as [A B]. split; [exact A|]. exact (FlCip64Proofs.run_ext _ _ V e _ B).
  Qed.
End Doubles.
