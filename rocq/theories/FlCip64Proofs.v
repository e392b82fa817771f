(** Proofs about FlCip64Model. *)
From Coq Require Import Reals ZArith List Bool Lia Lra.
From Flocq Require Import Core.Core IEEE754.BinarySingleNaN.
From Flocq Require Import Div_sqrt_error.
From Verif Require Import Base PiBound Angles KahanModel FundModel FundProofs CipModel CipSpec FlModel FlProofs FlFloatModel FlFloatProofs FlCipModel FlCipProofs FlCipProofs2 FlCip64Model.
Import ListNotations.
Open Scope R_scope.
Notation val := (@B2R 53 1024).

(** std::fmod is exact *)
Definition exact_fmod (g : double -> double -> double) : Prop := forall x y, fin x -> fin y -> 0 < val y -> fin (g x y) /\ val (g x y) = fmod (val x) (val y).
Lemma lunisolar_safe : Forall (fun e => snd (bnds tvb e) = true) lunisolare.
Proof. repeat (apply Forall_cons; [vm_compute; reflexivity|]). apply Forall_nil. Qed.
Lemma planetary_safe : Forall (fun e => snd (bnds tvb e) = true) planetarye.
Proof. repeat (apply Forall_cons; [vm_compute; reflexivity|]). apply Forall_nil. Qed.
Lemma fapa_safe : snd (bnds tvb fapa03e) = true.
Proof. vm_compute. reflexivity. Qed.

Section Doubles.
  Variables (dsin dcos dsec : double -> double) (dfmod : double -> double -> double) (d2pi : double).
  Hypothesis (As : accurate dsin sin) (Ac : accurate dcos cos) (Ax : accurate_sec dsec) (Am : exact_fmod dfmod) (Fp : fin d2pi) (Hp : Rabs (val d2pi - 2 * PI) <= / 2 ^ 50).
  Variables (T : double) (t : R).
  Hypothesis (FT : fin T) (Ht : Rabs t <= 1) (HT : Rabs (val T - t) <= / 2 ^ 53).
  Lemma d2pi_pos : 0 < val d2pi.
  Proof. pose proof pi_bounds. apply Rabs_le_inv in Hp. cbn [pow] in Hp. lra. Qed.
  Lemma at_run e : snd (bnds tvb e) = true -> fin (at_t dsin dcos dsec T e) /\ run (tenv (val T)) e (val (at_t dsin dcos dsec T e)).
  Proof. intros S. apply (exec_run dsin dcos dsec (fun _ => T) (tenv t) tvb As Ac Ax (fun _ => FT) (fits_t (val T) t Ht HT) e S). Qed.
  Lemma turn_int : fin (of_int 1296000) /\ val (of_int 1296000) = 1296000.
  Proof. apply of_int_ok. reflexivity. Qed.
  Lemma lunisolar64_run e : snd (bnds tvb e) = true -> fin (lunisolar64 dsin dcos dsec dfmod T e) /\ lunisolar_run (val T) e (val (lunisolar64 dsin dcos dsec dfmod T e)).
  Proof.
    intros S. destruct (at_run e S) as [F Rn], turn_int as [Ft Vt]. destruct (Am _ _ F Ft) as [Fm Vm]; [rewrite Vt; lra|]. rewrite Vt in Vm.
    destruct (Ax _ Fm) as [Fx Vx].
    - rewrite Vm. pose proof (fmod_bound (val (at_t dsin dcos dsec T e)) 1296000 ltac:(lra)). apply Rle_trans with 1296000; [apply Rabs_le; lra|]. unfold big. cbn [pow]. lra.
    - split; [exact Fx|]. exists (val (at_t dsin dcos dsec T e)). split; [exact Rn|]. unfold TURNAS. rewrite <- Vm. exact Vx.
  Qed.
  Lemma planetary64_run e : snd (bnds tvb e) = true -> fin (planetary64 dsin dcos dsec dfmod d2pi T e) /\ planetary_run (val d2pi) (val T) e (val (planetary64 dsin dcos dsec dfmod d2pi T e)).
  Proof.
    intros S. destruct (at_run e S) as [F Rn]. destruct (Am _ _ F Fp d2pi_pos) as [Fm Vm]. split; [exact Fm|]. exists (val (at_t dsin dcos dsec T e)). split; [exact Rn|exact Vm].
  Qed.
  Notation F64 := (arguments64 dsin dcos dsec dfmod d2pi T).
  Lemma map_run (P : expr -> R -> Prop) (f : expr -> double) l : Forall (fun e => fin (f e) /\ P e (val (f e))) l -> Forall fin (map f l) /\ Forall2 P l (map val (map f l)).
  Proof. induction 1 as [|e l [A B] H [C D]]; cbn [map]; split; constructor; assumption. Qed.
  Lemma arguments64_run : Forall fin F64 /\ arguments_run (val d2pi) (val T) (map val F64).
  Proof.
    destruct (map_run (lunisolar_run (val T)) (lunisolar64 dsin dcos dsec dfmod T) lunisolare) as [A B].
    { eapply Forall_impl; [|exact lunisolar_safe]. intros e. apply lunisolar64_run. }
    destruct (map_run (planetary_run (val d2pi) (val T)) (planetary64 dsin dcos dsec dfmod d2pi T) planetarye) as [C D].
    { eapply Forall_impl; [|exact planetary_safe]. intros e. apply planetary64_run. }
    destruct (at_run fapa03e fapa_safe) as [E G]. unfold arguments64. split.
    - apply Forall_app. split; [exact A|]. apply Forall_app. split; [exact C|]. constructor; [exact E|constructor].
    - rewrite !map_app. cbn [map]. do 3 eexists. split; [reflexivity|]. split; [exact B|]. split; [exact D|exact G].
  Qed.
  Lemma zero_fin : fin dzero /\ val dzero = 0.
  Proof. split; reflexivity. Qed.
  Lemma env_fin F x y i : Forall fin F -> fin x -> fin y -> fin (env64 F T x y i).
  Proof.
    intros HF Hx Hy. unfold env64. destruct (Nat.lt_ge_cases i (length (F ++ [T; x; y]))) as [L|L].
    - apply (proj1 (Forall_forall _ _) (proj2 (Forall_app _ _ _) (conj HF (Forall_cons _ FT (Forall_cons _ Hx (Forall_cons _ Hy (Forall_nil _)))))) (nth i (F ++ [T; x; y]) dzero)). apply nth_In, L.
    - rewrite nth_overflow by exact L. reflexivity.
  Qed.
  Lemma env_val F x y i : val (env64 F T x y i) = venv (map val F) (val T) (val x) (val y) i.
  Proof. unfold env64, venv. replace (map val F ++ [val T; val x; val y]) with (map val (F ++ [T; x; y])) by (rewrite map_app; reflexivity). change 0 with (val dzero). rewrite map_nth. reflexivity. Qed.
  Lemma run_ext E E' : (forall i, E i = E' i) -> forall e v, run E e v -> run E' e v.
  Proof.
    intros H. induction e as [i|n|n k|a IH|a IHa b IHb|a IHa b IHb|a IHa b IHb|a IH d|a IH|a IH|a IH]; cbn [run]; intros v Hv; try exact Hv.
    - rewrite <- H. exact Hv.
    - destruct Hv as (x & A & B). exists x. split; [apply IH, A|exact B].
    - destruct Hv as (x & y & A & B & C). exists x, y. split; [apply IHa, A|]. split; [apply IHb, B|exact C].
    - destruct Hv as (x & y & A & B & C). exists x, y. split; [apply IHa, A|]. split; [apply IHb, B|exact C].
    - destruct Hv as (x & y & A & B & C). exists x, y. split; [apply IHa, A|]. split; [apply IHb, B|exact C].
    - destruct Hv as (x & A & B). exists x. split; [apply IH, A|exact B].
    - destruct Hv as (x & A & B). exists x. split; [apply IH, A|exact B].
    - destruct Hv as (x & A & B). exists x. split; [apply IH, A|exact B].
    - destruct Hv as (x & A & B). exists x. split; [apply IH, A|exact B].
  Qed.
  Lemma series_run x y e : fin x -> fin y -> Rabs (val x) <= 0.1 -> Rabs (val y) <= 0.1 -> snd (bnds vbs e) = true ->
    fin (exec dsin dcos dsec (env64 F64 T x y) e) /\ run (venv (map val F64) (val T) (val x) (val y)) e (val (exec dsin dcos dsec (env64 F64 T x y) e)).
  Proof.
    intros Fx Fy Hx Hy S. destruct arguments64_run as [Ff Ar]. destruct (arguments_error _ _ _ _ Hp Ht HT Ar) as (LF & G & LG & C & _).
    pose proof (fits_args _ G _ t _ _ LF LG C Ht HT Hx Hy) as Ft.
    assert (Ft' : fits (venv G t (val x) (val y)) (fun i => val (env64 F64 T x y i)) vbs) by (intros i; rewrite env_val; apply Ft).
    destruct (exec_run dsin dcos dsec (env64 F64 T x y) _ vbs As Ac Ax (fun i => env_fin F64 x y i Ff Fx Fy) Ft' e S) as [A B].
    split; [exact A|]. apply (run_ext _ _ (env_val F64 x y)), B.
  Qed.
  Lemma xycip64_run : exists x y, xycip64 dsin dcos dsec dfmod d2pi T = Ok (x, y) /\ fin x /\ fin y /\ xycip06a_run (val d2pi) (val T) (val x) (val y) (map val F64).
  Proof.
    destruct (check_some _ check_xy_ok) as (a & b & D). destruct (check_both _ a b check_xy_ok D) as [A B]. apply good_ok in A, B. unfold xycip64. rewrite D. cbn [bind].
    assert (Z : Rabs (val dzero) <= 0.1) by (cbn; rewrite Rabs_R0; lra).
    destruct (series_run dzero dzero _ eq_refl eq_refl Z Z (proj2 A)) as [FA RA], (series_run dzero dzero _ eq_refl eq_refl Z Z (proj2 B)) as [FB RB].
    do 2 eexists. split; [reflexivity|]. split; [exact FA|]. split; [exact FB|]. split; [apply arguments64_run|]. exists a, b. split; [exact D|]. split; [exact RA|exact RB].
  Qed.
  Lemma s06_64_run x y : fin x -> fin y -> Rabs (val x) <= 0.1 -> Rabs (val y) <= 0.1 ->
    fin (s06_64 dsin dcos dsec dfmod d2pi T x y) /\ s06_run (val d2pi) (val T) (val x) (val y) (val (s06_64 dsin dcos dsec dfmod d2pi T x y)).
  Proof.
    intros Fx Fy Hx Hy. destruct (series_run x y detail_s06e Fx Fy Hx Hy (proj2 (good_ok _ _ check_s))) as [A B]. split; [exact A|]. exists (map val F64). split; [apply arguments64_run|exact B].
  Qed.
End Doubles.

(** ** library functions with these properties exist *)
Lemma trunc_Ztrunc x : trunc x = Ztrunc x.
Proof.
  assert (I : forall y, Int_part y = Zfloor y) by (intros y; symmetry; apply Zfloor_imp; rewrite plus_IZR; apply int_part_range).
  unfold trunc, Ztrunc. destruct (Rle_dec 0 x) as [H|H].
  - rewrite Rlt_bool_false by exact H. apply I.
  - rewrite Rlt_bool_true by lra. unfold Zceil. rewrite I. reflexivity.
Qed.
(** the remainder of two doubles is a double *)
Lemma fmod_format (x y : double) : generic_format radix2 fx (fmod (val x) (val y)).
Proof.
  unfold fmod. rewrite trunc_Ztrunc, (Rmult_comm (val y)). apply format_REM_ZR; try apply generic_format_B2R.
  - change fx with (FLT_exp (-1074) 53). apply FLT_exp_valid. reflexivity.
  - change fx with (FLT_exp (-1074) 53). apply FLT_exp_monotone.
Qed.
Lemma of_real_exact x : generic_format radix2 fx x -> Rabs x < bpow radix2 1024 -> fin (of_real x) /\ val (of_real x) = x.
Proof.
  intros G H. assert (I : rn x = x) by (unfold rn; apply round_generic; [apply valid_rnd_N|exact G]).
  pose proof (binary_normalize_correct 53 1024 Hprec Hmax mode_NE (Ztrunc (scaled_mantissa radix2 fx (rn x))) (cexp radix2 fx (rn x)) false) as C. cbv zeta in C.
  assert (E : F2R (Float radix2 (Ztrunc (scaled_mantissa radix2 fx (rn x))) (cexp radix2 fx (rn x))) = x) by (rewrite I; symmetry; exact G). rewrite E in C.
  change (round radix2 fx (round_mode mode_NE) x) with (rn x) in C. rewrite I, Rlt_bool_true in C by exact H. destruct C as (V & F & _). unfold of_real. rewrite I. split; [exact F|exact V].
Qed.
Definition lib_trig (f : R -> R) (x : double) : double := of_real (f (val x)).
Definition lib_fmod (x y : double) : double := of_real (fmod (val x) (val y)).
Lemma lib_trig_ok f : (forall x, -1 <= f x <= 1) -> accurate (lib_trig f) f.
Proof.
  intros B x _ _. pose proof (B (val x)) as H. assert (A : Rabs (f (val x)) <= 1) by (apply Rabs_le; lra). destruct (of_real_ok (f (val x))) as [F N]; [pose proof big_ge; lra|].
  split; [exact F|]. unfold near in N. eapply Rle_trans; [exact N|]. pose proof u_pos. assert (u * Rabs (f (val x)) <= u) by (rewrite <- (Rmult_1_r u) at 2; apply Rmult_le_compat_l; lra).
  assert (tiny <= u). { unfold tiny, u. apply Rinv_le_contravar; [apply pow_lt; lra|]. apply Rle_pow; [lra|]. apply Nat.leb_le. vm_compute. reflexivity. }
  assert (/ 2 ^ 52 = 2 * u) by (unfold u; cbn [pow]; lra). lra.
Qed.
Lemma lib_sec_ok : accurate_sec (lib_trig sec2rad).
Proof.
  intros x _ H. assert (S : Rabs (sec2rad (val x)) <= Rabs (val x)). { unfold sec2rad. pose proof pi_bounds. replace (val x * PI / 648000) with (val x * (PI / 648000)) by (unfold Rdiv; ring).
    rewrite Rabs_mult, (Rabs_pos_eq (PI / 648000)) by lra. pose proof (Rabs_pos (val x)). assert (PI / 648000 <= 1) by lra. assert (0 <= PI / 648000) by lra. nra. }
  destruct (of_real_ok (sec2rad (val x))) as [F N]; [lra|]. split; [exact F|]. unfold near in N. eapply Rle_trans; [exact N|]. pose proof u_pos. pose proof (Rabs_pos (sec2rad (val x))). nra.
Qed.
Lemma lib_fmod_ok : exact_fmod lib_fmod.
Proof.
  intros x y Fx Fy H. apply of_real_exact; [apply fmod_format|]. pose proof (fmod_bound (val x) (val y) H) as B. pose proof (abs_B2R_lt_emax 53 1024 y) as L. rewrite (Rabs_pos_eq (val y)) in L by lra.
  eapply Rlt_trans; [|exact L]. apply Rabs_def1; lra.
Qed.
Lemma lib_pi_ok : fin (of_real (2 * PI)) /\ Rabs (val (of_real (2 * PI)) - 2 * PI) <= / 2 ^ 50.
Proof.
  pose proof pi_bounds. assert (P : Rabs (2 * PI) = 2 * PI) by (apply Rabs_pos_eq; lra). destruct (of_real_ok (2 * PI)) as [F N]; [rewrite P; unfold big; cbn [pow]; lra|].
  split; [exact F|]. unfold near in N. rewrite P in N. eapply Rle_trans; [exact N|]. assert (tiny <= unit120) by exact tiny_ok.
  assert (E : / 2 ^ 50 = 8 * u) by (unfold u; cbn [pow]; lra). assert (unit120 <= u) by (unfold unit120, u; cbn [pow]; lra). pose proof u_pos. nra.
Qed.
