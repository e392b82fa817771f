(** Property theorems for C70: rounding errors of the pole series. *)
From Coq Require Import Reals ZArith List Bool Lia Lra.
From Flocq Require Import Core.Core IEEE754.BinarySingleNaN.
From Verif Require Import Base Angles PiBound Poly KahanModel FundModel FundSpec FundProofs CipRow CipModel CipSpec CipProofs2 FlModel FlProofs FlFloatModel FlFloatProofs FlCipModel FlCipProofs FlCipProofs2 FlCip64Model FlCip64Proofs.
Import ListNotations.
Open Scope R_scope.

(** ** evaluation with rounding *)
(** whatever the roundings, the result of an expression stays within the computed bound of its exact value *)
Theorem c70_bound ex co vb e v : fits ex co vb -> run co e v ->
  Rabs (eval ex e) <= IZR (fst (bnd vb e)) / 2 ^ 120 /\ Rabs (v - eval ex e) <= IZR (snd (bnd vb e)) / 2 ^ 120.
Proof. intros F H. exact (bnd_sound ex co vb F e v H). Qed.
(** evaluation in binary64 is such an evaluation, and no intermediate value overflows *)
Theorem c70_doubles dsin dcos dsec env ex vb e : accurate dsin sin -> accurate dcos cos -> accurate_sec dsec ->
  (forall i, fin (env i)) -> fits ex (fun i => B2R (env i)) vb -> snd (bnds vb e) = true ->
  fin (exec dsin dcos dsec env e) /\ run (fun i => B2R (env i)) e (B2R (exec dsin dcos dsec env e)).
Proof. intros A B C D E. exact (exec_run dsin dcos dsec env ex vb A B C D E e). Qed.
(** exact evaluation is one as well *)
Theorem c70_exact_run env e : run env e (eval env e).
Proof.
  assert (N : forall x, near x x) by (intros x; unfold near; rewrite Rminus_diag_eq, Rabs_R0 by reflexivity; pose proof u_small; pose proof (Rabs_pos x); nra).
  assert (P : forall k, 0 <= / 2 ^ k) by (intros k; apply Rlt_le, Rinv_0_lt_compat, pow_lt; lra).
  induction e as [i|n|n k|a IH|a IHa b IHb|a IHa b IHb|a IHa b IHb|a IH d|a IH|a IH|a IH]; cbn [run eval]; try reflexivity; try apply N.
  - exists (eval env a). split; [exact IH|reflexivity].
  - exists (eval env a), (eval env b). split; [exact IHa|]. split; [exact IHb|apply N].
  - exists (eval env a), (eval env b). split; [exact IHa|]. split; [exact IHb|apply N].
  - exists (eval env a), (eval env b). split; [exact IHa|]. split; [exact IHb|apply N].
  - exists (eval env a). split; [exact IH|apply N].
  - exists (eval env a). split; [exact IH|]. rewrite Rminus_diag_eq, Rabs_R0 by reflexivity. apply P.
  - exists (eval env a). split; [exact IH|]. rewrite Rminus_diag_eq, Rabs_R0 by reflexivity. apply P.
  - exists (eval env a). split; [exact IH|]. rewrite Rminus_diag_eq, Rabs_R0 by reflexivity. pose proof u_small. pose proof (Rabs_pos (sec2rad (eval env a))). nra.
Qed.
(** a fused multiply-add is covered: the product need not be rounded *)
Theorem c70_contracted env a b c x y z v : run env a x -> run env b y -> run env c z -> near (x * y + z) v -> run env (Add (Mul a b) c) v.
Proof.
  intros A B C N. cbn [run]. exists (x * y), z. split; [|split; [exact C|exact N]]. exists x, y. split; [exact A|]. split; [exact B|].
  unfold near. rewrite Rminus_diag_eq, Rabs_R0 by reflexivity. pose proof u_small. pose proof (Rabs_pos (x * y)). nra.
Qed.

(** ** the expressions are the code's: evaluated exactly they give the functions of C68 *)
Theorem c70_expressions F t x y : length F = 14%nat ->
  (exists ex ey, detail_xycip06ae = Ok (ex, ey) /\ detail_xycip06a F t = Ok (eval (venv F t 0 0) ex, eval (venv F t 0 0) ey)) /\
  eval (venv F t x y) detail_s06e = detail_s06 F t x y.
Proof.
  intros H. split; [|apply s06_link, H]. destruct (check_some _ check_xy_ok) as (a & b & D). exists a, b. split; [exact D|]. apply (detail_link F t 0 0 H a b D).
Qed.
Theorem c70_angles t : Forall2 (fun e c => eval (tenv t) e = peval c t) lunisolare lunisolar /\ Forall2 (fun e c => eval (tenv t) e = peval c t) planetarye planetary /\
  eval (tenv t) fapa03e = peval precession t.
Proof. split; [apply lunisolar_link|]. split; [apply planetary_link|apply fapa_link]. Qed.

(** ** within a century of J2000 *)
(** the fourteen arguments are accurate to 10^-11 radians, apart from whole turns; T is the computed number of centuries *)
Theorem c70_arguments d2pi T t F : Rabs (d2pi - 2 * PI) <= / 2 ^ 50 -> Rabs t <= 1 -> Rabs (T - t) <= / 2 ^ 53 -> arguments_run d2pi T F ->
  length F = 14%nat /\ exists G, same_angles G (iers_arguments t) /\ Forall2 (fun f g => Rabs (f - g) <= 1 / 10 ^ 11) F G.
Proof.
  intros HD Ht HT H. destruct (arguments_error d2pi T t F HD Ht HT H) as (L & G & _ & C & E). split; [exact L|]. exists G. split; [exact E|].
  clear -C. induction C as [|f g F G [_ A] C IH]; constructor; assumption.
Qed.
(** given such arguments the series adds rounding errors below 0.0002 microarcseconds *)
Theorem c70_series F G T t x y : length F = 14%nat -> length G = 14%nat -> Forall2 (fun f g => Rabs g <= 7 /\ Rabs (f - g) <= 1 / 10 ^ 11) F G -> Rabs t <= 1 -> Rabs (T - t) <= / 2 ^ 53 ->
  (exists ex ey, detail_xycip06ae = Ok (ex, ey) /\ run (venv F T 0 0) (Sec (Mul ex (Dec 1 6))) x /\ run (venv F T 0 0) (Sec (Mul ey (Dec 1 6))) y) ->
  Rabs (x - uas (X_iers G t)) <= uas 0.0002 /\ Rabs (y - uas (Y_iers G t)) <= uas 0.0002.
Proof. exact (pole_error F G T t x y). Qed.
(** so the computed pole is that of the Conventions within 0.0002 microarcseconds *)
Theorem c70_pole d2pi T t x y F : Rabs (d2pi - 2 * PI) <= / 2 ^ 50 -> Rabs t <= 1 -> Rabs (T - t) <= / 2 ^ 53 -> xycip06a_run d2pi T x y F ->
  Rabs (x - uas (X_iers (iers_arguments t) t)) <= uas 0.0002 /\ Rabs (y - uas (Y_iers (iers_arguments t) t)) <= uas 0.0002.
Proof.
  intros HD Ht HT (A & S). destruct (arguments_error d2pi T t F HD Ht HT A) as (LF & G & LG & C & E). destruct (iers_turns G _ t E) as (<- & <- & _).
  exact (pole_error F G T t x y LF LG C Ht HT S).
Qed.
(** and the locator within 0.00001 microarcseconds *)
Theorem c70_locator d2pi T t x y s : Rabs (d2pi - 2 * PI) <= / 2 ^ 50 -> Rabs t <= 1 -> Rabs (T - t) <= / 2 ^ 53 -> Rabs x <= 0.1 -> Rabs y <= 0.1 -> s06_run d2pi T x y s ->
  Rabs (s - (uas (S_iers (iers_arguments t) t) - x * y / 2)) <= uas 0.00001.
Proof.
  intros HD Ht HT Hx Hy (F & A & S). destruct (arguments_error d2pi T t F HD Ht HT A) as (LF & G & LG & C & E). destruct (iers_turns G _ t E) as (_ & _ & <-).
  exact (locator_error F G T t x y s LF LG C Ht HT Hx Hy S).
Qed.
(** two builds that round differently agree to 0.0004 microarcseconds *)
Theorem c70_builds d2pi d2pi' T T' t x y F x' y' F' : Rabs (d2pi - 2 * PI) <= / 2 ^ 50 -> Rabs (d2pi' - 2 * PI) <= / 2 ^ 50 -> Rabs t <= 1 -> Rabs (T - t) <= / 2 ^ 53 -> Rabs (T' - t) <= / 2 ^ 53 ->
  xycip06a_run d2pi T x y F -> xycip06a_run d2pi' T' x' y' F' -> Rabs (x - x') <= uas 0.0004 /\ Rabs (y - y') <= uas 0.0004.
Proof.
  intros HD HD' Ht HT HT' A B. destruct (c70_pole _ _ t _ _ _ HD Ht HT A) as [A1 A2], (c70_pole _ _ t _ _ _ HD' Ht HT' B) as [B1 B2].
  assert (U : uas 0.0004 = uas 0.0002 + uas 0.0002) by (unfold uas; lra). apply Rabs_le_inv in A1, A2, B1, B2. split; apply Rabs_le; lra.
Qed.

(** ** in binary64 *)
Section Library.
  Variables (dsin dcos dsec : double -> double) (dfmod : double -> double -> double) (d2pi : double).
  Definition library : Prop := accurate dsin sin /\ accurate dcos cos /\ accurate_sec dsec /\ exact_fmod dfmod /\ fin d2pi /\ Rabs (B2R d2pi - 2 * PI) <= / 2 ^ 50.
  (** no operation overflows, and the results are those of the Conventions *)
  Theorem c70_binary64 (T : double) t : library -> fin T -> Rabs t <= 1 -> Rabs (B2R T - t) <= / 2 ^ 53 ->
    exists x y, xycip64 dsin dcos dsec dfmod d2pi T = Ok (x, y) /\ fin x /\ fin y /\
      Rabs (B2R x - uas (X_iers (iers_arguments t) t)) <= uas 0.0002 /\ Rabs (B2R y - uas (Y_iers (iers_arguments t) t)) <= uas 0.0002.
  Proof.
    intros (As & Ac & Ax & Am & Fp & Hp) FT Ht HT. destruct (xycip64_run dsin dcos dsec dfmod d2pi As Ac Ax Am Fp Hp T t FT Ht HT) as (x & y & E & Fx & Fy & Rn).
    exists x, y. split; [exact E|]. split; [exact Fx|]. split; [exact Fy|]. exact (c70_pole _ _ t _ _ _ Hp Ht HT Rn).
  Qed.
  Theorem c70_binary64_locator (T x y : double) t : library -> fin T -> Rabs t <= 1 -> Rabs (B2R T - t) <= / 2 ^ 53 -> fin x -> fin y -> Rabs (B2R x) <= 0.1 -> Rabs (B2R y) <= 0.1 ->
    let s := s06_64 dsin dcos dsec dfmod d2pi T x y in fin s /\ Rabs (B2R s - (uas (S_iers (iers_arguments t) t) - B2R x * B2R y / 2)) <= uas 0.00001.
  Proof.
    intros (As & Ac & Ax & Am & Fp & Hp) FT Ht HT Fx Fy Hx Hy s. destruct (s06_64_run dsin dcos dsec dfmod d2pi As Ac Ax Am Fp Hp T t FT Ht HT x y Fx Fy Hx Hy) as [Fs Rn].
    split; [exact Fs|]. exact (c70_locator _ _ t _ _ _ Hp Ht HT Hx Hy Rn).
  Qed.
End Library.
(** std::fmod of two doubles is a double: it can be exact *)
Theorem c70_fmod (x y : double) : generic_format radix2 (SpecFloat.fexp 53 1024) (fmod (B2R x) (B2R y)).
Proof. exact (fmod_format x y). Qed.
(** the library functions asked for exist *)
Theorem c70_library : library (lib_trig sin) (lib_trig cos) (lib_trig sec2rad) lib_fmod (of_real (2 * PI)).
Proof.
  split; [apply lib_trig_ok, SIN_bound|]. split; [apply lib_trig_ok, COS_bound|]. split; [exact lib_sec_ok|]. split; [exact lib_fmod_ok|]. exact lib_pi_ok.
Qed.

Example c70_nonvacuous : fin (of_int 1) /\ Rabs 1 <= 1 /\ Rabs (B2R (of_int 1) - 1) <= / 2 ^ 53 /\ fits (tenv 1) (tenv 1) tvb /\ snd (bnds tvb fapa03e) = true /\
  exists F, arguments_run (2 * PI) 1 F.
Proof.
  destruct (of_int_ok 1 eq_refl) as [A B]. split; [exact A|]. split; [rewrite Rabs_R1; lra|]. split; [rewrite B, Rminus_diag_eq, Rabs_R0 by reflexivity; apply Rlt_le, Rinv_0_lt_compat, pow_lt; lra|].
  split; [apply fits_t; [rewrite Rabs_R1; lra|rewrite Rminus_diag_eq, Rabs_R0 by reflexivity; apply Rlt_le, Rinv_0_lt_compat, pow_lt; lra]|]. split; [exact fapa_safe|].
  assert (L : forall es, exists L, Forall2 (lunisolar_run 1) es L).
  { induction es as [|e es (L & IH)]; [exists []; constructor|]. exists (sec2rad (fmod (eval (tenv 1) e) TURNAS) :: L). constructor; [|exact IH]. exists (eval (tenv 1) e). split; [apply c70_exact_run|].
    rewrite Rminus_diag_eq, Rabs_R0 by reflexivity. pose proof u_small. pose proof (Rabs_pos (sec2rad (fmod (eval (tenv 1) e) TURNAS))). nra. }
  assert (P : forall es, exists L, Forall2 (planetary_run (2 * PI) 1) es L).
  { induction es as [|e es (Q & IH)]; [exists []; constructor|]. exists (fmod (eval (tenv 1) e) (2 * PI) :: Q). constructor; [|exact IH]. exists (eval (tenv 1) e). split; [apply c70_exact_run|reflexivity]. }
  destruct (L lunisolare) as (L' & HL), (P planetarye) as (P' & HP). exists (L' ++ P' ++ [eval (tenv 1) fapa03e]). do 3 eexists. split; [reflexivity|]. split; [exact HL|]. split; [exact HP|apply c70_exact_run].
Qed.
Print Assumptions c70_bound.
Print Assumptions c70_doubles.
Print Assumptions c70_exact_run.
Print Assumptions c70_contracted.
Print Assumptions c70_expressions.
Print Assumptions c70_angles.
Print Assumptions c70_arguments.
Print Assumptions c70_series.
Print Assumptions c70_pole.
Print Assumptions c70_locator.
Print Assumptions c70_builds.
Print Assumptions c70_binary64.
Print Assumptions c70_binary64_locator.
Print Assumptions c70_fmod.
Print Assumptions c70_library.
