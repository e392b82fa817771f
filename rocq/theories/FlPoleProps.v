(** Property theorems for C87: rounding errors of the pole tides. *)
From Coq Require Import Reals ZArith List Bool Lia Lra.
From Flocq Require Import Core.Core IEEE754.BinarySingleNaN.
From Verif Require Import PiBound KahanModel FundModel FlModel FlProofs FlFloatModel FlFloatProofs FlCipProofs FlCipProofs2 PoleModel PoleSpec PoleProps FlPoleModel FlPoleSpec FlPoleProofs.
From Verif Require FlCip64Proofs FlCipProps.
Import ListNotations.
Open Scope R_scope.

(** ** the expressions are the code's: evaluated exactly they are the functions of C31 *)
Theorem c87_expressions dt xp yp lat lon c : let E := penv dt xp yp lat lon PI c Kp in
  (eval E solidCe, eval E solidSe) = solid_coeffs dt xp yp /\ (eval E oceanCe, eval E oceanSe) = ocean_coeffs21 dt xp yp /\
  (forall i e, In e (solid_variants i) -> eval E e = comp i (solid_deformation dt xp yp lat lon)) /\
  (forall i e, In e (ocean_variants i) -> eval E e =
     comp i (ocean_deformation dt xp yp c ((- sin lon, - sin lat * cos lon, cos lat * cos lon), (cos lon, - sin lat * sin lon, cos lat * sin lon), (0, cos lat, sin lat))
               6378136.6 3.986004418e14 7.2921151467064e-5 6.67428e-11 9.7803278)).
Proof.
  cbv zeta. destruct (coeffs_link dt xp yp lat lon c Kp) as (A & B & C & D). rewrite A, B, C, D, c31_solid, c31_ocean. split; [reflexivity|]. split; [reflexivity|].
  split; [intros i e H; rewrite (solid_link dt xp yp lat lon c Kp i e H), c31_displacement; reflexivity|].
  intros i e H. rewrite (ocean_link dt xp yp lat lon c Kp i e eq_refl H), c31_ocean_displacement by lra. unfold ocean_displacement. cbv zeta. fold Hp. fold Kp.
  set (gr := g_real _ _). set (gi := g_imag _ _). unfold comp, times, addv, mulv, e_theta, e_lambda, e_r. rewrite sin_shift, cos_shift. destruct i as [|[|i]]; ring.
Qed.

(** ** whatever the roundings; in_range: within 128 years of J2000, poles up to 2 arcseconds, coefficients of the site up to 1;
    handed_out: years good to 2^-44, DPI to 2^-50 *)
Definition nowhere : desai := mkDs 0 0 0 0 0 0.
Theorem c87_coeffs dt dt' xp yp lat lon dpi v w p q : in_range dt xp yp lat lon nowhere -> handed_out dt dt' dpi ->
  let E := penv dt' xp yp lat lon dpi nowhere 0 in
  run E solidCe v -> run E solidSe w -> run E oceanCe p -> run E oceanSe q ->
  Rabs (v - -1.333e-9 * (m1 dt xp + 0.0115 * m2 dt yp)) <= 2.5e-24 /\ Rabs (w - -1.333e-9 * (m2 dt yp - 0.0115 * m1 dt xp)) <= 2.5e-24 /\
  Rabs (p - -2.1778e-10 * (m1 dt xp - 0.01724 * m2 dt yp)) <= 3.4e-25 /\ Rabs (q - -1.7232e-10 * (m2 dt yp - 0.03365 * m1 dt xp)) <= 3.4e-25.
Proof.
  intros I H E R1 R2 R3 R4. pose proof (fits_pole dt dt' xp yp lat lon dpi nowhere 0 0 I H ltac:(lra) ltac:(rewrite Rminus_diag_eq, Rabs_R0 by reflexivity; lra)) as F.
  destruct (coeffs_link dt xp yp lat lon nowhere 0) as (<- & <- & <- & <-).
  pose proof check_solid_coeffs as C. rewrite forallb_forall in C. pose proof check_ocean_coeffs as D. rewrite forallb_forall in D.
  pose proof (error_of _ _ _ _ _ _ F (C solidCe ltac:(cbn; tauto)) ltac:(lia) R1) as B1. pose proof (error_of _ _ _ _ _ _ F (C solidSe ltac:(cbn; tauto)) ltac:(lia) R2) as B2.
  pose proof (error_of _ _ _ _ _ _ F (D oceanCe ltac:(cbn; tauto)) ltac:(lia) R3) as B3. pose proof (error_of _ _ _ _ _ _ F (D oceanSe ltac:(cbn; tauto)) ltac:(lia) R4) as B4.
  change (10 ^ 25)%Z with 10000000000000000000000000%Z in *. change (10 ^ 26)%Z with 100000000000000000000000000%Z in *.
  split; [eapply Rle_trans; [exact B1|lra]|]. split; [eapply Rle_trans; [exact B2|lra]|]. split; [eapply Rle_trans; [exact B3|lra]|]. eapply Rle_trans; [exact B4|lra].
Qed.
(** the displacement of the solid Earth, component by component: 2.7 femtometres *)
Theorem c87_solid dt dt' xp yp lat lon dpi i v : in_range dt xp yp lat lon nowhere -> handed_out dt dt' dpi ->
  some_run (penv dt' xp yp lat lon dpi nowhere 0) (solid_variants i) v -> Rabs (v - comp i (solid_displacement dt xp yp lat lon)) <= 2.7e-15.
Proof.
  intros I H (e & M & Rn). pose proof (fits_pole dt dt' xp yp lat lon dpi nowhere 0 0 I H ltac:(lra) ltac:(rewrite Rminus_diag_eq, Rabs_R0 by reflexivity; lra)) as F.
  rewrite <- (solid_link dt xp yp lat lon nowhere 0 i e M). pose proof (error_of _ _ _ _ _ _ F (solid_ok i e M) ltac:(lia) Rn) as B. change (10 ^ 16)%Z with 10000000000000000%Z in B. eapply Rle_trans; [exact B|lra].
Qed.
(** the factor of the ocean pole tide, with the default constants *)
Theorem c87_factor d K : Rabs (d - 2 * PI) <= / 2 ^ 50 -> K_run d K -> 5300 <= Kp <= 5400 /\ Rabs (K - Kp) <= 2.1e-11.
Proof. intros D H. split; [exact Kp_bounds|exact (factor_close d K D H)]. Qed.
Theorem c87_ocean dt dt' xp yp lat lon dpi c d K i v : in_range dt xp yp lat lon c -> handed_out dt dt' dpi -> Rabs (d - 2 * PI) <= / 2 ^ 50 -> K_run d K ->
  some_run (penv dt' xp yp lat lon dpi c K) (ocean_variants i) v -> Rabs (v - comp i (ocean_displacement dt xp yp lat lon c)) <= 2.7e-15.
Proof.
  intros I H D HK (e & M & Rn). destruct (c87_factor d K D HK) as [B C]. pose proof (fits_pole dt dt' xp yp lat lon dpi c Kp K I H ltac:(lra) ltac:(lra)) as F.
  rewrite <- (ocean_link dt xp yp lat lon c Kp i e eq_refl M). pose proof (error_of _ _ _ _ _ _ F (ocean_ok i e M) ltac:(lia) Rn) as X. change (10 ^ 16)%Z with 10000000000000000%Z in X. eapply Rle_trans; [exact X|lra].
Qed.
(** two builds differ by less than six femtometres *)
Theorem c87_builds dt dt' dt'' xp yp lat lon dpi dpi' c d d' K K' i v w : in_range dt xp yp lat lon c -> handed_out dt dt' dpi -> handed_out dt dt'' dpi' -> Rabs (d - 2 * PI) <= / 2 ^ 50 -> Rabs (d' - 2 * PI) <= / 2 ^ 50 ->
  K_run d K -> K_run d' K' -> some_run (penv dt' xp yp lat lon dpi c K) (ocean_variants i) v -> some_run (penv dt'' xp yp lat lon dpi' c K') (ocean_variants i) w -> Rabs (v - w) <= 5.4e-15.
Proof.
  intros I H H' D D' HK HK' R1 R2. pose proof (c87_ocean _ _ _ _ _ _ _ _ _ _ _ _ I H D HK R1) as A. pose proof (c87_ocean _ _ _ _ _ _ _ _ _ _ _ _ I H' D' HK' R2) as B.
  apply Rabs_le_inv in A, B. apply Rabs_le. lra.
Qed.

(** ** binary64 *)
Section Library.
  Variables dsin dcos dsec : double -> double.
  Variables (dt' xp yp lat lon dpi r1 r2 n1 n2 e1 e2 K' : double) (dt : R).
  Notation V := (@B2R 53 1024).
  Notation c := (mkDs (V r1) (V r2) (V n1) (V n2) (V e1) (V e2)).
  Notation L := [dt'; xp; yp; lat; lon; dpi; r1; r2; n1; n2; e1; e2; K'].
  (** every expression the build may have chosen is finite and accurate *)
  Theorem c87_binary64 : accurate dsin sin -> accurate dcos cos -> accurate_sec dsec -> Forall fin L ->
    in_range dt (V xp) (V yp) (V lat) (V lon) c -> handed_out dt (V dt') (V dpi) -> Rabs (V K' - Kp) <= 2.1e-11 ->
    forall i,
    (forall e, In e (solid_variants i) -> fin (exec dsin dcos dsec (penv64 L) e) /\ Rabs (V (exec dsin dcos dsec (penv64 L) e) - comp i (solid_displacement dt (V xp) (V yp) (V lat) (V lon))) <= 2.7e-15) /\
    (forall e, In e (ocean_variants i) -> fin (exec dsin dcos dsec (penv64 L) e) /\ Rabs (V (exec dsin dcos dsec (penv64 L) e) - comp i (ocean_displacement dt (V xp) (V yp) (V lat) (V lon) c)) <= 2.7e-15) /\
    forall e, In e [solidCe; solidSe; oceanCe; oceanSe] -> fin (exec dsin dcos dsec (penv64 L) e) /\ Rabs (V (exec dsin dcos dsec (penv64 L) e) - eval (penv dt (V xp) (V yp) (V lat) (V lon) PI c Kp) e) <= 2.5e-24.
  Proof.
    intros As Ac Ax FL I H HK i. pose proof Kp_bounds as BK.
    pose proof (fits_pole dt (V dt') (V xp) (V yp) (V lat) (V lon) (V dpi) c Kp (V K') I H ltac:(lra) ltac:(lra)) as F.
    pose proof (fun e n k O => exec_pole dsin dcos dsec As Ac Ax dt' xp yp lat lon dpi r1 r2 n1 n2 e1 e2 K' dt Kp FL I H ltac:(lra) ltac:(lra) e n k O) as X.
    split; [|split].
    - intros e M. destruct (X e _ _ (solid_ok i e M)) as [A B]. split; [exact A|]. rewrite <- (solid_link dt (V xp) (V yp) (V lat) (V lon) c Kp i e M).
      pose proof (error_of _ _ _ _ _ _ F (solid_ok i e M) ltac:(lia) B) as Y. change (10 ^ 16)%Z with 10000000000000000%Z in Y. eapply Rle_trans; [exact Y|lra].
    - intros e M. destruct (X e _ _ (ocean_ok i e M)) as [A B]. split; [exact A|]. rewrite <- (ocean_link dt (V xp) (V yp) (V lat) (V lon) c Kp i e eq_refl M).
      pose proof (error_of _ _ _ _ _ _ F (ocean_ok i e M) ltac:(lia) B) as Y. change (10 ^ 16)%Z with 10000000000000000%Z in Y. eapply Rle_trans; [exact Y|lra].
    - intros e M. assert (O : ok 25 (10 ^ 25) e = true \/ ok 34 (10 ^ 26) e = true).
      { pose proof check_solid_coeffs as C. rewrite forallb_forall in C. pose proof check_ocean_coeffs as D. rewrite forallb_forall in D.
        destruct M as [<-|[<-|[<-|[<-|[]]]]]; [left; apply C; cbn; tauto|left; apply C; cbn; tauto|right; apply D; cbn; tauto|right; apply D; cbn; tauto]. }
      change (10 ^ 25)%Z with 10000000000000000000000000%Z in O. change (10 ^ 26)%Z with 100000000000000000000000000%Z in O.
      destruct O as [O|O]; destruct (X e _ _ O) as [A B]; (split; [exact A|]); pose proof (error_of _ _ _ _ _ _ F O ltac:(lia) B) as Y; (eapply Rle_trans; [exact Y|lra]).
  Qed.
End Library.

(** the exact evaluation is one run, and the hypotheses are those of a station *)
Example c87_nonvacuous : let c := mkDs 0.04 0.01 0.005 (-0.002) 0.003 0.001 in
  in_range 20 0.2 0.45 0.7 0.4 c /\ handed_out 20 20 PI /\ K_run (2 * PI) Kp /\
  (forall i, (i < 3)%nat -> some_run (penv 20 0.2 0.45 0.7 0.4 PI c Kp) (ocean_variants i) (comp i (ocean_displacement 20 0.2 0.45 0.7 0.4 c))).
Proof.
  cbv zeta. assert (N : forall x, near x x). { intros x. unfold near. rewrite Rminus_diag_eq, Rabs_R0 by reflexivity. destruct u_small as (U1 & _ & T1 & _). pose proof (Rabs_pos x). nra. }
  split. { unfold in_range. cbn [rR rI nR nI eR eI]. repeat split; apply Rabs_le; lra. }
  split. { unfold handed_out. rewrite !Rminus_diag_eq, Rabs_R0 by reflexivity. split; apply Rlt_le, Rinv_0_lt_compat, pow_lt; lra. }
  split.
  - set (s := sqrt (8 * PI / 15)). set (W := 7.2921151467064e-5). set (r := 6378136.6). set (G := 6.67428e-11).
    exists r, W, G, 9.7803278, (8 * PI), (8 * PI / 15), s, (W * W), (s * (W * W)), (r ^ 4), (s * (W * W) * r ^ 4), Hp, (4 * PI), (4 * PI * G), (4 * PI * G * r), (4 * PI * G * r * 1025), (4 * PI * G * r * 1025 * Hp), (4 * PI * G * r * 1025 * Hp / 3).
    replace (4 * (2 * PI)) with (8 * PI) by ring. replace (2 * (2 * PI)) with (4 * PI) by ring. fold s. repeat (split; [first [apply N | idtac]|]).
    + rewrite Rminus_diag_eq, Rabs_R0 by reflexivity. destruct u_small as (U1 & _ & T1 & _). pose proof (Rabs_pos (r ^ 4)). nra.
    + replace (s * (W * W) * r ^ 4 / 3.986004418e14) with Hp by (unfold Hp; fold s W r; cbn [pow]; unfold Rdiv; ring). apply N.
    + replace (4 * PI * G * r * 1025 * Hp / 3 / 9.7803278) with Kp by (unfold Kp; fold G r; field; lra). apply N.
  - intros i Hi. exists (nth 0 (ocean_variants i) (Int 0)). assert (M : In (nth 0 (ocean_variants i) (Int 0)) (ocean_variants i)) by (destruct i as [|[|[|i]]]; [left; reflexivity|left; reflexivity|left; reflexivity|lia]).
    split; [exact M|]. rewrite <- (ocean_link _ _ _ _ _ _ Kp i _ eq_refl M). apply FlCipProps.c70_exact_run.
Qed.
Print Assumptions c87_expressions.
Print Assumptions c87_coeffs.
Print Assumptions c87_solid.
Print Assumptions c87_factor.
Print Assumptions c87_ocean.
Print Assumptions c87_builds.
Print Assumptions c87_binary64.
