From Coq Require Import Reals ZArith List Bool Lia Lra.
From Verif Require Import Base StorageModel StorageSpec MatrixModel MatrixSpec MatrixProofs TideModel TideSpec TideProofs2 PoleModel PoleProofs Poly AlfModel AlfSpec AlfMath AlfProofs.
Import ListNotations.
Open Scope Z_scope.

(** ** C36: accesses *)
(** a matrix of the documented size suffices when order < degree *)
Theorem c36_documented_size_partial h th P f md mo : sized h md P -> shows h md P f -> 0 <= mo < md -> md <= 1024 ->
  exists h', legendre_functions h th md mo P = Ok h' /\ sized h' md P /\ framed h P h'.
Proof. intros S F Hm Hd. destruct (functions_ok h th md P f md mo S F ltac:(lia) ltac:(lia) Hd) as (h' & E & S' & _ & L). eauto. Qed.
(** one more row makes order = degree safe as well *)
Theorem c36_one_row_more_partial h th d P f md mo : sized h d P -> shows h d P f -> 0 <= mo <= md -> md + 1 <= d -> md <= 1024 ->
  exists h', legendre_functions h th md mo P = Ok h' /\ sized h' d P /\ framed h P h'.
Proof. intros S F Hm Hd Hk. destruct (functions_ok h th d P f md mo S F Hm ltac:(lia) Hk) as (h' & E & S' & _ & L). eauto. Qed.
Theorem c36_derivatives_partial h th P f q g md mo : sized h md P -> shows h md P f -> sized h md q -> shows h md q g -> apart q P -> apart P q ->
  0 <= mo < md -> md <= 1023 -> cos th <> 0%R ->
  exists h', legendre_derivatives h th md mo P q = Ok h' /\ sized h' md P /\ sized h' md q /\
    forall x, valid h x -> apart x P -> apart x q -> valid h' x /\ forall i j, kept x (i, j) -> get R h' x i j = get R h x i j.
Proof.
  intros S F Sq G A1 A2 Hm Hk C. destruct (derivatives_ok h th md P f md q g md mo S F Sq G A1 A2 ltac:(lia) ltac:(lia) ltac:(lia) Hk C) as (h' & D & E & S' & _ & Sq' & _ & _ & L). eauto 10.
Qed.
(** order = degree: the last column has one element, the second is written *)
Theorem c36_order_degree_refuted h th P f md : sized h md P -> shows h md P f -> cap P = nelem P -> 0 <= md <= 1024 -> legendre_functions h th md md P = UB.
Proof. intros S F C Hm. exact (exact_ub th h P f 0 None f md (conj S (conj F I)) C ltac:(lia) ltac:(discriminate) ltac:(cbn; lia)). Qed.
Theorem c36_derivatives_order_degree_refuted h th P f e q g md : sized h md P -> shows h md P f -> sized h e q -> shows h e q g -> apart q P -> apart P q -> md <= e ->
  cap P = nelem P -> 0 <= md <= 1023 -> legendre_derivatives h th md md P q = UB.
Proof. intros S F Sq G A1 A2 He C Hm. exact (exact_ub th h P f e (Some q) g md (conj S (conj F (conj Sq (conj G (conj A1 A2))))) C ltac:(lia) ltac:(auto) ltac:(cbn; lia)). Qed.
Theorem c36_assert h th P md mo : md < mo -> legendre_functions h th md mo P = Abort.
Proof. exact (alf_assert th h P None md mo). Qed.
Example c36_nonvacuous : exists (h : mem R) P f, sized h 2 P /\ shows h 2 P f /\ cap P = nelem P.
Proof.
  exists [Live (repeat (Some 0%R) 6)], (cell_mat 0 2), (fun _ _ => Some 0%R).
  assert (S : sized [Live (repeat (Some 0%R) 6)] 2 (cell_mat 0 2)) by (apply (cell_sized _ 0 2 (repeat (Some 0%R) 6)); [lia|reflexivity|reflexivity]). split; [exact S|]. split; [|reflexivity].
  intros n k Hk Hn. assert (Q : (n = 0 /\ k = 0) \/ (n = 1 /\ (k = 0 \/ k = 1)) \/ (n = 2 /\ (k = 0 \/ k = 1 \/ k = 2))) by lia.
  destruct Q as [(-> & ->) | [(-> & [-> | ->]) | (-> & [-> | [-> | ->]])]]; reflexivity.
Qed.

(** ** C37: values *)
(** all functions up to degree md and order mo, and nothing else in the matrix apart from P(1,1) and P(mo+1,mo) *)
Theorem c37_values_partial h th d P f md mo : sized h d P -> shows h d P f -> 0 <= mo <= md -> Z.max md (mo + 1) <= d -> md <= 1024 ->
  exists h', legendre_functions h th md mo P = Ok h' /\
    (forall n k, 0 <= k <= n -> n <= md -> k <= mo -> get R h' P n k = Ok (Some (Pbar (Z.to_nat n) (Z.to_nat k) th))) /\
    (forall n k, 0 <= k <= n -> n <= d -> md < n \/ mo < k -> (n, k) <> (1, 1) -> (n, k) <> (mo + 1, mo) -> get R h' P n k = get R h P n k).
Proof.
  intros S F Hm Hd Hk. destruct (functions_ok h th d P f md mo S F Hm Hd Hk) as (h' & E & S' & F' & L). exists h'. split; [exact E|]. split; intros n k Hn H1 H2.
  - rewrite F' by lia. unfold result_P, written. rewrite (proj2 (Z.leb_le n md)), (proj2 (Z.leb_le k mo)) by lia. reflexivity.
  - intros N1 N2. rewrite F', F by lia. unfold result_P, written.
    destruct (Z.leb_spec n md), (Z.leb_spec k mo), (Z.eqb_spec n 1), (Z.eqb_spec k 1), (Z.eqb_spec n (mo + 1)), (Z.eqb_spec k mo); cbn [andb orb]; try reflexivity; exfalso; subst; (lia || congruence).
Qed.
(** the second routine: same functions, and the derivative with respect to the colatitude *)
Theorem c37_derivatives_partial h th d P f e q g md mo : sized h d P -> shows h d P f -> sized h e q -> shows h e q g -> apart q P -> apart P q ->
  0 <= mo <= md -> Z.max md (mo + 1) <= d -> Z.max md (mo + 1) <= e -> md <= 1023 -> cos th <> 0%R ->
  exists h', legendre_derivatives h th md mo P q = Ok h' /\
    (forall n k, 0 <= k <= n -> n <= md -> k <= mo -> get R h' P n k = Ok (Some (Pbar (Z.to_nat n) (Z.to_nat k) th))) /\
    (forall n k, 0 <= k <= n -> n <= md -> k <= mo -> exists v, get R h' q n k = Ok (Some v) /\
      derivable_pt_lim (fun c => Pbar (Z.to_nat n) (Z.to_nat k) (PI / 2 - c)%R) (PI / 2 - th)%R v).
Proof.
  intros S F Sq G A1 A2 Hm Hd He Hk C. destruct (derivatives_ok h th d P f e q g md mo S F Sq G A1 A2 Hm Hd He Hk C) as (h' & D & E & S' & F' & Sq' & G' & V & L). exists h'. split; [exact E|]. split; intros n k Hn H1 H2.
  - rewrite F' by lia. unfold result_P, written. rewrite (proj2 (Z.leb_le n md)), (proj2 (Z.leb_le k mo)) by lia. reflexivity.
  - exists (D n k). split; [|apply colatitude, V; lia]. rewrite G' by lia. unfold result_D. rewrite (proj2 (Z.leb_le n md)), (proj2 (Z.leb_le k mo)) by lia. reflexivity.
Qed.
(** it is not the derivative with respect to theta, the latitude *)
Theorem c37_latitude_derivative_refuted h th d P f e q g md mo : sized h d P -> shows h d P f -> sized h e q -> shows h e q g -> apart q P -> apart P q ->
  0 <= mo <= md -> 1 <= md -> Z.max md (mo + 1) <= d -> Z.max md (mo + 1) <= e -> md <= 1023 -> cos th <> 0%R ->
  exists h' v, legendre_derivatives h th md mo P q = Ok h' /\ get R h' q 1 0 = Ok (Some v) /\ ~ derivable_pt_lim (Pbar 1 0) th v.
Proof.
  intros S F Sq G A1 A2 Hm H1 Hd He Hk C. destruct (derivatives_ok h th d P f e q g md mo S F Sq G A1 A2 Hm Hd He Hk C) as (h' & D & E & S' & F' & Sq' & G' & V & L). exists h', (D 1 0). split; [exact E|]. split.
  - rewrite G' by lia. unfold result_D. rewrite (proj2 (Z.leb_le 1 md)), (proj2 (Z.leb_le 0 mo)) by lia. reflexivity.
  - intros Q. pose proof (V 1 0 ltac:(lia)) as Q'. change (Z.to_nat 1) with 1%nat in Q'. change (Z.to_nat 0) with 0%nat in Q'. pose proof (uniqueness_limite _ _ _ _ Q Q') as U.
    assert (Q2 : derivable_pt_lim (Pbar 1 0) th (sqrt 3 * cos th)%R). { apply (limit_ext (fun y => sqrt 3 * sin y)%R); [intros y; symmetry; apply Pbar_10|]. apply derivable_pt_lim_scal, derivable_pt_lim_sin. }
    pose proof (uniqueness_limite _ _ _ _ Q Q2) as U2. assert (W : (sqrt 3 * cos th = 0)%R) by lra. apply Rmult_integral in W. destruct W as [W|W]; [|exact (C W)]. pose proof (sqrt_lt_R0 3 ltac:(lra)). lra.
Qed.
(** the specification: first functions in closed form *)
Theorem c37_spec_low_degrees th : Pbar 0 0 th = 1%R /\ Pbar 1 0 th = (sqrt 3 * sin th)%R /\ Pbar 1 1 th = (sqrt 3 * cos th)%R /\
  Pbar 2 0 th = (sqrt 5 * (3 * sin th ^ 2 - 1) / 2)%R /\ Pbar 2 1 th = (sqrt 15 * sin th * cos th)%R.
Proof. exact (conj (Pbar_00 th) (conj (Pbar_10 th) (conj (Pbar_11 th) (conj (Pbar_20 th) (Pbar_21 th))))). Qed.
(** and the defining derivatives *)
Theorem c37_spec_rodrigues n x : peval (rod n) x = ((x ^ 2 - 1) ^ n / (2 ^ n * INR (fact n)))%R /\
  forall k, derivable_pt_lim (peval (iterate k pd (rod n))) x (peval (iterate (S k) pd (rod n)) x).
Proof. split; [apply rod_eval|]. intros k. apply pd_limit. Qed.
Example c37_nonvacuous : exists (h : mem R) P q f g, sized h 1 P /\ shows h 1 P f /\ sized h 1 q /\ shows h 1 q g /\ apart q P /\ apart P q /\ cos 0 <> 0%R.
Proof.
  set (h := [Live (repeat (Some 0%R) 3); Live (repeat None 3)] : mem R).
  exists h, (cell_mat 0 1), (cell_mat 1 1), (fun _ _ => Some 0%R), (fun _ _ => None).
  assert (S0 : sized h 1 (cell_mat 0 1)) by (apply (cell_sized _ 0 1 (repeat (Some 0%R) 3)); [lia|reflexivity|reflexivity]).
  assert (S1 : sized h 1 (cell_mat 1 1)) by (apply (cell_sized _ 1 1 (repeat None 3)); [lia|reflexivity|reflexivity]).
  split; [exact S0|]. split; [|split; [exact S1|split; [|split; [|split]]]].
  - intros n k Hk Hn. assert (Q : (n = 0 /\ k = 0) \/ (n = 1 /\ (k = 0 \/ k = 1))) by lia. destruct Q as [(-> & ->) | (-> & [-> | ->])]; reflexivity.
  - intros n k Hk Hn. assert (Q : (n = 0 /\ k = 0) \/ (n = 1 /\ (k = 0 \/ k = 1))) by lia. destruct Q as [(-> & ->) | (-> & [-> | ->])]; reflexivity.
  - right. discriminate.
  - right. discriminate.
  - rewrite cos_0. lra.
Qed.

(** ** C52: int products *)
(** up to degree 1024 (1023 with derivatives) every intermediate value is an int *)
Theorem c52_factors_partial n m : 0 <= m < n ->
  (n <= 1024 -> anm n m = Ok (sqrt (IZR ((2 * n - 1) * (2 * n + 1)) / IZR ((n - m) * (n + m))))) /\
  (n <= 1024 -> m + 2 <= n -> bnm n m = Ok (sqrt (IZR ((2 * n + 1) * (n + m - 1) * (n - m - 1)) / IZR ((n - m) * (n + m) * (2 * n - 3))))) /\
  (n <= 1023 -> fnm n m = Ok (sqrt (IZR ((n * n - m * m) * (2 * n + 1)) / IZR (2 * n - 1)))).
Proof. intros Hm. split; [intros; apply anm_ok; lia|]. split; [intros; apply bnm_ok; lia|intros; apply fnm_ok; lia]. Qed.
(** the next degrees overflow *)
Theorem c52_factors_refuted n : (1025 <= n <= 20000 -> bnm n 0 = UB) /\ (1024 <= n <= 20000 -> fnm n 0 = UB).
Proof. exact (conj (bnm_overflow n) (fnm_overflow n)). Qed.
(** and every call with such a degree *)
Theorem c52_functions_refuted h th d P f md mo : sized h d P -> shows h d P f -> 0 <= mo <= md -> 1025 <= md <= d -> legendre_functions h th md mo P = UB.
Proof. exact (alf_overflow th h d P f md mo). Qed.
Theorem c52_derivatives_refuted h th d P f e q g md mo : sized h d P -> shows h d P f -> sized h e q -> shows h e q g -> apart q P -> apart P q ->
  0 <= mo <= md -> 1024 <= md <= d -> md <= e -> legendre_derivatives h th md mo P q = UB.
Proof. intros S F Sq G A1 A2. exact (alf_overflow_d th h d P f e q g md mo (conj S (conj F (conj Sq (conj G (conj A1 A2)))))). Qed.
Example c52_nonvacuous : anm 3 1 = Ok (sqrt (35 / 8)) /\ bnm 3 1 = Ok (sqrt (21 / 24)) /\ fnm 3 1 = Ok (sqrt (56 / 5)).
Proof. repeat split. Qed.
Print Assumptions c36_documented_size_partial.
Print Assumptions c36_one_row_more_partial.
Print Assumptions c36_derivatives_partial.
Print Assumptions c36_order_degree_refuted.
Print Assumptions c36_derivatives_order_degree_refuted.
Print Assumptions c36_assert.
Print Assumptions c37_values_partial.
Print Assumptions c37_derivatives_partial.
Print Assumptions c37_latitude_derivative_refuted.
Print Assumptions c37_spec_low_degrees.
Print Assumptions c37_spec_rodrigues.
Print Assumptions c52_factors_partial.
Print Assumptions c52_factors_refuted.
Print Assumptions c52_functions_refuted.
Print Assumptions c52_derivatives_refuted.
