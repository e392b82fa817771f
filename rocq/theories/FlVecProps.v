(** C78: rounding errors of the third body attraction and of the relativistic acceleration. *)
From Coq Require Import Reals ZArith Lia Lra.
From Verif Require Import Vec FlModel FlProofs PmModel PmSpec PmProps RelModel RelSpec RelProps FlVecModel FlVecSpec FlVecProofs FlVecProofs2 FlVecProofs3 FlVecProofs4.
Open Scope R_scope.

(** ** C78 *)
Lemma positive_len a x : 0 < x -> x <= len a -> a <> v0.
Proof. intros P H ->. unfold len, dot, v0 in H. cbn in H. replace (0 * 0 + 0 * 0 + 0 * 0) with 0 in H by ring. rewrite sqrt_0 in H. lra. Qed.
Lemma apart r b x : 0 < x -> x <= len (vminus r b) -> r <> b.
Proof. intros P H ->. apply (positive_len _ _ P H). unfold vminus, v0. f_equal; ring. Qed.
(** each component of the acceleration, distances from a millimetre to 10^18 metres *)
Theorem c78_third_body r b GM o i : / 2 ^ 10 <= len (vminus r b) <= 2 ^ 60 -> / 2 ^ 10 <= len b <= 2 ^ 60 -> 1 <= Rabs GM <= 2 ^ 90 -> pm_acceleration_run r b GM o ->
  Rabs (comp i o - comp i (vminus (newton GM b r) (newton GM b v0))) <= 14 * / 2 ^ 53 * pm_size GM b r.
Proof.
  intros H1 H2 H3 R. pose proof (Rinv_0_lt_compat _ (pow_lt 2 10 ltac:(lra))) as P. assert (E : pm_acceleration r b GM = vminus (newton GM b r) (newton GM b v0)) by (apply c40_newton; [apply (apart _ _ _ P), H1|apply (positive_len _ _ P), H2]).
  pose proof (pm_error r b GM H1 H2 H3 o R) as Q. cbv zeta in Q. rewrite E in Q. destruct Q as (A & B & C).
  unfold pm_size. rewrite <- Rmult_assoc. destruct i as [|[|i]]; assumption.
Qed.
(** the overload with partial derivatives *)
Theorem c78_partials r b GM o J : / 2 ^ 10 <= len (vminus r b) <= 2 ^ 60 -> / 2 ^ 10 <= len b <= 2 ^ 60 -> 1 <= Rabs GM <= 2 ^ 90 -> pm_partials_run r b GM o J ->
  pm_acceleration_run r b GM o /\ forall i j, (i < 3)%nat -> (j < 3)%nat -> Rabs (J i j - tidal GM b r i j) <= 94 * / 2 ^ 53 * Rabs GM * / len (vminus r b) ^ 3.
Proof.
  intros H1 H2 H3 (R & RJ). split; [exact R|]. intros i j I K. pose proof (Rinv_0_lt_compat _ (pow_lt 2 10 ltac:(lra))) as P. pose proof (jacobian_error r b GM H1 H2 H3 i j (J i j) I K (RJ i j I K)) as Q.
  replace (tidal GM b r i j) with (entry (snd (pm_partials r b GM)) i j); [exact Q|]. rewrite <- jacobian_exact by assumption. unfold tidal, pm_jacobian_ex, cube. cbv zeta. cbn [exact fnorm].
  change (exact (fdot (fmap2 Mi (fval r) (fval b)) (fmap2 Mi (fval r) (fval b)))) with (dot (vminus r b) (vminus r b)). change (sqrt (dot (vminus r b) (vminus r b))) with (len (vminus r b)). rewrite len_sq. assert (D : 0 < len (vminus r b)) by lra.
  assert (E : forall k, exact (part k (fmap2 Mi (fval r) (fval b))) = comp k (vminus r b)) by (intros [|[|k]]; reflexivity). rewrite !E. set (d := len (vminus r b)) in *. field. lra.
Qed.
(** relativistic acceleration *)
Theorem c78_relativity r v rs vs GMe GMs J c beta gamma V W Jm o i : 1 <= len r <= 2 ^ 40 -> len v <= V -> / 2 ^ 10 <= V <= 2 ^ 30 -> 1 <= len rs <= 2 ^ 50 -> len vs <= W -> / 2 ^ 10 <= W <= 2 ^ 30 ->
  1 <= GMe <= 2 ^ 70 -> 1 <= GMs <= 2 ^ 90 -> Rabs J <= Jm -> 1 <= Jm <= 2 ^ 50 -> 1 <= c <= 2 ^ 30 -> / 4 <= beta <= 4 -> / 4 <= gamma <= 4 -> relativistic_run r v rs vs GMe GMs J c beta gamma o ->
  Rabs (comp i o - comp i (acceleration_10_12 GMe GMs c beta gamma (mk3 0 0 J) r v (vmul (-1) rs) (vmul (-1) vs))) <= 82 * / 2 ^ 53 * rel_size GMe GMs c beta gamma Jm V W (len r) (len rs).
Proof.
  intros H1 H2 H3 H4 H5 H6 H7 H8 H9 H10 H11 H12 H13 (R1 & R2 & R3).
  assert (E : acceleration_10_12 GMe GMs c beta gamma (mk3 0 0 J) r v (vmul (-1) rs) (vmul (-1) vs) = vexact (relativistic_ex r v rs vs GMe GMs J c beta gamma)).
  { rewrite relativistic_exact, c49_conventions; [reflexivity|apply (positive_len r 1); cbn [fst]; lra|apply (positive_len rs 1); cbn [fst]; lra|lra|lra]. }
  rewrite E. pose proof (fun k w => relativistic_acc r v rs vs GMe GMs J c beta gamma V W Jm H1 H2 H3 H4 H5 H6 H7 H8 H9 H10 H11 H12 H13 k w) as A.
  destruct i as [|[|i]]; [exact (A 0%nat _ R1)|exact (A 1%nat _ R2)|exact (A 2%nat _ R3)].
Qed.
(** the evaluations without rounding are among those considered *)
Theorem c78_exact : (forall r b GM, pm_acceleration_run r b GM (pm_acceleration r b GM)) /\
  (forall r b GM, pm_partials_run r b GM (pm_acceleration r b GM) (fun i j => exact (pm_jacobian_ex r b GM i j))) /\
  (forall r v rs vs GMe GMs J c beta gamma, relativistic_run r v rs vs GMe GMs J c beta gamma (iers2010_relativistic_acceleration (r, v) (rs, vs) GMe GMs J c beta gamma)).
Proof.
  split; [|split].
  - intros r b GM. exact (vrounded_exact (pm_ex r b GM)).
  - intros r b GM. split; [exact (vrounded_exact (pm_ex r b GM))|]. intros i j _ _. apply rounded_exact.
  - intros. unfold relativistic_run. rewrite <- relativistic_exact. apply vrounded_exact.
Qed.
(** what is lost by cancellation: the radial difference of the attractions of a body at d times the satellite's distance is at least 2/d^3, the size in
    the bound at most 5/d^2, so that the relative error is at most 35 d 2^-53 *)
Theorem c78_tidal_size d : 2 <= d -> let b := mk3 d 0 0 in let r := mk3 1 0 0 in pm_size 1 b r <= 5 / d ^ 2 /\ p1 (vminus (newton 1 b r) (newton 1 b v0)) >= 2 / d ^ 3.
Proof.
  intros D b r. assert (L1 : len (vminus r b) = d - 1). { unfold len, dot, vminus, r, b. cbn [p1 p2 p3]. replace ((1 - d) * (1 - d) + (0 - 0) * (0 - 0) + (0 - 0) * (0 - 0)) with ((d - 1) * (d - 1)) by ring. apply sqrt_square. lra. }
  assert (L1' : len (vminus b r) = d - 1). { unfold len, dot, vminus, r, b. cbn [p1 p2 p3]. replace ((d - 1) * (d - 1) + (0 - 0) * (0 - 0) + (0 - 0) * (0 - 0)) with ((d - 1) * (d - 1)) by ring. apply sqrt_square. lra. }
  assert (L2 : len b = d). { unfold len, dot, b. cbn [p1 p2 p3]. replace (d * d + 0 * 0 + 0 * 0) with (d * d) by ring. apply sqrt_square. lra. }
  assert (L2' : len (vminus b v0) = d). { unfold len, dot, b, vminus, v0. cbn [p1 p2 p3]. replace ((d - 0) * (d - 0) + (0 - 0) * (0 - 0) + (0 - 0) * (0 - 0)) with (d * d) by ring. apply sqrt_square. lra. }
  split.
  - unfold pm_size. rewrite L1, L2, Rabs_R1, Rmult_1_l. assert (Q : / (d - 1) ^ 2 <= 4 / d ^ 2). { apply Rmult_le_reg_l with ((d - 1) ^ 2 * d ^ 2); [apply Rmult_lt_0_compat; apply pow_lt; lra|]. replace ((d - 1) ^ 2 * d ^ 2 * / (d - 1) ^ 2) with (d ^ 2) by (field; lra). replace ((d - 1) ^ 2 * d ^ 2 * (4 / d ^ 2)) with (4 * (d - 1) ^ 2) by (field; lra). nra. }
    unfold Rdiv in *. lra.
  - unfold newton. rewrite L1', L2'. unfold vminus, vmul, r, b, v0. cbn [p1 p2 p3]. apply Rle_ge. apply Rmult_le_reg_l with ((d - 1) ^ 3 * d ^ 3); [apply Rmult_lt_0_compat; apply pow_lt; lra|].
    replace ((d - 1) ^ 3 * d ^ 3 * (2 / d ^ 3)) with (2 * (d - 1) ^ 3) by (field; lra). replace ((d - 1) ^ 3 * d ^ 3 * (1 / (d - 1) ^ 3 * (d - 1) - 1 / d ^ 3 * (d - 0))) with ((d - 1) * d ^ 3 - d * (d - 1) ^ 3) by (field; lra). nra.
Qed.

(** ** instances *)
Lemma len_axis x : 0 <= x -> len (mk3 x 0 0) = x /\ len (mk3 0 x 0) = x.
Proof. intros P. unfold len, dot. cbn [p1 p2 p3]. replace (x * x + 0 * 0 + 0 * 0) with (x * x) by ring. replace (0 * 0 + x * x + 0 * 0) with (x * x) by ring. split; apply sqrt_square, P. Qed.
Lemma powers : 2 ^ 30 = 1073741824 /\ 2 ^ 40 = 1099511627776 /\ 2 ^ 50 = 1125899906842624 /\ 2 ^ 60 = 1152921504606846976 /\ 2 ^ 70 = 1180591620717411303424 /\ 2 ^ 90 = 1237940039285380274899124224 /\ / 2 ^ 10 <= 1.
Proof. repeat split; [exact (pow_IZR 2 30)|exact (pow_IZR 2 40)|exact (pow_IZR 2 50)|exact (pow_IZR 2 60)|exact (pow_IZR 2 70)|exact (pow_IZR 2 90)|cbn [pow]; lra]. Qed.
(** the Moon and a satellite *)
Example c78_nonvacuous : let r := mk3 7e6 0 0 in let b := mk3 (-4e8) 0 0 in pm_acceleration_run r b 4.9e12 (pm_acceleration r b 4.9e12) /\ / 2 ^ 10 <= len (vminus r b) <= 2 ^ 60 /\ / 2 ^ 10 <= len b <= 2 ^ 60 /\ 1 <= Rabs 4.9e12 <= 2 ^ 90.
Proof.
  cbv zeta. destruct powers as (_ & _ & _ & E1 & _ & E2 & E3). rewrite E1, E2. split; [apply c78_exact|].
  assert (L1 : len (mk3 (-4e8) 0 0) = 4e8) by (unfold len, dot; cbn [p1 p2 p3]; replace (-4e8 * -4e8 + 0 * 0 + 0 * 0) with (4e8 * 4e8) by ring; apply sqrt_square; lra).
  assert (L2 : vminus (mk3 7e6 0 0) (mk3 (-4e8) 0 0) = mk3 407e6 0 0) by (unfold vminus; cbn [p1 p2 p3]; f_equal; lra). rewrite L1, L2, (proj1 (len_axis 407e6 ltac:(lra))). split; [lra|]. split; [lra|]. rewrite Rabs_pos_eq; lra.
Qed.
Example c78_relativity_nonvacuous : let r := mk3 7e6 0 0 in let v := mk3 0 7.5e3 0 in let rs := mk3 0 1.5e11 0 in let vs := mk3 3e4 0 0 in
  relativistic_run r v rs vs 3.986004418e14 1.32712442099e20 9.8e8 299792458 1 1 (default_acceleration (r, v) (rs, vs)) /\ 1 <= len r <= 2 ^ 40 /\ len v <= 8000 /\ / 2 ^ 10 <= 8000 <= 2 ^ 30 /\ 1 <= len rs <= 2 ^ 50 /\ len vs <= 40000 /\
  1 <= 3.986004418e14 <= 2 ^ 70 /\ 1 <= 1.32712442099e20 <= 2 ^ 90 /\ Rabs 9.8e8 <= 1e9 /\ 1 <= 1e9 <= 2 ^ 50 /\ 1 <= 299792458 <= 2 ^ 30.
Proof.
  cbv zeta. destruct powers as (E1 & E2 & E3 & _ & E4 & E5 & E6). rewrite E1, E2, E3, E4, E5. split; [apply c78_exact|]. rewrite (proj1 (len_axis 7e6 ltac:(lra))), (proj2 (len_axis 7.5e3 ltac:(lra))), (proj2 (len_axis 1.5e11 ltac:(lra))), (proj1 (len_axis 3e4 ltac:(lra))), (Rabs_pos_eq 9.8e8) by lra. lra.
Qed.
Print Assumptions c78_third_body.
Print Assumptions c78_partials.
Print Assumptions c78_relativity.
Print Assumptions c78_exact.
Print Assumptions c78_tidal_size.
