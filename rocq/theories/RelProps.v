From Coq Require Import Reals Lra.
From Verif Require Import Vec RelModel RelSpec RelProofs.
Open Scope R_scope.

(** ** C49 *)
(** (10.12) in SI units; the Earth seen from the Sun is opposite to the Sun seen from the Earth *)
Theorem c49_conventions sat sun GMe GMs J c beta gamma : fst sat <> v0 -> fst sun <> v0 -> GMe <> 0 -> c <> 0 ->
  iers2010_relativistic_acceleration sat sun GMe GMs J c beta gamma =
  acceleration_10_12 GMe GMs c beta gamma (mk3 0 0 J) (fst sat) (snd sat) (vmul (-1) (fst sun)) (vmul (-1) (snd sun)).
Proof. exact (library_spec sat sun GMe GMs J c beta gamma). Qed.
(** the same formula computed in any other unit of length gives the same vector: kilometres (k = 1/1000) as well as metres (k = 1) *)
Theorem c49_units k sat sun GMe GMs J c beta gamma : 0 < k -> fst sat <> v0 -> fst sun <> v0 -> GMe <> 0 -> c <> 0 ->
  let s := len (vmul k (fst sat)) in let km := vmul k in
  iers2010_relativistic_acceleration sat sun GMe GMs J c beta gamma =
  vmul (/ k) (vmul (GMe * (k * k * k) / (c * k * (c * k) * s * s * s))
    (vminus (vplus (schwarzschild (km (fst sat), km (snd sat)) (GMe * (k * k * k)) beta gamma) (lens_thirring (km (fst sat), km (snd sat)) (J * (k * k)) gamma))
      (geodesic (km (fst sat), km (snd sat)) (vmul (-1) (km (fst sun)), vmul (-1) (km (snd sun))) (GMe * (k * k * k)) (GMs * (k * k * k)) gamma))).
Proof. intros K A B C D. cbv zeta. rewrite library_spec by assumption. symmetry. exact (in_units_spec k sat sun GMe GMs J c beta gamma K A B C D). Qed.
(** general relativity and the constants of the library *)
Theorem c49_defaults sat sun : fst sat <> v0 -> fst sun <> v0 -> let GM := 3.986004418e14 in let c := 299792458 in
  default_acceleration sat sun =
  vplus (vplus (vmul (GM / (c ^ 2 * len (fst sat) ^ 3)) (vplus (vmul (4 * (GM / len (fst sat)) - dot (snd sat) (snd sat)) (fst sat)) (vmul (4 * dot (fst sat) (snd sat)) (snd sat))))
    (lense_thirring_term GM c 1 (mk3 0 0 9.8e8) (fst sat) (snd sat)))
    (de_sitter_term 1.32712442099e20 c 1 (vmul (-1) (fst sun)) (vmul (-1) (snd sun)) (snd sat)).
Proof.
  intros A B. cbv zeta. unfold default_acceleration. rewrite library_spec by (assumption || lra). unfold acceleration_10_12, schwarzschild_term. do 3 f_equal. f_equal; f_equal; ring.
Qed.
(** the two precession terms do no work: only the Schwarzschild part changes the energy *)
Theorem c49_power sat sun GMe GMs J c beta gamma : fst sat <> v0 -> fst sun <> v0 -> GMe <> 0 -> c <> 0 ->
  dot (iers2010_relativistic_acceleration sat sun GMe GMs J c beta gamma) (snd sat) = dot (schwarzschild_term GMe c beta gamma (fst sat) (snd sat)) (snd sat).
Proof.
  intros. rewrite library_spec by assumption. unfold acceleration_10_12.
  destruct (precession_no_work GMe GMs c gamma (mk3 0 0 J) (fst sat) (snd sat) (vmul (-1) (fst sun)) (vmul (-1) (snd sun))) as [A B].
  unfold dot in A, B |- *. unfold vplus. cbn [p1 p2 p3]. lra.
Qed.
(** frames turned about the axis of the Earth give the same vector *)
Theorem c49_turned a r v R V GMe GMs J c beta gamma : r <> v0 -> R <> v0 -> GMe <> 0 -> c <> 0 ->
  iers2010_relativistic_acceleration (turn_z a r, turn_z a v) (turn_z a R, turn_z a V) GMe GMs J c beta gamma = turn_z a (iers2010_relativistic_acceleration (r, v) (R, V) GMe GMs J c beta gamma).
Proof.
  intros A B C D. rewrite !library_spec by (cbn [fst]; auto using turn_v0). cbn [fst snd]. rewrite !turn_mul. apply turn_spec.
Qed.
Example c49_nonvacuous : fst (mk3 7e6 0 0, mk3 0 7.5e3 0) <> v0 /\ p1 (default_acceleration (mk3 7e6 0 0, v0) (mk3 1.5e11 0 0, v0)) <> 0.
Proof.
  assert (N : forall x, x <> 0 -> mk3 x 0 0 <> v0) by (intros x H E; apply H; exact (f_equal p1 E)). assert (A : (7e6 : R) <> 0) by lra. assert (B : (1.5e11 : R) <> 0) by lra.
  split; [apply N, A|]. rewrite c49_defaults by (apply N; assumption). cbn [fst snd].
  assert (L : len (mk3 7e6 0 0) = 7e6). { unfold len, dot. cbn [p1 p2 p3]. replace (7e6 * 7e6 + 0 * 0 + 0 * 0) with (7e6 * 7e6) by ring. apply sqrt_square. lra. }
  rewrite L. unfold lense_thirring_term, de_sitter_term, dot, cross, vplus, vmul, v0. cbn [p1 p2 p3]. rewrite L. lra.
Qed.
Print Assumptions c49_conventions.
Print Assumptions c49_units.
Print Assumptions c49_defaults.
Print Assumptions c49_power.
Print Assumptions c49_turned.
