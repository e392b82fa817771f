From Coq Require Import Reals Lra.
From Verif Require Import Vec RelModel RelSpec.
Open Scope R_scope.

Lemma dot_scale k a : dot (vmul k a) (vmul k a) = (k * k) * dot a a.
Proof. unfold dot, vmul. cbn [p1 p2 p3]. ring. Qed.
Lemma len_scale k a : 0 <= k -> len (vmul k a) = k * len a.
Proof. intros K. unfold len. rewrite dot_scale, sqrt_mult, sqrt_square; auto using dot_nonneg. nra. Qed.
Lemma len_opp a : len (vmul (-1) a) = len a.
Proof. unfold len. rewrite dot_scale. f_equal. ring. Qed.
Lemma vmul_vmul k l a : vmul k (vmul l a) = vmul (k * l) a.
Proof. unfold vmul. cbn [p1 p2 p3]. f_equal; ring. Qed.
Lemma kilo_nonneg : 0 <= 1e-3. Proof. lra. Qed.
Ltac coords := apply v3_eq; cbv [schwarzschild lens_thirring geodesic sscale schwarzschild_term lense_thirring_term de_sitter_term acceleration_10_12 vplus vminus vmul cross dot fst snd p1 p2 p3].

(** any unit of length *)
Definition in_units (k : R) (sat sun : state) (GMe GMs J c beta gamma : R) : v3 :=
  let GM' := GMe * (k * k * k) in let GMs' := GMs * (k * k * k) in let J' := J * (k * k) in let c' := c * k in
  let rsat := sscale k sat in let s := len (fst rsat) in
  vmul (/ k) (vmul (GM' / (c' * c' * s * s * s)) (vminus (vplus (schwarzschild rsat GM' beta gamma) (lens_thirring rsat J' gamma)) (geodesic rsat (sscale (-1) (sscale k sun)) GM' GMs' gamma))).
Lemma in_units_spec k sat sun GMe GMs J c beta gamma : 0 < k -> fst sat <> v0 -> fst sun <> v0 -> GMe <> 0 -> c <> 0 ->
  in_units k sat sun GMe GMs J c beta gamma = acceleration_10_12 GMe GMs c beta gamma (mk3 0 0 J) (fst sat) (snd sat) (vmul (-1) (fst sun)) (vmul (-1) (snd sun)).
Proof.
  destruct sat as [r v]. destruct sun as [R V]. cbn [fst snd]. intros K Nr NR NG Nc. unfold in_units.
  pose proof (len_pos r Nr) as Pr. pose proof (len_pos R NR) as PR.
  unfold schwarzschild, lens_thirring, geodesic, sscale, acceleration_10_12, schwarzschild_term, lense_thirring_term, de_sitter_term. cbn [fst snd].
  rewrite !len_opp, !len_scale by lra. set (s := len r) in *. set (S := len R) in *. clearbody s S. destruct r as [r1 r2 r3], v as [v1 v2 v3], R as [R1 R2 R3], V as [V1 V2 V3].
  apply v3_eq; cbv [vplus vminus vmul cross dot p1 p2 p3]; field; repeat split; lra.
Qed.
Lemma library_units sat sun GMe GMs J c beta gamma : iers2010_relativistic_acceleration sat sun GMe GMs J c beta gamma = in_units 1e-3 sat sun GMe GMs J c beta gamma.
Proof.
  unfold iers2010_relativistic_acceleration, in_units. replace (1e-3 * 1e-3 * 1e-3) with 1e-9 by lra. replace (1e-3 * 1e-3) with 1e-6 by lra. replace (/ 1e-3) with 1e3 by lra. reflexivity.
Qed.
Lemma library_spec sat sun GMe GMs J c beta gamma : fst sat <> v0 -> fst sun <> v0 -> GMe <> 0 -> c <> 0 ->
  iers2010_relativistic_acceleration sat sun GMe GMs J c beta gamma = acceleration_10_12 GMe GMs c beta gamma (mk3 0 0 J) (fst sat) (snd sat) (vmul (-1) (fst sun)) (vmul (-1) (snd sun)).
Proof. intros. rewrite library_units. apply in_units_spec; auto. lra. Qed.
(** ** consequences *)
Lemma dot_cross_r a b : dot (cross a b) b = 0. Proof. unfold dot, cross. cbn. ring. Qed.
Lemma dot_cross_l a b : dot (cross a b) a = 0. Proof. unfold dot, cross. cbn. ring. Qed.
Lemma precession_no_work GM GMs c gamma J r v Rr Rv : dot (lense_thirring_term GM c gamma J r v) v = 0 /\ dot (de_sitter_term GMs c gamma Rr Rv v) v = 0.
Proof. split; unfold lense_thirring_term, de_sitter_term, dot, cross, vplus, vmul; cbn [p1 p2 p3]; ring. Qed.
Lemma turn_dot a x y : dot (turn_z a x) (turn_z a y) = dot x y.
Proof. unfold dot, turn_z. cbn [p1 p2 p3]. pose proof (sin2_cos2 a) as H. unfold Rsqr in H. replace (cos a * cos a) with (1 - sin a * sin a) by lra.
  transitivity ((cos a * cos a + sin a * sin a) * (p1 x * p1 y + p2 x * p2 y) + p3 x * p3 y); [ring|]. replace (cos a * cos a + sin a * sin a) with 1 by lra. ring.
Qed.
Lemma turn_len a x : len (turn_z a x) = len x. Proof. unfold len. rewrite turn_dot. reflexivity. Qed.
Lemma turn_cross a x y : cross (turn_z a x) (turn_z a y) = turn_z a (cross x y).
Proof.
  pose proof (sin2_cos2 a) as H. unfold Rsqr in H. apply v3_eq; unfold cross, turn_z; cbn [p1 p2 p3]; try ring.
  transitivity ((cos a * cos a + sin a * sin a) * (p1 x * p2 y - p2 x * p1 y)); [ring|]. replace (cos a * cos a + sin a * sin a) with 1 by lra. ring.
Qed.
Lemma turn_plus a x y : vplus (turn_z a x) (turn_z a y) = turn_z a (vplus x y). Proof. apply v3_eq; unfold vplus, turn_z; cbn [p1 p2 p3]; ring. Qed.
Lemma turn_mul a k x : vmul k (turn_z a x) = turn_z a (vmul k x). Proof. apply v3_eq; unfold vmul, turn_z; cbn [p1 p2 p3]; ring. Qed.
Lemma turn_axis a J : mk3 0 0 J = turn_z a (mk3 0 0 J). Proof. apply v3_eq; unfold turn_z; cbn [p1 p2 p3]; ring. Qed.
Lemma turn_spec a GM GMs c beta gamma J r v Rr Rv : acceleration_10_12 GM GMs c beta gamma (mk3 0 0 J) (turn_z a r) (turn_z a v) (turn_z a Rr) (turn_z a Rv) =
  turn_z a (acceleration_10_12 GM GMs c beta gamma (mk3 0 0 J) r v Rr Rv).
Proof.
  unfold acceleration_10_12, schwarzschild_term, lense_thirring_term, de_sitter_term. rewrite (turn_axis a J) at 1 2.
  rewrite !turn_len, !turn_dot. rewrite ?turn_mul, ?turn_cross, ?turn_mul, ?turn_plus, ?turn_mul, ?turn_cross, ?turn_mul, ?turn_plus. rewrite ?turn_cross, ?turn_mul, ?turn_plus. reflexivity.
Qed.
Lemma turn_v0 a x : x <> v0 -> turn_z a x <> v0.
Proof. intros N E. apply N, dot_zero. rewrite <- (turn_dot a), E. unfold dot, v0. cbn. ring. Qed.
