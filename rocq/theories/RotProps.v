From Coq Require Import Reals Lra.
From Verif Require Import PiBound Vec RotModel RotSpec RotProofs.
Open Scope R_scope.

(** ** C43 *)
(** GCRS to ITRS is TIRS to ITRS after GCRS to TIRS, as quaternions *)
Theorem c43_chain era s sp d e xp yp : c2i era s sp d e xp yp = qmul (tirs2i xp yp sp) (c2tirs era s d e).
Proof. exact (chain era s sp d e xp yp). Qed.
(** acting on a vector: q * v first applies the right factor *)
Theorem c43_chain_vectors era s sp d e xp yp v : qapp (c2i era s sp d e xp yp) v = qapp (tirs2i xp yp sp) (qapp (c2tirs era s d e) v).
Proof. rewrite c43_chain. apply qapp_qmul; [apply unit_tirs2i|apply unit_c2tirs]. Qed.
(** Eigen applies a quaternion to a vector like its matrix *)
Theorem c43_matrix_of_quaternion q v : qapp q v = app3 (qmat q) v.
Proof. exact (qapp_mat q v). Qed.
(** proper rotations *)
Theorem c43_proper_c2i era s sp d e xp yp : proper (qmat (c2i era s sp d e xp yp)).
Proof. apply qmat_proper, unit_c2i. Qed.
Theorem c43_proper_c2tirs era s d e : proper (qmat (c2tirs era s d e)).
Proof. apply qmat_proper, unit_c2tirs. Qed.
Theorem c43_proper_tirs2i xp yp sp : proper (qmat (tirs2i xp yp sp)).
Proof. apply qmat_proper, unit_tirs2i. Qed.
Theorem c43_proper_C X Y s : proper (qmat (C X Y s)).
Proof. apply qmat_proper, unit_C. Qed.
(** the rotations of the IERS Conventions *)
Theorem c43_conventions era s sp d e xp yp : qmat (c2i era s sp d e xp yp) = transp (crs_from_trs era s sp d e xp yp).
Proof. exact (mat_c2i era s sp d e xp yp). Qed.
Theorem c43_conventions_tirs era s sp d e xp yp : qmat (c2tirs era s d e) = mmul (transp (RR era)) (transp (QQ d e s)) /\ qmat (tirs2i xp yp sp) = transp (WW xp yp sp).
Proof. exact (conj (mat_c2tirs era s d e) (mat_tirs2i xp yp sp)). Qed.
(** the angles d and e are those of the given pole *)
Theorem c43_spherical X Y : X * X + Y * Y < 1 -> let '(d, e) := xycip2spherical X Y in pole_dir d e = mk3 X Y (sqrt (1 - (X * X + Y * Y))) /\ 0 <= d < PI / 2.
Proof.
  intros H. pose proof (spherical_ok X Y H) as S. destruct (xycip2spherical X Y) as [d e]. destruct S as (A & B & D & E). split; [|exact E].
  unfold pole_dir. rewrite <- A, <- B, D. reflexivity.
Qed.
(** the celestial pole goes to the z axis, and from there to the terrestrial coordinates xp, -yp of the pole *)
Theorem c43_pole era s d e : qapp (c2tirs era s d e) (pole_dir d e) = ez.
Proof. exact (pole_to_z_c2tirs era s d e). Qed.
Theorem c43_pole_C X Y s : X * X + Y * Y < 1 -> qapp (C X Y s) (mk3 X Y (sqrt (1 - (X * X + Y * Y)))) = ez.
Proof.
  intros H. pose proof (c43_spherical X Y H) as P. unfold C. destruct (xycip2spherical X Y) as [d e]. destruct P as [<- _].
  pose proof (pole_to_z_c2tirs 0 s d e) as K. unfold c2tirs in K. replace (- 0 + e + s) with (e + s) in K by ring. exact K.
Qed.
Theorem c43_pole_itrs era s sp d e xp yp : qapp (c2i era s sp d e xp yp) (pole_dir d e) = mk3 (sin xp) (- sin yp * cos xp) (cos yp * cos xp).
Proof. rewrite c43_chain_vectors, c43_pole. apply pole_to_itrs. Qed.
(** the functions for an epoch: the two parts compose to the whole; all take the same pole, angle and locators *)
Theorem c43_epoch epoch xycip s06 era00 tt2ut1 jc (tt : epoch) o : let '(qc, qt, w) := c2i06a_pq epoch xycip s06 era00 tt2ut1 jc tt o in
  c2i06a epoch xycip s06 era00 tt2ut1 jc tt o = qmul qt qc /\ fst (c2i06a_dM epoch xycip s06 era00 tt2ut1 jc tt o) = qmul qt qc.
Proof.
  unfold c2i06a_pq, c2i06a, c2i06a_dM. destruct (pole epoch xycip s06 tt o) as [[X Y] s]. destruct (xycip2spherical X Y) as [d e]. cbn [fst]. rewrite <- chain. split; reflexivity.
Qed.
(** for an epoch: the pole of the series with the observed corrections (arc seconds) goes to the observed terrestrial pole *)
Theorem c43_epoch_pole epoch xycip s06 era00 tt2ut1 jc (tt : epoch) o : let X := fst (xycip tt) + e_dX o * PI / 648000 in let Y := snd (xycip tt) + e_dY o * PI / 648000 in
  let xp := e_xp o * PI / 648000 in let yp := e_yp o * PI / 648000 in X * X + Y * Y < 1 ->
  qapp (c2i06a epoch xycip s06 era00 tt2ut1 jc tt o) (mk3 X Y (sqrt (1 - (X * X + Y * Y)))) = mk3 (sin xp) (- sin yp * cos xp) (cos yp * cos xp).
Proof.
  intros X Y xp yp H. unfold c2i06a, pole. unfold X, Y in *. destruct (xycip tt) as [X0 Y0]. cbn [fst snd] in *. fold (sec2rad (e_dX o)) in *. fold (sec2rad (e_dY o)) in *.
  pose proof (c43_spherical _ _ H) as P. destruct (xycip2spherical _ _) as [d e]. destruct P as [<- _]. apply c43_pole_itrs.
Qed.
(** and the locator enters as a rotation about the pole: IERS matrices throughout *)
Theorem c43_epoch_conventions epoch xycip s06 era00 tt2ut1 jc (tt : epoch) o : let X := fst (xycip tt) + e_dX o * PI / 648000 in let Y := snd (xycip tt) + e_dY o * PI / 648000 in
  let '(d, e) := xycip2spherical X Y in
  qmat (c2i06a epoch xycip s06 era00 tt2ut1 jc tt o) =
  transp (crs_from_trs (era00 (tt2ut1 tt (e_dut o))) (s06 tt (fst (xycip tt)) (snd (xycip tt))) (- 47e-6 * jc tt * PI / 648000) d e (e_xp o * PI / 648000) (e_yp o * PI / 648000)).
Proof.
  intros X Y. unfold c2i06a, pole, X, Y. destruct (xycip tt) as [X0 Y0]. cbn [fst snd]. fold (sec2rad (e_dX o)). fold (sec2rad (e_dY o)).
  destruct (xycip2spherical _ _) as [d e]. apply mat_c2i.
Qed.
Example c43_nonvacuous : (3 / 5) * (3 / 5) + 0 * 0 < 1 /\ fst (xycip2spherical (3 / 5) 0) <> 0.
Proof.
  split; [lra|]. pose proof (c43_spherical (3 / 5) 0 ltac:(lra)) as P. destruct (xycip2spherical (3 / 5) 0) as [d e]. cbn [fst]. intros ->. destruct P as [P _]. apply (f_equal p1) in P. cbn in P. rewrite sin_0 in P. lra.
Qed.

(** ** C44 *)
Theorem c44_closed_formula era s sp X Y xp yp : X * X + Y * Y < 1 -> gcrs2itrs_quaternion era s sp X Y xp yp = let '(d, e) := xycip2spherical X Y in c2i era s sp d e xp yp.
Proof. exact (bz_spherical era s sp X Y xp yp). Qed.
Theorem c44_precession_nutation X Y s : X * X + Y * Y < 1 -> C_qimpl X Y s = C X Y s.
Proof. exact (qimpl_same X Y s). Qed.
Theorem c44_epoch epoch xycip s06 era00 tt2ut1 jc (tt : epoch) o : (let '(X, Y, _) := pole epoch xycip s06 tt o in X * X + Y * Y < 1) ->
  c2i06a_bz epoch xycip s06 era00 tt2ut1 jc tt o = c2i06a epoch xycip s06 era00 tt2ut1 jc tt o.
Proof. unfold c2i06a_bz, c2i06a. destruct (pole epoch xycip s06 tt o) as [[X Y] s]. intros H. rewrite bz_spherical by exact H. reflexivity. Qed.
(** the third version of C: IERS (5.10) with 1/2 + (X^2+Y^2)/8 in place of 1/(1+Z) *)
Theorem c44_series X Y s : X * X + Y * Y < 1 -> let z := sqrt (1 - (X * X + Y * Y)) in let a := 1 / (1 + z) in
  qmat (C X Y s) = mmul (aaZ_mat s) (mkM (mk3 (1 - a * X * X) (- a * X * Y) (- X)) (mk3 (- a * X * Y) (1 - a * Y * Y) (- Y)) (mk3 X Y (1 - a * (X * X + Y * Y)))).
Proof. exact (rxy_exact X Y s). Qed.
(** its error is of fourth order *)
Theorem c44_series_error X Y : X * X + Y * Y < 1 -> let u := X * X + Y * Y in let z := sqrt (1 - u) in
  1 / (1 + z) - (1 / 2 + 1 / 8 * u) = u * u * ((3 + z) / (8 * ((1 + z) * (1 + z) * (1 + z)))) /\ 0 <= 1 / (1 + z) - (1 / 2 + 1 / 8 * u) <= 3 / 8 * (u * u).
Proof.
  intros H u z. assert (U : 0 <= u) by (unfold u; nra). assert (Z0 : 0 <= z) by apply sqrt_pos. assert (ZZ : z * z = 1 - u) by (apply sqrt_sqrt; unfold u in *; lra).
  assert (E : 1 / (1 + z) - (1 / 2 + 1 / 8 * u) = u * u * ((3 + z) / (8 * ((1 + z) * (1 + z) * (1 + z))))).
  { replace u with (1 - z * z) by lra. field. lra. }
  split; [exact E|]. rewrite E. assert (P : 0 < (1 + z) * (1 + z) * (1 + z)) by (repeat apply Rmult_lt_0_compat; lra).
  assert (B : 0 <= (3 + z) / (8 * ((1 + z) * (1 + z) * (1 + z))) <= 3 / 8).
  { split; [apply Rmult_le_pos; [lra|apply Rlt_le, Rinv_0_lt_compat; lra]|]. apply (Rmult_le_reg_r (8 * ((1 + z) * (1 + z) * (1 + z)))); [lra|]. unfold Rdiv. rewrite Rmult_assoc, Rinv_l by lra. nra. }
  split; [apply Rmult_le_pos; nra|]. rewrite (Rmult_comm (3 / 8)). apply Rmult_le_compat_l; [nra|apply B].
Qed.
(** the third version, entry by entry: the exact matrix plus its fourth order error times products of X and Y *)
Theorem c44_third_version X Y s : X * X + Y * Y < 1 -> let u := X * X + Y * Y in exists delta, 0 <= delta <= 3 / 8 * (u * u) /\
  C_rxyimpl X Y s = mplus (qmat (C X Y s)) (mscale delta (mmul (aaZ_mat s) (mkM (mk3 (X * X) (X * Y) 0) (mk3 (X * Y) (Y * Y) 0) (mk3 0 0 u)))).
Proof.
  intros H u. exists (1 / (1 + sqrt (1 - u)) - (1 / 2 + 1 / 8 * u)). split; [apply (c44_series_error X Y H)|].
  rewrite (rxy_exact X Y s H). fold u. unfold C_rxyimpl. fold u. set (a := 1 / (1 + sqrt (1 - u))). clearbody a. comps; cbv [aaZ_mat mplus mscale vplus vmul]; open; unfold u; field.
Qed.
(** so it is not exactly a rotation and differs from the other two *)
Theorem c44_third_version_inexact : exists X Y s, X * X + Y * Y < 1 /\ ~ proper (C_rxyimpl X Y s) /\ C_rxyimpl X Y s <> qmat (C X Y s).
Proof.
  exists (3 / 5), 0, 0. assert (N : ~ proper (C_rxyimpl (3 / 5) 0 0)).
  { intros (P & _ & _). apply (f_equal (fun A => p1 (row1 A))) in P. cbv [C_rxyimpl aaZ_mat mmul rowapp app3 transp dot row1 row2 row3 p1 p2 p3 ident] in P. rewrite cos_0, sin_0 in P. lra. }
  split; [lra|]. split; [exact N|]. intros E. apply N. rewrite E. apply qmat_proper, unit_C.
Qed.
Example c44_nonvacuous : (3 / 5) * (3 / 5) + (1 / 10) * (1 / 10) < 1. Proof. lra. Qed.

(** ** C45 *)
(** for every angle changing at rate omega *)
Theorem c45_rate era t omega : derivable_pt_lim era t omega -> mat_lim (fun x => R3 (era x)) t (dRdt (era t) omega).
Proof. exact (rotation_rate era t omega). Qed.
(** R3(era) is the rotation used in the chain *)
Theorem c45_same_rotation era : R3 era = qmat (aaZ (- era)) /\ transp (RR era) = R3 era.
Proof. split; [rewrite matZ|unfold RR; rewrite transp_R3]; rewrite Ropp_involutive; reflexivity. Qed.
(** the matrix handed out with the quaternion: derivative of the whole rotation, pole fixed *)
Theorem c45_whole era t omega X Y s sp xp yp : derivable_pt_lim era t omega ->
  mat_lim (fun x => qmat (let '(d, e) := xycip2spherical X Y in c2i (era x) s sp d e xp yp)) t (mmul (mmul (qmat (tirs2i xp yp sp)) (dRdt (era t) omega)) (qmat (C X Y s))).
Proof. exact (c2i_rate era t omega X Y s sp xp yp). Qed.
Theorem c45_epoch epoch xycip s06 era00 tt2ut1 jc (tt : epoch) o era t : era t = era_of epoch era00 tt2ut1 tt o -> derivable_pt_lim era t (earth_rotation_rate (e_lod o)) ->
  let '(X, Y, s) := pole epoch xycip s06 tt o in let M x := qmat (let '(d, e) := xycip2spherical X Y in c2i (era x) s (sp00 epoch jc tt) d e (sec2rad (e_xp o)) (sec2rad (e_yp o))) in
  M t = qmat (fst (c2i06a_dM epoch xycip s06 era00 tt2ut1 jc tt o)) /\ mat_lim M t (snd (c2i06a_dM epoch xycip s06 era00 tt2ut1 jc tt o)).
Proof.
  intros E H. unfold c2i06a_dM. destruct (pole epoch xycip s06 tt o) as [[X Y] s] eqn:P. cbv zeta.
  pose proof (c2i_rate era t _ X Y s (sp00 epoch jc tt) (sec2rad (e_xp o)) (sec2rad (e_yp o)) H) as D. rewrite E in D.
  destruct (xycip2spherical X Y) as [d e]. cbn [fst snd]. rewrite E. split; [reflexivity|exact D].
Qed.
(** transforming velocities as documented, there and back *)
Theorem c45_velocity M r t D v : mat_lim M t D -> curve_lim r t v -> curve_lim (fun x => app3 (M x) (r x)) t (vplus (app3 (M t) v) (app3 D (r t))).
Proof. exact (curve_transform M r t D v). Qed.
Theorem c45_velocity_back M r r1 t D v1 : (forall x, proper (M x)) -> mat_lim M t D -> (forall x, r1 x = app3 (M x) (r x)) -> curve_lim r1 t v1 ->
  curve_lim r t (vplus (app3 (transp (M t)) v1) (app3 (transp D) (r1 t))).
Proof.
  intros P L E V. apply (curve_fun (fun x => app3 (transp (M x)) (r1 x))).
  - intros x. rewrite E, <- app3_mmul. destruct (P x) as (_ & Q & _). rewrite Q. apply app3_ident.
  - apply (curve_transform (fun x => transp (M x))); [|exact V]. destruct L as ((a & b & c) & (d & e & f) & (g & h & i)). repeat split; assumption.
Qed.
(** with the rotation vector handed out by the third overload *)
Theorem c45_rotation_vector era lod v : app3 (dRdt era (earth_rotation_rate lod)) v = vmul (-1) (cross (earth_rotation_axis lod) (app3 (R3 era) v)).
Proof. exact (dRdt_cross era (earth_rotation_rate lod) v). Qed.
(** the rate handed in: an excess length of day (seconds) slows the rotation, so that the day of 86400 s + excess is one turn at the nominal rate, up to the square of the excess *)
Theorem c45_length_of_day lod : earth_rotation_rate lod * (86400 + lod) = OmegaEarth * 86400 * (1 - (lod / 86400) * (lod / 86400)).
Proof. unfold earth_rotation_rate. field. Qed.
(** the nominal rate (radians per second) is that of the Earth rotation angle, to thirteen digits *)
Theorem c45_nominal_rate : Rabs (OmegaEarth * 86400 - 2 * PI * 1.00273781191135448) <= 1e-12.
Proof. unfold OmegaEarth. pose proof pi_bounds. apply Rabs_le. lra. Qed.
Example c45_nonvacuous : derivable_pt_lim (fun x => 2 * x) 1 2.
Proof. apply (lim_eq _ _ (2 * 1)); [|ring]. apply lim_scal, derivable_pt_lim_id. Qed.
Print Assumptions c43_chain.
Print Assumptions c43_chain_vectors.
Print Assumptions c43_matrix_of_quaternion.
Print Assumptions c43_proper_c2i.
Print Assumptions c43_proper_c2tirs.
Print Assumptions c43_proper_tirs2i.
Print Assumptions c43_proper_C.
Print Assumptions c43_conventions.
Print Assumptions c43_conventions_tirs.
Print Assumptions c43_spherical.
Print Assumptions c43_pole.
Print Assumptions c43_pole_C.
Print Assumptions c43_pole_itrs.
Print Assumptions c43_epoch.
Print Assumptions c44_closed_formula.
Print Assumptions c44_precession_nutation.
Print Assumptions c44_epoch.
Print Assumptions c44_series.
Print Assumptions c44_series_error.
Print Assumptions c44_third_version_inexact.
Print Assumptions c45_rate.
Print Assumptions c45_same_rotation.
Print Assumptions c45_whole.
Print Assumptions c45_epoch.
Print Assumptions c45_velocity.
Print Assumptions c45_velocity_back.
Print Assumptions c45_rotation_vector.
Print Assumptions c43_epoch_pole.
Print Assumptions c43_epoch_conventions.
Print Assumptions c44_third_version.
Print Assumptions c45_length_of_day.
Print Assumptions c45_nominal_rate.
