(** Property theorems for C83: the closed formula for the rotation and the derivative of the rotation, with rounding. *)
From Coq Require Import Reals ZArith List Lra Lia.
From Verif Require Import Base Angles PiBound Vec RotModel RotSpec RotProofs FundModel FundSpec FundProofs CipSpec FlModel FlCipModel FlEraModel FlEraProofs FlEraProps FlRotModel FlRotSpec FlRotProofs FlRotProofs2 FlRotProofs4 FlRotProofs5 FlRotEpochProps FlBzModel FlBzSpec FlBzProofs FlBzProofs2.
Import ListNotations.
Open Scope R_scope.

(** ** gcrs2itrs_quaternion: the result is the product of the five rotations, whatever the roundings *)
Theorem c83_closed_formula era s sp X Y xp yp d e q : Rabs era <= 7 -> Rabs s <= 1 -> Rabs sp <= 1 -> Rabs X <= 0.2 -> Rabs Y <= 0.2 -> 0 <= d < PI / 2 -> sin d * cos e = X -> sin d * sin e = Y ->
  bz_run era s sp X Y xp yp q -> off 210 q (c2i era s sp d e xp yp).
Proof. intros A B C HX HY D EX EY R. rewrite c2i_polar by exact D. rewrite EX, EY. exact (bz_off era s sp X Y xp yp q A B C HX HY R). Qed.
Theorem c83_matrix q b k A : unit_q b -> 0 <= k <= 1000 -> off k q b -> qmat_run q A -> mclose ((8 * k + 20.1) * / 2 ^ 53) A (qmat b).
Proof. intros U K D R. eapply (mab_close _ 1), qmat_ab; eassumption. Qed.

Section Vectors.
  Variables (tt ut1 : epoch) (T : times) (o : eop).
  Hypotheses (HC : in_century tt ut1) (HO : handed_out tt ut1 T) (HE : ordinary o).
  (** ** c2i06a_bz *)
  Theorem c83_rotation q d e : pole_at tt o d e -> c2i06a_bz_run T o q ->
    exists b, unit_q b /\ (forall v, qapp b v = terrestrial tt ut1 o d e v) /\ qdist q b <= 4.3e-13.
  Proof.
    intros (D & EX & EY) R. destruct (bz_epoch tt ut1 T o HC HO HE q R) as (era & Ee & BX & BY & Q).
    eexists. split; [|split; [|exact Q]]; [apply rot_unit; assumption|]. intros v. rewrite (rot_turns _ _ _ _ _ _ _ _ v BX BY Ee). rewrite <- EX, <- EY. apply rot_matrix, D.
  Qed.
  Theorem c83_vectors q d e v : pole_at tt o d e -> c2i06a_bz_run T o q -> vdist (qapp q v) (terrestrial tt ut1 o d e v) <= 1.75e-12 * len v.
  Proof.
    intros P R. destruct (c83_rotation q d e P R) as (b & U & E & Q). rewrite <- E. eapply Rle_trans; [apply qapp_lip, U|]. apply Rmult_le_compat_r; [apply len_nonneg|]. pose proof (qdist_nonneg q b). nra.
  Qed.
  (** on the ground: twelve micrometres *)
  Theorem c83_surface q d e v r : pole_at tt o d e -> c2i06a_bz_run T o q -> qapp_run q v r -> len v <= 6.4e6 -> vdist r (terrestrial tt ut1 o d e v) <= 1.2e-5.
  Proof.
    intros P R A V. destruct (c83_rotation q d e P R) as (b & U & _ & Q). pose proof (qlen_dist q b) as L. rewrite (qlen_unit b U) in L. pose proof (qapp_run_error q v r ltac:(lra) A) as K. pose proof (c83_vectors q d e v P R) as W.
    pose proof (vdist_tri r (qapp q v) (terrestrial tt ut1 o d e v)) as TR. pose proof usmall as (US & Ti & TU). pose proof (len_nonneg v). assert (u * len v <= 1.2e-16 * len v) by (apply Rmult_le_compat_r; lra). fold u tiny in *. lra.
  Qed.
  (** the two programs for the same rotation *)
  Theorem c83_versions_agree q q' v : c2i06a_run T o q -> c2i06a_bz_run T o q' -> vdist (qapp q v) (qapp q' v) <= 3.5e-12 * len v.
  Proof.
    intros R R'. destruct (bz_epoch tt ut1 T o HC HO HE q' R') as (era & _ & BX & BY & _).
    pose proof (spherical_ok _ _ (small_sq _ _ BX BY)) as S. destruct (xycip2spherical _ _) as [d e]. destruct S as (EX & EY & _ & D).
    assert (P : pole_at tt o d e) by (split; [exact D|split; symmetry; assumption]). pose proof (c82_vectors tt ut1 T o HC HO HE q d e v P R) as A. pose proof (c83_vectors q' d e v P R') as B.
    pose proof (vdist_tri (qapp q v) (terrestrial tt ut1 o d e v) (qapp q' v)) as TR. rewrite (vdist_swap (terrestrial tt ut1 o d e v) (qapp q' v)) in TR. pose proof (len_nonneg v). lra.
  Qed.
  (** ** c2i06a with a derivative: with the rotation angle moving at the rate of the Conventions, the matrix is the derivative of the rotation *)
  Theorem c83_rate M d e era x : Rabs (e_lod o) <= 86 -> pole_at tt o d e -> dM_run T o M -> eqm (era x) (earth_rotation_angle (julian_date (mjd ut1))) -> derivable_pt_lim era x (angular_velocity (e_lod o)) ->
    exists D, mat_lim (fun y => turned tt o d e (era y)) x D /\ mclose (2.6 * / 2 ^ 53) M D.
  Proof.
    intros HL P R Ex L. destruct (dM_epoch tt ut1 T o HC HO HE M HL R) as (a & Ea & BX & BY & Q). eexists. split; [exact (turned_lim tt o d e era x P BX BY L)|].
    rewrite (dRdt_turns (era x) a); [exact Q|]. eapply eqm_trans; [exact Ex|apply eqm_sym, Ea].
  Qed.
  (** at the epoch the rotation is that of [terrestrial] *)
  Theorem c83_turned d e v : app3 (turned tt o d e (earth_rotation_angle (julian_date (mjd ut1)))) v = terrestrial tt ut1 o d e v.
  Proof. reflexivity. Qed.
  (** a velocity v at a position r: the formula of the example programs, q * v + M * r *)
  Theorem c83_velocity q M d e era x v r : Rabs (e_lod o) <= 86 -> pole_at tt o d e -> c2i06a_dM_run T o q M -> eqm (era x) (earth_rotation_angle (julian_date (mjd ut1))) -> derivable_pt_lim era x (angular_velocity (e_lod o)) ->
    exists D, mat_lim (fun y => turned tt o d e (era y)) x D /\
      vdist (vplus (qapp q v) (app3 M r)) (vplus (terrestrial tt ut1 o d e v) (app3 D r)) <= 1.7e-12 * len v + 1.3e-15 * len r.
  Proof.
    intros HL P [RQ RM] Ex L. destruct (c83_rate M d e era x HL P RM Ex L) as (D & Lim & Q). exists D. split; [exact Lim|]. pose proof (c82_vectors tt ut1 T o HC HO HE q d e v P RQ) as A.
    pose proof usmall as (US & _). fold u in Q. pose proof (close_app (2.6 * u) M D r ltac:(lra) Q) as B. pose proof (len_nonneg r) as LR.
    set (a := qapp q v) in *. set (b := terrestrial tt ut1 o d e v) in *. set (c := app3 M r) in *. set (f := app3 D r) in *.
    pose proof (vdist_tri (vplus a c) (vplus b c) (vplus b f)) as TR. assert (E1 : vdist (vplus a c) (vplus b c) = vdist a b) by (unfold vdist, len, dot; f_equal; cbn; ring). assert (E2 : vdist (vplus b c) (vplus b f) = vdist c f) by (unfold vdist, len, dot; f_equal; cbn; ring).
    rewrite E1, E2 in TR. assert (u * len r <= 1.2e-16 * len r) by (apply Rmult_le_compat_r; lra). lra.
  Qed.
  (** an orbit: velocities up to 10 km/s at distances up to 50000 km are off by less than 0.1 micrometre per second *)
  Theorem c83_orbit_velocity q M d e era x v r : Rabs (e_lod o) <= 86 -> pole_at tt o d e -> c2i06a_dM_run T o q M -> eqm (era x) (earth_rotation_angle (julian_date (mjd ut1))) -> derivable_pt_lim era x (angular_velocity (e_lod o)) ->
    len v <= 1e4 -> len r <= 5e7 -> exists D, mat_lim (fun y => turned tt o d e (era y)) x D /\ vdist (vplus (qapp q v) (app3 M r)) (vplus (terrestrial tt ut1 o d e v) (app3 D r)) <= 1e-7.
  Proof. intros HL P R Ex L V W. destruct (c83_velocity q M d e era x v r HL P R Ex L) as (D & Lim & Q). exists D. split; [exact Lim|]. lra. Qed.
End Vectors.

(** ** hypotheses are met: exact arithmetic is among the runs, and there are runs for every epoch of the century *)
Theorem c83_exact_run era s sp X Y xp yp : bz_run era s sp X Y xp yp (gcrs2itrs_quaternion era s sp X Y xp yp).
Proof. exact (bz_self era s sp X Y xp yp). Qed.
Theorem c83_runs_exist tt ut1 o : in_century tt ut1 -> ordinary o ->
  (exists q, c2i06a_bz_run (exact_times tt ut1) o q) /\ (exists q M, c2i06a_dM_run (exact_times tt ut1) o q M) /\ (exists d e, pole_at tt o d e) /\
  exists era, eqm (era 0) (earth_rotation_angle (julian_date (mjd ut1))) /\ derivable_pt_lim era 0 (angular_velocity (e_lod o)).
Proof.
  intros C H. split; [exact (bz_exists tt ut1 o C)|]. destruct (c82_runs_exist tt ut1 o C H) as [(q & R) P]. destruct (dM_exists tt ut1 o C) as (M & RM). split; [exists q, M; split; assumption|]. split; [exact P|].
  exists (fun y => earth_rotation_angle (julian_date (mjd ut1)) + angular_velocity (e_lod o) * y). split; [exists 0%Z; cbn; ring|].
  pose proof (derivable_pt_lim_plus (fct_cte (earth_rotation_angle (julian_date (mjd ut1)))) (mult_real_fct (angular_velocity (e_lod o)) id) 0 _ _ (derivable_pt_lim_const _ 0) (derivable_pt_lim_scal id _ 0 _ (derivable_pt_lim_id 0))) as L.
  replace (0 + angular_velocity (e_lod o) * 1) with (angular_velocity (e_lod o)) in L by ring. exact L.
Qed.
Example c83_nonvacuous : exists q, bz_run 3 0.00001 0.00002 0.03 0.04 0.00001 0.00001 q /\ Rabs 3 <= 7 /\ Rabs 0.03 <= 0.2 /\ Rabs 0.04 <= 0.2.
Proof. eexists. split; [apply bz_self|]. repeat split; rewrite Rabs_pos_eq; lra. Qed.
Print Assumptions c83_closed_formula.
Print Assumptions c83_matrix.
Print Assumptions c83_rotation.
Print Assumptions c83_vectors.
Print Assumptions c83_surface.
Print Assumptions c83_versions_agree.
Print Assumptions c83_rate.
Print Assumptions c83_turned.
Print Assumptions c83_velocity.
Print Assumptions c83_orbit_velocity.
Print Assumptions c83_exact_run.
Print Assumptions c83_runs_exist.
