(** Property theorems for C82: the rotation that c2i06a computes for an epoch is that of the Conventions. *)
From Coq Require Import Reals ZArith List Lra Lia.
From Verif Require Import Base Angles PiBound Vec RotModel RotSpec RotProofs FundModel FundSpec FundProofs CipSpec FlModel FlCipModel FlEraModel FlEraProofs FlEraProps FlRotModel FlRotSpec FlRotProofs FlRotProofs2 FlRotProofs4 FlRotProofs5.
Open Scope R_scope.

Section Vectors.
  Variables (tt ut1 : epoch) (T : times) (o : eop).
  Hypotheses (HC : in_century tt ut1) (HO : handed_out tt ut1 T) (HE : ordinary o).
  Let t : R := centuries (julian_date (mjd tt)).
  (** a unit quaternion whose action is the transformation of the Conventions, close to the computed one *)
  Theorem c82_rotation q d e : pole_at tt o d e -> c2i06a_run T o q ->
    exists b, unit_q b /\ (forall v, qapp b v = terrestrial tt ut1 o d e v) /\ qdist q b <= 4.2e-13.
  Proof.
    intros (D & EX & EY) R. destruct HE as (H1 & H2 & H3 & H4). destruct (rotation_error tt ut1 T o HC HO H1 H2 H3 H4 q R) as (era & Ee & BX & BY & Q).
    eexists. split; [|split; [|exact Q]]; [apply rot_unit; assumption|]. intros v. rewrite (rot_turns _ _ _ _ _ _ _ _ v BX BY Ee). rewrite <- EX, <- EY. apply rot_matrix, D.
  Qed.
  (** the pole of the code and that of the Conventions: 10^-15 rad is 2e-10 arc seconds *)
  Theorem c82_pole X Y s d e : pole_at tt o d e -> pole_run T o X Y s -> Rabs (X - sin d * cos e) <= 9.8e-16 /\ Rabs (Y - sin d * sin e) <= 9.8e-16 /\ Rabs (s - locator_s tt) <= 1e-16.
  Proof.
    intros (D & EX & EY) R. destruct HE as (H1 & H2 & _). destruct (pole_run_error tt ut1 T o HC HO H1 H2 X Y s R) as (A & B & C & _). rewrite EX, EY. repeat split; assumption.
  Qed.
  Theorem c82_vectors q d e v : pole_at tt o d e -> c2i06a_run T o q -> vdist (qapp q v) (terrestrial tt ut1 o d e v) <= 1.7e-12 * len v.
  Proof.
    intros P R. destruct (c82_rotation q d e P R) as (b & U & E & Q). rewrite <- E. eapply Rle_trans; [apply qapp_lip, U|]. apply Rmult_le_compat_r; [apply len_nonneg|]. pose proof (qdist_nonneg q b). nra.
  Qed.
  (** the product quaternion * vector with rounding as well *)
  Theorem c82_vectors_rounded q d e v r : pole_at tt o d e -> c2i06a_run T o q -> qapp_run q v r -> vdist r (terrestrial tt ut1 o d e v) <= 1.71e-12 * len v + 1000 * / 2 ^ 1074.
  Proof.
    intros P R A. destruct (c82_rotation q d e P R) as (b & U & _ & Q). pose proof (qlen_dist q b) as L. rewrite (qlen_unit b U) in L. pose proof (qapp_run_error q v r ltac:(lra) A) as K. pose proof (c82_vectors q d e v P R) as W.
    pose proof (vdist_tri r (qapp q v) (terrestrial tt ut1 o d e v)) as TR. pose proof usmall as (US & _). pose proof (len_nonneg v). assert (u * len v <= 1.2e-16 * len v) by (apply Rmult_le_compat_r; lra). fold u tiny in *. lra.
  Qed.
  (** on the ground: eleven micrometres *)
  Theorem c82_surface q d e v r : pole_at tt o d e -> c2i06a_run T o q -> qapp_run q v r -> len v <= 6.4e6 -> vdist r (terrestrial tt ut1 o d e v) <= 1.1e-5.
  Proof. intros P R A V. pose proof (c82_vectors_rounded q d e v r P R A) as K. pose proof usmall as (US & Ti & TU). fold tiny in K. pose proof (len_nonneg v). lra. Qed.
  (** two builds, with different roundings, orders of addition and mathematics libraries *)
  Theorem c82_builds q q' v : c2i06a_run T o q -> c2i06a_run T o q' -> vdist (qapp q v) (qapp q' v) <= 3.4e-12 * len v.
  Proof.
    intros R R'. destruct HE as (H1 & H2 & H3 & H4). destruct (rotation_error tt ut1 T o HC HO H1 H2 H3 H4 q R) as (era & _ & BX & BY & _).
    pose proof (spherical_ok _ _ (small_sq _ _ BX BY)) as S. destruct (xycip2spherical _ _) as [d e]. destruct S as (EX & EY & _ & D).
    assert (P : pole_at tt o d e) by (split; [exact D|split; symmetry; assumption]). pose proof (c82_vectors q d e v P R) as A. pose proof (c82_vectors q' d e v P R') as B.
    pose proof (vdist_tri (qapp q v) (terrestrial tt ut1 o d e v) (qapp q' v)) as TR. assert (Y : forall a b, vdist a b = vdist b a) by (intros a b; unfold vdist, len, dot; f_equal; cbn; ring). rewrite (Y (terrestrial tt ut1 o d e v) (qapp q' v)) in TR. lra.
  Qed.
  (** ** c2i06a with two quaternions: first to the intermediate system, then to the terrestrial one *)
  Theorem c82_parts qc qt d e v : pole_at tt o d e -> c2i06a_pq_run T o qc qt ->
    vdist (qapp qc v) (app3 (transp (crs_from_trs (earth_rotation_angle (julian_date (mjd ut1))) (locator_s tt) 0 d e 0 0)) v) <= 1.65e-12 * len v /\
    vdist (qapp qt v) (qapp (tirs2i (arcsec (e_xp o)) (arcsec (e_yp o)) (arcsec (-47e-6 * t))) v) <= 1.3e-14 * len v /\
    vdist (qapp qt (qapp qc v)) (terrestrial tt ut1 o d e v) <= 1.7e-12 * len v.
  Proof.
    intros (D & EX & EY) R. destruct HE as (H1 & H2 & H3 & H4). destruct (parts_error tt ut1 T o HC HO H1 H2 H3 H4 qc qt R) as (era & Ee & BX & BY & Qc & Qt). pose proof (len_nonneg v) as V.
    set (t0 := tirs2i (arcsec (e_xp o)) (arcsec (e_yp o)) (arcsec (-47e-6 * t))) in *. change (tirs2i (arcsec (e_xp o)) (arcsec (e_yp o)) (arcsec (-47e-6 * centuries (julian_date (mjd tt))))) with t0 in Qt.
    set (c0 := rot era (locator_s tt) 0 (series_x tt + arcsec (e_dX o)) (series_y tt + arcsec (e_dY o)) 0 0) in *.
    assert (Uc : unit_q c0) by (apply rot_unit; assumption). assert (Ut : unit_q t0) by apply unit_tirs2i.
    pose proof (qdist_nonneg qc c0). pose proof (qdist_nonneg qt t0).
    assert (C : vdist (qapp qc v) (qapp c0 v) <= 1.65e-12 * len v) by (eapply Rle_trans; [apply qapp_lip, Uc|]; apply Rmult_le_compat_r; [exact V|nra]).
    assert (TT : forall w, vdist (qapp qt w) (qapp t0 w) <= 1.3e-14 * len w) by (intros w; eapply Rle_trans; [apply qapp_lip, Ut|]; apply Rmult_le_compat_r; [apply len_nonneg|nra]).
    assert (EV : qapp c0 v = app3 (transp (crs_from_trs (earth_rotation_angle (julian_date (mjd ut1))) (locator_s tt) 0 d e 0 0)) v). { unfold c0. rewrite (rot_turns _ _ _ _ _ _ _ _ v BX BY Ee). rewrite <- EX, <- EY. apply rot_matrix, D. }
    split; [rewrite <- EV; exact C|]. split; [apply TT|].
    replace (terrestrial tt ut1 o d e v) with (qapp t0 (qapp c0 v)).
    - eapply Rle_trans; [apply (vdist_tri _ (qapp t0 (qapp qc v)))|]. rewrite (iso t0 (qapp qc v) (qapp c0 v) Ut). pose proof (TT (qapp qc v)) as B. pose proof (len_dist (qapp qc v) (qapp c0 v)) as LD. rewrite (len_unit c0 v Uc) in LD. lra.
    - rewrite <- qapp_qmul by assumption. unfold c0, t0. rewrite <- rot_parts. rewrite (rot_turns _ _ _ _ _ _ _ _ v BX BY Ee). rewrite <- EX, <- EY. apply rot_matrix, D.
  Qed.
End Vectors.

(** ** hypotheses are met: for every epoch of the century there is a run, and the pole has spherical coordinates *)
Theorem c82_runs_exist tt ut1 o : in_century tt ut1 -> ordinary o -> (exists q, c2i06a_run (exact_times tt ut1) o q) /\ exists d e, pole_at tt o d e.
Proof.
  intros C H. destruct (rotation_exists tt ut1 o C) as (q & R). split; [exists q; exact R|]. destruct H as (H1 & H2 & H3 & H4).
  destruct (rotation_error tt ut1 _ o C (proj1 (FlEraProps.c71_nonvacuous tt ut1 C)) H1 H2 H3 H4 q R) as (era & _ & BX & BY & _). pose proof (spherical_ok _ _ (small_sq _ _ BX BY)) as S. destruct (xycip2spherical _ _) as [d e]. destruct S as (EX & EY & _ & D).
  exists d, e. split; [exact D|split; symmetry; assumption].
Qed.
Print Assumptions c82_rotation.
Print Assumptions c82_pole.
Print Assumptions c82_vectors.
Print Assumptions c82_vectors_rounded.
Print Assumptions c82_surface.
Print Assumptions c82_builds.
Print Assumptions c82_parts.
Print Assumptions c82_runs_exist.
