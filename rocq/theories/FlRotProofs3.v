(** Size of the pole series within a century of J2000. *)
From Coq Require Import Reals ZArith List Bool Lia Lra.
From Verif Require Import Base Poly Angles PiBound FundModel FundSpec FundProofs CipRow CipModel CipSpec CipProofs2 FlModel FlProofs FlFast FlCipModel FlCipProofs FlCipProofs2.
Import ListNotations.
Open Scope R_scope.

(** 0.012 *)
Definition mag_goal : Z := (12 * one120 / 10 ^ 3)%Z.
Definition size_of (d : res (expr * expr)) : bool :=
  match d with
  | Ok (a, b) => fcheck fvs mag_goal one120 (Sec (Mul a (Dec 1 6))) && fcheck fvs mag_goal one120 (Sec (Mul b (Dec 1 6)))
  | _ => false
  end.
Lemma size_xy : size_of detail_xycip06ae = true.
Proof. vm_compute. reflexivity. Qed.
Lemma size_s : fcheck fvs mag_goal one120 detail_s06e = true.
Proof. vm_compute. reflexivity. Qed.
Lemma mag_goal_le : IZR mag_goal * unit120 <= 0.012.
Proof. unfold mag_goal. eapply Rle_trans; [apply scaled; lia|]. change (10 ^ 3)%Z with 1000%Z. lra. Qed.
Lemma size_eval F G T t x y e : length F = 14%nat -> length G = 14%nat -> Forall2 (close (1 / 10 ^ 11)) F G -> Rabs t <= 1 -> Rabs (T - t) <= / 2 ^ 53 -> Rabs x <= 0.1 -> Rabs y <= 0.1 ->
  fcheck fvs mag_goal one120 e = true -> (exists v, run (venv F T x y) e v) -> Rabs (eval (venv G t x y) e) <= 0.012.
Proof.
  intros HF HG C Ht HT Hx Hy H (v & Rn). destruct (fcheck_ok vbs fvs fvs_above mag_goal one120 e H) as (A & _); [apply Z.leb_le; reflexivity|apply Z.leb_le; reflexivity|].
  destruct (bnd_sound _ _ _ (fits_args F G T t x y HF HG C Ht HT Hx Hy) e v Rn) as [B _]. eapply Rle_trans; [exact B|]. eapply Rle_trans; [|exact mag_goal_le].
  apply Rmult_le_compat_r; [apply Rlt_le, unit_pos|apply IZR_le, A].
Qed.
Lemma pole_size d2pi T t x y F : Rabs (d2pi - 2 * PI) <= / 2 ^ 50 -> Rabs t <= 1 -> Rabs (T - t) <= / 2 ^ 53 -> xycip06a_run d2pi T x y F ->
  Rabs (uas (X_iers (iers_arguments t) t)) <= 0.012 /\ Rabs (uas (Y_iers (iers_arguments t) t)) <= 0.012.
Proof.
  intros HD Ht HT (A & a & b & D & Rx & Ry). destruct (arguments_error d2pi T t F HD Ht HT A) as (LF & G & LG & C & E). destruct (iers_turns G _ t E) as (<- & <- & _).
  pose proof size_xy as S. rewrite D in S. cbn [size_of] in S. apply andb_prop in S as [Sa Sb]. destruct (detail_value G t 0 0 LG a b D) as [Vx Vy].
  assert (Z0 : Rabs 0 <= 0.1) by (rewrite Rabs_R0; lra).
  pose proof (size_eval F G T t 0 0 _ LF LG C Ht HT Z0 Z0 Sa (ex_intro _ x Rx)) as P. pose proof (size_eval F G T t 0 0 _ LF LG C Ht HT Z0 Z0 Sb (ex_intro _ y Ry)) as Q.
  cbn [eval] in P, Q. rewrite Vx, uas_sec' in P. rewrite Vy, uas_sec' in Q. split; assumption.
Qed.
Lemma locator_size d2pi T t x y s : Rabs (d2pi - 2 * PI) <= / 2 ^ 50 -> Rabs t <= 1 -> Rabs (T - t) <= / 2 ^ 53 -> Rabs x <= 0.1 -> Rabs y <= 0.1 -> s06_run d2pi T x y s ->
  Rabs (uas (S_iers (iers_arguments t) t) - x * y / 2) <= 0.012.
Proof.
  intros HD Ht HT Hx Hy (F & A & Rs). destruct (arguments_error d2pi T t F HD Ht HT A) as (LF & G & LG & C & E). destruct (iers_turns G _ t E) as (_ & _ & <-).
  pose proof (size_eval F G T t x y _ LF LG C Ht HT Hx Hy size_s (ex_intro _ s Rs)) as P. rewrite s06_value in P by exact LG. exact P.
Qed.
