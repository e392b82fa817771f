(** C77: rounding errors of the interpolation of Earth orientation parameters. *)
From Coq Require Import Reals ZArith List Bool Lia Lra.
From Verif Require Import Base FlModel FlProofs EopModel EopSpec EopProofs EopProps FlEopModel FlEopSpec FlEopProofs FlEopProofs2.
Import ListNotations.
Open Scope R_scope.

(** ** C77 *)
(** a call inside the series: status and nodes are those of C14, and each parameter is near the interpolating polynomial *)
Theorem c77_interpolation T ltb days leap c g : @epochs T ltb days -> 0 <= c <= 1000 -> / 2 ^ 40 <= g ->
  forall s t e d b a st o s', sorted days (mvec T s) -> ready s -> (1 <= d <= 9)%Z -> cut days (mvec T s) t b a -> b <> [] -> a <> [] -> let nodes := nearest b a (usable b a d) in
  spaced days g nodes t -> interpolate_run T ltb days leap c g s t e d st o s' ->
  exists r, interpolate T ltb days leap s t e d = Ok (st, r, s') /\ interpolated days nodes t (leap t) r /\ rt T o = t /\ rdat T o = rdat T e /\ xrt T o = 0 /\ yrt T o = 0 /\
    close days g c nodes t (xp T) (xp T o) (xp T r) /\ close days g c nodes t (yp T) (yp T o) (yp T r) /\ close days g c nodes t (lod T) (lod T o) (lod T r) /\
    close days g c nodes t (dX T) (dX T o) (dX T r) /\ close days g c nodes t (dY T) (dY T o) (dY T r) /\ close_ut1 days g c nodes t (dut T o) (dut T r).
Proof. intros HE Hc Hg s t e d b a st o s' S Rd D C Nb Na nodes SP R. exact (inside T ltb days leap c g Hc Hg HE s t e d b a st o s' S Rd D C Nb Na SP R). Qed.
(** outside the series nothing is rounded *)
Theorem c77_outside T ltb days leap c g s t e d st o s' : interpolate_run T ltb days leap c g s t e d st o s' -> st = Prior \/ st = Later -> interpolate T ltb days leap s t e d = Ok (st, o, s').
Proof. apply outside. Qed.
(** approx_dut1 between two records *)
Theorem c77_approx_dut1 T ltb days leap c g : @epochs T ltb days -> 0 <= c <= 1000 -> / 2 ^ 40 <= g ->
  forall s t b p q a st o s', sorted days (mvec T s) -> ready s -> cut days (mvec T s) t (b ++ [p]) (q :: a) -> spaced days g [p; q] t -> approx_dut1_run T ltb days leap c g s t st o s' ->
  exists r, approx_dut1 T ltb days leap s t = Ok (st, r, s') /\ st = Linear /\ interpolates days [p; q] (fun r => dut T r - rdat T r) (days t) (r - leap t) /\ close_ut1 days g c [p; q] t o r.
Proof. intros HE Hc Hg s t b p q a st o s' S Rd C SP R. exact (approx_inside T ltb days leap c g Hc Hg HE s t b p q a st o s' S Rd C SP R). Qed.
(** the evaluation without rounding is among those considered *)
Theorem c77_exact T ltb days leap c g : 0 <= c -> 0 <= g ->
  (forall s t e d st r s', interpolate T ltb days leap s t e d = Ok (st, r, s') -> interpolate_run T ltb days leap c g s t e d st r s') /\
  (forall s t st v s', approx_dut1 T ltb days leap s t = Ok (st, v, s') -> approx_dut1_run T ltb days leap c g s t st v s').
Proof. intros Hc Hg. split; intros; [apply interpolate_exact|apply approx_exact]; assumption. Qed.
(** daily records between which t lies: the condition is the largest value, about *)
Theorem c77_daily T (days : T -> R) g p q t y Y : 0 <= g -> days (rt T q) - days (rt T p) = 1 -> days (rt T p) <= days t <= days (rt T q) -> Rabs (y p) <= Y -> Rabs (y q) <= Y ->
  condition days g [p; q] t y <= (Y + / 2 ^ 199) * (1 + 2 * g).
Proof.
  intros Hg D Ht Hp Hq. unfold condition, weight. cbn [fold_right]. destruct (Req_EM_T (days (rt T p)) (days (rt T p))); [|contradiction]. destruct (Req_EM_T (days (rt T q)) (days (rt T q))); [|contradiction].
  destruct (Req_EM_T (days (rt T q)) (days (rt T p))); [lra|]. destruct (Req_EM_T (days (rt T p)) (days (rt T q))); [lra|].
  replace (Rabs (days (rt T p) - days (rt T q))) with 1 by (rewrite Rabs_minus_sym, D, Rabs_R1; reflexivity). replace (Rabs (days (rt T q) - days (rt T p))) with 1 by (rewrite D, Rabs_R1; reflexivity).
  rewrite (Rabs_minus_sym (days t) (days (rt T q))), (Rabs_pos_eq (days (rt T q) - days t)), (Rabs_pos_eq (days t - days (rt T p))) by lra. pose proof (Rinv_0_lt_compat _ (pow_lt 2 199 ltac:(lra))) as P. set (s := / 2 ^ 199) in *.
  assert (M1 : 0 <= Rmax (days (rt T q) - days t) g <= days (rt T q) - days t + g) by (split; [eapply Rle_trans; [exact Hg|apply Rmax_r]|apply Rmax_lub; lra]). assert (M2 : 0 <= Rmax (days t - days (rt T p)) g <= days t - days (rt T p) + g) by (split; [eapply Rle_trans; [exact Hg|apply Rmax_r]|apply Rmax_lub; lra]).
  set (m1 := Rmax (days (rt T q) - days t) g) in *. set (m2 := Rmax (days t - days (rt T p)) g) in *. unfold Rdiv. rewrite Rinv_1, !Rmult_1_r, !Rmult_1_l, Rplus_0_r.
  apply Rle_trans with ((Y + s) * m1 + (Y + s) * m2); [apply Rplus_le_compat; apply Rmult_le_compat_r; lra|]. rewrite <- Rmult_plus_distr_l. apply Rmult_le_compat_l; [pose proof (Rabs_pos (y p)); lra|lra].
Qed.

(** ** instances *)
Example c77_nonvacuous : exists st o s', interpolate_run Z Z.ltb IZR (fun _ => 37) 4 (/ 1000) ex_series 2%Z (ex_rec 0) 5 st o s' /\ sorted IZR (mvec Z ex_series) /\ ready ex_series /\
  cut IZR (mvec Z ex_series) 2%Z (map ex_rec [0; 1; 2]%Z) (map ex_rec [3; 4; 5]%Z) /\ spaced IZR (/ 1000) (nearest (map ex_rec [0; 1; 2]%Z) (map ex_rec [3; 4; 5]%Z) (usable (map ex_rec [0; 1; 2]%Z) (map ex_rec [3; 4; 5]%Z) 5)) 2%Z /\ st = Requested.
Proof.
  pose proof ex_epochs as HE. pose proof ex_sorted as S. pose proof ex_ready as Rd. pose proof ex_cut as C.
  destruct (c14_inside Z Z.ltb IZR (fun _ => 37) HE ex_series 2%Z (ex_rec 0) 5 _ _ S Rd ltac:(lia) C ltac:(discriminate) ltac:(discriminate)) as (r & s' & Q). cbv zeta in Q. destruct Q as (Q & _).
  eexists _, r, s'. split; [apply (proj1 (c77_exact Z Z.ltb IZR (fun _ => 37) 4 (/ 1000) ltac:(lra) ltac:(lra))); exact Q|]. split; [exact S|]. split; [exact Rd|]. split; [exact C|]. split; [|reflexivity].
  assert (B : 100 <= 2 ^ 20) by (cbn [pow]; lra). change (nearest _ _ _) with (map ex_rec [0; 1; 2; 3; 4; 5]%Z).
  assert (D : forall r, In r (map ex_rec [0; 1; 2; 3; 4; 5]%Z) -> exists k, rt Z r = k /\ (0 <= k <= 5)%Z). { intros q I. apply in_map_iff in I as (k & <- & I). exists k. split; [reflexivity|]. cbn in I. lia. }
  split.
  - intros x y X Y N. destruct (D x X) as (i & E1 & Hi). destruct (D y Y) as (j & E2 & Hj). rewrite E1, E2 in *. rewrite <- minus_IZR, <- abs_IZR. assert (i <> j) by (intros ->; apply N; reflexivity). split; [apply Rle_trans with 1; [lra|apply (IZR_le 1); lia]|eapply Rle_trans; [|exact B]; apply IZR_le; lia].
  - intros x X. destruct (D x X) as (i & -> & Hi). rewrite <- minus_IZR, <- abs_IZR. eapply Rle_trans; [|exact B]. apply IZR_le. lia.
Qed.
Print Assumptions c77_interpolation.
Print Assumptions c77_outside.
Print Assumptions c77_approx_dut1.
Print Assumptions c77_exact.
Print Assumptions c77_daily.
