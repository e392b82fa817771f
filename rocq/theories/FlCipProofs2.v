(** Proofs about FlCipModel: errors of the arguments and of the coordinates. *)
From Coq Require Import Reals ZArith List Bool Lia Lra.
From Verif Require Import Base Poly Angles PiBound FundModel FundSpec FundProofs CipRow CipModel CipSpec CipProofs2 FlModel FlProofs FlCipModel FlCipProofs.
Import ListNotations.
Open Scope R_scope.

(** arguments [F] computed for the exact values [G] *)
Definition close (d : R) (f g : R) : Prop := Rabs g <= 7 /\ Rabs (f - g) <= d.
Lemma scaled (n d : Z) : (0 < d)%Z -> IZR (n * one120 / d) * unit120 <= IZR n / IZR d.
Proof.
  intros H. pose proof unit_inv as U. pose proof unit_pos as P. assert (D : 0 < IZR d) by (apply IZR_lt, H).
  apply (Rmult_le_reg_r (IZR d)); [exact D|]. unfold Rdiv. rewrite (Rmult_assoc (IZR n)), Rinv_l, Rmult_1_r by lra.
  replace (IZR (n * one120 / d) * unit120 * IZR d) with (IZR (d * (n * one120 / d)) * unit120) by (rewrite mult_IZR; ring).
  apply Rle_trans with (IZR (n * one120) * unit120). - apply Rmult_le_compat_r; [lra|]. apply IZR_le, Z.mul_div_le, H.
  - rewrite mult_IZR. unfold one120. rewrite Rmult_assoc, U. lra.
Qed.
Lemma scaled_up (n d : Z) : (0 < d)%Z -> IZR n / IZR d <= IZR (n * one120 / d + 1) * unit120.
Proof.
  intros H. pose proof (quo_up (n * one120) d H) as Q. pose proof unit_inv as U. pose proof unit_pos as P. rewrite mult_IZR in Q.
  apply Rle_trans with (IZR n * IZR one120 / IZR d * unit120); [|apply Rmult_le_compat_r; lra].
  replace (IZR n * IZR one120 / IZR d * unit120) with (IZR n / IZR d * (IZR one120 * unit120)) by (unfold Rdiv; ring). unfold one120. rewrite U. lra.
Qed.
Lemma Forall2_nth {A B} (P : A -> B -> Prop) l m d e i : Forall2 P l m -> (i < length l)%nat -> P (nth i l d) (nth i m e).
Proof. intros H. revert i. induction H; intros [|i] Hi; cbn [length nth] in *; try lia; [assumption|apply IHForall2; lia]. Qed.
Lemma fits_args F G T t x y : length F = 14%nat -> length G = 14%nat -> Forall2 (close (1 / 10 ^ 11)) F G -> Rabs t <= 1 -> Rabs (T - t) <= / 2 ^ 53 -> Rabs x <= 0.1 -> Rabs y <= 0.1 ->
  fits (venv G t x y) (venv F T x y) vbs.
Proof.
  intros HF HG C Ht HT Hx Hy i. pose proof unit_inv as U. pose proof unit_pos as P. unfold vbs. destruct (Nat.ltb_spec i 14) as [L|L]; cbn [fst snd].
  - unfold venv. rewrite !app_nth1 by lia. destruct (Forall2_nth _ F G 0 0 i C ltac:(lia)) as [A B]. split.
    + rewrite mult_IZR. unfold one120. rewrite Rmult_assoc, U. lra.
    + eapply Rle_trans; [exact B|]. pose proof (scaled_up 1 (10 ^ 11) ltac:(lia)) as S. rewrite Z.mul_1_l in S. replace (IZR (10 ^ 11)) with (10 ^ 11) in S; [exact S|]. apply (pow_IZR 10 11).
  - destruct (Nat.eqb_spec i 14) as [->|N]; cbn [fst snd].
    + rewrite !var_t by assumption. split; [unfold one120; rewrite U; exact Ht|]. eapply Rle_trans; [exact HT|].
      pose proof (scaled_up 1 (2 ^ 53) ltac:(lia)) as S. rewrite Z.mul_1_l in S. replace (IZR (2 ^ 53)) with (2 ^ 53) in S; [unfold Rdiv in S; rewrite Rmult_1_l in S; exact S|]. apply (pow_IZR 2 53).
    + assert (E : forall H T', length H = 14%nat -> venv H T' x y i = nth (i - 15) [x; y] 0).
      { intros H T' L'. unfold venv. rewrite app_nth2 by lia. rewrite L'. replace (i - 14)%nat with (S (i - 15)) by lia. reflexivity. }
      rewrite !E by assumption. split; [|rewrite Rminus_diag_eq, Rabs_R0 by reflexivity; lra].
      pose proof (scaled_up 1 10 ltac:(lia)) as S. rewrite Z.mul_1_l in S. apply Rle_trans with 0.1; [|lra].
      destruct (i - 15)%nat as [|[|k]]; cbn [nth]; [exact Hx|exact Hy|]. destruct k; rewrite Rabs_R0; lra.
Qed.

(** ** the coordinates from the arguments *)
Lemma goal_xy_le : IZR goal_xy * unit120 <= uas 0.0002.
Proof. unfold goal_xy. eapply Rle_trans; [apply scaled; lia|]. unfold uas. pose proof pi_bounds. change (10 ^ 19)%Z with 10000000000000000000%Z. lra. Qed.
Lemma goal_s_le : IZR goal_s * unit120 <= uas 0.00001.
Proof. unfold goal_s. eapply Rle_trans; [apply scaled; lia|]. unfold uas. pose proof pi_bounds. change (10 ^ 20)%Z with 100000000000000000000%Z. lra. Qed.
Lemma uas_sec' v : sec2rad (v * (1 / 10 ^ 6)) = uas v.
Proof. unfold sec2rad, uas. lra. Qed.
Lemma pole_error F G T t x y : length F = 14%nat -> length G = 14%nat -> Forall2 (close (1 / 10 ^ 11)) F G -> Rabs t <= 1 -> Rabs (T - t) <= / 2 ^ 53 ->
  (exists ex ey, detail_xycip06ae = Ok (ex, ey) /\ run (venv F T 0 0) (Sec (Mul ex (Dec 1 6))) x /\ run (venv F T 0 0) (Sec (Mul ey (Dec 1 6))) y) ->
  Rabs (x - uas (X_iers G t)) <= uas 0.0002 /\ Rabs (y - uas (Y_iers G t)) <= uas 0.0002.
Proof.
  intros HF HG C Ht HT (a & b & D & Rx & Ry). destruct (check_bounds _ a b check_xy_ok D) as [Bx By].
  destruct (detail_value G t 0 0 HG a b D) as [Vx Vy].
  assert (Z0 : Rabs 0 <= 0.1) by (rewrite Rabs_R0; lra). pose proof (fits_args F G T t 0 0 HF HG C Ht HT Z0 Z0) as FF.
  pose proof unit_pos as P. split.
  - destruct (bnd_sound _ _ _ FF _ _ Rx) as [_ B]. cbn [eval] in B. rewrite Vx, uas_sec' in B. eapply Rle_trans; [exact B|]. eapply Rle_trans; [|exact goal_xy_le].
    apply Rmult_le_compat_r; [lra|apply IZR_le, Bx].
  - destruct (bnd_sound _ _ _ FF _ _ Ry) as [_ B]. cbn [eval] in B. rewrite Vy, uas_sec' in B. eapply Rle_trans; [exact B|]. eapply Rle_trans; [|exact goal_xy_le].
    apply Rmult_le_compat_r; [lra|apply IZR_le, By].
Qed.
Lemma locator_error F G T t x y s : length F = 14%nat -> length G = 14%nat -> Forall2 (close (1 / 10 ^ 11)) F G -> Rabs t <= 1 -> Rabs (T - t) <= / 2 ^ 53 ->
  Rabs x <= 0.1 -> Rabs y <= 0.1 -> run (venv F T x y) detail_s06e s -> Rabs (s - (uas (S_iers G t) - x * y / 2)) <= uas 0.00001.
Proof.
  intros HF HG C Ht HT Hx Hy Rs. pose proof (fits_args F G T t x y HF HG C Ht HT Hx Hy) as FF. pose proof unit_pos as P.
  destruct (bnd_sound _ _ _ FF _ _ Rs) as [_ B]. rewrite s06_value in B by exact HG. eapply Rle_trans; [exact B|]. eapply Rle_trans; [|exact goal_s_le].
  apply Rmult_le_compat_r; [lra|]. apply IZR_le, Z.leb_le, check_s_ok.
Qed.

(** ** the arguments *)
Definition tvb (_ : nat) : Z * Z := (one120, one120 / 2 ^ 53 + 1)%Z.
Lemma fits_t T t : Rabs t <= 1 -> Rabs (T - t) <= / 2 ^ 53 -> fits (tenv t) (tenv T) tvb.
Proof.
  intros Ht HT i. unfold tenv, tvb. cbn [fst snd]. pose proof unit_inv as U. split; [unfold one120; rewrite U; exact Ht|]. eapply Rle_trans; [exact HT|].
  pose proof (scaled_up 1 (2 ^ 53) ltac:(lia)) as S. rewrite Z.mul_1_l in S. replace (IZR (2 ^ 53)) with (2 ^ 53) in S; [unfold Rdiv in S; rewrite Rmult_1_l in S; exact S|]. apply (pow_IZR 2 53).
Qed.
Lemma lunisolar_link t : Forall2 (fun e c => eval (tenv t) e = peval c t) lunisolare lunisolar.
Proof.
  unfold lunisolare, lunisolar, mean_anomaly_moon, mean_anomaly_sun, latitude_argument, elongation, FundSpec.node, degrees, horner4e, te, tenv.
  repeat (apply Forall2_cons; [unfold peval; cbn [fold_right eval pow]; lra|]). apply Forall2_nil.
Qed.
Lemma planetary_link t : Forall2 (fun e c => eval (tenv t) e = peval c t) planetarye planetary.
Proof. unfold planetarye, planetary, lineare, te, tenv. repeat (apply Forall2_cons; [unfold peval; cbn [fold_right eval pow]; lra|]). apply Forall2_nil. Qed.
Lemma fapa_link t : eval (tenv t) fapa03e = peval precession t.
Proof. unfold fapa03e, precession, te, tenv, peval. cbn [fold_right eval pow]. lra. Qed.
Lemma lunisolar_check : Forall (fun e => (snd (bnd tvb e) <=? one120 / 10 ^ 6)%Z = true) lunisolare.
Proof. repeat (apply Forall_cons; [vm_compute; reflexivity|]). apply Forall_nil. Qed.
Lemma planetary_check : Forall (fun e => (snd (bnd tvb e) <=? 2 * one120 / 10 ^ 12)%Z = true /\ (fst (bnd tvb e) <=? 2614 * one120)%Z = true) planetarye.
Proof. repeat (apply Forall_cons; [split; vm_compute; reflexivity|]). apply Forall_nil. Qed.
Lemma fapa_check : (snd (bnd tvb fapa03e) <=? one120 / 10 ^ 12)%Z = true /\ (fst (bnd tvb fapa03e) <=? one120)%Z = true.
Proof. split; vm_compute; reflexivity. Qed.
Lemma poly_error T t e c v : Rabs t <= 1 -> Rabs (T - t) <= / 2 ^ 53 -> eval (tenv t) e = peval c t -> run (tenv T) e v ->
  Rabs (peval c t) <= IZR (fst (bnd tvb e)) * unit120 /\ Rabs (v - peval c t) <= IZR (snd (bnd tvb e)) * unit120.
Proof. intros Ht HT <- R. exact (bnd_sound _ _ _ (fits_t T t Ht HT) e v R). Qed.
Lemma u_small : 0 < u /\ u <= 1.2e-16 /\ 0 < tiny /\ tiny <= 1e-30.
Proof.
  split; [exact u_pos|]. split; [unfold u; cbn [pow]; lra|]. split; [unfold tiny; apply Rinv_0_lt_compat, pow_lt; lra|].
  apply Rle_trans with (/ 2 ^ 120); [exact tiny_ok|]. cbn [pow]. lra.
Qed.
Lemma units (n d : Z) m : (m <=? n * one120 / d)%Z = true -> (0 < d)%Z -> IZR m * unit120 <= IZR n / IZR d.
Proof. intros H D. eapply Rle_trans; [|apply scaled, D]. apply Rmult_le_compat_r; [apply Rlt_le, unit_pos|apply IZR_le, Z.leb_le, H]. Qed.
Lemma lunisolar_arg T t e c f : Rabs t <= 1 -> Rabs (T - t) <= / 2 ^ 53 -> eval (tenv t) e = peval c t -> (snd (bnd tvb e) <=? one120 / 10 ^ 6)%Z = true ->
  lunisolar_run T e f -> exists g, eqm g (arcsec (peval c t)) /\ close (1 / 10 ^ 11) f g.
Proof.
  intros Ht HT E K (p & Rp & Hf). destruct (poly_error T t e c p Ht HT E Rp) as [_ B].
  assert (B' : Rabs (p - peval c t) <= 1 / 1000000). { eapply Rle_trans; [exact B|]. apply (units 1 (10 ^ 6)); [rewrite Z.mul_1_l; exact K|lia]. }
  pose proof (fmod_bound p TURNAS turn_pos) as M. set (k := trunc (p / TURNAS)) in *.
  assert (N : fmod p TURNAS = p - 1296000 * IZR k) by reflexivity. rewrite N in *. unfold TURNAS in M. pose proof pi_bounds as PB. destruct u_small as (U1 & U2 & T1 & T2).
  exists (arcsec (peval c t) - 2 * PI * IZR k). split; [exists (- k)%Z; rewrite opp_IZR; ring|].
  assert (G : arcsec (peval c t) - 2 * PI * IZR k = (peval c t - 1296000 * IZR k) * (PI / 648000)) by (rewrite arcsec_linear; field).
  assert (S : sec2rad (p - 1296000 * IZR k) = (p - 1296000 * IZR k) * (PI / 648000)) by (unfold sec2rad, Rdiv; ring).
  rewrite G. rewrite S in Hf. set (q := p - 1296000 * IZR k) in *. set (r := peval c t - 1296000 * IZR k).
  assert (D : Rabs (q - r) <= 1 / 1000000) by (unfold q, r; replace (p - 1296000 * IZR k - (peval c t - 1296000 * IZR k)) with (p - peval c t) by ring; exact B').
  set (a := PI / 648000) in *. assert (A : 4.8481368e-6 <= a <= 4.8481369e-6) by (unfold a; lra). apply Rabs_le_inv in D.
  assert (Q : Rabs (q * a) <= 6.2832). { rewrite Rabs_mult, (Rabs_pos_eq a) by lra. assert (Rabs q <= 1296000) by (apply Rabs_le; lra). pose proof (Rabs_pos q). assert (a <= 6.2832 / 1296000) by (unfold a; lra). nra. }
  assert (W : Rabs (q * a - r * a) <= 4.85e-12). { rewrite <- Rmult_minus_distr_r. apply Rabs_le. nra. }
  assert (X : 4 * u * Rabs (q * a) <= 4e-15). { pose proof (Rabs_pos (q * a)). nra. }
  apply Rabs_le_inv in Q, W. assert (Y : Rabs (f - q * a) <= 5e-15) by lra. apply Rabs_le_inv in Y. unfold close. cbn [pow]. split; apply Rabs_le; lra.
Qed.
Lemma trunc_abs q : Rabs (IZR (trunc q)) <= Rabs q.
Proof.
  destruct (Rle_or_lt 0 q) as [H|H].
  - pose proof (trunc_nonneg q H). assert (0 <= IZR (trunc q)). { unfold trunc. destruct (Rle_dec 0 q); [|lra]. apply IZR_le. assert (-1 < IZR (Int_part q)) by (pose proof (int_part_range q); lra). apply lt_IZR in H1. lia. }
    rewrite !Rabs_pos_eq by lra. lra.
  - pose proof (trunc_nonpos q ltac:(lra)). assert (IZR (trunc q) <= 0). { apply IZR_le. assert (IZR (trunc q) < 1) by lra. apply lt_IZR in H1. lia. }
    rewrite !Rabs_left1 by lra. lra.
Qed.
Lemma planetary_arg d2pi T t e c f : Rabs (d2pi - 2 * PI) <= / 2 ^ 50 -> Rabs t <= 1 -> Rabs (T - t) <= / 2 ^ 53 -> eval (tenv t) e = peval c t ->
  (snd (bnd tvb e) <=? 2 * one120 / 10 ^ 12)%Z = true -> (fst (bnd tvb e) <=? 2614 * one120)%Z = true ->
  planetary_run d2pi T e f -> exists g, eqm g (peval c t) /\ close (1 / 10 ^ 11) f g.
Proof.
  intros HD Ht HT E K1 K2 (p & Rp & Hf). destruct (poly_error T t e c p Ht HT E Rp) as [A B].
  assert (B' : Rabs (p - peval c t) <= 2 / 1000000000000) by (eapply Rle_trans; [exact B|apply (units 2 (10 ^ 12)); [exact K1|lia]]).
  assert (A' : Rabs (peval c t) <= 2614 / 1) by (eapply Rle_trans; [exact A|apply (units 2614 1); [rewrite Z.div_1_r; exact K2|lia]]).
  assert (HD' : Rabs (d2pi - 2 * PI) <= 9e-16) by (eapply Rle_trans; [exact HD|cbn [pow]; lra]). apply Rabs_le_inv in HD', A', B'. pose proof pi_bounds as PB.
  assert (DP : 0 < d2pi) by lra. pose proof (fmod_bound p d2pi DP) as M. set (k := trunc (p / d2pi)) in *.
  assert (N : fmod p d2pi = p - d2pi * IZR k) by reflexivity. rewrite N in *.
  assert (KB : Rabs (IZR k) <= 420). { eapply Rle_trans; [apply trunc_abs|]. unfold Rdiv. rewrite Rabs_mult, (Rabs_pos_eq (/ d2pi)) by (apply Rlt_le, Rinv_0_lt_compat, DP).
    assert (Rabs p <= 2615) by (apply Rabs_le; lra). assert (/ d2pi <= / 6.283) by (apply Rinv_le_contravar; lra). pose proof (Rabs_pos p). assert (0 < / d2pi) by (apply Rinv_0_lt_compat, DP). nra. }
  apply Rabs_le_inv in KB. exists (peval c t - 2 * PI * IZR k). split; [exists (- k)%Z; rewrite opp_IZR; ring|].
  assert (Z : Rabs ((d2pi - 2 * PI) * IZR k) <= 4e-13). { rewrite Rabs_mult. assert (Rabs (d2pi - 2 * PI) <= 9e-16) by (apply Rabs_le; lra). assert (Rabs (IZR k) <= 420) by (apply Rabs_le; lra). pose proof (Rabs_pos (d2pi - 2 * PI)). pose proof (Rabs_pos (IZR k)). nra. }
  apply Rabs_le_inv in Z. assert (G : f - (peval c t - 2 * PI * IZR k) = (p - peval c t) - (d2pi - 2 * PI) * IZR k) by (rewrite Hf; ring).
  unfold close. cbn [pow]. rewrite G. split; [|apply Rabs_le; lra].
  replace (peval c t - 2 * PI * IZR k) with (f - ((p - peval c t) - (d2pi - 2 * PI) * IZR k)) by lra. rewrite Hf. apply Rabs_le. lra.
Qed.
Lemma Forall2_length {A B} (P : A -> B -> Prop) l m : Forall2 P l m -> length l = length m.
Proof. induction 1; cbn [length]; congruence. Qed.
Lemma forall2_pick {A B C} (P : A -> B -> Prop) (Q : A -> C -> Prop) (U : B -> C -> Prop) l m n :
  Forall2 P l m -> Forall2 Q l n -> (forall a b c, In a l -> P a b -> Q a c -> U b c) -> Forall2 U m n.
Proof.
  intros H. revert n. induction H as [|a b l m Hab H IH]; intros n HQ K; inversion HQ; subst; constructor.
  - eapply K; [left; reflexivity|eassumption|eassumption].
  - apply IH; [assumption|]. intros a' b' c' I. apply K. right. exact I.
Qed.
Lemma pick_args (cs : list (list R)) (val : list R -> R) (F : list R) : Forall2 (fun f c => exists g, eqm g (val c) /\ close (1 / 10 ^ 11) f g) F cs ->
  exists G, Forall2 (close (1 / 10 ^ 11)) F G /\ Forall2 eqm G (map val cs).
Proof.
  induction 1 as [|f c F cs (g & E & C) H (G & C' & E')]; [exists []; split; constructor|]. exists (g :: G). split; [constructor; assumption|]. cbn [map]. constructor; assumption.
Qed.
Lemma arguments_error d2pi T t F : Rabs (d2pi - 2 * PI) <= / 2 ^ 50 -> Rabs t <= 1 -> Rabs (T - t) <= / 2 ^ 53 -> arguments_run d2pi T F ->
  length F = 14%nat /\ exists G, length G = 14%nat /\ Forall2 (close (1 / 10 ^ 11)) F G /\ same_angles G (iers_arguments t).
Proof.
  intros HD Ht HT (L & Q & a & -> & HL & HP & HA).
  assert (LL : length L = 5%nat) by (apply Forall2_length in HL; rewrite <- HL; reflexivity).
  assert (LQ : length Q = 8%nat) by (apply Forall2_length in HP; rewrite <- HP; reflexivity).
  split; [rewrite !app_length, LL, LQ; reflexivity|].
  destruct (pick_args lunisolar (fun c => arcsec (peval c t)) L) as (GL & CL & EL).
  { apply (forall2_pick _ _ _ _ _ _ HL (lunisolar_link t)). intros e f c I Rn V. apply (lunisolar_arg T t e c f Ht HT V); [|exact Rn]. pose proof lunisolar_check as K. rewrite Forall_forall in K. apply K, I. }
  destruct (pick_args planetary (fun c => peval c t) Q) as (GP & CP & EP).
  { apply (forall2_pick _ _ _ _ _ _ HP (planetary_link t)). intros e f c I Rn V. pose proof planetary_check as K. rewrite Forall_forall in K. destruct (K e I) as [K1 K2].
    apply (planetary_arg d2pi T t e c f HD Ht HT V K1 K2 Rn). }
  destruct (poly_error T t fapa03e precession a Ht HT (fapa_link t) HA) as [A B]. destruct fapa_check as [K1 K2].
  assert (A' : Rabs (peval precession t) <= 1 / 1) by (eapply Rle_trans; [exact A|apply (units 1 1); [rewrite Z.mul_1_l, Z.div_1_r; exact K2|lia]]).
  assert (B' : Rabs (a - peval precession t) <= 1 / 1000000000000) by (eapply Rle_trans; [exact B|apply (units 1 (10 ^ 12)); [rewrite Z.mul_1_l; exact K1|lia]]).
  exists (GL ++ GP ++ [peval precession t]). split; [apply Forall2_length in CL, CP; rewrite !app_length, <- CL, <- CP, LL, LQ; reflexivity|]. split.
  - apply Forall2_app; [exact CL|]. apply Forall2_app; [exact CP|]. constructor; [|constructor]. unfold close. cbn [pow]. split; lra.
  - unfold same_angles, iers_arguments. apply Forall2_app; [exact EL|]. apply Forall2_app; [exact EP|]. constructor; [apply eqm_refl|constructor].
Qed.
Lemma iers_turns G H t : same_angles G H -> X_iers G t = X_iers H t /\ Y_iers G t = Y_iers H t /\ S_iers G t = S_iers H t.
Proof. intros E. unfold X_iers, Y_iers, S_iers, series. rewrite !(series_eqm G H) by exact E. repeat split. Qed.
