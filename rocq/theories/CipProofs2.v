(** Proofs for CipProps: the functions. *)
From Coq Require Import Reals ZArith List Bool Permutation Lia Lra.
From Verif Require Import Base Poly Angles PiBound FundModel FundSpec FundProofs CipRow CipTabS CipTabX CipTabY CipTabXY CipModel CipSpec CipProofs.
Import ListNotations.
Open Scope R_scope.

Lemma series5 a b c d e F t : series [a; b; c; d; e] F t =
  total (map (wave F) a) + (total (map (wave F) b) + (total (map (wave F) c) + (total (map (wave F) d) + total (map (wave F) e) * t) * t) * t) * t.
Proof. unfold series. cbn [series_from pow]. ring. Qed.
Lemma horner_peval a b c d e f t : horner5 a b c d e f t = peval [a; b; c; d; e; f] t.
Proof. unfold horner5, peval. cbn [fold_right]. ring. Qed.
Lemma full5 a b c d e : forallb full [a; b; c; d; e] = true -> full a = true /\ full b = true /\ full c = true /\ full d = true /\ full e = true.
Proof. cbn [forallb]. rewrite !andb_true_iff. tauto. Qed.
Lemma total_rev l : total (rev l) = total l.
Proof. apply total_perm, Permutation_sym, Permutation_rev. Qed.
Lemma uas_sec x : sec2rad (x * 1e-6) = uas x.
Proof. unfold uas, FundModel.sec2rad. reflexivity. Qed.

(** ** the separate functions *)
Lemma xcip_series F t : length F = 14%nat -> detail_xcip06a F t = peval [-16617; 2004191898; -429782.9; -198618.34; 7.578; 5.9285] t + series [X0; X1; X2; X3; X4] F t.
Proof.
  intros HF. destruct (full5 _ _ _ _ _ x_full) as (H0 & H1 & H2 & H3 & H4). unfold detail_xcip06a. cbv zeta. rewrite !ktotal_ok by assumption.
  rewrite series5. unfold xpoly. rewrite horner_peval. apply Rplus_comm.
Qed.
Lemma ycip_iers F t : length F = 14%nat -> detail_ycip06a F t = Y_iers F t.
Proof.
  intros HF. destruct (full5 _ _ _ _ _ y_full) as (H0 & H1 & H2 & H3 & H4). unfold detail_ycip06a. cbv zeta. rewrite !ktotal_ok by assumption.
  unfold Y_iers, Y_tables. rewrite series5. unfold ypoly. rewrite horner_peval. reflexivity.
Qed.
Lemma replace_lead F : total (map (wave F) (removelast X1 ++ [lead])) = total (map (wave F) X1) + 0.01 * cos (nth 4 F 0) \/ length F <> 14%nat.
Proof.
  destruct (Nat.eq_dec (length F) 14) as [HF|]; [left|right; assumption]. rewrite x1_last at 2. rewrite !map_app, !total_app, Rplus_assoc. f_equal.
  cbn [map]. unfold total. cbn [fold_right]. rewrite !Rplus_0_r. unfold wave, lead, short_lead, T. cbn [csin ccos mult].
  spread F HF. unfold argument, total. cbn [combine map fold_right fst snd nth].
  match goal with |- context [cos ?a] => replace a with r3 by ring end. lra.
Qed.
Lemma x_iers_series F t : length F = 14%nat -> X_iers F t = peval [-16617; 2004191898; -429782.9; -198618.34; 7.578; 5.9285] t + series [X0; X1; X2; X3; X4] F t + 0.01 * t * cos (nth 4 F 0).
Proof.
  intros HF. unfold X_iers, X_tables. rewrite !series5. destruct (replace_lead F) as [E|E]; [|contradiction]. rewrite E.
  set (a := total _). set (b := total _). set (c := total _). set (d := total _). set (e := total _). set (p := peval _ _). ring.
Qed.

(** ** the combined function *)
Lemma plan_tables : exists xs ys, plan XyLunSol XyPln = Some (xs, ys, []) /\ Permutation xs (flat 0 X_tables) /\ Permutation ys (flat 0 Y_tables).
Proof. exact (tables_check_ok _ _ _ _ tables_agree). Qed.
Lemma walk_tables F t : length F = 14%nat -> walk XyLunSol F (tpow t) XyPln 0 0 = Ok (series X_tables F t, series Y_tables F t, []).
Proof.
  intros HF. destruct plan_tables as (xs & ys & E & PX & PY). rewrite (walk_ok F t HF _ _ _ _ _ _ _ E).
  rewrite (sum_perm F t _ _ PX), (sum_perm F t _ _ PY). unfold series. rewrite !series_flat, !Rplus_0_l. reflexivity.
Qed.
Lemma combined F t : length F = 14%nat -> detail_xycip06a F t = Ok (X_iers F t, Y_iers F t).
Proof.
  intros HF. unfold detail_xycip06a. rewrite walk_tables by exact HF. cbn [bind]. unfold X_iers, Y_iers, xpoly, ypoly. rewrite !horner_peval.
  do 2 f_equal; apply Rplus_comm.
Qed.

(** ** the locator *)
Lemma zero_row F : wave F (T 0 0 0 0 0 0 0 0 0 0 0 0 0 0 0 0) = 0.
Proof. unfold wave, T. cbn [csin ccos]. lra. Qed.
Lemma locator F t x y : length F = 14%nat -> detail_s06 F t x y = uas (S_iers F t) - x * y / 2.
Proof.
  intros HF. destruct (full5 _ _ _ _ _ c_full) as (H0 & H1 & H2 & H3 & H4). unfold detail_s06. cbv zeta. rewrite !sum_rows_ok by assumption.
  rewrite uas_sec. unfold Rminus. f_equal. f_equal. unfold S_iers, S_tables. rewrite series5, horner_peval. rewrite Rplus_comm. f_equal.
  destruct s_tables as (E0 & E1 & E2 & E3 & E4). rewrite E0, E1, E2, E3, E4, map_app, !map_rev, total_app, !total_rev.
  replace (total (map (wave F) (repeat _ 5))) with 0; [ring|]. cbn [repeat map]. unfold total. cbn [fold_right]. rewrite !zero_row. ring.
Qed.

(** ** whole turns *)
Lemma eqm_mult n a b : eqm a b -> eqm (IZR n * a) (IZR n * b).
Proof. intros H. rewrite (Rmult_comm _ a), (Rmult_comm _ b). apply eqm_scale, H. Qed.
Lemma argument_eqm n : forall F G, Forall2 eqm F G -> eqm (argument n F) (argument n G).
Proof.
  induction n as [|k n IH]; intros F G H; [apply eqm_refl|]. destruct H as [|a b F G H1 H2]; [apply eqm_refl|].
  unfold argument, total. cbn [combine map fold_right fst snd]. apply eqm_add; [apply eqm_mult, H1|apply IH, H2].
Qed.
Lemma wave_eqm F G r : Forall2 eqm F G -> wave F r = wave G r.
Proof. intros H. unfold wave. rewrite (eqm_sin _ _ (argument_eqm (mult r) F G H)), (eqm_cos _ _ (argument_eqm (mult r) F G H)). reflexivity. Qed.
Lemma series_eqm F G t tabs j : Forall2 eqm F G -> series_from j tabs F t = series_from j tabs G t.
Proof.
  intros H. revert j. induction tabs as [|tab rest IH]; intros j; [reflexivity|]. cbn [series_from]. rewrite IH. do 3 f_equal. apply map_ext. intros r. apply wave_eqm, H.
Qed.
Lemma arguments_eqm t : Forall2 eqm (arguments t) (iers_arguments t).
Proof.
  unfold iers_arguments. change (arguments t) with (fundarg t ++ planets t ++ [fapa03 t]).
  apply Forall2_app; [|apply Forall2_app].
  - pose proof (args_congruent t) as H. induction H; constructor; assumption.
  - pose proof (planets_congruent t) as H. induction H; constructor; assumption.
  - constructor; [|constructor]. rewrite fapa_value. apply eqm_refl.
Qed.
Lemma arguments_length t : length (arguments t) = 14%nat. Proof. reflexivity. Qed.

(** ** bounds *)
Definition amp (tab : list row) : Z := fold_right (fun r a => (Z.abs (csin r) + Z.abs (ccos r) + a)%Z) 0%Z tab.
Lemma wave_bound F r : Rabs (wave F r) <= (IZR (Z.abs (csin r)) + IZR (Z.abs (ccos r))) / 100.
Proof.
  unfold wave. set (a := argument _ _). pose proof (SIN_bound a) as S1. pose proof (COS_bound a) as C1. apply (Rle_trans _ _ _ (Rabs_triang _ _)).
  rewrite !abs_IZR. unfold Rdiv. rewrite !Rabs_mult. rewrite (Rabs_pos_eq (/ 100)) by lra.
  assert (Rabs (sin a) <= 1) by (apply Rabs_le; lra). assert (Rabs (cos a) <= 1) by (apply Rabs_le; lra).
  pose proof (Rabs_pos (IZR (csin r))). pose proof (Rabs_pos (IZR (ccos r))). nra.
Qed.
Lemma table_bound F tab : Rabs (total (map (wave F) tab)) <= IZR (amp tab) / 100.
Proof.
  induction tab as [|r tab IH]; unfold total in *; cbn [map fold_right amp]; [rewrite Rabs_R0; lra|].
  apply (Rle_trans _ _ _ (Rabs_triang _ _)). fold (amp tab). rewrite !plus_IZR. pose proof (wave_bound F r). lra.
Qed.
Fixpoint amps (B : R) (l : list Z) : R := match l with [] => 0 | a :: r => IZR a / 100 + B * amps B r end.
Lemma amps_nonneg B l : 0 <= B -> Forall (fun a => (0 <= a)%Z) l -> 0 <= amps B l.
Proof. intros HB. induction 1 as [|a l Ha Hl IH]; cbn [amps]; [lra|]. apply IZR_le in Ha. nra. Qed.
Lemma amp_nonneg tab : (0 <= amp tab)%Z.
Proof. induction tab as [|r tab IH]; cbn [amp fold_right]; [lia|]. fold (amp tab). lia. Qed.
Lemma series_shift F t tabs : forall j, series_from (S j) tabs F t = t * series_from j tabs F t.
Proof. induction tabs as [|tab rest IH]; intros j; cbn [series_from]; [ring|]. rewrite IH. cbn [pow]. ring. Qed.
Lemma series_bound F t B tabs : Rabs t <= B -> Rabs (series tabs F t) <= amps B (map amp tabs).
Proof.
  intros HB. unfold series. induction tabs as [|tab rest IH]; cbn [series_from map amps]; [rewrite Rabs_R0; lra|].
  apply (Rle_trans _ _ _ (Rabs_triang _ _)). rewrite series_shift, pow_O, Rmult_1_l, Rabs_mult. apply Rplus_le_compat; [apply table_bound|].
  apply Rmult_le_compat; try apply Rabs_pos; assumption.
Qed.
Fixpoint pabs (B : R) (c : list R) : R := match c with [] => 0 | a :: r => Rabs a + B * pabs B r end.
Lemma pabs_nonneg B c : 0 <= B -> 0 <= pabs B c.
Proof. intros HB. induction c as [|a c IH]; cbn [pabs]; [lra|]. pose proof (Rabs_pos a). nra. Qed.
Lemma peval_bound c t B : Rabs t <= B -> Rabs (peval c t) <= pabs B c.
Proof.
  intros HB. induction c as [|a c IH]; unfold peval in *; cbn [fold_right pabs]; [rewrite Rabs_R0; lra|]. apply (Rle_trans _ _ _ (Rabs_triang _ _)). apply Rplus_le_compat_l.
  rewrite Rabs_mult. apply Rmult_le_compat; try apply Rabs_pos; assumption.
Qed.
Lemma x_amps : map amp X_tables = [774337215; 22942703; 238931; 2381; 12]%Z. Proof. vm_compute. reflexivity. Qed.
Lemma y_amps : map amp Y_tables = [1008881833; 17446013; 264733; 1851; 13]%Z. Proof. vm_compute. reflexivity. Qed.
Lemma s_amps : exists l, map amp S_tables = l /\ amps 1 l <= 4000.
Proof. eexists. split; [vm_compute; reflexivity|]. cbn [amps]. lra. Qed.
