(** Proofs for CipProps: bounds, continuity, independence of the terms, difference of the two versions. *)
From Coq Require Import Reals ZArith List Bool Permutation Lia Lra.
From Verif Require Import Base Poly Angles PiBound FundModel FundSpec FundProofs CipRow CipTabS CipTabX CipTabY CipTabXY CipModel CipSpec CipProofs CipProofs2.
Import ListNotations.
Open Scope R_scope.

(** ** bounds *)
Lemma Rabs_lit x : Rabs x <= Rmax x (- x).
Proof. unfold Rmax. destruct (Rle_dec x (- x)); apply Rabs_le; lra. Qed.
Ltac lits := repeat match goal with |- context [Rabs ?x] => first [rewrite (Rabs_pos_eq x) by lra|rewrite (Rabs_left x) by lra] end.
Lemma x_bound F t : Rabs t <= 10 -> Rabs (X_iers F t) <= 20350000000.
Proof.
  intros H. unfold X_iers. apply (Rle_trans _ _ _ (Rabs_triang _ _)). pose proof (series_bound F t 10 X_tables H) as B. rewrite x_amps in B.
  match goal with |- Rabs (peval ?c t) + _ <= _ => pose proof (peval_bound c t 10 H) as D end.
  cbn [amps] in B. cbn [pabs] in D. set (p := Rabs (peval _ _)) in *. set (s := Rabs (series _ _ _)) in *.
  revert D. lits. lra.
Qed.
Lemma y_bound F t : Rabs t <= 10 -> Rabs (Y_iers F t) <= 2300000000.
Proof.
  intros H. unfold Y_iers. apply (Rle_trans _ _ _ (Rabs_triang _ _)). pose proof (series_bound F t 10 Y_tables H) as B. rewrite y_amps in B.
  match goal with |- Rabs (peval ?c t) + _ <= _ => pose proof (peval_bound c t 10 H) as D end.
  cbn [amps] in B. cbn [pabs] in D. set (p := Rabs (peval _ _)) in *. set (s := Rabs (series _ _ _)) in *.
  revert D. lits. lra.
Qed.
Lemma s_bound F t : Rabs t <= 1 -> Rabs (S_iers F t) <= 81000.
Proof.
  intros H. unfold S_iers. apply (Rle_trans _ _ _ (Rabs_triang _ _)). pose proof (series_bound F t 1 S_tables H) as B. destruct s_amps as (l & E & L). rewrite E in B.
  match goal with |- Rabs (peval ?c t) + _ <= _ => pose proof (peval_bound c t 1 H) as D end.
  cbn [pabs] in D. set (p := Rabs (peval _ _)) in *. set (s := Rabs (series _ _ _)) in *.
  revert D. lits. lra.
Qed.
Lemma uas_bound x b : Rabs x <= b -> Rabs (uas x) <= uas b.
Proof.
  intros H. assert (K : 0 < 1e-6 * PI / 648000) by (pose proof PI_RGT_0; lra). assert (U : forall z, uas z = z * (1e-6 * PI / 648000)) by (intros z; unfold uas; field).
  rewrite !U, Rabs_mult, (Rabs_pos_eq (_ / _)) by lra. apply Rmult_le_compat_r; lra.
Qed.
Lemma pole_bound F t : Rabs t <= 10 -> Rabs (uas (X_iers F t)) <= 0.1 /\ Rabs (uas (Y_iers F t)) <= 0.02.
Proof.
  intros H. pose proof pi_bounds as P. split.
  - apply (Rle_trans _ _ _ (uas_bound _ _ (x_bound F t H))). unfold uas. lra.
  - apply (Rle_trans _ _ _ (uas_bound _ _ (y_bound F t H))). unfold uas. lra.
Qed.

(** ** continuity *)
Lemma cont_total {A} (f : A -> R -> R) l x : (forall a, continuity_pt (f a) x) -> continuity_pt (fun t => total (map (fun a => f a t) l)) x.
Proof.
  intros H. induction l as [|a l IH]; unfold total in *; cbn [map fold_right]; [apply continuity_pt_const; intros ? ?; reflexivity|].
  exact (continuity_pt_plus _ _ x (H a) IH).
Qed.
Lemma cont_peval c x : continuity_pt (peval c) x.
Proof. apply derivable_continuous_pt. exists (peval (pderiv c) x). apply peval_derivative. Qed.
Lemma cont_scal k f x : continuity_pt f x -> continuity_pt (fun t => k * f t) x.
Proof. intros H. apply (continuity_pt_scal f k x H). Qed.
Definition cont_args (A : R -> list R) (x : R) : Prop := exists fs, (forall t, A t = map (fun f => f t) fs) /\ Forall (fun f => continuity_pt f x) fs.
Lemma cont_ext (f g : R -> R) x : (forall t, f t = g t) -> continuity_pt f x -> continuity_pt g x.
Proof. intros E H e He. destruct (H e He) as (d & Hd & K). exists d. split; [exact Hd|]. intros y Hy. rewrite <- !E. apply K, Hy. Qed.
Lemma cont_argument n fs x : Forall (fun f => continuity_pt f x) fs -> continuity_pt (fun t => argument n (map (fun f : R -> R => f t) fs)) x.
Proof.
  intros H. revert n. induction H as [|f fs Hf Hfs IH]; intros n.
  - destruct n; apply continuity_pt_const; intros ? ?; reflexivity.
  - destruct n as [|k n]; [apply continuity_pt_const; intros ? ?; reflexivity|]. unfold argument, total. cbn [map combine fold_right fst snd].
    apply (continuity_pt_plus (fun t => IZR k * f t) _ x (cont_scal (IZR k) f x Hf) (IH n)).
Qed.
Lemma cont_wave fs x r : Forall (fun f => continuity_pt f x) fs -> continuity_pt (fun t => wave (map (fun f : R -> R => f t) fs) r) x.
Proof.
  intros H. pose proof (cont_argument (mult r) fs x H) as C. unfold wave. apply (continuity_pt_plus (fun t => _ * sin _) (fun t => _ * cos _)).
  - apply cont_scal, (continuity_pt_comp (fun t => argument (mult r) (map (fun f : R -> R => f t) fs)) sin x C). apply continuity_sin.
  - apply cont_scal, (continuity_pt_comp (fun t => argument (mult r) (map (fun f : R -> R => f t) fs)) cos x C). apply continuity_cos.
Qed.
Lemma cont_pow j x : continuity_pt (fun t => t ^ j) x.
Proof. apply derivable_continuous_pt, derivable_pt_pow. Qed.
Lemma cont_series fs x tabs : Forall (fun f => continuity_pt f x) fs -> forall j, continuity_pt (fun t => series_from j tabs (map (fun f : R -> R => f t) fs) t) x.
Proof.
  intros H. induction tabs as [|tab rest IH]; intros j; cbn [series_from]; [apply continuity_pt_const; intros ? ?; reflexivity|].
  apply (continuity_pt_plus (fun t => t ^ j * _)); [|apply IH]. apply (continuity_pt_mult (fun t => t ^ j)); [apply cont_pow|].
  apply cont_total. intros r. apply cont_wave, H.
Qed.
Definition argument_functions : list (R -> R) := map (fun c t => arcsec (peval c t)) lunisolar ++ map (fun c t => peval c t) planetary ++ [fun t => peval precession t].
Lemma iers_arguments_functions t : iers_arguments t = map (fun f => f t) argument_functions.
Proof. unfold iers_arguments, argument_functions. rewrite !map_app, !map_map. reflexivity. Qed.
Lemma cont_functions x : Forall (fun f => continuity_pt f x) argument_functions.
Proof.
  unfold argument_functions. apply Forall_app. split; [|apply Forall_app; split].
  - apply Forall_map, Forall_forall. intros c _. apply (cont_ext (fun t => PI / 648000 * peval c t)); [intros t; symmetry; apply arcsec_linear|]. apply cont_scal, cont_peval.
  - apply Forall_map, Forall_forall. intros c _. apply cont_peval.
  - repeat constructor. apply cont_peval.
Qed.
Lemma cont_iers c tabs x : continuity_pt (fun t => peval c t + series tabs (arguments t) t) x.
Proof.
  apply (cont_ext (fun t => peval c t + series tabs (map (fun f => f t) argument_functions) t)).
  - intros t. f_equal. rewrite <- iers_arguments_functions. symmetry. apply series_eqm, arguments_eqm.
  - apply (continuity_pt_plus (peval c)); [apply cont_peval|]. apply (cont_series argument_functions x tabs (cont_functions x) 0).
Qed.

(** ** independence of the terms *)
Fixpoint fresh (m : list Z) (l : list (list Z)) : bool :=
  match l with [] => true | n :: l' => negb (zs_eqb m n) && negb (zs_eqb m (map Z.opp n)) && fresh m l' end.
Fixpoint all_fresh (l : list (list Z)) : bool :=
  match l with [] => true | m :: l' => negb (zs_eqb m (map Z.opp m)) && fresh m l' && all_fresh l' end.
Lemma zs_eqb_refl a : zs_eqb a a = true.
Proof. induction a as [|x a IH]; [reflexivity|]. cbn [zs_eqb]. rewrite Z.eqb_refl. exact IH. Qed.
Lemma fresh_ok m l : fresh m l = true -> forall n, In n l -> m <> n /\ m <> map Z.opp n.
Proof.
  induction l as [|a l IH]; intros H n; [intros []|]. cbn [fresh] in H. apply andb_true_iff in H. destruct H as [H H3]. apply andb_true_iff in H. destruct H as [H1 H2].
  intros [<-|I]; [|apply IH; assumption]. split; intros E; rewrite E, zs_eqb_refl in *; discriminate.
Qed.
Lemma opp_opp l : map Z.opp (map Z.opp l) = l.
Proof. rewrite map_map. rewrite <- (map_id l) at 2. apply map_ext. intros a. apply Z.opp_involutive. Qed.
Lemma all_fresh_ok l : all_fresh l = true -> NoDup l /\ forall m n, In m l -> In n l -> m <> map Z.opp n.
Proof.
  induction l as [|a l IH]; intros H; [split; [constructor|intros ? ? []]|]. cbn [all_fresh] in H. apply andb_true_iff in H. destruct H as [H H3]. apply andb_true_iff in H. destruct H as [H1 H2].
  destruct (IH H3) as [N O]. pose proof (fresh_ok _ _ H2) as K. split.
  - constructor; [|exact N]. intros I. apply (proj1 (K a I)). reflexivity.
  - intros m n [<-|Im] [<-|In'].
    + intros E. rewrite <- E, zs_eqb_refl in H1. discriminate.
    + apply (proj2 (K n In')).
    + intros E. apply (proj2 (K m Im)). rewrite E. symmetry. apply opp_opp.
    + apply O; assumption.
Qed.
Lemma independent_check tab : all_fresh (map mult tab) = true -> independent tab.
Proof. intros H. destruct (all_fresh_ok _ H) as [N O]. split; [|exact N]. intros a b Ia Ib. apply O; apply in_map; assumption. Qed.
Lemma tables_independent : Forall independent (X_tables ++ Y_tables ++ S_tables).
Proof.
  assert (H : forallb (fun t => all_fresh (map mult t)) (X_tables ++ Y_tables ++ S_tables) = true) by (vm_compute; reflexivity).
  apply Forall_forall. intros t I. apply independent_check. exact (proj1 (forallb_forall _ _) H t I).
Qed.
Definition fits (r : row) : bool := Nat.eqb (length (mult r)) 14 && forallb (fun z => (-128 <=? z)%Z && (z <=? 127)%Z) (mult r).
Lemma tables_fit : Forall (Forall (fun r => length (mult r) = 14%nat /\ Forall (fun z => (-128 <= z <= 127)%Z) (mult r))) ([C0; C1; C2; C3; C4] ++ [X0; X1; X2; X3; X4] ++ Y_tables).
Proof.
  assert (H : forallb (forallb fits) ([C0; C1; C2; C3; C4] ++ [X0; X1; X2; X3; X4] ++ Y_tables) = true) by (vm_compute; reflexivity).
  apply Forall_forall. intros t I. apply Forall_forall. intros r J. pose proof (proj1 (forallb_forall _ _) (proj1 (forallb_forall _ _) H t I) r J) as K.
  unfold fits in K. apply andb_true_iff in K. destruct K as [K1 K2]. split; [apply Nat.eqb_eq, K1|]. apply Forall_forall. intros z Z0. pose proof (proj1 (forallb_forall _ _) K2 z Z0) as B. cbv beta in B. apply andb_true_iff in B. rewrite !Z.leb_le in B. exact B.
Qed.

(** ** the two versions *)
Lemma x_gap F t : length F = 14%nat -> X_iers F t - detail_xcip06a F t = 0.01 * t * cos (nth 4 F 0).
Proof. intros HF. rewrite xcip_series, x_iers_series by exact HF. ring. Qed.
Lemma cos_pi_rational q : (forall k : Z, q <> IZR k + / 2) -> cos (q * PI) <> 0.
Proof. intros H E. apply cos_eq_0_0 in E. destruct E as [k E]. apply (H k). pose proof PI_RGT_0. apply (Rmult_eq_reg_r PI); [lra|apply Rgt_not_eq; lra]. Qed.
(** one century after J2000 *)
Definition century : epoch := mkT 88069 0.5.
Lemma century_one : jcenturies_sinceJ2000 century = 1.
Proof. unfold jcenturies_sinceJ2000, mjd, century. cbn [mday mfrac]. lra. Qed.
Lemma century_node : cos (nth 4 (arguments 1) 0) <> 0.
Proof.
  assert (E : cos (nth 4 (arguments 1) 0) = cos (arcsec (peval node 1))).
  { apply eqm_cos. pose proof (args_congruent 1) as H. unfold fundarg, lunisolar in H. inversion_clear H as [|? ? ? ? _ H1]. inversion_clear H1 as [|? ? ? ? _ H2]. inversion_clear H2 as [|? ? ? ? _ H3].
    inversion_clear H3 as [|? ? ? ? _ H4]. inversion_clear H4 as [|? ? ? ? H5 _]. exact H5. }
  rewrite E, arcsec_linear. replace (PI / 648000 * peval node 1) with (peval node 1 / 648000 * PI) by field. apply cos_pi_rational. intros k H.
  unfold peval, node, degrees in H. cbn [fold_right] in H.
  assert (G : IZR (-651272266522139) = IZR (32400000000000 * (2 * k + 1))) by (rewrite mult_IZR, plus_IZR, mult_IZR; lra).
  apply eq_IZR in G. lia.
Qed.
Lemma versions_differ : exists tt x y fa, xycip06a tt = Ok (x, y, fa) /\ (x, y, fa) <> extra_xycip06a tt.
Proof.
  exists century. unfold xycip06a, extra_xycip06a. cbv zeta. rewrite century_one. rewrite combined by apply arguments_length. cbn [bind].
  do 3 eexists. split; [reflexivity|]. intros E. apply (f_equal (fun p => fst (fst p))) in E. cbn [fst] in E.
  pose proof (x_gap (arguments 1) 1 (arguments_length 1)) as G. apply century_node.
  assert (K : X_iers (arguments 1) 1 = detail_xcip06a (arguments 1) 1); [|rewrite K in G; lra].
  unfold FundModel.sec2rad in E. pose proof PI_RGT_0 as P. apply (Rmult_eq_reg_r (1e-6 * PI / 648000)); [lra|]. apply Rgt_not_eq. lra.
Qed.
