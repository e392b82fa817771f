From Coq Require Import Ascii String Reals ZArith List Bool Lia Lra.
From Flocq Require Import Core.Core.
From Verif Require Import Base CString FromChars PyModel AodMergeSpec PyProofs TestSuiteSpec TestSuiteProofs EopPlotModel EopPlotSpec.
Import ListNotations.
Open Scope Z_scope.

Lemma lines_made text ls : made_of text ls -> lines text = ls.
Proof.
  intros (-> & F). induction F as [|l ls (s & -> & O) _ IH]; [reflexivity|]. cbn [concat]. rewrite <- app_assoc. cbn [app]. rewrite (lines_cons s (concat ls) O), IH. reflexivity.
Qed.
Section P.
  Variable fl : list Z -> option R.
  Lemma floats_ok ws xs : Forall2 (number fl) ws xs -> floats fl ws = Some xs.
  Proof. induction 1 as [|w x ws xs E _ IH]; [reflexivity|]. cbn [floats]. rewrite E, IH. reflexivity. Qed.
  Lemma floats_no ws w : In w ws -> fl w = None -> floats fl ws = None.
  Proof. induction ws as [|v ws IH]; [intros []|]. intros [->|I] E; cbn [floats]; [rewrite E; reflexivity|]. rewrite (IH I E). destruct (fl v); reflexivity. Qed.
  Lemma ref_ok l xs : ref_line fl l xs -> ref_row fl l = Some xs.
  Proof. intros (L & ws & W & F). unfold ref_row. destruct (Z.ltb_spec 5 (Z.of_nat (length l))); [|lia]. rewrite (words_complete _ _ W). apply floats_ok, F. Qed.
  Lemma ref_no l : no_ref fl l -> ref_row fl l = None.
  Proof. unfold ref_row. destruct (Z.ltb_spec 5 (Z.of_nat (length l))); [|reflexivity]. intros [L|(ws & w & W & I & E)]; [lia|]. rewrite (words_complete _ _ W). exact (floats_no ws w I E). Qed.
  Lemma lib_ok l r : lib_line fl l r -> lib_row fl l = Some r.
  Proof.
    intros (a & b & ws & i & s & xs & W & D & B & F & ->). unfold lib_row. rewrite (words_complete _ _ W). assert (E : parse_int a = Some i) by (rewrite <- (parse_decimal a i [] [] D (Forall_nil _) (Forall_nil _)); cbn [app]; rewrite app_nil_r; reflexivity).
    rewrite E. unfold number in B. rewrite B, (floats_ok ws xs F). reflexivity.
  Qed.
  Lemma parse_int_no c w : Forall (fun c => ~ white c) (c :: w) -> ~ digit c -> c <> 43 -> c <> 45 -> parse_int (c :: w) = None.
  Proof.
    intros S D P M. assert (E : strip (c :: w) = c :: w).
    { pose proof (strip_between [] (c :: w) [] (Forall_nil _) (Forall_nil _)) as T. cbn [app] in T. rewrite app_nil_r in T. apply T.
      - intros d r H. injection H as <- _. inversion S; assumption.
      - intros d r H. rewrite Forall_forall in S. apply S. rewrite H. apply in_or_app. right. left. reflexivity. }
    unfold parse_int. rewrite E. destruct (Z.eqb_spec c 45); [contradiction|]. destruct (Z.eqb_spec c 43); [contradiction|]. cbn [orb take_digits]. assert (N : is_dig c = false).
    { destruct (is_dig c) eqn:X; [|reflexivity]. exfalso. apply D. unfold is_dig in X. apply andb_true_iff in X as (A & B). apply Z.leb_le in A, B. unfold digit. lia. }
    rewrite N. reflexivity.
  Qed.
  Lemma lib_no l : no_lib fl l -> lib_row fl l = None.
  Proof.
    intros (ws & W & H). unfold lib_row. rewrite (words_complete _ _ W). destruct H as [L|[(a & w & -> & v & I & E)|(c & w & r & -> & D & P & M)]].
    - destruct ws as [|a [|b ws]]; try reflexivity. cbn in L. lia.
    - destruct w as [|b w]; [reflexivity|]. destruct I as [->|I]; [rewrite E; destruct (parse_int a); reflexivity|]. rewrite (floats_no w v I E). destruct (parse_int a), (fl b); reflexivity.
    - destruct r as [|b r]; [reflexivity|]. inversion W as [|b0 w0 s0 ws0 _ _ S _ _]; subst. rewrite (parse_int_no c w S D P M). reflexivity.
  Qed.
  Lemma rows_file (f : list Z -> option (list R)) (is : list Z -> list R -> Prop) (isnt : list Z -> Prop) ls xs : (forall l x, is l x -> f l = Some x) -> (forall l, isnt l -> f l = None) -> file is isnt ls xs -> rows f ls = xs.
  Proof. intros A B. induction 1 as [|l x ls xs I _ IH|l ls xs I _ IH]; [reflexivity| |]; cbn [rows]; [rewrite (A l x I)|rewrite (B l I)]; rewrite IH; reflexivity. Qed.
End P.

(** ** the tolerance *)
Lemma valid_fx : Valid_exp (FLT_exp (-1074) 53). Proof. apply FLT_exp_valid. red. lia. Qed.
Lemma double_pow e : -1074 <= e <= 900 -> double (bpow radix2 e).
Proof. intros H. apply generic_format_bpow. unfold FLT_exp. lia. Qed.
(** doubles between 2^15 and 2^16 are multiples of 2^-37 *)
Lemma modern_grid t : modern t -> exists k, t = (IZR k * bpow radix2 (-37))%R.
Proof.
  intros (G & L & U). unfold double, generic_format in G. exists (Ztrunc (scaled_mantissa radix2 (FLT_exp (-1074) 53) t)). rewrite G at 1. unfold F2R. cbn [Fnum Fexp]. f_equal. f_equal. unfold cexp.
  assert (M : mag_val radix2 t (mag radix2 t) = 16%Z). { apply mag_unique. rewrite Rabs_pos_eq by lra. change (bpow radix2 (16 - 1)) with 32768%R. change (bpow radix2 16) with 65536%R. split; assumption. }
  rewrite M. reflexivity.
Qed.
Lemma tol_small : (0 < tol <= bpow radix2 (-37))%R.
Proof.
  pose proof valid_fx as V. unfold tol, rnd. split.
  - apply Rlt_le_trans with (bpow radix2 (-41)); [apply bpow_gt_0|]. rewrite <- (round_generic radix2 (FLT_exp (-1074) 53) ZnearestE (bpow radix2 (-41))) by (apply double_pow; lia).
    apply round_le; [exact V|apply valid_rnd_N|]. change (bpow radix2 (-41)) with (/ IZR 2199023255552)%R. change (10 ^ 12) with 1000000000000. lra.
  - rewrite <- (round_generic radix2 (FLT_exp (-1074) 53) ZnearestE (bpow radix2 (-37))) by (apply double_pow; lia).
    apply round_le; [exact V|apply valid_rnd_N|]. change (bpow radix2 (-37)) with (/ IZR 137438953472)%R. change (10 ^ 12) with 1000000000000. lra.
Qed.
Lemma same_epoch x t : modern x -> modern t -> Rlt_bool (Rabs (rnd (x - t))) tol = true <-> x = t.
Proof.
  intros X T. pose proof valid_fx as V. pose proof tol_small as (T0 & T1). split.
  - intros E. destruct (Req_dec x t) as [Q|Q]; [exact Q|exfalso]. destruct (Rlt_bool_spec (Rabs (rnd (x - t))) tol) as [L|L]; [|discriminate E]. clear E.
    destruct (modern_grid x X) as (k & Ek), (modern_grid t T) as (j & Ej). assert (D : (bpow radix2 (-37) <= Rabs (x - t))%R).
    { rewrite Ek, Ej, <- Rmult_minus_distr_r, <- minus_IZR, Rabs_mult, (Rabs_pos_eq (bpow radix2 (-37))) by apply bpow_ge_0. rewrite <- (Rmult_1_l (bpow radix2 (-37))) at 1.
      apply Rmult_le_compat_r; [apply bpow_ge_0|]. rewrite <- abs_IZR. apply IZR_le. assert (k <> j) by (intros ->; apply Q; rewrite Ek, Ej; reflexivity). lia. }
    assert (B : (bpow radix2 (-37) <= Rabs (rnd (x - t)))%R).
    { unfold rnd. apply abs_round_ge_generic; [exact V|apply valid_rnd_N|apply double_pow; lia|exact D]. }
    lra.
  - intros ->. unfold rnd. replace (t - t)%R with 0%R by ring. rewrite round_0 by apply valid_rnd_N. rewrite Rabs_R0. apply Rlt_bool_true, T0.
Qed.
Lemma diffs_ok xs ys : diffs xs ys = map (fun p => nearest (fst p - snd p)) (combine xs ys).
Proof. revert ys. induction xs as [|x xs IH]; [reflexivity|]. intros [|y ys]; [reflexivity|]. cbn [diffs combine map fst snd]. rewrite IH. reflexivity. Qed.

Definition dated (r : list R) : Prop := exists t xs, r = t :: xs /\ modern t.
Lemma grep_none data t : Forall dated data -> modern t -> Forall (fun q => ~ at_epoch t q) data -> grep data t = Val [].
Proof.
  intros D T. induction D as [|r data (x & xs & -> & X) _ IH]; [reflexivity|]. intros N. inversion N as [|? ? N1 N2]; subst. cbn [grep first pbind]. rewrite (IH N2). cbn [pbind].
  destruct (Rlt_bool (Rabs (rnd (x - t))) tol) eqn:E; [|reflexivity]. apply same_epoch in E; [|exact X|exact T]. subst x. exfalso. apply N1. exists xs. reflexivity.
Qed.
Lemma grep_total data t : Forall dated data -> exists g, grep data t = Val g.
Proof. induction 1 as [|r data (x & xs & -> & X) _ (g & IH)]; [eexists; reflexivity|]. cbn [grep first pbind]. rewrite IH. cbn [pbind]. eexists. reflexivity. Qed.
Lemma grep_one a t ys b : Forall dated (a ++ (t :: ys) :: b) -> modern t -> Forall (fun q => ~ at_epoch t q) a -> exists g, grep (a ++ (t :: ys) :: b) t = Val ((t :: ys) :: g).
Proof.
  intros D T. induction a as [|r a IH]; intros N.
  - cbn [app] in *. inversion D as [|? ? _ D2]; subst. destruct (grep_total b t D2) as (g & G). exists g. cbn [grep first pbind]. rewrite G. cbn [pbind]. rewrite (proj2 (same_epoch t t T T) eq_refl). reflexivity.
  - cbn [app] in *. inversion D as [|? ? (x & xs & -> & X) D2]; subst. inversion N as [|? ? N1 N2]; subst. destruct (IH D2 N2) as (g & G). exists g. cbn [grep first pbind]. rewrite G. cbn [pbind].
    destruct (Rlt_bool (Rabs (rnd (x - t))) tol) eqn:E; [|reflexivity]. apply same_epoch in E; [|exact X|exact T]. subst x. exfalso. apply N1. exists xs. reflexivity.
Qed.
Lemma matches_ok l1 l2 m : Forall dated l1 -> Forall dated l2 -> matched l2 l1 m -> matches l1 l2 = Val m.
Proof.
  intros D1 D2 M. induction M as [|t xs r a ys b m E N _ IH|t xs r m N _ IH]; [reflexivity| |]; inversion D1 as [|? ? (u & us & Q & T) D3]; subst; injection Q as <- <-; cbn [matches first pbind].
  - destruct (grep_one a t ys b D2 T N) as (g & G). rewrite G. cbn [pbind]. rewrite (IH D3). cbn [pbind tl]. rewrite diffs_ok. reflexivity.
  - rewrite (grep_none l2 t D2 T N). cbn [pbind]. rewrite (IH D3). reflexivity.
Qed.
