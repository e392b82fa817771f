(** Proofs for CipProps. *)
From Coq Require Import Reals ZArith List Bool Permutation Lia Lra.
From Verif Require Import Base Poly Angles PiBound FundModel FundSpec FundProofs CipRow CipTabS CipTabX CipTabY CipTabXY CipModel CipSpec.
Import ListNotations.
Open Scope R_scope.

(** ** lists of terms with their power of time *)
Definition term := (nat * row)%type.
Definition value (F : list R) (t : R) (p : term) : R := t ^ fst p * wave F (snd p).
Definition sum_terms (F : list R) (t : R) (l : list term) : R := total (map (value F t) l).
Fixpoint flat (j : nat) (tabs : list (list row)) : list term :=
  match tabs with [] => [] | tab :: rest => map (pair j) tab ++ flat (S j) rest end.
Lemma total_app a b : total (a ++ b) = total a + total b.
Proof. induction a as [|x a IH]; cbn [total app fold_right]; [unfold total; cbn; ring|]. unfold total in *. cbn [fold_right app]. rewrite IH. ring. Qed.
Lemma total_scale c l : total (map (Rmult c) l) = c * total l.
Proof. induction l as [|x l IH]; unfold total in *; cbn [map fold_right]; [ring|]. rewrite IH. ring. Qed.
Lemma total_perm a b : Permutation a b -> total a = total b.
Proof. induction 1; unfold total in *; cbn [fold_right]; try congruence; lra. Qed.
Lemma series_flat F t tabs j : series_from j tabs F t = sum_terms F t (flat j tabs).
Proof.
  revert j. induction tabs as [|tab rest IH]; intros j; [reflexivity|]. cbn [series_from flat]. unfold sum_terms in *. rewrite map_app, total_app, map_map, IH. f_equal.
  rewrite <- total_scale, map_map. reflexivity.
Qed.
Lemma sum_perm F t a b : Permutation a b -> sum_terms F t a = sum_terms F t b.
Proof. intros H. apply total_perm, Permutation_map, H. Qed.
Lemma sum_app F t a b : sum_terms F t (a ++ b) = sum_terms F t a + sum_terms F t b.
Proof. unfold sum_terms. rewrite map_app. apply total_app. Qed.
Lemma sum_cons F t a b : sum_terms F t (a :: b) = value F t a + sum_terms F t b.
Proof. reflexivity. Qed.

(** ** permutations by computation *)
Fixpoint zs_eqb (a b : list Z) : bool :=
  match a, b with [], [] => true | x :: a', y :: b' => (x =? y)%Z && zs_eqb a' b' | _, _ => false end.
Lemma zs_eqb_ok a : forall b, zs_eqb a b = true -> a = b.
Proof.
  induction a as [|x a IH]; intros [|y b]; cbn [zs_eqb]; try discriminate; [reflexivity|]. intros H. apply andb_true_iff in H. destruct H as [H1 H2].
  apply Z.eqb_eq in H1. f_equal; auto.
Qed.
Definition term_eqb (p q : term) : bool :=
  if (csin (snd p) =? csin (snd q))%Z then if (ccos (snd p) =? ccos (snd q))%Z then Nat.eqb (fst p) (fst q) && zs_eqb (mult (snd p)) (mult (snd q)) else false else false.
Lemma term_eqb_ok p q : term_eqb p q = true -> p = q.
Proof.
  destruct p as [i [a b c]], q as [j [d e f]]. unfold term_eqb. cbn [fst snd csin ccos mult]. destruct (Z.eqb_spec a d); [|discriminate]. destruct (Z.eqb_spec b e); [|discriminate].
  intros H. apply andb_true_iff in H. destruct H as [H1 H2]. apply Nat.eqb_eq in H1. apply zs_eqb_ok in H2. congruence.
Qed.
Fixpoint take_out (p : term) (l : list term) : option (list term) :=
  match l with [] => None | q :: l' => if term_eqb p q then Some l' else match take_out p l' with Some m => Some (q :: m) | None => None end end.
Lemma take_out_ok p l : forall m, take_out p l = Some m -> Permutation l (p :: m).
Proof.
  induction l as [|q l IH]; intros m; cbn [take_out]; [discriminate|]. destruct (term_eqb p q) eqn:E.
  - intros [= <-]. apply term_eqb_ok in E. subst. apply Permutation_refl.
  - destruct (take_out p l) as [m'|]; [|discriminate]. intros [= <-]. apply (Permutation_trans (perm_skip q (IH _ eq_refl))), perm_swap.
Qed.
Fixpoint perm_check (a b : list term) : bool :=
  match a with [] => match b with [] => true | _ => false end | p :: a' => match take_out p b with Some b' => perm_check a' b' | None => false end end.
Lemma perm_check_ok a : forall b, perm_check a b = true -> Permutation a b.
Proof.
  induction a as [|p a IH]; intros b; cbn [perm_check]; [destruct b; [constructor|discriminate]|]. destruct (take_out p b) as [b'|] eqn:E; [|discriminate].
  intros H. apply Permutation_sym, (Permutation_trans (take_out_ok _ _ _ E)), perm_skip, Permutation_sym, IH, H.
Qed.

(** ** the argument of a row *)
Ltac spread F H := let n := fresh in do 14 (destruct F as [|? F]; [discriminate H|]); destruct F; [|discriminate H]; clear H.
Lemma arg_ok r F : length F = 14%nat -> length (mult r) = 14%nat -> arg r F = argument (mult r) F.
Proof.
  intros HF HM. destruct r as [a b n]. cbn [mult] in *. spread F HF. spread n HM.
  unfold arg, argument, total, num, farg. cbn [mult].
  destruct (has_planetary_args _) eqn:E; cbn [seq fold_left nth combine map fold_right fst snd]; [ring|].
  unfold has_planetary_args in E. cbn [seq existsb nth mult] in E. repeat (apply orb_false_iff in E; destruct E as [? E]). clear E.
  repeat match goal with H : negb (_ =? 0)%Z = false |- _ => apply negb_false_iff, Z.eqb_eq in H; rewrite H; clear H end. ring.
Qed.
Lemma contribution_ok r F : length F = 14%nat -> length (mult r) = 14%nat -> contribution r F = wave F r.
Proof. intros HF HM. unfold contribution, wave. rewrite arg_ok by assumption. unfold coef. apply Rplus_comm. Qed.
Definition full (tab : list row) : bool := forallb (fun r => Nat.eqb (length (mult r)) 14) tab.
Lemma sum_rows_ok tab F : length F = 14%nat -> full tab = true -> sum_rows tab F = total (map (wave F) tab).
Proof.
  intros HF HM. unfold sum_rows. enough (G : forall c, fold_left (fun c r => c + contribution r F) tab c = c + total (map (wave F) tab)) by (rewrite G; ring).
  induction tab as [|r tab IH]; intros c; unfold total in *; cbn [fold_left map fold_right]; [ring|]. cbn [full forallb] in HM. apply andb_true_iff in HM. destruct HM as [H1 H2].
  rewrite IH by exact H2. rewrite contribution_ok by (try assumption; apply Nat.eqb_eq, H1). ring.
Qed.
Lemma kadd_exact s v : kadd (s, 0) v = (s + v, 0).
Proof. unfold kadd. destruct (Rle_dec _ _); f_equal; ring. Qed.
Lemma ktotal_ok tab F : length F = 14%nat -> full tab = true -> ktotal tab F = total (map (wave F) tab).
Proof.
  intros HF HM. rewrite <- (sum_rows_ok tab F HF HM). unfold ktotal, sum_rows. generalize 0 at 1 3. clear HM. induction tab as [|r tab IH]; intros c; cbn [fold_left]; [ring|].
  rewrite kadd_exact. apply IH.
Qed.

(** ** the combined table *)
Fixpoint plan_rows (n : nat) (ls : list Z) (it : list plrow) : option (list term * list plrow) :=
  match n with
  | O => Some ([], it)
  | S k =>
      match it with
      | [] => None
      | p :: it' =>
          if ((0 <=? ppow p)%Z && (ppow p <=? 4)%Z) && Nat.eqb (length (pmult p)) 9 && (negb (sumpl p =? 0)%Z || forallb (Z.eqb 0) (pmult p)) then
            match plan_rows k ls it' with Some (l, r) => Some ((Z.to_nat (ppow p), mkRow (psin p) (pcos p) (ls ++ pmult p)) :: l, r) | None => None end
          else None
      end
  end.
Fixpoint plan (fs : list freq) (it : list plrow) : option (list term * list term * list plrow) :=
  match fs with
  | [] => Some ([], [], it)
  | s :: fs' =>
      if negb (Nat.eqb (length (fmult s)) 5) then None else
      match plan_rows (Z.to_nat (fnx s)) (fmult s) it with
      | None => None
      | Some (xs, it1) =>
          match plan_rows (Z.to_nat (fny s)) (fmult s) it1 with
          | None => None
          | Some (ys, it2) => match plan fs' it2 with None => None | Some (xs', ys', r) => Some (xs ++ xs', ys ++ ys', r) end
          end
      end
  end.
Lemma tpow_ok t j : (j <= 4)%nat -> nth j (tpow t) 0 = t ^ j.
Proof. intros H. do 5 (destruct j; [unfold tpow; cbn [nth pow]; ring|]). lia. Qed.
Lemma term_ok s p F : length F = 14%nat -> length (fmult s) = 5%nat -> length (pmult p) = 9%nat -> (sumpl p = 0%Z -> forallb (Z.eqb 0) (pmult p) = true) ->
  (if negb (sumpl p =? 0)%Z then freq_arg s F + pln_arg p F else freq_arg s F) = argument (fmult s ++ pmult p) F.
Proof.
  intros HF HS HP HZ. destruct s as [f nx ny], p as [sp g ps pc pw]. cbn [fmult pmult sumpl] in *. spread F HF.
  do 5 (destruct f as [|? f]; [discriminate HS|]); destruct f; [|discriminate HS]. do 9 (destruct g as [|? g]; [discriminate HP|]); destruct g; [|discriminate HP].
  unfold freq_arg, pln_arg, argument, total, num, farg. cbn [fmult pmult nth combine map fold_right fst snd app].
  destruct (Z.eqb_spec sp 0) as [E|E]; cbn [negb]; [|ring]. specialize (HZ E). cbn [forallb] in HZ.
  repeat (apply andb_true_iff in HZ; let K := fresh in destruct HZ as [K HZ]; apply Z.eqb_eq in K; rewrite <- K; clear K). ring.
Qed.
Lemma rows_ok s F t (HF : length F = 14%nat) (HS : length (fmult s) = 5%nat) n : forall it l r ser, plan_rows n (fmult s) it = Some (l, r) ->
  rows n F (tpow t) (freq_arg s F) (cos (freq_arg s F)) (sin (freq_arg s F)) it ser = Ok (ser + sum_terms F t l, r).
Proof.
  induction n as [|n IH]; intros it l r ser; cbn [plan_rows rows].
  - intros [= <- <-]. do 2 f_equal. unfold sum_terms, total. cbn. ring.
  - destruct it as [|p it]; [discriminate|]. destruct (_ && _) eqn:C; [|discriminate]. apply andb_true_iff in C. destruct C as [C C3]. apply andb_true_iff in C. destruct C as [C1 C2].
    apply andb_true_iff in C1. destruct C1 as [C0 C1]. apply Z.leb_le in C0, C1. apply Nat.eqb_eq in C2.
    destruct (plan_rows n (fmult s) it) as [[l' r']|] eqn:E; [|discriminate]. intros [= <- <-].
    replace (ppow p <? 0)%Z with false by (symmetry; apply Z.ltb_ge; lia). replace (4 <? ppow p)%Z with false by (symmetry; apply Z.ltb_ge; lia). cbn [orb].
    rewrite (IH _ _ _ _ E). do 2 f_equal. rewrite sum_cons. unfold value, wave. cbn [fst snd csin ccos mult].
    rewrite <- (term_ok s p F HF HS C2) by (intros Z0; rewrite Z0 in C3; exact C3).
    rewrite tpow_ok by lia. unfold coef. destruct (negb _); ring.
Qed.
Lemma walk_ok F t (HF : length F = 14%nat) fs : forall it xs ys r a b, plan fs it = Some (xs, ys, r) ->
  walk fs F (tpow t) it a b = Ok (a + sum_terms F t xs, b + sum_terms F t ys, r).
Proof.
  induction fs as [|s fs IH]; intros it xs ys r a b; cbn [plan walk].
  - intros [= <- <- <-]. unfold sum_terms, total. cbn. do 3 f_equal; ring.
  - destruct (Nat.eqb_spec (length (fmult s)) 5) as [HS|]; cbn [negb]; [|discriminate].
    destruct (plan_rows _ _ it) as [[xs1 it1]|] eqn:E1; [|discriminate]. destruct (plan_rows _ _ it1) as [[ys1 it2]|] eqn:E2; [|discriminate].
    destruct (plan fs it2) as [[[xs2 ys2] r2]|] eqn:E3; [|discriminate]. intros [= <- <- <-].
    rewrite (rows_ok s F t HF HS _ _ _ _ _ E1). cbn [bind]. rewrite (rows_ok s F t HF HS _ _ _ _ _ E2). cbn [bind]. rewrite (IH _ _ _ _ _ _ E3).
    rewrite !sum_app. do 3 f_equal; ring.
Qed.

(** ** the tables *)
Definition short_lead : row := T (-330973) 20583310 0 0 0 0 1 0 0 0 0 0 0 0 0 0.
Definition tables_check (fs : list freq) (pl : list plrow) (A B : list term) : bool :=
  match plan fs pl with
  | Some (xs, ys, []) => perm_check xs A && perm_check ys B
  | _ => false
  end.
Lemma tables_check_ok fs pl A B : tables_check fs pl A B = true -> exists xs ys, plan fs pl = Some (xs, ys, []) /\ Permutation xs A /\ Permutation ys B.
Proof.
  unfold tables_check. destruct (plan fs pl) as [[[xs ys] [|r rest]]|]; try discriminate. intros H.
  apply andb_true_iff in H. destruct H as [H1 H2]. exists xs, ys. split; [reflexivity|]. split; apply perm_check_ok; assumption.
Qed.
Lemma tables_agree : tables_check XyLunSol XyPln (flat 0 X_tables) (flat 0 Y_tables) = true.
Proof. vm_compute. reflexivity. Qed.
Lemma x_full : forallb full [X0; X1; X2; X3; X4] = true. Proof. vm_compute. reflexivity. Qed.
Lemma y_full : forallb full [Y0; Y1; Y2; Y3; Y4] = true. Proof. vm_compute. reflexivity. Qed.
Lemma c_full : forallb full [C0; C1; C2; C3; C4] = true. Proof. vm_compute. reflexivity. Qed.
Lemma x1_last : X1 = removelast X1 ++ [short_lead]. Proof. vm_compute. reflexivity. Qed.
Lemma s_tables : C0 = rev S0 ++ repeat (T 0 0 0 0 0 0 0 0 0 0 0 0 0 0 0 0) 5 /\ C1 = rev S1 /\ C2 = rev S2 /\ C3 = rev S3 /\ C4 = rev S4.
Proof. vm_compute. repeat split. Qed.
