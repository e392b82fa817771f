(** Proofs about FlCipModel. *)
From Coq Require Import Reals ZArith List Bool Lia Lra.
From Verif Require Import Base Poly Angles PiBound FundModel FundSpec FundProofs CipRow CipTabS CipTabXY CipModel CipSpec CipProofs CipProofs2 FlModel FlProofs FlFloatModel FlFloatProofs FlFast FlCipModel.
Import ListNotations.
Open Scope R_scope.

(** ** the expressions are those of CipModel *)
Section Link.
  Variables (F : list R) (t x y : R).
  Hypothesis HF : length F = 14%nat.
  Notation E := (venv F t x y).
  Lemma var_farg i : (i < 14)%nat -> E i = farg F i.
  Proof. intros H. unfold venv, farg. apply app_nth1. lia. Qed.
  Lemma var_t : E 14 = t.
  Proof. unfold venv. rewrite app_nth2 by lia. rewrite HF. reflexivity. Qed.
  Lemma var_x : E 15 = x.
  Proof. unfold venv. rewrite app_nth2 by lia. rewrite HF. reflexivity. Qed.
  Lemma var_y : E 16 = y.
  Proof. unfold venv. rewrite app_nth2 by lia. rewrite HF. reflexivity. Qed.
  Lemma coef_link z : eval E (coefe z) = coef z.
  Proof. unfold coefe, coef. cbn [eval]. f_equal. lra. Qed.
  Lemma freq_link s : eval E (freq_arge s) = freq_arg s F.
  Proof. unfold freq_arge, freq_arg, nume, num. cbn [eval]. rewrite !var_farg by lia. reflexivity. Qed.
  Lemma pln_link p : eval E (pln_arge p) = pln_arg p F.
  Proof. unfold pln_arge, pln_arg, nume, num. cbn [eval Nat.add]. rewrite !var_farg by lia. reflexivity. Qed.
  Lemma tpow_link : map (eval E) tpowe = tpow t.
  Proof. unfold tpowe, tpow, te. cbn [map eval]. rewrite var_t. reflexivity. Qed.
  Lemma rows_link n a : forall it s, rows n F (tpow t) (eval E a) (cos (eval E a)) (sin (eval E a)) it (eval E s) =
    match rowse n a it s with Ok (e, it') => Ok (eval E e, it') | UB => UB | Illegal => Illegal | Abort => Abort end.
  Proof.
    induction n as [|n IH]; intros it s; cbn [rows rowse]; [reflexivity|]. destruct it as [|p it']; [reflexivity|].
    destruct ((ppow p <? 0)%Z || (4 <? ppow p)%Z); [reflexivity|]. rewrite <- IH. f_equal. cbn [eval]. rewrite !coef_link.
    rewrite <- tpow_link. change 0 with (eval E (Int 0)) at 1. rewrite map_nth. destruct (negb (sumpl p =? 0)%Z); cbn [eval]; rewrite ?pln_link; reflexivity.
  Qed.
  Lemma walk_link fs : forall it xs ys, walk fs F (tpow t) it (eval E xs) (eval E ys) =
    match walke fs it xs ys with Ok (a, b, it') => Ok (eval E a, eval E b, it') | UB => UB | Illegal => Illegal | Abort => Abort end.
  Proof.
    induction fs as [|s fs IH]; intros it xs ys; cbn [walk walke]; [reflexivity|]. rewrite <- !freq_link, !rows_link.
    destruct (rowse (Z.to_nat (fnx s)) (freq_arge s) it xs) as [[a it1]| | |]; cbn [bind]; try reflexivity. rewrite rows_link.
    destruct (rowse (Z.to_nat (fny s)) (freq_arge s) it1 ys) as [[b it2]| | |]; cbn [bind]; try reflexivity. apply IH.
  Qed.
  Lemma horner_link a b c d e f : eval E (horner5e a b c d e f) = horner5 (eval E a) (eval E b) (eval E c) (eval E d) (eval E e) (eval E f) t.
  Proof. unfold horner5e, horner5, te. cbn [eval]. rewrite var_t. reflexivity. Qed.
  Lemma xpoly_link : eval E xpolye = xpoly t.
  Proof. unfold xpolye, xpoly. rewrite horner_link. cbn [eval pow]. f_equal; lra. Qed.
  Lemma ypoly_link : eval E ypolye = ypoly t.
  Proof. unfold ypolye, ypoly. rewrite horner_link. cbn [eval pow]. f_equal; lra. Qed.
  Lemma detail_link a b : detail_xycip06ae = Ok (a, b) -> detail_xycip06a F t = Ok (eval E a, eval E b).
  Proof.
    unfold detail_xycip06ae, detail_xycip06a. change 0 with (eval E (Int 0)). rewrite walk_link. generalize XyLunSol XyPln. intros fs it. destruct (walke fs it (Int 0) (Int 0)) as [[[u v] l]| | |]; cbn [bind]; try discriminate.
    intros [= <- <-]. cbn [eval]. rewrite xpoly_link, ypoly_link. reflexivity.
  Qed.
  Lemma detail_value a b : detail_xycip06ae = Ok (a, b) -> eval E a = X_iers F t /\ eval E b = Y_iers F t.
  Proof. intros H. apply detail_link in H. rewrite combined in H by exact HF. injection H as <- <-. split; reflexivity. Qed.

  Lemma arg_link r : eval E (arge r) = arg r F.
  Proof. unfold arge, arg, nume, num. destruct (has_planetary_args r); cbn [eval fold_left seq]; rewrite !var_farg by lia; reflexivity. Qed.
  Lemma contribution_link r : eval E (contributione r) = contribution r F.
  Proof. unfold contributione, contribution. cbn [eval]. rewrite !coef_link, arg_link. reflexivity. Qed.
  Lemma sum_link tab : eval E (sum_rowse tab) = sum_rows tab F.
  Proof.
    unfold sum_rowse, sum_rows. change 0 with (eval E (Int 0)). generalize (Int 0). induction tab as [|r tab IH]; intros a; cbn [fold_left]; [reflexivity|].
    rewrite <- contribution_link. apply (IH (Add a (contributione r))).
  Qed.
  Lemma s06_link : eval E detail_s06e = detail_s06 F t x y.
  Proof.
    unfold detail_s06e, detail_s06, cseriese, cpolye, te. cbn [eval]. rewrite horner_link, !sum_link, var_t, var_x, var_y. cbn [eval pow]. cbv zeta.
    f_equal. f_equal. f_equal; [|lra]. f_equal. f_equal; lra.
  Qed.
  Lemma s06_value : eval E detail_s06e = uas (S_iers F t) - x * y / 2.
  Proof. rewrite s06_link. apply locator, HF. Qed.
End Link.

(** ** bounds of the variables, in units of 2^-120: arguments below 7 known to 10^-11, t below 1 known to 2^-53, x and y below 0.1 *)
Definition one120 : Z := (2 ^ 120)%Z.
Definition vbs (i : nat) : Z * Z :=
  if Nat.ltb i 14 then (7 * one120, one120 / 10 ^ 11 + 1)%Z else if Nat.eqb i 14 then (one120, one120 / 2 ^ 53 + 1)%Z else (one120 / 10 + 1, 0)%Z.
(** 0.0002 microarcseconds in radians, rounded down *)
Definition goal_xy : Z := (9696 * one120 / 10 ^ 19)%Z.
(** the error is below the goal and no intermediate value is large *)
Definition good (goal : Z) (p : Z * Z * bool) : bool := let '(_, e, s) := p in s && (e <=? goal)%Z.
Definition check_of (d : res (expr * expr)) : bool :=
  match d with
  | Ok (a, b) => good goal_xy (bnds vbs (Sec (Mul a (Dec 1 6)))) && good goal_xy (bnds vbs (Sec (Mul b (Dec 1 6))))
  | _ => false
  end.
(** the same with short numbers *)
Definition fvs (i : nat) : num * num := if Nat.ltb i 14 then ((7, 120), (11529216, 60))%Z else if Nat.eqb i 14 then ((1, 120), (8388609, 44))%Z else ((13421773, 93), (0, 0))%Z.
Lemma fvs_above i : above (fst (vbs i)) (fst (fvs i)) /\ above (snd (vbs i)) (snd (fvs i)).
Proof.
  unfold vbs, fvs. destruct (Nat.ltb i 14); [|destruct (Nat.eqb i 14)]; cbn [fst snd]; repeat split; cbn [fst snd]; apply Z.leb_le; reflexivity.
Qed.
Definition fgood (goal : Z) (e : expr) : bool := let '(_, b, s) := fb fvs e in s && fle b goal.
Lemma fgood_good goal e : fgood goal e = true -> (0 <= goal)%Z -> good goal (bnds vbs e) = true.
Proof.
  intros H G. destruct (fcheck_error vbs fvs fvs_above goal e H G) as [A B]. rewrite <- bnds_bnd in A. destruct (bnds vbs e) as [[m x] s]. cbn [good fst snd] in *. rewrite B. apply Z.leb_le in A. rewrite A. reflexivity.
Qed.
Definition fcheck_of (d : res (expr * expr)) : bool :=
  match d with
  | Ok (a, b) => fgood goal_xy (Sec (Mul a (Dec 1 6))) && fgood goal_xy (Sec (Mul b (Dec 1 6)))
  | _ => false
  end.
Lemma fcheck_check d : fcheck_of d = true -> check_of d = true.
Proof.
  destruct d as [[a b]| | |]; try discriminate. unfold fcheck_of, check_of. intros H. apply andb_prop in H as [A B]. assert (G : (0 <= goal_xy)%Z) by (apply Z.leb_le; reflexivity).
  rewrite (fgood_good _ _ A G), (fgood_good _ _ B G). reflexivity.
Qed.
Lemma check_xy_ok : check_of detail_xycip06ae = true.
Proof. apply fcheck_check. vm_compute. reflexivity. Qed.
Lemma check_some d : check_of d = true -> exists a b, d = Ok (a, b).
Proof. destruct d as [[a b]| | |]; try discriminate. intros _. exists a, b. reflexivity. Qed.
Lemma good_ok goal e : good goal (bnds vbs e) = true -> (snd (bnd vbs e) <= goal)%Z /\ snd (bnds vbs e) = true.
Proof. rewrite <- bnds_bnd. destruct (bnds vbs e) as [[m x] s]. cbn [good fst snd]. intros H. apply andb_prop in H. destruct H as [A B]. apply Z.leb_le in B. split; assumption. Qed.
Lemma check_both d a b : check_of d = true -> d = Ok (a, b) -> good goal_xy (bnds vbs (Sec (Mul a (Dec 1 6)))) = true /\ good goal_xy (bnds vbs (Sec (Mul b (Dec 1 6)))) = true.
Proof. intros H ->. cbn [check_of] in H. apply andb_prop in H. exact H. Qed.
Lemma check_bounds d a b : check_of d = true -> d = Ok (a, b) ->
  (snd (bnd vbs (Sec (Mul a (Dec 1 6)))) <= goal_xy)%Z /\ (snd (bnd vbs (Sec (Mul b (Dec 1 6)))) <= goal_xy)%Z.
Proof. intros H E. destruct (check_both d a b H E) as [A B]. split; apply good_ok; assumption. Qed.
(** 0.00001 microarcseconds *)
Definition goal_s : Z := (4848 * one120 / 10 ^ 20)%Z.
Lemma check_s : good goal_s (bnds vbs detail_s06e) = true.
Proof. apply fgood_good; [vm_compute; reflexivity|apply Z.leb_le; reflexivity]. Qed.
Lemma check_s_ok : (snd (bnd vbs detail_s06e) <=? goal_s)%Z = true.
Proof. apply Z.leb_le, good_ok, check_s. Qed.
