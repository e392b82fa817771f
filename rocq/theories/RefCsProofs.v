From Coq Require Import Ascii String Reals ZArith List Bool Lia Lra.
From Verif Require Import Base CString FromChars PyModel AodMergeSpec PyProofs IcgemModel IcgemSpec RefCsModel RefCsSpec.
Import ListNotations.
Open Scope Z_scope.

Lemma years_ok t a : years_since t a = julian_years t a.
Proof.
  unfold years_since, julian_years. rewrite (Z.div_mod (t - a) 86400) at 3 by lia. rewrite plus_IZR, mult_IZR. lra.
Qed.
Lemma digits_solid n w v : digits n w v -> (0 < n)%nat -> begins_solid w /\ ends_solid w.
Proof.
  intros (L & F & _) N. apply digits_begins; [intros ->; cbn in L; lia|]. eapply Forall_impl; [|exact F]. intros c. apply dig_digit.
Qed.
Section D.
  Variable mk : Z -> Z -> Z -> Z -> Z -> option Z.
  Variables ymdhm ymdh : list Z -> option Z.
  Hypothesis K : calendar mk ymdhm ymdh.
  Lemma date_strip y m d h i ny ni : digits 4 y ny -> digits 2 i ni -> strip (y ++ m ++ d ++ [46] ++ h ++ i) = (y ++ m ++ d ++ [46] ++ h ++ i)%list.
  Proof.
    intros Y I. destruct (digits_solid 4 y ny Y ltac:(lia)) as (B & _). destruct (digits_solid 2 i ni I ltac:(lia)) as (_ & E).
    pose proof (strip_between [] (y ++ m ++ d ++ [46] ++ h ++ i) [] (Forall_nil _) (Forall_nil _)) as Q. cbn [app] in Q. rewrite !app_nil_r in Q. apply Q; clear Q.
    - intros c r H. destruct Y as (L & _). destruct y as [|c' y]; [discriminate L|]. cbn in H. injection H as <- _. exact (B c' y eq_refl).
    - intros r c H. destruct I as (L & _). destruct i as [|a [|b [|]]]; try discriminate L.
      assert (H' : ((y ++ m ++ d ++ [46] ++ h ++ [a]) ++ [b] = r ++ [c])%list) by (rewrite <- !app_assoc; cbn [app] in *; rewrite <- ?app_assoc; exact H). apply app_inj_tail in H'. destruct H' as (_ & <-). exact (E [a] b eq_refl).
  Qed.
  Lemma d2s_ok y m d h i ny nm nd nh ni : digits 4 y ny -> digits 2 m nm -> digits 2 d nd -> digits 2 h nh -> digits 2 i ni ->
    d2s ymdhm ymdh (y ++ m ++ d ++ [46] ++ h ++ i) =
      (if ni <? 60 then match mk ny nm nd nh ni with Some t => Val t | None => Raise (Exit 1) end
       else if ni =? 60 then match mk ny nm nd nh 0 with Some t => Val (t + 3600) | None => Raise ValueError end else Raise (Exit 1)).
  Proof.
    intros Y M D H I. unfold d2s. rewrite (date_strip y m d h i ny ni Y I). destruct (K y m d h i ny nm nd nh ni Y M D H I) as (E1 & E2). rewrite E1.
    assert (L2 : last2 (y ++ m ++ d ++ [46] ++ h ++ i) = i /\ but2 (y ++ m ++ d ++ [46] ++ h ++ i) = (y ++ m ++ d ++ [46] ++ h)%list).
    { destruct I as (LI & _). unfold last2, but2. replace (y ++ m ++ d ++ [46] ++ h ++ i)%list with ((y ++ m ++ d ++ [46] ++ h) ++ i)%list by (rewrite <- !app_assoc; reflexivity).
      generalize (y ++ m ++ d ++ [46] ++ h)%list as q. intros q. rewrite app_length, LI. replace (length q + 2 - 2)%nat with (length q + 0)%nat by lia. split.
      - rewrite skipn_app, skipn_all2 by lia. replace (length q + 0 - length q)%nat with 0%nat by lia. reflexivity.
      - rewrite firstn_app_2. cbn [firstn]. apply app_nil_r. }
    destruct L2 as (-> & ->).
    assert (T : text_eqb i (chars "60") = (ni =? 60)).
    { destruct I as (LI & FI & VI). destruct i as [|a [|b [|]]]; try discriminate LI. inversion FI as [|? ? Fa F']; subst. inversion F' as [|? ? Fb _]; subst. apply dig_digit in Fa, Fb. unfold digit in Fa, Fb.
      unfold digits_val. cbn [fold_left]. change (chars "60") with [54; 48]. cbn [text_eqb]. destruct (Z.eqb_spec a 54), (Z.eqb_spec b 48); cbn [andb]; symmetry; (apply Z.eqb_eq || apply Z.eqb_neq); lia. }
    rewrite T. destruct (ni <? 60) eqn:E.
    - destruct (mk ny nm nd nh ni); [reflexivity|]. apply Z.ltb_lt in E. destruct (Z.eqb_spec ni 60); [lia|reflexivity].
    - destruct (ni =? 60); [|reflexivity]. rewrite E2. destruct (mk ny nm nd nh 0); reflexivity.
  Qed.
End D.
Section V.
  Variables ymdhm ymdh : list Z -> option Z.
  Notation reads := (fun w t => d2s ymdhm ymdh w = Val t).
  Lemma row_ok t d r C S : same_record reads d r ->
    add_row ymdhm ymdh t d (C, S) = Val (if valid_at t r then (C + rC r * factor julian_years t r, S + rS r * factor julian_years t r)%R else (C, S)).
  Proof.
    intros (E & N & EC & ES & D0 & D1 & P). unfold add_row. cbn beta in D0, D1. rewrite D0. cbn [pbind]. rewrite D1. cbn [pbind]. unfold valid_at. destruct ((rt0 r <=? t) && (t <? rt1 r)); [|reflexivity].
    rewrite E, EC, ES, !years_ok. unfold factor. destruct (rk r) eqn:K; [contradiction| | | |]; cbn [keyword].
    - change (text_eqb (chars "gfct") (chars "gfct")) with true. rewrite !Rmult_1_r. reflexivity.
    - reflexivity.
    - rewrite (P (or_introl eq_refl)), (Rmult_comm PI 2). reflexivity.
    - rewrite (P (or_intror eq_refl)), (Rmult_comm PI 2). reflexivity.
  Qed.
  Lemma rows_ok t ds rs : Forall2 (same_record reads) ds rs -> forall C S, add_rows ymdhm ymdh t ds (C, S) =
    Val (C + sum (map (fun r => (rC r * factor julian_years t r)%R) (filter (valid_at t) rs)), S + sum (map (fun r => (rS r * factor julian_years t r)%R) (filter (valid_at t) rs)))%R.
  Proof.
    induction 1 as [|d r ds rs E _ IH]; intros C S; [cbn; rewrite !Rplus_0_r; reflexivity|]. cbn [add_rows]. rewrite (row_ok t d r C S E). cbn [pbind filter]. destruct (valid_at t r); rewrite IH; [|reflexivity].
    cbn [map]. unfold sum. cbn [fold_right]. rewrite !Rplus_assoc. reflexivity.
  Qed.
End V.

(** ** EIGEN-5C *)
Definition is40 (r : drec) : bool := (rl r =? 4) && (rm r =? 0).
Lemma dated_app ref a b : exists ref', IcgemSpec.dated ref (a ++ b) = IcgemSpec.dated ref a ++ IcgemSpec.dated ref' b.
Proof.
  revert ref. induction a as [|r a IH]; intros ref; [exists ref; reflexivity|]. cbn [app IcgemSpec.dated]. destruct (rk r); (destruct (IH ref) as (x & X) || idtac); try (exists x; rewrite X; reflexivity).
  destruct (IH (rt0 r)) as (y & Y). exists y. rewrite Y. reflexivity.
Qed.
Lemma dated_not40 N M ref rs : Forall (fun r => is40 r = false) rs -> filter is40 (filter (within N M) (IcgemSpec.dated ref rs)) = [].
Proof.
  intros F. revert ref. induction F as [|r rs E _ IH]; intros ref; [reflexivity|]. cbn [IcgemSpec.dated]. destruct (rk r); cbn [filter]; match goal with |- context [within N M ?x] => assert (X : is40 x = false) by exact E; destruct (within N M x); cbn [filter]; [rewrite X|]; apply IH end.
Qed.
