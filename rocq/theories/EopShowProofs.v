From Coq Require Import Ascii String Reals ZArith List Bool Lia Lra.
From Flocq Require Import Core.Core.
From Verif Require Import Base CString PyModel AodMergeSpec PyProofs TestSuiteSpec TestSuiteProofs Sp3Model Sp3Proofs EopPlotSpec EopShowModel EopShowSpec.
Import ListNotations.
Open Scope Z_scope.

Section P.
  Variable fl : list Z -> option R.
  Lemma each_ok ws xs : Forall2 (number fl) ws xs -> each fl ws = Val xs.
  Proof. induction 1 as [|w x ws xs E _ IH]; [reflexivity|]. cbn [each]. rewrite E. cbn [ofopt pbind]. rewrite IH. reflexivity. Qed.
  Lemma each_or ws : (exists xs, each fl ws = Val xs /\ length xs = length ws) \/ each fl ws = Raise ValueError.
  Proof. induction ws as [|w ws IH]; [left; exists []; split; reflexivity|]. cbn [each]. destruct (fl w) as [x|]; [|right; reflexivity]. cbn [ofopt pbind]. destruct IH as [(xs & -> & L)| ->]; [|right; reflexivity]. left. exists (x :: xs). cbn. rewrite L. split; reflexivity. Qed.
  Lemma each_no ws v : In v ws -> fl v = None -> each fl ws = Raise ValueError.
  Proof.
    induction ws as [|w ws IH]; [intros []|]. intros [->|I] E; cbn [each]; [rewrite E; reflexivity|]. rewrite (IH I E). destruct (fl w); reflexivity.
  Qed.
  Lemma row_five l x : five fl l x -> eop_row fl l = Val x.
  Proof. destruct x as ((((t & xp) & yp) & dut1) & lod). intros (w & ws & W & F). unfold eop_row. rewrite (words_complete _ _ W). cbn [skipn]. rewrite (each_ok _ _ F). reflexivity. Qed.
  Lemma row_not l : not_five fl l -> eop_row fl l = Raise ValueError.
  Proof.
    intros (ws & W & H). unfold eop_row. rewrite (words_complete _ _ W). destruct H as [L|(w & r & v & -> & I & E)]; [|cbn [skipn]; rewrite (each_no r v I E); reflexivity].
    destruct (each_or (skipn 1 ws)) as [(xs & -> & X)| ->]; [|reflexivity]. cbn [pbind]. destruct ws as [|w ws]; [destruct xs; [reflexivity|discriminate X]|]. cbn [skipn length] in *.
    do 5 (destruct xs as [|? xs]; [reflexivity|]). destruct xs; [|reflexivity]. exfalso. apply L. rewrite <- X. reflexivity.
  Qed.
  Lemma read_output ls a b : output fl ls a b -> read_eops fl ls = Val (a, b).
  Proof.
    induction 1 as [|l x ls a b B F _ IH|l x ls a b B F _ IH]; [reflexivity| |]; cbn [read_eops]; rewrite (row_five l x F), IH; cbn [pbind].
    - rewrite (proj2 (startswith_ok _ _) B). reflexivity.
    - rewrite (startswith_not _ _ B). reflexivity.
  Qed.
  Lemma read_bad ls a b l r : output fl ls a b -> not_five fl l -> read_eops fl (ls ++ l :: r) = Raise ValueError.
  Proof. intros O N. induction O as [|k x ls a b B F _ IH|k x ls a b B F _ IH]; cbn [app read_eops]; [rewrite (row_not l N); reflexivity| |]; rewrite (row_five k x F), IH; reflexivity. Qed.
End P.
