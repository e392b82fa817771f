From Coq Require Import Ascii String Reals ZArith List Bool Lia Lra.
From Verif Require Import Base CString PyModel AodMergeSpec PyProofs TestSuiteSpec TestSuiteProofs Sp3Model Sp3Proofs EopPlotModel EopPlotSpec EopPlotProofs CmdPltModel CmdPltSpec.
Import ListNotations.
Open Scope Z_scope.

Lemma split_none c s : ~ In c s -> split_on c s = [s].
Proof. induction s as [|x s IH]; [reflexivity|]. intros N. cbn [split_on]. destruct (Z.eqb_spec x c) as [->|_]; [exfalso; apply N; left; reflexivity|]. rewrite IH; [reflexivity|]. intros I. apply N. right. exact I. Qed.
Lemma split_app c a b : ~ In c a -> split_on c (a ++ c :: b) = a :: split_on c b.
Proof. induction a as [|x a IH]; intros N; cbn [app split_on]; [rewrite Z.eqb_refl; reflexivity|]. destruct (Z.eqb_spec x c) as [->|_]; [exfalso; apply N; left; reflexivity|]. rewrite IH; [reflexivity|]. intros I. apply N. right. exact I. Qed.
(** the words, the newline in the last *)
Fixpoint nl_last (ws : list (list Z)) : list (list Z) := match ws with [] => [] | [w] => [w ++ [10]] | w :: r => w :: nl_last r end.
Lemma split_blank ws : ws <> [] -> Forall (fun w => ~ In 32 w) ws -> split_on 32 (one_blank ws ++ [10]) = nl_last ws.
Proof.
  intros N F. induction F as [|w ws W F IH]; [contradiction|]. destruct ws as [|v ws].
  - cbn [one_blank nl_last]. apply split_none. intros I. apply in_app_or in I as [I|[I|[]]]; [exact (W I)|discriminate I].
  - change (one_blank (w :: v :: ws)) with (w ++ 32 :: one_blank (v :: ws)). rewrite <- app_assoc. cbn [app]. rewrite split_app by exact W. rewrite IH by discriminate. reflexivity.
Qed.
Section P.
  Variable fl : list Z -> option R.
  Hypothesis FL : float_like fl.
  Lemma floats_nl ws : floats fl (nl_last ws) = floats fl ws.
  Proof.
    induction ws as [|w ws IH]; [reflexivity|]. destruct ws as [|v ws]; [cbn [nl_last floats]; rewrite (proj2 FL); reflexivity|].
    change (nl_last (w :: v :: ws)) with (w :: nl_last (v :: ws)). cbn [floats] in *. rewrite IH. reflexivity.
  Qed.
  Lemma floats_length ws xs : floats fl ws = Some xs -> length xs = length ws.
  Proof. revert xs. induction ws as [|w ws IH]; intros xs; cbn [floats]; [intros E; injection E as <-; reflexivity|]. destruct (fl w), (floats fl ws) as [ys|]; try discriminate. intros E. injection E as <-. cbn [length]. rewrite (IH ys eq_refl). reflexivity. Qed.
  Lemma row_data l xs : data_line fl l xs -> plot_row fl l = Some (shown xs).
  Proof.
    intros (_ & L & ws & -> & W & F). unfold plot_row. rewrite split_blank; [|intros ->; inversion F; subst; discriminate L|exact W]. rewrite floats_nl, (floats_ok fl ws xs F).
    do 8 (destruct xs as [|? xs]; [discriminate L|]). destruct xs; [reflexivity|discriminate L].
  Qed.
  Lemma row_none ws : ws <> [] -> Forall (fun w => ~ In 32 w) ws -> length ws <> 8%nat \/ (exists w, In w ws /\ fl w = None) -> plot_row fl (one_blank ws ++ [10]) = None.
  Proof.
    intros N W H. unfold plot_row. rewrite split_blank, floats_nl by assumption. destruct H as [L|(w & I & E)]; [|rewrite (floats_no fl ws w I E); reflexivity].
    destruct (floats fl ws) as [xs|] eqn:E; [|reflexivity]. apply floats_length in E. do 8 (destruct xs as [|? xs]; [reflexivity|]). destruct xs; [|reflexivity]. exfalso. apply L. rewrite <- E. reflexivity.
  Qed.
  Lemma begins_hash c l : begins_with (chars "#") (c :: l) <-> c = 35.
  Proof. split; [intros (r & E); injection E as -> _; reflexivity|intros ->; exists l; reflexivity]. Qed.
  Lemma plain_test c l : plain_line (c :: l) -> negb (c =? 35) && negb (startswith (chars "mjd") (c :: l)) = true.
  Proof. intros (A & B). rewrite (startswith_not _ _ B). destruct (Z.eqb_spec c 35) as [->|_]; [exfalso; apply A, begins_hash; reflexivity|reflexivity]. Qed.
  Lemma read_file ls xs t : file (data_line fl) (no_data fl) ls xs -> read fl ls t = Val (map shown xs, t).
  Proof.
    induction 1 as [|l x ls xs D _ IH|l ls xs D _ IH]; [reflexivity| |].
    - pose proof (row_data l x D) as E. destruct D as (P & _). cbn [read]. destruct l as [|c l]; [cbn in E; discriminate E || (unfold plot_row in E; cbn in E; rewrite (proj1 FL) in E; discriminate E)|].
      cbn [hd_error ofopt pbind]. rewrite (plain_test c l P), IH. cbn [pbind]. rewrite E. reflexivity.
    - cbn [read]. destruct D as [[(A & B)|A]|(ws & -> & N & W & P & H)].
      + destruct l as [|c l]; [destruct A as (r & A); discriminate A|]. cbn [hd_error ofopt pbind]. pose proof A as A'. apply begins_hash in A. subst c. cbn [Z.eqb Pos.eqb negb andb]. rewrite (startswith_not _ _ B). exact IH.
      + pose proof A as A'. destruct A as (r & ->). change (hd_error (chars "mjd" ++ r)) with (Some 109). cbn [ofopt pbind]. rewrite (proj2 (startswith_ok (chars "mjd") (chars "mjd" ++ r)) A'). cbn [negb]. rewrite andb_false_r.
        rewrite (startswith_not (chars "#title")) by (intros (q & E); discriminate E). exact IH.
      + pose proof (row_none ws N W H) as E. destruct (one_blank ws ++ [10]) as [|c l] eqn:Q; [destruct (one_blank ws); discriminate Q|]. cbn [hd_error ofopt pbind]. rewrite (plain_test c l P), IH. cbn [pbind]. rewrite E. reflexivity.
  Qed.
  Lemma replace_clean old n s c : ~ In c s -> replace_from (c :: old) n 0 s = s.
  Proof.
    induction s as [|x s IH]; [reflexivity|]. intros N. cbn [replace_from length firstn text_eqb]. destruct (Z.eqb_spec c x) as [->|_]; [exfalso; apply N; left; reflexivity|]. cbn [andb]. rewrite IH; [reflexivity|]. intros I. apply N. right. exact I.
  Qed.
  Lemma read_title l s ls t : title_line l s -> read fl (l :: ls) t = read fl ls (Some s).
  Proof.
    intros (b1 & b2 & -> & G1 & G2 & B & E & H). cbn [read]. change (hd_error (chars "#title" ++ b1 ++ s ++ b2 ++ [10])) with (Some 35). cbn [ofopt pbind Z.eqb Pos.eqb negb andb].
    rewrite (proj2 (startswith_ok (chars "#title") _)) by (eexists; reflexivity). do 2 f_equal. unfold replace.
    assert (C : ~ In 35 (b1 ++ s ++ b2 ++ [10])).
    { assert (NG : forall g, gap g -> ~ In 35 g) by (intros g G I; unfold gap in G; rewrite Forall_forall in G; destruct (G 35 I) as (W & _); unfold white in W; lia).
      intros I. apply in_app_or in I as [I|I]; [exact (NG b1 G1 I)|]. apply in_app_or in I as [I|I]; [exact (H I)|]. apply in_app_or in I as [I|[I|[]]]; [exact (NG b2 G2 I)|discriminate I]. }
    assert (R : replace_from (chars "#title") [] 0 (chars "#title" ++ b1 ++ s ++ b2 ++ [10]) = replace_from (chars "#title") [] 0 (b1 ++ s ++ b2 ++ [10])) by reflexivity.
    rewrite R. change (chars "#title") with (35 :: chars "title"). rewrite replace_clean by exact C. replace (s ++ b2 ++ [10]) with (s ++ (b2 ++ [10])) by reflexivity.
    apply (strip_between b1 s (b2 ++ [10])); [apply gap_white, G1|apply Forall_app; split; [apply gap_white, G2|constructor; [apply newline_white|constructor]]|exact B|exact E].
  Qed.
End P.
