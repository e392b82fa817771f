From Coq Require Import Ascii String Reals ZArith List Bool Lia Lra.
From Flocq Require Import Core.Core.
From Verif Require Import Base CString FromChars PyModel AodMergeSpec PyProofs TestSuiteSpec TestSuiteProofs EopPlotModel EopPlotSpec EopPlotProofs.
Import ListNotations.
Open Scope Z_scope.

(** ** C95: the comparison of Earth orientation parameters with those of the benchmark *)
(** the reference file: the rows of numbers, other lines ignored *)
Theorem c95_reference fl text ls xs : made_of text ls -> file (ref_line fl) (no_ref fl) ls xs -> parseRefEops fl text = xs.
Proof. intros M F. unfold parseRefEops. rewrite (lines_made text ls M). exact (rows_file (ref_row fl) _ _ ls xs (ref_ok fl) (ref_no fl) F). Qed.
(** the output of the program: the epoch from days and seconds *)
Theorem c95_library fl text ls xs : made_of text ls -> file (lib_line fl) (no_lib fl) ls xs -> read_stdin fl text = xs.
Proof. intros M F. unfold read_stdin. rewrite (lines_made text ls M). exact (rows_file (lib_row fl) _ _ ls xs (lib_ok fl) (lib_no fl) F). Qed.
(** the tolerance is below the spacing of doubles: epochs match if they are equal *)
Theorem c95_tolerance x t xs : modern x -> modern t -> grep [x :: xs] t = Val (if Req_EM_T x t then [x :: xs] else []).
Proof.
  intros X T. cbn [grep first pbind]. pose proof (same_epoch x t X T) as E. destruct (Req_EM_T x t) as [Q|Q]; [rewrite (proj2 E Q); reflexivity|].
  destruct (Rlt_bool (Rabs (rnd (x - t))) tol); [exfalso; apply Q, E; reflexivity|reflexivity].
Qed.
(** every reference whose epoch is among those of the program, with the differences to the first row of this epoch *)
Theorem c95_match l1 l2 m : Forall dated l1 -> Forall dated l2 -> matched l2 l1 m -> matches l1 l2 = Val m.
Proof. apply matches_ok. Qed.
(** there is exactly one such result *)
Theorem c95_match_total l1 l2 : Forall dated l1 -> Forall dated l2 -> exists m, matched l2 l1 m /\ forall m', matched l2 l1 m' -> m' = m.
Proof.
  intros D1 D2. assert (E : exists m, matched l2 l1 m).
  { clear -D1. induction D1 as [|r l1 (t & xs & -> & _) _ (m & IH)]; [exists []; constructor|].
    assert (S : Forall (fun q => ~ at_epoch t q) l2 \/ exists a ys b, l2 = a ++ (t :: ys) :: b /\ Forall (fun q => ~ at_epoch t q) a).
    { clear. induction l2 as [|q l2 IH]; [left; constructor|]. assert (Q : at_epoch t q \/ ~ at_epoch t q).
      { destruct q as [|x q]; [right; intros (ys & H); discriminate H|]. destruct (Req_EM_T x t) as [->|N]; [left; exists q; reflexivity|right; intros (ys & H); injection H as H _; exact (N H)]. }
      destruct Q as [(ys & ->)|N]; [right; exists [], ys, l2; split; [reflexivity|constructor]|]. destruct IH as [A|(a & ys & b & -> & A)]; [left; constructor; assumption|].
      right. exists (q :: a), ys, b. split; [reflexivity|constructor; assumption]. }
    destruct S as [A|(a & ys & b & E & A)]; [exists m; exact (matched_none t xs l1 m A IH)|]. eexists. exact (matched_one t xs l1 a ys b m E A IH). }
  destruct E as (m & M). exists m. split; [exact M|]. intros m' M'. pose proof (c95_match l1 l2 m D1 D2 M) as A. rewrite (c95_match l1 l2 m' D1 D2 M') in A. injection A as A. exact A.
Qed.
(** false: epochs less than a microsecond apart match *)
Theorem c95_microsecond_refuted : ~ (forall x t xs, modern x -> modern t -> (Rabs (x - t) * 86400 < 1 / 1000000)%R -> grep [x :: xs] t = Val [x :: xs]).
Proof.
  intros H. assert (X : modern 55022). { split; [|lra]. apply generic_format_FLT. exists (Float radix2 55022 0); [unfold F2R; cbn; lra|cbn; lia|cbn; lia]. }
  assert (T : modern (55022 + / IZR 137438953472)). { split; [|lra]. apply generic_format_FLT. exists (Float radix2 (55022 * 137438953472 + 1) (-37)); [change (F2R (Float radix2 (55022 * 137438953472 + 1) (-37))) with (IZR (55022 * 137438953472 + 1) * / IZR 137438953472)%R; rewrite plus_IZR, mult_IZR; lra|vm_compute; reflexivity|vm_compute; discriminate]. }
  specialize (H 55022%R (55022 + / IZR 137438953472)%R [] X T). rewrite (c95_tolerance _ _ _ X T) in H. destruct (Req_EM_T 55022 (55022 + / IZR 137438953472)) as [E|_]; [lra|].
  discriminate H. unfold Rminus. rewrite Ropp_plus_distr. replace (55022 + (- (55022) + - / IZR 137438953472))%R with (- / IZR 137438953472)%R by ring. rewrite Rabs_Ropp, Rabs_pos_eq by lra. lra.
Qed.
(** false: lines without numbers do no harm; six blanks in the reference file end the program *)
Theorem c95_blank_refuted : ~ (forall fl ref out a b, made_of ref a -> file (ref_line fl) (fun l => forall ws, words_of l ws -> Forall (fun w => fl w = None) ws) a b -> Forall dated b -> Forall dated (read_stdin fl out) ->
  exists m, matches (parseRefEops fl ref) (read_stdin fl out) = Val m).
Proof.
  intros H. specialize (H (fun _ => None) (chars "      " ++ [10]) [] [chars "      " ++ [10]] []). destruct H as (m & E).
  - split; [reflexivity|]. constructor; [|constructor]. exists (chars "      "). split; [reflexivity|]. repeat (constructor; [discriminate|]). constructor.
  - apply file_other; [|apply file_end]. intros ws W. apply Forall_forall. reflexivity.
  - constructor.
  - constructor.
  - vm_compute in E. discriminate E.
Qed.

Definition example_fl (w : list Z) : option R := match parse_int w with Some n => Some (IZR n) | None => None end.
Lemma modern_whole n : 32768 <= n < 65536 -> modern (IZR n).
Proof. intros H. split; [|split; [apply (IZR_le 32768); lia|apply (IZR_lt n 65536); lia]]. apply generic_format_FLT. exists (Float radix2 n 0); [unfold F2R; cbn; ring|cbn; lia|cbn; lia]. Qed.
(** a reference file with a title and two epochs, and an output that has the second *)
Example c95_nonvacuous : exists a b m, made_of (chars "epoch xp" ++ [10] ++ chars "55022 7" ++ [10] ++ chars "55023 9" ++ [10]) a /\ file (ref_line example_fl) (no_ref example_fl) a b /\ Forall dated b /\
  Forall dated [[55023%R; 4%R]] /\ matched [[55023%R; 4%R]] b m /\ matches b [[55023%R; 4%R]] = Val m /\ m = [[55023%R; nearest (9 - 4)]].
Proof.
  exists [chars "epoch xp" ++ [10]; chars "55022 7" ++ [10]; chars "55023 9" ++ [10]], [[55022%R; 7%R]; [55023%R; 9%R]], [[55023%R; nearest (9 - 4)]].
  assert (M : matched [[55023%R; 4%R]] [[55022%R; 7%R]; [55023%R; 9%R]] [[55023%R; nearest (9 - 4)]]).
  { apply matched_none; [constructor; [intros (xs & H); injection H as H; lra|constructor]|]. exact (matched_one 55023%R [9%R] [] [] [4%R] [] [] eq_refl (Forall_nil _) matched_end). }
  assert (B : Forall dated [[55022%R; 7%R]; [55023%R; 9%R]]) by (repeat constructor; eexists _, _; (split; [reflexivity|apply modern_whole; lia])).
  assert (C : Forall dated [[55023%R; 4%R]]) by (repeat constructor; eexists _, _; (split; [reflexivity|apply modern_whole; lia])).
  split. { split; [reflexivity|]. repeat apply Forall_cons; [exists (chars "epoch xp")|exists (chars "55022 7")|exists (chars "55023 9")|constructor]; (split; [reflexivity|]); repeat (constructor; [discriminate|]); constructor. }
  split. { apply file_other; [right; eexists _, (chars "xp"); split; [apply words_sound|split; [right; left; reflexivity|reflexivity]]|].
    apply file_row; [split; [cbn; lia|eexists; split; [apply words_sound|repeat constructor]]|]. apply file_row; [split; [cbn; lia|eexists; split; [apply words_sound|repeat constructor]]|]. apply file_end. }
  split; [exact B|]. split; [exact C|]. split; [exact M|]. split; [exact (c95_match _ _ _ B C M)|reflexivity].
Qed.
Print Assumptions c95_reference.
Print Assumptions c95_library.
Print Assumptions c95_tolerance.
Print Assumptions c95_match.
Print Assumptions c95_match_total.
Print Assumptions c95_microsecond_refuted.
Print Assumptions c95_blank_refuted.
