From Coq Require Import Ascii String Reals ZArith List Bool Lia Lra.
From Flocq Require Import Core.Core.
From Verif Require Import Base CString PyModel AodMergeSpec PyProofs TestSuiteSpec TestSuiteProofs Sp3Model Sp3Proofs EopPlotSpec EopShowModel EopShowSpec EopShowProofs.
Import ListNotations.
Open Scope Z_scope.

(** ** C97: the script that plots the output of the example for Earth orientation parameters *)
Theorem c97_read fl ls a b : output fl ls a b -> read_eops fl ls = Val (a, b).
Proof. apply read_output. Qed.
(** any other line, an empty one for instance, ends the script *)
Theorem c97_other fl ls a b l r : output fl ls a b -> not_five fl l -> read_eops fl (ls ++ l :: r) = Raise ValueError.
Proof. apply read_bad. Qed.
(** days since the first epoch; once more makes no difference *)
Theorem c97_days ts : length (t2fdays ts) = length ts /\ (forall i, (i < length ts)%nat -> nth i (t2fdays ts) 0%R = (nth i ts 0 - nth 0 ts 0)%R) /\ t2fdays (t2fdays ts) = t2fdays ts.
Proof.
  destruct ts as [|a ts]; [split; [reflexivity|]; split; [intros i H; inversion H|reflexivity]|]. split; [apply map_length|]. split.
  - intros i H. cbn [t2fdays]. rewrite (nth_indep _ 0%R ((fun t => t - a) 0)%R) by (rewrite map_length; exact H). rewrite (map_nth (fun t => t - a)%R). reflexivity.
  - cbn [t2fdays map]. rewrite Rminus_diag_eq by reflexivity. f_equal; [ring|]. rewrite map_map. apply map_ext. intros t. ring.
Qed.
(** epochs more than four days after the first *)
Theorem c97_filter dt y d l : after_four (combine dt y) l -> tfilter dt y d = (map fst l, map snd l).
Proof.
  intros A. unfold tfilter. assert (E : filter (fun x => Rlt_bool 4 (fst x)) (combine dt y) = l); [|rewrite E; reflexivity].
  induction A as [|p k r H _ IH|p k r H _ IH]; [reflexivity| |]; cbn [filter]; [rewrite Rlt_bool_true by exact H|rewrite Rlt_bool_false by exact H]; rewrite IH; reflexivity.
Qed.
(** false: epochs more than the given number of days after the first *)
Theorem c97_days_after_refuted : ~ (forall dt y d p, In p (combine (fst (tfilter dt y d)) (snd (tfilter dt y d))) <-> In p (combine dt y) /\ (d < fst p)%R).
Proof.
  intros H. specialize (H [5%R] [1%R] 7%R (5%R, 1%R)). unfold tfilter in H. cbn [combine filter fst] in H. rewrite Rlt_bool_true in H by lra. cbn [map fst snd combine] in H. destruct (proj1 H (or_introl eq_refl)) as (_ & L). lra.
Qed.

Lemma then_word w s ws : w <> [] -> forallb (fun c => 33 <=? c) w = true -> words_of s ws -> words_of (w ++ 32 :: s) (w :: ws).
Proof.
  intros N F W. apply (words_more [] w (32 :: s) ws (Forall_nil _) N); [|intros c t E; injection E as <- _; left; reflexivity|apply words_of_skip; [left; reflexivity|exact W]].
  apply Forall_forall. intros c I. rewrite forallb_forall in F. specialize (F c I). apply Z.leb_le in F. unfold white. lia.
Qed.
Definition example_fl (w : list Z) : option R := match parse_int w with Some n => Some (IZR n) | None => None end.
Definition raw_line : list Z := chars "[RAW] 57750 1 2 3 4 ".
Definition cor_line : list Z := chars "[COR] 57750 5 6 7 8 ".
Ltac six := repeat match goal with |- words_of _ (?w :: ?ws) => refine (then_word w _ ws _ _ _); [discriminate|reflexivity|] end; apply (words_none [] (Forall_nil _)).
Example c97_nonvacuous : output example_fl [raw_line; cor_line] [(57750, 1, 2, 3, 4)%R] [(57750, 5, 6, 7, 8)%R] /\ not_five example_fl [] /\ after_four (combine [0; 5]%R [1; 2]%R) [(5, 2)%R].
Proof.
  split; [|split; [exists []; split; [apply (words_none [] (Forall_nil _))|left; discriminate]|apply after_drop; [cbn; lra|apply after_keep; [cbn; lra|apply after_end]]]].
  apply output_raw; [exists (chars " 57750 1 2 3 4 "); reflexivity| |apply output_cor; [intros (r & E); discriminate E| |apply output_end]].
  - exists (chars "[RAW]"), (map chars ["57750"; "1"; "2"; "3"; "4"]%string). split; [|repeat constructor].
    change raw_line with (chars "[RAW]" ++ 32 :: chars "57750" ++ 32 :: chars "1" ++ 32 :: chars "2" ++ 32 :: chars "3" ++ 32 :: chars "4" ++ [32]). cbn [map]. six.
  - exists (chars "[COR]"), (map chars ["57750"; "5"; "6"; "7"; "8"]%string). split; [|repeat constructor].
    change cor_line with (chars "[COR]" ++ 32 :: chars "57750" ++ 32 :: chars "5" ++ 32 :: chars "6" ++ 32 :: chars "7" ++ 32 :: chars "8" ++ [32]). cbn [map]. six.
Qed.
Print Assumptions c97_read.
Print Assumptions c97_other.
Print Assumptions c97_days.
Print Assumptions c97_filter.
Print Assumptions c97_days_after_refuted.
