(** Claim C85: the test suite (run_test_suite.py) passes exactly when every program listed ends as expected and its output matches the
    reference in the sense of its comparison, every other program in the directory ends without an error, and the mock programs end as
    expected; data files are fetched when missing. What the comparisons do not see. *)
From Coq Require Import Ascii String Reals ZArith List Bool Lia Lra.
From Verif Require Import Base CString FromChars PyModel AodMergeSpec PyProofs TestSuiteModel TestSuiteSpec TestSuiteProofs.
Import ListNotations.
Open Scope Z_scope.

(** ** the comparisons *)
Theorem c85_text : forall out ref, check_file_vs_str out ref = true <-> same_bare out ref.
Proof. exact check_bare. Qed.
Theorem c85_numbers : forall tofloat cols out ref precision, check_w_precision tofloat cols out ref precision = Val tt <-> common_ok tofloat cols precision out ref.
Proof. intros. apply check_precision_iff. Qed.
(** ** the suite *)
Theorem c85_suite : forall tofloat isfile exec load listdir sp dir, suite tofloat isfile exec load listdir sp dir = Val tt <->
  Forall (passes tofloat isfile exec pathjoin) sp /\
  exists fs, listdir (pathjoin dir (chars "unit_tests")) = Some fs /\ Forall (file_passes exec pathjoin load (pathjoin dir (chars "unit_tests")) sp) fs.
Proof. intros. apply suite_iff. Qed.
Theorem c85_path : forall dir f, (forall r, f <> 47 :: r) -> dir <> [] -> (forall r, dir <> r ++ [47]) -> pathjoin dir f = dir ++ chars "/" ++ f.
Proof.
  intros dir f NF NE NS. change (chars "/" ++ f) with (47 :: f). unfold pathjoin. assert (Y : match rev dir with [] => f | 47 :: _ => dir ++ f | _ => dir ++ 47 :: f end = dir ++ 47 :: f).
  { destruct (rev dir) as [|c r] eqn:R; [exfalso; apply NE; rewrite <- (rev_involutive dir), R; reflexivity|]. assert (C : c <> 47) by (intros ->; apply (NS (rev r)); rewrite <- (rev_involutive dir), R; reflexivity).
    destruct c as [|p|p]; try reflexivity. do 6 (destruct p as [p|p|]; try reflexivity). exfalso. apply C. reflexivity. }
  destruct f as [|c f]; [exact Y|]. assert (C : c <> 47) by (intros ->; exact (NF f eq_refl)). rewrite Y. destruct c as [|p|p]; try reflexivity. do 6 (destruct p as [p|p|]; try reflexivity). exfalso. apply C. reflexivity.
Qed.
(** ** data files *)
Theorem c85_data : forall fetch gunzip l d d', get_data_files fetch gunzip l d = Val d' -> (forall x, In x l -> d' (local x) <> None) /\ (forall f, d f <> None -> d' f <> None).
Proof. intros fetch gunzip l d d' H. split; [exact (get_locals fetch gunzip l d d' H)|intros f; exact (get_present fetch gunzip l d d' f H)]. Qed.
Theorem c85_decompressed : forall fetch gunzip x d d', local x <> [] -> d (local x) = None -> get_data_files fetch gunzip [x] d = Val d' -> In (chars "decompress") (actions x) ->
  exists z s, fetch (url x) = Some z /\ gunzip z = Some s /\ d' (firstn (length (local x) - 3) (local x)) = Some s.
Proof. intros fetch gunzip x d d' N D H I. destruct (get_one fetch gunzip x d d' N D H) as (z & F & _ & G). destruct (G I) as (s & S & P). exists z, s. split; [exact F|split; [exact S|exact P]]. Qed.

(** ** what is not seen *)
(** Blanks and newlines do not count anywhere, so numbers may be joined or broken. *)
Lemma bare_blank a s : forall c, c = 32 \/ c = 10 -> same_bare (a ++ c :: s) (a ++ s).
Proof.
  intros c C. induction a as [|x a (t & A & B)]; cbn [app]; [exists (squeeze s); split; [apply bare_skip; [exact C|apply squeeze_bare]|apply squeeze_bare]|].
  destruct (Z.eq_dec x 32) as [E|N1]; [exists t; split; apply bare_skip; auto|]. destruct (Z.eq_dec x 10) as [E|N2]; [exists t; split; apply bare_skip; auto|]. exists (x :: t). split; apply bare_keep; assumption.
Qed.
Theorem c85_blanks_refuted : forall a s c, c = 32 \/ c = 10 -> check_file_vs_str (a ++ c :: s) (a ++ s) = true.
Proof. intros a s c C. apply check_bare, bare_blank, C. Qed.
Theorem c85_joined_refuted : check_file_vs_str (chars "1 23.5") (chars "12 3.5") = true. Proof. reflexivity. Qed.
(** An output cut off at the end of a line passes if the whole output does; an empty output always passes; lines in excess are not read. *)
Lemma lines_app a b : terminated a = true -> lines (a ++ b) = lines a ++ lines b.
Proof.
  unfold terminated. intros T. assert (H : forall n a, (length a <= n)%nat -> (a = [] \/ exists r, a = r ++ [10]) -> lines (a ++ b) = lines a ++ lines b).
  { clear. induction n as [|n IH]; intros a L D; [destruct a; [reflexivity|cbn in L; lia]|]. destruct a as [|c a]; [reflexivity|]. assert (D' : a = [] \/ exists r, a = r ++ [10]).
    { destruct D as [D|(r & D)]; [discriminate|]. destruct r as [|x r]; cbn in D; injection D as -> D; [left; exact D|right; exists r; exact D]. }
    cbn in L. pose proof (IH a ltac:(lia) D') as E. cbn [app lines]. rewrite E. destruct (Z.eqb_spec c 10) as [->|N]; [reflexivity|]. destruct a as [|x a].
    - exfalso. destruct D as [D|(r & D)]; [discriminate|]. destruct r as [|y r]; cbn in D; [injection D as ->; contradiction|]; injection D as _ D; destruct r; discriminate.
    - destruct (lines (x :: a)) as [|l ls] eqn:LX; [exfalso|reflexivity]. pose proof (lines_concat (x :: a)) as C. rewrite LX in C. discriminate. }
  apply (H (length a) a (le_n _)). destruct (rev a) as [|c r] eqn:R; [left; rewrite <- (rev_involutive a), R; reflexivity|]. right. exists (rev r). apply Z.eqb_eq in T. subst c. rewrite <- (rev_involutive a), R. reflexivity.
Qed.
Theorem c85_cut_refuted : forall tofloat cols precision o1 o2 ref, terminated o1 = true -> check_w_precision tofloat cols (o1 ++ o2) ref precision = Val tt -> check_w_precision tofloat cols o1 ref precision = Val tt.
Proof.
  intros tofloat cols ps o1 o2 ref T H. unfold check_w_precision in *. rewrite (lines_app o1 o2 T) in H. revert H. generalize (lines ref) as C. induction (lines o1) as [|l A IH]; intros C H; [reflexivity|]. destruct C as [|c C]; [reflexivity|]. cbn [app combine check_lines] in *.
  destruct (check_line tofloat cols ps l c) as [[]| |]; try discriminate. cbn [pbind] in *. exact (IH C H).
Qed.
Theorem c85_empty_refuted : forall tofloat cols precision text, check_w_precision tofloat cols [] text precision = Val tt /\ check_w_precision tofloat cols text [] precision = Val tt.
Proof. intros. split; [reflexivity|]. unfold check_w_precision. destruct (lines text); reflexivity. Qed.
(** A column named without a precision of its own is not compared at all. *)
Theorem c85_uncompared_refuted : forall tofloat a b, a <> [] -> b <> [] -> Forall (fun c => ~ white c) a -> Forall (fun c => ~ white c) b -> check_w_precision tofloat [0%nat] a b [] = Val tt.
Proof.
  intros tofloat a b NA NB A B. apply check_precision_iff. assert (O : forall w, Forall (fun c => ~ white c) w -> one_line w) by (intros w; apply Forall_impl; intros c N ->; apply N, newline_white).
  assert (W : forall w, w <> [] -> Forall (fun c => ~ white c) w -> words_of w [w]). { intros w N F. rewrite <- (app_nil_r w) at 1. apply (words_more [] w [] []); [constructor|exact N|exact F|discriminate|constructor; constructor]. }
  exists [a], [b]. split; [apply lines_last; [exact NA|apply O, A]|]. split; [apply lines_last; [exact NB|apply O, B]|]. intros [|[|i]] l1 l2 E1 E2; try discriminate. injection E1 as <-. injection E2 as <-. exists [a], [b]. split; [apply W; assumption|]. split; [apply W; assumption|]. split; [reflexivity|]. split.
  - intros [|[|c]] x y X Y N; try discriminate. exfalso. apply N. left. reflexivity.
  - intros i c p _ P. destruct i; discriminate.
Qed.
(** A program in the directory with the name of a listed one is not run, wherever the listed one lies; a directory without programs passes. *)
Theorem c85_skipped_refuted : forall exec load dir sp d r, In d sp -> prog d = r ++ chars ".out" -> run_dir exec load dir sp [prog d] = Val tt.
Proof.
  intros exec load dir sp d r I E. apply run_dir_iff. constructor; [|constructor]. split; [intros _ H; exfalso; exact (H d I eq_refl)|]. intros J. exfalso. apply (exclusive (prog d)); [exists r; exact E|exact J].
Qed.
Theorem c85_unbuilt_refuted : forall tofloat isfile exec load listdir sp dir, Forall (passes tofloat isfile exec pathjoin) sp -> listdir (pathjoin dir (chars "unit_tests")) = Some [] -> suite tofloat isfile exec load listdir sp dir = Val tt.
Proof. intros tofloat isfile exec load listdir sp dir P L. apply suite_iff. split; [exact P|]. exists []. split; [exact L|constructor]. Qed.
(** A compressed file that is there is not decompressed: nothing is done when all files are there. *)
Theorem c85_stale_refuted : forall fetch gunzip l d, (forall x, In x l -> d (local x) <> None) -> get_data_files fetch gunzip l d = Val d.
Proof.
  intros fetch gunzip l d H. induction l as [|x l IH]; [reflexivity|]. cbn [get_data_files]. destruct (d (local x)) eqn:E; [apply IH; intros y I; apply H; right; exact I|]. exfalso. apply (H x (or_introl eq_refl)), E.
Qed.

(** ** a suite with two programs *)
Definition some_float (w : list Z) : option float := Some (Fin (IZR (digits_val (filter is_dig w)))).
Definition some_special : special := mkS (chars "a.out") (chars "test") [chars "data"] (Code 0) (Some (chars "t 10" ++ [10])) (Some ([1%nat], [2%R])).
Definition some_exec (p : list Z) (a : list (list Z)) : option (Z * list Z) :=
  if text_eqb p (chars "test/a.out") then Some (0, chars "t   11" ++ [10]) else if text_eqb p (chars "/t/unit_tests/b.out") then Some (0, []) else Some (1, []).
Example c85_nonvacuous :
  suite some_float (fun _ => true) some_exec (fun _ => Some [mkM (chars "g++") (chars "-c") (chars "x.cpp") (chars ".") 1]) (fun _ => Some [chars "b.out"; chars "m.json"; chars "notes"]) [some_special] (chars "/t") = Val tt /\
  common_ok some_float [1%nat] [2%R] (chars "t   11" ++ [10]) (chars "t 10" ++ [10]) /\ ~ common_ok some_float [1%nat] [1%R] (chars "t   11" ++ [10]) (chars "t 10" ++ [10]) /\ ~ same_bare (chars "1.5") (chars "1.6").
Proof.
  assert (R : (Rabs (IZR 11 - IZR 10) < 2)%R) by (rewrite Rabs_right; lra).
  assert (C : check_w_precision some_float [1%nat] (chars "t   11" ++ [10]) (chars "t 10" ++ [10]) [2%R] = Val tt).
  { unfold check_w_precision. change (lines (chars "t   11" ++ [10])) with [[116; 32; 32; 32; 49; 49; 10]]. change (lines (chars "t 10" ++ [10])) with [[116; 32; 49; 48; 10]]. cbn [combine check_lines]. unfold check_line. change (words [116; 32; 32; 32; 49; 49; 10]) with [[116]; [49; 49]]. change (words [116; 32; 49; 48; 10]) with [[116]; [49; 48]]. cbn -[digits_val]. change (digits_val [49; 49]) with 11. change (digits_val [49; 48]) with 10. destruct (Rlt_dec (Rabs (IZR 11 - IZR 10)) 2); [reflexivity|contradiction]. }
  split; [|split; [apply check_precision_iff, C|split]].
  - unfold suite, run_progs_with_args, run_special. cbn [some_special path prog args exit_ results testwp]. change (some_exec (pathjoin (chars "test") (chars "a.out")) [chars "data"]) with (Some (0, chars "t   11" ++ [10])). cbn [negb ofopt pbind Z.eqb]. rewrite C. reflexivity.
  - intros H. apply check_precision_iff in H. unfold check_w_precision in H. change (lines (chars "t   11" ++ [10])) with [[116; 32; 32; 32; 49; 49; 10]] in H. change (lines (chars "t 10" ++ [10])) with [[116; 32; 49; 48; 10]] in H. cbn [combine check_lines] in H. unfold check_line in H. change (words [116; 32; 32; 32; 49; 49; 10]) with [[116]; [49; 49]] in H. change (words [116; 32; 49; 48; 10]) with [[116]; [49; 48]] in H. cbn -[digits_val] in H. change (digits_val [49; 49]) with 11 in H. change (digits_val [49; 48]) with 10 in H. destruct (Rlt_dec (Rabs (IZR 11 - IZR 10)) 1) as [L|L]; [|discriminate]. rewrite Rabs_right in L; lra.
  - intros H. apply check_bare in H. discriminate.
Qed.
Print Assumptions c85_text.
Print Assumptions c85_numbers.
Print Assumptions c85_suite.
Print Assumptions c85_path.
Print Assumptions c85_data.
Print Assumptions c85_decompressed.
Print Assumptions c85_blanks_refuted.
Print Assumptions c85_joined_refuted.
Print Assumptions c85_cut_refuted.
Print Assumptions c85_empty_refuted.
Print Assumptions c85_uncompared_refuted.
Print Assumptions c85_skipped_refuted.
Print Assumptions c85_unbuilt_refuted.
Print Assumptions c85_stale_refuted.
