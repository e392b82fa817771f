(** Claim C79: the readers of the COST-G benchmark files give, in order, a record for every line that starts with the numbers of a record,
    and nothing else; what stops them; the name of a file without its directory. *)
From Coq Require Import Ascii String Reals ZArith List Bool Lia Lra.
From Verif Require Import Base CString FromChars AodBlockModel CostgModel CostgSpec CostgProofs.
Import ListNotations.
Open Scope Z_scope.

(** A file is accepted exactly when all its lines fit and none is undefined; the records are those of the lines, in order. *)
Theorem c79_accepted : forall sdbl size n, (1 <= n)%nat -> forall lines term rs,
  parse sdbl size n (Some (lines, term)) = Ok rs <->
  Forall (fun l => Z.of_nat (length l) < size) lines /\ exists os, Forall2 (contributes sdbl n) lines os /\ rs = somes os.
Proof. intros sdbl size n H lines term rs. exact (accepted_iff sdbl size n H lines term rs). Qed.
(** An exception exactly for a file that cannot be opened or a line that does not fit (behind lines that are read). *)
Theorem c79_throws : forall sdbl size n, (1 <= n)%nat -> forall file,
  parse sdbl size n file = Abort <->
  file = None \/ exists lines term pre l post os, file = Some (lines, term) /\ lines = pre ++ l :: post /\ Forall (fun l => Z.of_nat (length l) < size) pre /\ Forall2 (contributes sdbl n) pre os /\ size <= Z.of_nat (length l).
Proof.
  intros sdbl size n H [(lines, term)|].
  - rewrite (long_iff sdbl size n H lines term). split.
    + intros (pre & l & post & os & E & F & G & L). right. exists lines, term, pre, l, post, os. split; [reflexivity|]. split; [exact E|]. split; [exact F|]. split; [exact G|lia].
    + intros [D|(lines' & term' & pre & l & post & os & E0 & E & F & G & L)]; [discriminate|]. injection E0 as -> ->. exists pre, l, post, os. split; [exact E|]. split; [exact F|]. split; [exact G|lia].
  - split; [left; reflexivity|reflexivity].
Qed.
(** Undefined behaviour exactly when such a line has an epoch that is no int. *)
Theorem c79_undefined : forall sdbl size n, (1 <= n)%nat -> forall lines term,
  parse sdbl size n (Some (lines, term)) = UB <->
  exists pre l post os, lines = pre ++ l :: post /\ Forall (fun l => Z.of_nat (length l) < size) pre /\ Forall2 (contributes sdbl n) pre os /\ Z.of_nat (length l) < size /\ undefined sdbl n l.
Proof. intros sdbl size n H lines term. exact (undefined_iff sdbl size n H lines term). Qed.

(** The four readers: how many numbers, how long a line, and where each number goes. *)
Theorem c79_acceleration : forall sdbl lines term out, parse_acceleration sdbl (Some (lines, term)) = Ok out <->
  Forall (fun l => (length l <= 255)%nat) lines /\ exists os, Forall2 (contributes sdbl 4) lines os /\
  Forall2 (fun r o => exists x y z, bdata r = [x; y; z] /\ o = (bday r, bsec r, (x, y, z))) (somes os) out.
Proof.
  intros sdbl lines term out. unfold parse_acceleration. pose proof (accepted_iff sdbl 256 4 ltac:(lia) lines term) as A.
  assert (K : forall rs, Forall (fun r => length (bdata r) = 3%nat) rs -> forall o, Forall2 (fun r o => exists x y z, bdata r = [x; y; z] /\ o = (bday r, bsec r, (x, y, z))) rs o <-> map (fun b => (bday b, bsec b, triple (bdata b) 0)) rs = o).
  { induction 1 as [|r rs L F IH]; intros o; [split; [intros X; inversion X; reflexivity|intros <-; constructor]|]. destruct (bdata r) as [|x [|y [|z [|]]]] eqn:D; try discriminate. cbn [map]. rewrite D. split.
    - intros X. inversion X as [|? o1 ? o2 (x' & y' & z' & E1 & E2) E3]; subst. rewrite D in E1. injection E1 as <- <- <-. f_equal. apply IH, E3.
    - intros <-. constructor; [exists x, y, z; split; [exact D|reflexivity]|]. apply IH. reflexivity. }
  split.
  - intros H. destruct (parse sdbl 256 4 (Some (lines, term))) as [rs| | |]; try discriminate. cbn [bind] in H. destruct (proj1 (A rs) eq_refl) as (F & os & C & E). split; [apply Forall_impl with (2 := F); intros l L; lia|]. exists os. split; [exact C|]. subst rs. apply K; [|congruence].
    apply (accepted_length sdbl 256 4 lines). split; [exact F|]. exists os. split; [exact C|reflexivity].
  - intros (F & os & C & G). assert (AC : accepted sdbl 256 4 lines (somes os)). { split; [apply Forall_impl with (2 := F); intros l L; lia|]. exists os. split; [exact C|reflexivity]. }
    rewrite (proj2 (A (somes os)) AC). cbn [bind]. f_equal. apply K; [exact (accepted_length sdbl 256 4 lines _ AC)|exact G].
Qed.
Lemma nine_out rs : Forall (fun r => length (bdata r) = 9%nat) rs -> forall o, Forall2 (fun r o => exists a b c d e f g h i, bdata r = [a; b; c; d; e; f; g; h; i] /\ o = (bday r, bsec r, (a, b, c), (d, e, f), (g, h, i))) rs o <-> map (fun b => (bday b, bsec b, triple (bdata b) 0, triple (bdata b) 3, triple (bdata b) 6)) rs = o.
Proof.
  induction 1 as [|r rs L F IH]; intros o; [split; [intros X; inversion X; reflexivity|intros <-; constructor]|]. destruct (bdata r) as [|v1 [|v2 [|v3 [|v4 [|v5 [|v6 [|v7 [|v8 [|v9 [|]]]]]]]]]] eqn:D; try discriminate. cbn [map]. rewrite D. split.
  - intros X. inversion X as [|? o1 ? o2 (a & b & c & d & e & f & g & h & i & E1 & E2) E3]; subst. rewrite D in E1. injection E1 as <- <- <- <- <- <- <- <- <-. f_equal. apply IH, E3.
  - intros <-. constructor; [exists v1, v2, v3, v4, v5, v6, v7, v8, v9; split; [exact D|reflexivity]|]. apply IH. reflexivity.
Qed.
Theorem c79_orbit : forall sdbl lines term out, parse_orbit sdbl (Some (lines, term)) = Ok out <->
  Forall (fun l => (length l <= 511)%nat) lines /\ exists os, Forall2 (contributes sdbl 10) lines os /\
  Forall2 (fun r o => exists px py pz vx vy vz ax ay az, bdata r = [px; py; pz; vx; vy; vz; ax; ay; az] /\ o = (bday r, bsec r, (px, py, pz), (vx, vy, vz), (ax, ay, az))) (somes os) out.
Proof.
  intros sdbl lines term out. unfold parse_orbit. pose proof (accepted_iff sdbl 512 10 ltac:(lia) lines term) as A. split.
  - intros H. destruct (parse sdbl 512 10 (Some (lines, term))) as [rs| | |]; try discriminate. cbn [bind] in H. destruct (proj1 (A rs) eq_refl) as (F & os & C & E). split; [apply Forall_impl with (2 := F); intros l L; lia|]. exists os. split; [exact C|]. subst rs. apply nine_out; [|congruence].
    apply (accepted_length sdbl 512 10 lines). split; [exact F|]. exists os. split; [exact C|reflexivity].
  - intros (F & os & C & G). assert (AC : accepted sdbl 512 10 lines (somes os)). { split; [apply Forall_impl with (2 := F); intros l L; lia|]. exists os. split; [exact C|reflexivity]. }
    rewrite (proj2 (A (somes os)) AC). cbn [bind]. f_equal. apply nine_out; [exact (accepted_length sdbl 512 10 lines _ AC)|exact G].
Qed.
Theorem c79_rotary : forall sdbl lines term out, parse_rotary sdbl (Some (lines, term)) = Ok out <->
  Forall (fun l => (length l <= 1023)%nat) lines /\ exists os, Forall2 (contributes sdbl 10) lines os /\
  Forall2 (fun r o => exists r00 r01 r02 r10 r11 r12 r20 r21 r22, bdata r = [r00; r01; r02; r10; r11; r12; r20; r21; r22] /\ o = (bday r, bsec r, (r00, r01, r02), (r10, r11, r12), (r20, r21, r22))) (somes os) out.
Proof.
  intros sdbl lines term out. unfold parse_rotary. pose proof (accepted_iff sdbl 1024 10 ltac:(lia) lines term) as A. split.
  - intros H. destruct (parse sdbl 1024 10 (Some (lines, term))) as [rs| | |]; try discriminate. cbn [bind] in H. destruct (proj1 (A rs) eq_refl) as (F & os & C & E). split; [apply Forall_impl with (2 := F); intros l L; lia|]. exists os. split; [exact C|]. subst rs. apply nine_out; [|congruence].
    apply (accepted_length sdbl 1024 10 lines). split; [exact F|]. exists os. split; [exact C|reflexivity].
  - intros (F & os & C & G). assert (AC : accepted sdbl 1024 10 lines (somes os)). { split; [apply Forall_impl with (2 := F); intros l L; lia|]. exists os. split; [exact C|reflexivity]. }
    rewrite (proj2 (A (somes os)) AC). cbn [bind]. f_equal. apply nine_out; [exact (accepted_length sdbl 1024 10 lines _ AC)|exact G].
Qed.
Theorem c79_eops : forall sdbl lines term out, parse_eops sdbl (Some (lines, term)) = Ok out <->
  Forall (fun l => (length l <= 1023)%nat) lines /\ exists os, Forall2 (contributes sdbl 9) lines os /\
  out = map (fun r => (bday r, bsec r, bdata r)) (somes os).
Proof.
  intros sdbl lines term out. unfold parse_eops. pose proof (accepted_iff sdbl 1024 9 ltac:(lia) lines term) as A.
  assert (K : forall rs, Forall (fun r => length (bdata r) = 8%nat) rs -> map (fun b => (bday b, bsec b, map (at_ (bdata b)) [0; 1; 2; 3; 4; 5; 6; 7]%nat)) rs = map (fun r => (bday r, bsec r, bdata r)) rs).
  { induction 1 as [|r rs L F IH]; [reflexivity|]. cbn [map]. f_equal; [|exact IH]. destruct (bdata r) as [|v1 [|v2 [|v3 [|v4 [|v5 [|v6 [|v7 [|v8 [|]]]]]]]]] eqn:D; try discriminate. reflexivity. }
  split.
  - intros H. destruct (parse sdbl 1024 9 (Some (lines, term))) as [rs| | |]; try discriminate. cbn [bind] in H. destruct (proj1 (A rs) eq_refl) as (F & os & C & E). split; [apply Forall_impl with (2 := F); intros l L; lia|]. exists os. split; [exact C|]. subst rs. rewrite K in H; [congruence|].
    apply (accepted_length sdbl 1024 9 lines). split; [exact F|]. exists os. split; [exact C|reflexivity].
  - intros (F & os & C & ->). assert (AC : accepted sdbl 1024 9 lines (somes os)). { split; [apply Forall_impl with (2 := F); intros l L; lia|]. exists os. split; [exact C|reflexivity]. }
    rewrite (proj2 (A (somes os)) AC). cbn [bind]. f_equal. apply K, (accepted_length sdbl 1024 9 lines _ AC).
Qed.

(** A line of words separated by blanks, each a number: the record of these numbers; text behind them is ignored. *)
Theorem c79_words : forall sdbl, word_scanner sdbl -> forall k w0 x d l vs rest,
  word w0 -> sdbl w0 = (Some (Num x), []) -> whole x d -> in_int d ->
  Forall2 (fun p v => word (snd p) /\ sdbl (snd p) = (Some v, [])) l vs -> at_blank rest ->
  contributes sdbl (S (length l)) (repeat 32 k ++ w0 ++ concat (map (fun p => repeat 32 (S (fst p)) ++ snd p) l) ++ rest) (Some (mkB d ((x - IZR d) * 86400) vs)).
Proof.
  intros sdbl W k w0 x d l vs rest V E Hw Hi F R. apply record; [|exact Hw|exact Hi]. apply one with (r := spread l ++ rest).
  - destruct V as (N & B). destruct w0 as [|c w]; [congruence|]. inversion B; subst. assumption.
  - apply W; [exact E|]. destruct l as [|(k', w') l]; [exact R|reflexivity].
  - apply numbers_words; assumption.
Qed.
Theorem c79_scanner : word_scanner scan_fl. Proof. exact scan_fl_word. Qed.
(** A line contributes in one way only. *)
Theorem c79_determined : forall sdbl n line o o', (1 <= n)%nat -> contributes sdbl n line o -> contributes sdbl n line o' -> o = o'.
Proof. intros sdbl n line o o' H A B. apply (line_contributes sdbl n line o H) in A. apply (line_contributes sdbl n line o' H) in B. congruence. Qed.
(** The epoch is the number read: days and seconds of the same sign, less than a day. *)
Theorem c79_epoch : forall sdbl n line d f vs, contributes sdbl n line (Some (mkB d f vs)) ->
  exists x, numbers sdbl n line (Num x :: vs) /\ (IZR d + f / 86400 = x)%R /\ (Rabs f < 86400)%R /\ ((0 <= x)%R -> (0 <= f)%R /\ 0 <= d) /\ ((x <= 0)%R -> (f <= 0)%R /\ d <= 0).
Proof.
  intros sdbl n line d f vs H. inversion H as [x k vs' N W I E|]; subst. exists x. split; [exact N|]. split; [lra|].
  destruct W as [(P & A)|(P & A)].
  - split; [unfold Rabs; destruct Rcase_abs; lra|]. split.
    + intros _. split; [lra|]. assert (- 1 < d) by (apply lt_IZR; lra). lia.
    + intros Q. assert (x = 0)%R by lra. assert (d < 1) by (apply lt_IZR; lra). assert (-1 < d) by (apply lt_IZR; lra). assert (d = 0) by lia. subst. split; [lra|lia].
  - split; [unfold Rabs; destruct Rcase_abs; lra|]. split; [intros Q; lra|]. intros _. split; [lra|]. assert (d < 1) by (apply lt_IZR; lra). lia.
Qed.
(** A line with too few numbers gives nothing: blank lines, for instance. *)
Theorem c79_blank_line : forall k n, (1 <= n)%nat -> contributes scan_fl n (repeat 32 k) None.
Proof.
  intros k n H. apply nothing. intros vs N. apply numbers_fields in N. destruct n as [|n]; [lia|]. cbn [fields] in N. unfold skipws in N. replace (skip_blanks (repeat 32 k)) with (@nil Z) in N by (clear; induction k; [reflexivity|assumption]).
  replace (scan_fl []) with (@None fl, @nil Z) in N by reflexivity. cbv iota beta in N. pose proof (fields_nonneg scan_fl n []) as P. destruct (fields scan_fl n []) as (vs', e). cbn [snd] in P. apply (f_equal snd) in N. cbn [snd] in N. lia.
Qed.

(** A tab, or a plus sign, in front of a number: the line gives no record, and no message. *)
Theorem c79_tab_refuted : forall c w rest n vs, c = 9 \/ c = 43 -> word w -> scan_fl w = (Some vs, []) -> contributes scan_fl (S (S n)) (w ++ 32 :: c :: rest) None.
Proof.
  intros c w rest n v C (N & B) E. apply nothing. intros vs H. apply numbers_fields in H. cbn [fields] in H. unfold skipws in H. assert (S : skip_blanks (w ++ 32 :: c :: rest) = w ++ 32 :: c :: rest). { destruct w as [|a w]; [congruence|]. inversion B; subst. cbn [app skip_blanks]. destruct (Z.eqb_spec a 32); [contradiction|reflexivity]. }
  rewrite S, (scan_fl_word w v E (32 :: c :: rest) eq_refl) in H. cbn [skip_blanks Z.eqb Pos.eqb] in H. pose proof (fields_nonneg scan_fl n (c :: rest)) as P. assert (X : (c =? 32) = false /\ scan_fl (c :: rest) = (None, c :: rest)) by (destruct C as [-> | ->]; split; reflexivity). destruct X as (X1 & X2). rewrite X1, X2 in H. destruct (fields scan_fl n (c :: rest)) as (vs', e). cbn [snd] in P. apply (f_equal snd) in H. cbn [snd] in H. lia.
Qed.
Theorem c79_tabs_file_refuted : parse_acceleration scan_fl (Some ([chars "54832.0 1.5" ++ [9] ++ chars "2.5 3.5"; chars "54832.0 +1.5 2.5 3.5"], true)) = Ok [].
Proof. reflexivity. Qed.
(** Numbers need not be separated: the fragments of a misprint are read as further numbers. *)
Theorem c79_glued_refuted : exists x y z, fields scan_fl 4 (chars "1-2.5.5-3 4") = ([Num x; Num y; Num z; Num (- (IZR 3 * pow10 0))], 0) /\ x = 1%R /\ y = (-5 / 2)%R /\ z = (1 / 2)%R.
Proof. exists (IZR 1 * pow10 0)%R, (- (IZR 25 * pow10 (-1)))%R, (IZR 5 * pow10 (-1))%R. split; [reflexivity|]. unfold pow10. cbn. change (Pos.to_nat 1) with 1%nat. rewrite ?pow_1, ?Rmult_1_r. split; [lra|]. split; lra. Qed.
(** A line with an epoch that is not a number, or too large, is undefined. *)
Theorem c79_nan_refuted : parse_acceleration scan_fl (Some ([chars "nan 1 2 3"], true)) = UB /\ parse_acceleration scan_fl (Some ([chars "inf 1 2 3"], true)) = UB /\
  parse_acceleration scan_fl (Some ([chars "NaN 1 2 3"], true)) = UB /\ parse_acceleration scan_fl (Some ([chars "-INF 1 2 3"], true)) = UB.
Proof. repeat split; reflexivity. Qed.
Theorem c79_large_refuted : parse_acceleration scan_fl (Some ([chars "2147483648 1 2 3"], true)) = UB.
Proof.
  unfold parse_acceleration. rewrite (proj2 (c79_undefined scan_fl 256 4 ltac:(lia) [chars "2147483648 1 2 3"] true)); [reflexivity|].
  exists [], (chars "2147483648 1 2 3"), [], []. split; [reflexivity|]. split; [constructor|]. split; [constructor|]. split; [reflexivity|].
  pose proof (fields_numbers scan_fl 4 (chars "2147483648 1 2 3") eq_refl) as F. exists (Num (IZR 2147483648 * pow10 0)). eexists. split; [exact F|]. right. eexists. exists 2147483648. split; [reflexivity|]. split; [left; unfold pow10; cbn; change (Pos.to_nat 1) with 1%nat; rewrite ?pow_1, ?Rmult_1_r; lra|]. unfold in_int. lia.
Qed.

(** The name behind the last slash, if there is one. *)
Theorem c79_basename : forall fn, In 47 fn -> exists name, basename fn = Ok name /\ name_of fn name.
Proof. exact basename_slash. Qed.
Theorem c79_name_unique : forall fn a b, name_of fn a -> name_of fn b -> a = b.
Proof.
  assert (K : forall d e a b, ~ In 47 a -> ~ In 47 b -> d ++ 47 :: a = e ++ 47 :: b -> a = b). { induction d as [|c d IH]; intros e a b A B E.
    - destruct e as [|c e]; [injection E; auto|]. exfalso. apply A. injection E as _ ->. apply in_or_app. right. left. reflexivity.
    - destruct e as [|c' e]; [exfalso; apply B; injection E as _ <-; apply in_or_app; right; left; reflexivity|]. injection E as _ E. exact (IH e a b A B E). }
  intros fn a b ((d & [E|(_ & E)]) & A) ((e & [F|(_ & F)]) & B); subst fn.
  - exact (K d e a b A B F).
  - exfalso. apply B. rewrite <- F. apply in_or_app. right. left. reflexivity.
  - exfalso. apply A. rewrite F. apply in_or_app. right. left. reflexivity.
  - exact F.
Qed.
(** Without a slash the first character is lost; the empty name is read behind its end. *)
Theorem c79_basename_refuted : (forall fn, fn <> [] -> ~ In 47 fn -> exists name, basename fn = Ok name /\ ~ name_of fn name) /\ basename [] = UB.
Proof.
  split; [|reflexivity]. intros [|c t] N S; [congruence|]. exists t. split; [exact (basename_none c t S)|]. intros ((d & [E|(_ & E)]) & _).
  - apply S. rewrite E. apply in_or_app. right. left. reflexivity.
  - apply (f_equal (@length Z)) in E. cbn [length] in E. lia.
Qed.

Example c79_nonvacuous : exists rs, parse scan_fl 256 4 (Some ([chars "# mjd ax ay az"; chars "54832.5  -1.25e-3 0 7"], true)) = Ok rs /\ length rs = 1%nat /\
  (exists os, Forall2 (contributes scan_fl 4) [chars "# mjd ax ay az"; chars "54832.5  -1.25e-3 0 7"] os) /\ (exists (l : list (nat * list Z)) vs, Forall2 (fun p v => word (snd p) /\ scan_fl (snd p) = (Some v, [])) l vs /\ length l = 3%nat).
Proof.
  assert (C : exists r, contributes scan_fl 4 (chars "54832.5  -1.25e-3 0 7") (Some r)). { eexists. pose proof (fields_numbers scan_fl 4 (chars "54832.5  -1.25e-3 0 7") eq_refl) as F. apply record with (1 := F : numbers scan_fl 4 (chars "54832.5  -1.25e-3 0 7") (Num (IZR 548325 * pow10 (-1)) :: _)) (k := 54832); [left; unfold pow10; cbn; change (Pos.to_nat 1) with 1%nat; rewrite ?pow_1, ?Rmult_1_r; lra|]. unfold in_int. lia. } destruct C as (r & C).
  assert (D : contributes scan_fl 4 (chars "# mjd ax ay az") None). { apply nothing. intros vs H. apply numbers_fields in H. discriminate. }
  exists [r]. split; [|split; [reflexivity|split]].
  - apply c79_accepted; [lia|]. split; [repeat constructor|]. exists [None; Some r]. split; [constructor; [exact D|constructor; [exact C|constructor]]|reflexivity].
  - exists [None; Some r]. constructor; [exact D|constructor; [exact C|constructor]].
  - exists [(1%nat, chars "-1.25e-3"); (0%nat, chars "0"); (0%nat, chars "7")]. eexists. split; [|reflexivity]. repeat (apply Forall2_cons; [split; [split; [discriminate|repeat (constructor; [discriminate|]); constructor]|reflexivity]|]). constructor.
Qed.
Example c79_basename_nonvacuous : basename (chars "bin/check/a.out") = Ok (chars "a.out") /\ basename (chars "a.out") = Ok (chars ".out").
Proof. split; reflexivity. Qed.
Print Assumptions c79_accepted.
Print Assumptions c79_throws.
Print Assumptions c79_undefined.
Print Assumptions c79_acceleration.
Print Assumptions c79_orbit.
Print Assumptions c79_rotary.
Print Assumptions c79_eops.
Print Assumptions c79_words.
Print Assumptions c79_scanner.
Print Assumptions c79_determined.
Print Assumptions c79_epoch.
Print Assumptions c79_blank_line.
Print Assumptions c79_tab_refuted.
Print Assumptions c79_tabs_file_refuted.
Print Assumptions c79_glued_refuted.
Print Assumptions c79_nan_refuted.
Print Assumptions c79_large_refuted.
Print Assumptions c79_basename.
Print Assumptions c79_name_unique.
Print Assumptions c79_basename_refuted.
