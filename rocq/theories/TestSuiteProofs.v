(** Proofs about the test driver. *)
From Coq Require Import Ascii String Reals ZArith List Bool Lia Lra.
From Verif Require Import Base CString PyModel AodMergeSpec PyProofs TestSuiteModel TestSuiteSpec.
Import ListNotations.
Open Scope Z_scope.

Lemma pbind_unit {A} (r : py A) (f : A -> py unit) : pbind r f = Val tt <-> exists a, r = Val a /\ f a = Val tt.
Proof. destruct r as [a| |]; cbn; split; try discriminate; try (intros (a' & E & H); [injection E as <-; exact H] || discriminate); [intros H; exists a; split; [reflexivity|exact H]| |]; intros (a' & E & _); discriminate. Qed.

(** ** blanks and newlines *)
Lemma replace_char c s : replace [c] [] s = filter (fun x => negb (x =? c)) s.
Proof.
  unfold replace. induction s as [|x s IH]; [reflexivity|]. cbn [replace_from length firstn text_eqb filter Nat.sub app]. rewrite andb_true_r. destruct (Z.eqb_spec c x) as [->|N]; [rewrite Z.eqb_refl; exact IH|].
  rewrite (proj2 (Z.eqb_neq x c)) by congruence. cbn [negb]. rewrite IH. reflexivity.
Qed.
Lemma squeeze_bare s : bare s (squeeze s).
Proof.
  unfold squeeze. change (chars " ") with [32]. rewrite !replace_char. induction s as [|c s IH]; [constructor|]. cbn [filter]. destruct (Z.eqb_spec c 32) as [->|N]; cbn [negb filter]; [apply bare_skip; [left; reflexivity|exact IH]|].
  destruct (Z.eqb_spec c 10) as [->|M]; cbn [negb]; [apply bare_skip; [right; reflexivity|exact IH]|apply bare_keep; assumption].
Qed.
Lemma bare_fun s t t' : bare s t -> bare s t' -> t = t'.
Proof. intros H. revert t'. induction H as [|c s t W _ IH|c s t N M _ IH]; intros t' H'; inversion H'; subst; try reflexivity; try (apply IH; assumption); try (destruct W; contradiction); try tauto. f_equal. apply IH. assumption. Qed.
Lemma check_bare a b : check_file_vs_str a b = true <-> same_bare a b.
Proof.
  unfold check_file_vs_str. rewrite text_eqb_eq. split; [intros E; exists (squeeze a); split; [apply squeeze_bare|rewrite E; apply squeeze_bare]|]. intros (t & A & B). rewrite (bare_fun _ _ _ (squeeze_bare a) A), (bare_fun _ _ _ (squeeze_bare b) B). reflexivity.
Qed.

(** ** words *)
Lemma words_white b s : Forall white b -> words (b ++ s) = words s.
Proof. induction 1 as [|c b W _ IH]; [reflexivity|]. cbn [app words]. rewrite (proj2 (isspace_white c) W). exact IH. Qed.
Lemma words_word w s : w <> [] -> Forall (fun c => ~ white c) w -> (forall c t, s = c :: t -> white c) -> words (w ++ s) = w :: words s.
Proof.
  intros NE F S. induction F as [|c w N F IH]; [contradiction|]. cbn [app words]. rewrite isspace_solid by exact N. destruct w as [|d w].
  - cbn [app]. destruct s as [|x s]; [reflexivity|]. rewrite (proj2 (isspace_white x) (S x s eq_refl)). reflexivity.
  - cbn [app] in *. rewrite isspace_solid by (inversion F; assumption). rewrite IH by discriminate. reflexivity.
Qed.
Lemma words_complete s ws : words_of s ws -> words s = ws.
Proof.
  induction 1 as [b W|b w s ws W NE F S _ IH]; [rewrite <- (app_nil_r b), words_white by exact W; reflexivity|]. rewrite words_white by exact W. rewrite words_word by assumption. rewrite IH. reflexivity.
Qed.
Lemma words_of_skip c s ws : white c -> words_of s ws -> words_of (c :: s) ws.
Proof. intros W H. inversion H as [b B|b w t ws' B NE F S H']; subst; [constructor; constructor; assumption|]. change (c :: b ++ w ++ t) with ((c :: b) ++ w ++ t). constructor; try assumption. constructor; assumption. Qed.
Lemma words_sound s : words_of s (words s).
Proof.
  induction s as [|c s IH]; [constructor; constructor|]. cbn [words]. destruct (isspace c) eqn:E; [apply words_of_skip; [apply isspace_white, E|exact IH]|]. assert (N : ~ white c) by (intros W; apply isspace_white in W; congruence).
  assert (O : forall t, (forall d r, t = d :: r -> white d) -> words_of t (words t) -> words_of (c :: t) ([c] :: words t)).
  { intros t T H. apply (words_more [] [c] t); [constructor|discriminate|constructor; [exact N|constructor]|exact T|exact H]. }
  destruct s as [|d s]; [apply (O []); [discriminate|exact IH]|]. destruct (isspace d) eqn:D; [apply O; [intros d' r X; injection X as <- <-; apply isspace_white, D|exact IH]|]. assert (ND : ~ white d) by (intros W; apply isspace_white in W; congruence).
  inversion IH as [b B EB EW|b w t ws B NE F S H EB EW].
  - inversion B; subst. contradiction.
  - destruct b as [|x b]; [|exfalso; cbn in EB; injection EB as -> _; inversion B; contradiction]. cbn [app] in *. apply (words_more [] (c :: w) t); [constructor|discriminate|constructor; assumption|exact S|exact H].
Qed.
Lemma words_iff s ws : words s = ws <-> words_of s ws.
Proof. split; [intros <-; apply words_sound|apply words_complete]. Qed.
Lemma words_newline l : words (l ++ [10]) = words l.
Proof.
  symmetry. apply words_complete. pose proof (words_sound (l ++ [10])) as H. revert H. generalize (words (l ++ [10])) as ws. intros ws H. remember (l ++ [10]) as s eqn:E. revert l E. induction H as [b W|b w s ws W NE F S H IH]; intros l E.
  - subst. apply Forall_app in W as [W _]. constructor. exact W.
  - destruct s as [|c s] using rev_ind; [|clear IHs].
    + rewrite app_nil_r in E. destruct (exists_last NE) as (w' & x & ->). rewrite app_assoc in E. apply app_inj_tail in E as [_ ->]. apply Forall_app in F as [_ F]. inversion F as [|? ? N _]; subst. exfalso. apply N, newline_white.
    + rewrite !app_assoc in E. apply app_inj_tail in E as [<- ->]. rewrite <- app_assoc. constructor; try assumption; [|apply IH; reflexivity]. intros y t ->. apply (S y (t ++ [10])). reflexivity.
Qed.

(** ** lines *)
Definition same_line (l m : list Z) : Prop := m = l \/ m = l ++ [10].
Lemma same_line_words l m : same_line l m -> words m = words l.
Proof. intros [->| ->]; [reflexivity|apply words_newline]. Qed.
Lemma lines_one l : l <> [] -> one_line l -> lines l = [l].
Proof.
  intros NE. induction 1 as [|c l N F IH]; [contradiction|]. cbn [lines]. rewrite (proj2 (Z.eqb_neq c 10) N). destruct l as [|d l]; [reflexivity|]. rewrite IH by discriminate. reflexivity.
Qed.
Lemma lines_same s L : lines_of s L -> Forall2 same_line L (lines s).
Proof.
  induction 1 as [|l NE O|l s ls O _ IH]; [constructor|rewrite lines_one by assumption; constructor; [left; reflexivity|constructor]|]. rewrite lines_cons by exact O. constructor; [right; reflexivity|exact IH].
Qed.
Lemma lines_exist s : exists L, lines_of s L.
Proof.
  remember (length s) as n eqn:E. revert s E. induction n as [n IH] using lt_wf_ind. intros s ->. destruct s as [|c s]; [exists []; constructor|].
  assert (X : one_line (c :: s) \/ exists l t, c :: s = l ++ 10 :: t /\ one_line l).
  { clear. generalize (c :: s) as u. clear. induction u as [|c u IH]; [left; constructor|]. destruct (Z.eq_dec c 10) as [->|N]; [right; exists [], u; split; [reflexivity|constructor]|]. destruct IH as [O|(l & t & -> & O)]; [left; constructor; assumption|right; exists (c :: l), t; split; [reflexivity|constructor; assumption]]. }
  destruct X as [O|(l & t & E & O)]; [exists [c :: s]; constructor; [discriminate|exact O]|]. rewrite E. destruct (IH (length t)) with (s := t) as (L & H); [rewrite E, app_length; cbn; lia|reflexivity|]. exists (l :: L). constructor; assumption.
Qed.

(** ** a line *)
Section Check.
  Variable tofloat : list Z -> option float.
  Variable cols : list nat.
  Lemma col_in c : existsb (Nat.eqb c) cols = true <-> In c cols.
  Proof. rewrite existsb_exists. split; [intros (x & I & E); apply Nat.eqb_eq in E; subst; exact I|intros I; exists c; split; [exact I|apply Nat.eqb_refl]]. Qed.
  Lemma same_columns_iff k l1 l2 : length l1 = length l2 -> same_columns cols k l1 l2 = Val tt <-> forall c a b, nth_error l1 c = Some a -> nth_error l2 c = Some b -> ~ In (k + c)%nat cols -> a = b.
  Proof.
    revert k l2. induction l1 as [|x l1 IH]; intros k [|y l2] L; try discriminate.
    - split; [intros _ c a b H; destruct c; discriminate|reflexivity].
    - cbn in L. injection L as L. cbn [same_columns]. destruct (existsb (Nat.eqb k) cols) eqn:E; cbn [orb].
      + rewrite (IH (S k) l2 L). split; intros H c a b A B N.
        * destruct c as [|c]; [exfalso; apply N; rewrite Nat.add_0_r; apply col_in, E|]. apply (H c a b A B). replace (S k + c)%nat with (k + S c)%nat by lia. exact N.
        * apply (H (S c) a b A B). replace (k + S c)%nat with (S k + c)%nat by lia. exact N.
      + destruct (text_eqb_spec x y) as [->|D].
        * rewrite (IH (S k) l2 L). split; intros H c a b A B N.
          -- destruct c as [|c]; [cbn in A, B; congruence|]. apply (H c a b A B). replace (S k + c)%nat with (k + S c)%nat by lia. exact N.
          -- apply (H (S c) a b A B). replace (k + S c)%nat with (S k + c)%nat by lia. exact N.
        * split; [discriminate|]. intros H. exfalso. apply D, (H 0%nat x y eq_refl eq_refl). rewrite Nat.add_0_r. intros I. apply col_in in I. congruence.
  Qed.
  Lemma below_iff x y p : below x y p = true <-> exists a b, x = Fin a /\ y = Fin b /\ (Rabs (a - b) < p)%R.
  Proof.
    destruct x as [a|], y as [b|]; cbn; try (split; [discriminate|intros (a' & b' & E1 & E2 & _); discriminate]). destruct (Rlt_dec (Rabs (a - b)) p) as [L|L]; split; try discriminate; try reflexivity; [intros _; exists a, b; split; [reflexivity|split; [reflexivity|exact L]]|].
    intros (a' & b' & E1 & E2 & L'). injection E1 as <-. injection E2 as <-. contradiction.
  Qed.
  Lemma close_columns_iff kp l1 l2 : close_columns tofloat kp l1 l2 = Val tt <-> Forall (fun q => exists a b, nth_error l1 (fst q) = Some a /\ nth_error l2 (fst q) = Some b /\ close tofloat (snd q) a b) kp.
  Proof.
    induction kp as [|[c p] kp IH]; cbn [close_columns]; [split; [constructor|reflexivity]|]. split.
    - intros H. apply pbind_unit in H as (a & A & H). apply pbind_unit in H as (x & X & H). apply pbind_unit in H as (b & B & H). apply pbind_unit in H as (y & Y & H). destruct (below x y p) eqn:E; [|discriminate]. constructor; [|apply IH, H].
      apply below_iff in E as (u & v & -> & -> & L). exists a, b. cbn [fst snd]. destruct (nth_error l1 c); [|discriminate]. injection A as ->. destruct (nth_error l2 c); [|discriminate]. injection B as ->. split; [reflexivity|]. split; [reflexivity|].
      destruct (tofloat a) eqn:TA; [|discriminate]. injection X as ->. destruct (tofloat b) eqn:TB; [|discriminate]. injection Y as ->. exists u, v. split; [exact TA|split; [exact TB|exact L]].
    - intros H. inversion H as [|? ? (a & b & A & B & x & y & X & Y & L) H']; subst. cbn [fst snd] in *. rewrite A. cbn. rewrite X. cbn. rewrite B. cbn. rewrite Y. cbn. destruct (Rlt_dec (Rabs (x - y)) p); [apply IH, H'|contradiction].
  Qed.
  Lemma combine_nth (P : nat -> R -> Prop) (ps : list R) : Forall (fun q => P (fst q) (snd q)) (combine cols ps) <-> forall i c p, nth_error cols i = Some c -> nth_error ps i = Some p -> P c p.
  Proof.
    revert ps. clear tofloat. induction cols as [|c cs IH]; intros ps; [split; [intros _ [|i] c p H; discriminate|constructor]|]. destruct ps as [|p ps]; [split; [intros _ [|i] ? ? _ H; discriminate|constructor]|]. cbn [combine]. split.
    - intros H. inversion H as [|? ? H0 H1]; subst. intros [|i] c' p' A B; [cbn in A, B; injection A as <-; injection B as <-; exact H0|]. exact (proj1 (IH ps) H1 i c' p' A B).
    - intros H. constructor; [exact (H 0%nat c p eq_refl eq_refl)|]. apply IH. intros i. exact (H (S i)).
  Qed.
  Lemma check_line_iff ps l1 l2 : check_line tofloat cols ps l1 l2 = Val tt <-> line_ok tofloat cols ps l1 l2.
  Proof.
    unfold check_line, line_ok. split.
    - intros H. destruct (Nat.eqb_spec (length (words l1)) (length (words l2))) as [E|]; [|discriminate]. cbn [negb] in H. apply pbind_unit in H as ([] & S & C). exists (words l1), (words l2). split; [apply words_sound|]. split; [apply words_sound|]. split; [exact E|].
      split; [apply (same_columns_iff 0 _ _ E), S|]. apply close_columns_iff in C. exact (proj1 (combine_nth (fun c p => exists a b, nth_error (words l1) c = Some a /\ nth_error (words l2) c = Some b /\ close tofloat p a b) ps) C).
    - intros (w1 & w2 & W1 & W2 & E & S & C). apply words_complete in W1, W2. subst w1 w2. rewrite E, Nat.eqb_refl. cbn [negb]. rewrite (proj2 (same_columns_iff 0 _ _ E) S). cbn [pbind]. apply close_columns_iff.
      exact (proj2 (combine_nth (fun c p => exists a b, nth_error (words l1) c = Some a /\ nth_error (words l2) c = Some b /\ close tofloat p a b) ps) C).
  Qed.
  Lemma line_ok_same ps l1 l2 m1 m2 : same_line l1 m1 -> same_line l2 m2 -> check_line tofloat cols ps m1 m2 = check_line tofloat cols ps l1 l2.
  Proof. intros A B. unfold check_line. rewrite (same_line_words _ _ A), (same_line_words _ _ B). reflexivity. Qed.
  Lemma check_lines_iff ps L1 L2 M1 M2 : Forall2 same_line L1 M1 -> Forall2 same_line L2 M2 ->
    check_lines tofloat cols ps (combine M1 M2) = Val tt <-> forall i l1 l2, nth_error L1 i = Some l1 -> nth_error L2 i = Some l2 -> line_ok tofloat cols ps l1 l2.
  Proof.
    intros F1. revert L2 M2. induction F1 as [|l m L1 M1 S1 _ IH]; intros L2 M2 F2; [split; [intros _ [|i] ? ? H; discriminate|reflexivity]|]. destruct F2 as [|l' m' L2 M2 S2 F2]; [split; [intros _ [|i] ? ? _ H; discriminate|reflexivity]|].
    cbn [combine check_lines]. rewrite (line_ok_same ps l l' m m' S1 S2). split.
    - intros H. apply pbind_unit in H as ([] & C & H). intros [|i] l1 l2 A B; [cbn in A, B; injection A as <-; injection B as <-; apply check_line_iff, C|]. exact (proj1 (IH L2 M2 F2) H i l1 l2 A B).
    - intros H. rewrite (proj2 (check_line_iff ps l l') (H 0%nat l l' eq_refl eq_refl)). cbn [pbind]. apply (IH L2 M2 F2). intros i. exact (H (S i)).
  Qed.
  Lemma check_precision_iff out ref ps : check_w_precision tofloat cols out ref ps = Val tt <-> common_ok tofloat cols ps out ref.
  Proof.
    unfold check_w_precision, common_ok. split.
    - intros H. destruct (lines_exist out) as (L1 & H1). destruct (lines_exist ref) as (L2 & H2). exists L1, L2. split; [exact H1|]. split; [exact H2|]. exact (proj1 (check_lines_iff ps _ _ _ _ (lines_same _ _ H1) (lines_same _ _ H2)) H).
    - intros (L1 & L2 & H1 & H2 & H). exact (proj2 (check_lines_iff ps _ _ _ _ (lines_same _ _ H1) (lines_same _ _ H2)) H).
  Qed.
End Check.

(** ** programs *)
Section Programs.
  Variable tofloat : list Z -> option float.
  Variable isfile : list Z -> bool.
  Variable exec : list Z -> list (list Z) -> option (Z * list Z).
  Lemma run_special_iff d : run_special tofloat isfile exec d = Val tt <-> passes tofloat isfile exec pathjoin d.
  Proof.
    unfold run_special, passes. destruct (isfile (pathjoin (path d) (prog d))); cbn [negb]; [|split; [discriminate|intros [H _]; discriminate]]. destruct (exec (pathjoin (path d) (prog d)) (args d)) as [[code out]|]; cbn [ofopt pbind]; [|split; [discriminate|intros (_ & c & o & H & _); discriminate]].
    assert (E : (match exit_ d with Nzero => negb (code =? 0) | Code n => code =? n end) = true <-> expected (exit_ d) code) by (unfold expected; destruct (exit_ d); [rewrite negb_true_iff; apply Z.eqb_neq|apply Z.eqb_eq]).
    destruct (match exit_ d with Nzero => negb (code =? 0) | Code n => code =? n end); cbn [negb].
    - assert (X : (match results d with None => Val tt | Some r => match testwp d with Some (cols, precision) => check_w_precision tofloat cols out r precision | None => if check_file_vs_str out r then Val tt else Raise (Exit 1) end end) = Val tt <->
        (forall r, results d = Some r -> match testwp d with Some (cols, precision) => common_ok tofloat cols precision out r | None => same_bare out r end)).
      { destruct (results d) as [r|]; [|split; [intros _ r H; discriminate|reflexivity]]. destruct (testwp d) as [[cols ps]|].
        - rewrite check_precision_iff. split; [intros H r' R; injection R as <-; exact H|intros H; exact (H r eq_refl)].
        - pose proof (check_bare out r) as CB. destruct (check_file_vs_str out r); split; try reflexivity; try discriminate; [intros _ r' R; injection R as <-; apply CB; reflexivity|]. intros H. exfalso. apply CB in H; [discriminate|reflexivity]. }
      rewrite X. split; [intros H; split; [reflexivity|]; exists code, out; split; [reflexivity|]; split; [apply E; reflexivity|exact H]|]. intros (_ & c & o & EQ & _ & H). injection EQ as <- <-. exact H.
    - split; [discriminate|]. intros (_ & c & o & EQ & H & _). injection EQ as <- <-. apply E in H. discriminate.
  Qed.
  Lemma run_progs_iff l : run_progs_with_args tofloat isfile exec l = Val tt <-> Forall (passes tofloat isfile exec pathjoin) l.
  Proof.
    induction l as [|d l IH]; cbn [run_progs_with_args]; [split; [constructor|reflexivity]|]. split.
    - intros H. apply pbind_unit in H as ([] & S & H). constructor; [apply run_special_iff, S|apply IH, H].
    - intros H. inversion H; subst. rewrite (proj2 (run_special_iff d)) by assumption. cbn [pbind]. apply IH. assumption.
  Qed.
  Lemma endswith_iff e s : endswith e s = true <-> named e s.
  Proof.
    unfold endswith, named. rewrite text_eqb_eq. split; [intros E; exists (firstn (length s - length e) s); rewrite <- E at 2; symmetry; apply firstn_skipn|]. intros (r & ->). rewrite app_length. replace (length r + length e - length e)%nat with (length r) by lia.
    rewrite skipn_app, skipn_all, Nat.sub_diag. reflexivity.
  Qed.
  Lemma needs_iff f l : prog_needs_args f l = false <-> forall d, In d l -> prog d <> f.
  Proof.
    unfold prog_needs_args. rewrite <- not_true_iff_false, existsb_exists. split; [intros H d I E; apply H; exists d; split; [exact I|apply text_eqb_eq; symmetry; exact E]|]. intros H (d & I & E). apply text_eqb_eq in E. exact (H d I (eq_sym E)).
  Qed.
  Lemma exclusive f : named (chars ".out") f -> named (chars ".json") f -> False.
  Proof.
    intros (r & ->) (s & E). apply (f_equal (@rev Z)) in E. rewrite !rev_app_distr in E. vm_compute in E. discriminate.
  Qed.
  Variable load : list Z -> option (list mock).
  Lemma run_mocks_iff l : run_mocks exec l = Val tt <-> forall m, In m l -> exists out, exec (cxx m) [flags m; name m; chars "-I" ++ incp m] = Some (mexit m, out).
  Proof.
    induction l as [|m l IH]; cbn [run_mocks]; [split; [intros _ m []|reflexivity]|]. destruct (exec (cxx m) [flags m; name m; chars "-I" ++ incp m]) as [[code out]|] eqn:E; cbn [ofopt pbind].
    - destruct (Z.eqb_spec code (mexit m)) as [->|N]; cbn [negb].
      + rewrite IH. split; [intros H m' [<-|I]; [exists out; exact E|exact (H m' I)]|intros H m' I; apply H; right; exact I].
      + split; [discriminate|]. intros H. destruct (H m (or_introl eq_refl)) as (o & X). rewrite E in X. congruence.
    - split; [discriminate|]. intros H. destruct (H m (or_introl eq_refl)) as (o & X). rewrite E in X. discriminate.
  Qed.
  Lemma run_dir_iff dir sp fs : run_dir exec load dir sp fs = Val tt <-> Forall (file_passes exec pathjoin load dir sp) fs.
  Proof.
    induction fs as [|f fs IH]; cbn [run_dir]; [split; [constructor|reflexivity]|]. rewrite Forall_cons_iff, <- IH. unfold file_passes. pose proof (endswith_iff (chars ".out") f) as EO. pose proof (endswith_iff (chars ".json") f) as EJ. pose proof (needs_iff f sp) as EN. pose proof (exclusive f) as EX.
    destruct (endswith (chars ".out") f) eqn:O; cbn [andb].
    - assert (NJ : ~ named (chars ".json") f) by (intros J; apply EX; [apply EO; reflexivity|exact J]). destruct (endswith (chars ".json") f) eqn:J; [exfalso; apply NJ, EJ; reflexivity|]. destruct (prog_needs_args f sp) eqn:P; cbn [negb].
      + split; [intros H; split; [|exact H]; split; [|intros X; contradiction]|intros [_ H]; exact H]. intros _ X. apply EN in X. discriminate.
      + destruct (exec (pathjoin dir f) []) as [[code out]|] eqn:E; cbn [ofopt pbind].
        * destruct (Z.eqb_spec code 0) as [->|N]; [split; [intros H; split; [|exact H]; split; [intros _ _; exists out; reflexivity|intros X; contradiction]|intros [_ H]; exact H]|].
          split; [discriminate|]. intros ((H & _) & _). destruct (H (proj1 EO eq_refl) (proj1 EN eq_refl)) as (o & X). congruence.
        * split; [discriminate|]. intros ((H & _) & _). destruct (H (proj1 EO eq_refl) (proj1 EN eq_refl)) as (o & X). congruence.
    - assert (NO : ~ named (chars ".out") f) by (intros X; apply EO in X; discriminate). destruct (endswith (chars ".json") f) eqn:J.
      + destruct (load (pathjoin dir f)) as [ms|] eqn:L; cbn [ofopt pbind].
        * rewrite pbind_unit. split.
          -- intros ([] & M & H). split; [|exact H]. split; [intros X; contradiction|]. intros _. exists ms. split; [reflexivity|]. apply run_mocks_iff, M.
          -- intros ((_ & H) & R). exists tt. split; [|exact R]. destruct (H (proj1 EJ eq_refl)) as (ms' & E & M). injection E as <-. apply run_mocks_iff, M.
        * split; [discriminate|]. intros ((_ & H) & _). destruct (H (proj1 EJ eq_refl)) as (ms' & E & _). discriminate.
      + split; [intros H; split; [|exact H]; split; [intros X; contradiction|intros X; apply EJ in X; discriminate]|intros [_ H]; exact H].
  Qed.
  Variable listdir : list Z -> option (list (list Z)).
  Lemma suite_iff sp dir : suite tofloat isfile exec load listdir sp dir = Val tt <->
    Forall (passes tofloat isfile exec pathjoin) sp /\ exists fs, listdir (pathjoin dir (chars "unit_tests")) = Some fs /\ Forall (file_passes exec pathjoin load (pathjoin dir (chars "unit_tests")) sp) fs.
  Proof.
    unfold suite. rewrite pbind_unit. split.
    - intros ([] & S & H). split; [apply run_progs_iff, S|]. apply pbind_unit in H as (fs & L & H). destruct (listdir (pathjoin dir (chars "unit_tests"))) as [fs'|]; [|discriminate]. injection L as ->. exists fs. split; [reflexivity|]. apply run_dir_iff, H.
    - intros (S & fs & L & H). exists tt. split; [apply run_progs_iff, S|]. rewrite L. cbn [ofopt pbind]. apply run_dir_iff, H.
  Qed.
End Programs.

(** ** data files *)
Section Data.
  Variable fetch : list Z -> option (list Z).
  Variable gunzip : list Z -> option (list Z).
  Lemma put_here d f s : put d f s f = Some s. Proof. unfold put. rewrite text_eqb_refl. reflexivity. Qed.
  Lemma put_other d f s g : g <> f -> put d f s g = d g. Proof. intros N. unfold put. rewrite text_eqb_neq by exact N. reflexivity. Qed.
  Lemma put_present d f s g : d g <> None -> put d f s g <> None.
  Proof. intros H. unfold put. destruct (text_eqb g f); [discriminate|exact H]. Qed.
  Lemma act_present f l d d' g : act gunzip f l d = Val d' -> d g <> None -> d' g <> None.
  Proof.
    revert d. induction l as [|a l IH]; intros d H P; cbn [act] in H; [injection H as <-; exact P|]. destruct (text_eqb a (chars "decompress")); [|exact (IH d H P)]. destruct (d f) as [z|]; [|discriminate]. cbn in H. destruct (gunzip z) as [s|]; [|discriminate]. cbn in H. apply (IH _ H). apply put_present, P.
  Qed.
  Lemma get_present l d d' g : get_data_files fetch gunzip l d = Val d' -> d g <> None -> d' g <> None.
  Proof.
    revert d. induction l as [|x l IH]; intros d H P; cbn [get_data_files] in H; [injection H as <-; exact P|]. destruct (d (local x)); [exact (IH d H P)|]. destruct (fetch (url x)) as [s|]; [|discriminate]. cbn [ofopt pbind] in H. destruct (act gunzip (local x) (actions x) (put d (local x) s)) as [d1| |] eqn:A; try discriminate. cbn [pbind] in H.
    apply (IH d1 H). apply (act_present _ _ _ _ _ A). apply put_present, P.
  Qed.
  Lemma get_locals l d d' : get_data_files fetch gunzip l d = Val d' -> forall x, In x l -> d' (local x) <> None.
  Proof.
    revert d. induction l as [|y l IH]; intros d H x I; [destruct I|]. cbn [get_data_files] in H. destruct I as [->|I].
    - destruct (d (local x)) as [t|] eqn:E; [apply (get_present _ _ _ _ H); congruence|]. destruct (fetch (url x)) as [s|]; [|discriminate]. cbn [ofopt pbind] in H. destruct (act gunzip (local x) (actions x) (put d (local x) s)) as [d1| |] eqn:A; try discriminate. cbn [pbind] in H.
      apply (get_present _ _ _ _ H). apply (act_present _ _ _ _ _ A). rewrite put_here. discriminate.
    - destruct (d (local y)); [exact (IH d H x I)|]. destruct (fetch (url y)) as [s|]; [|discriminate]. cbn [ofopt pbind] in H. destruct (act gunzip (local y) (actions y) (put d (local y) s)) as [d1| |]; try discriminate. exact (IH d1 H x I).
  Qed.
  Lemma short_name (f : list Z) : f <> [] -> firstn (length f - 3) f <> f.
  Proof. intros N E. apply (f_equal (@length Z)) in E. rewrite firstn_length in E. destruct f; [contradiction|]. cbn [length] in E. lia. Qed.
  Lemma act_decompress f l d d' z : f <> [] -> d f = Some z -> act gunzip f l d = Val d' -> d' f = Some z /\
    (In (chars "decompress") l \/ d (firstn (length f - 3) f) = gunzip z -> exists s, gunzip z = Some s /\ d' (firstn (length f - 3) f) = Some s) \/ (gunzip z = None /\ ~ In (chars "decompress") l).
  Proof.
    intros N. revert d. induction l as [|a l IH]; intros d D H; cbn [act] in H.
    - injection H as <-. destruct (gunzip z) as [s|] eqn:G; [left|right; split; [reflexivity|intros []]]. split; [exact D|]. intros [[]|E]. exists s. split; [reflexivity|exact E].
    - destruct (text_eqb_spec a (chars "decompress")) as [->|NE].
      + rewrite D in H. cbn [ofopt pbind] in H. destruct (gunzip z) as [s|] eqn:G; [|discriminate]. cbn [ofopt pbind] in H. left.
        destruct (IH (put d (firstn (length f - 3) f) s)) as [(A & B)|(A & _)]; [rewrite put_other by (intros E; exact (short_name f N (eq_sym E))); exact D|exact H| |discriminate]. split; [exact A|]. intros _. apply B. right. rewrite put_here. reflexivity.
      + destruct (IH d D H) as [(A & B)|(A & B)]; [left; split; [exact A|]; intros [[E|I]|E]; [congruence|apply B; left; exact I|apply B; right; exact E]|right; split; [exact A|]; intros [E|I]; [congruence|exact (B I)]].
  Qed.
  Lemma get_one x d d' : local x <> [] -> d (local x) = None -> get_data_files fetch gunzip [x] d = Val d' -> exists z, fetch (url x) = Some z /\ d' (local x) <> None /\
    (In (chars "decompress") (actions x) -> exists s, gunzip z = Some s /\ d' (firstn (length (local x) - 3) (local x)) = Some s).
  Proof.
    intros N D H. pose proof (get_locals _ _ _ H x (or_introl eq_refl)) as L. cbn [get_data_files] in H. rewrite D in H. destruct (fetch (url x)) as [z|]; [|discriminate]. cbn [ofopt pbind] in H. exists z. split; [reflexivity|]. split; [exact L|]. intros I.
    destruct (act gunzip (local x) (actions x) (put d (local x) z)) as [d1| |] eqn:A; try discriminate. cbn [pbind] in H. injection H as <-. destruct (act_decompress _ _ _ _ z N (put_here _ _ _) A) as [(_ & B)|(_ & B)]; [apply B; left; exact I|contradiction].
  Qed.
End Data.
