From Coq Require Import Ascii String Reals ZArith List Bool Lia Lra.
From Verif Require Import Base CString FromChars AodBlockModel CostgModel CostgSpec.
Import ListNotations.
Open Scope Z_scope.

Lemma skip_split s : exists k, s = repeat 32 k ++ skip_blanks s /\ match skip_blanks s with c :: _ => c <> 32 | [] => True end.
Proof.
  induction s as [|c s (k & E & N)]; [exists O; split; [reflexivity|exact I]|]. cbn [skip_blanks]. destruct (Z.eqb_spec c 32) as [->|D].
  - exists (S k). cbn [repeat app]. rewrite <- E. split; [reflexivity|exact N].
  - exists O. split; [reflexivity|exact D].
Qed.
Lemma trunc_whole x : whole x (trunc x).
Proof.
  unfold whole, trunc. destruct (Rle_dec 0 x) as [P|N].
  - left. split; [exact P|]. destruct (base_Int_part x). lra.
  - right. apply Rnot_le_lt in N. split; [exact N|]. rewrite opp_IZR. destruct (base_Int_part (- x)). lra.
Qed.
Lemma whole_unique x k l : whole x k -> whole x l -> k = l.
Proof.
  intros [(P & A)|(P & A)] [(Q & B)|(Q & B)]; try lra.
  - assert (k < l + 1) by (apply lt_IZR; rewrite plus_IZR; lra). assert (l < k + 1) by (apply lt_IZR; rewrite plus_IZR; lra). lia.
  - assert (k - 1 < l) by (apply lt_IZR; rewrite minus_IZR; lra). assert (l - 1 < k) by (apply lt_IZR; rewrite minus_IZR; lra). lia.
Qed.

Section Readers.
  Variable sdbl : list Z -> option fl * list Z.
  Notation fields := (fields sdbl). Notation numbers := (numbers sdbl). Notation contributes := (contributes sdbl). Notation undefined := (undefined sdbl). Notation read_line := (read_line sdbl). Notation read := (read sdbl). Notation parse := (parse sdbl).
  Lemma fields_nonneg n : forall s, 0 <= snd (fields n s).
  Proof. induction n as [|n IH]; intros s; [reflexivity|]. cbn [CostgModel.fields]. destruct (sdbl (skipws s)) as (v, r). specialize (IH r). destruct (fields n r) as (vs, e). cbn [snd] in *. destruct v; lia. Qed.
  Lemma fields_numbers n : forall s, snd (fields n s) = 0 -> numbers n s (fst (fields n s)).
  Proof.
    induction n as [|n IH]; intros s H; [constructor|]. cbn [CostgModel.fields] in *. unfold skipws in *. destruct (skip_split s) as (k & E & N). destruct (sdbl (skip_blanks s)) as (v, r) eqn:V. specialize (IH r). pose proof (fields_nonneg n r) as P. destruct (fields n r) as (vs, e). cbn [fst snd] in *.
    destruct v as [v|]; [|lia]. rewrite E. apply one with (1 := N) (2 := V). apply IH. lia.
  Qed.
  Lemma numbers_fields n s vs : numbers n s vs -> fields n s = (vs, 0).
  Proof.
    induction 1 as [|n k w v r vs N V H IH]; [reflexivity|]. cbn [CostgModel.fields]. unfold skipws. rewrite skip_blanks_repeat by exact N. rewrite V, IH. reflexivity.
  Qed.
  Lemma numbers_length n s vs : numbers n s vs -> length vs = n.
  Proof. induction 1; cbn; congruence. Qed.
  Lemma line_contributes n l o : (1 <= n)%nat -> contributes n l o -> read_line n l = Ok o.
  Proof.
    intros P [x k vs H W I|H]; unfold CostgModel.read_line.
    - rewrite (numbers_fields _ _ _ H). cbn [negb Z.eqb to_int]. rewrite (whole_unique x k (trunc x) W (trunc_whole x)) in *. replace ((- 2 ^ 31 <=? trunc x) && (trunc x <=? 2 ^ 31 - 1)) with true; [reflexivity|]. symmetry. apply andb_true_iff. rewrite !Z.leb_le. exact I.
    - pose proof (fields_numbers n l) as F. destruct (fields n l) as (vs, e). cbn [fst snd] in F. destruct (Z.eqb_spec e 0) as [->|]; [exfalso; exact (H _ (F eq_refl))|reflexivity].
  Qed.
  Lemma line_undefined n l : undefined n l -> read_line n l = UB.
  Proof.
    intros (t & vs & H & C). unfold CostgModel.read_line. rewrite (numbers_fields _ _ _ H). cbn [negb Z.eqb]. destruct C as [->|(x & k & -> & W & I)]; [reflexivity|]. cbn [to_int]. rewrite (whole_unique x k (trunc x) W (trunc_whole x)) in *.
    replace ((- 2 ^ 31 <=? trunc x) && (trunc x <=? 2 ^ 31 - 1)) with false; [reflexivity|]. symmetry. apply not_true_is_false. rewrite andb_true_iff, !Z.leb_le. exact I.
  Qed.
  Lemma line_cases n l : (1 <= n)%nat -> (exists o, contributes n l o) \/ undefined n l.
  Proof.
    intros P. pose proof (fields_numbers n l) as F. destruct (Z.eq_dec (snd (fields n l)) 0) as [E|E].
    - specialize (F E). pose proof (numbers_length _ _ _ F) as L. destruct (fst (fields n l)) as [|[x|] vs]; [cbn in L; lia| |right; exists Special, vs; split; [exact F|left; reflexivity]].
      destruct (Z_le_dec (- 2 ^ 31) (trunc x)) as [A|A]; [destruct (Z_le_dec (trunc x) (2 ^ 31 - 1)) as [B|B]|].
      + left. eexists. apply record with (x := x) (k := trunc x); [exact F|apply trunc_whole|split; assumption].
      + right. exists (Num x), vs. split; [exact F|]. right. exists x, (trunc x). split; [reflexivity|]. split; [apply trunc_whole|]. intros (_ & C). contradiction.
      + right. exists (Num x), vs. split; [exact F|]. right. exists x, (trunc x). split; [reflexivity|]. split; [apply trunc_whole|]. intros (C & _). contradiction.
    - left. exists None. apply nothing. intros vs H. apply E. rewrite (numbers_fields _ _ _ H). reflexivity.
  Qed.
  Variables (size : Z) (n : nat).
  Hypothesis Hn : (1 <= n)%nat.
  Notation short l := (Z.of_nat (length l) < size).
  (** the stream in front of the lines [ls] *)
  Definition before (term first : bool) (ls : list (list Z)) : ifs := mkI ls term (match ls with [] => negb term && negb first | _ => false end) false.
  Lemma read_end fuel term first : exists s', read fuel size n (before term first []) = Ok ([], s') /\ ieof s' = true.
  Proof. destruct fuel; cbn [CostgModel.read]; unfold before, igetline, good; cbn [ieof ifail ilines iterm]; destruct (negb term && negb first) eqn:E; cbn; eexists; split; reflexivity. Qed.
  Lemma getline_short term first l ls : short l -> igetline size (before term first (l :: ls)) = (l, before term false ls).
  Proof. intros S. unfold igetline, before, good. cbn [ieof ifail ilines iterm negb andb]. destruct (Z.leb_spec size (Z.of_nat (length l))); [lia|]. destruct ls; [rewrite andb_true_r|]; reflexivity. Qed.
  Lemma read_short fuel term first l ls : short l ->
    read (S fuel) size n (before term first (l :: ls)) = bind (read_line n l) (fun r => bind (read fuel size n (before term false ls)) (fun p => Ok (match r with Some r => r :: fst p | None => fst p end, snd p))).
  Proof.
    intros S. cbn [CostgModel.read]. rewrite (getline_short term first l ls S). cbn [before ifail]. destruct (read_line n l) as [r| | |]; [|reflexivity|reflexivity|reflexivity]. cbn [bind]. unfold before. match goal with |- context [CostgModel.read ?a ?b ?c ?d ?e] => destruct (CostgModel.read a b c d e) as [(rs, s2)| | |] end; reflexivity.
  Qed.
  Lemma read_prefix term pre os : Forall2 (contributes n) pre os -> Forall (fun l => short l) pre -> forall fuel first post,
    read (length pre + fuel) size n (before term first (pre ++ post)) = bind (read fuel size n (before term (match pre with [] => first | _ => false end) post)) (fun p => Ok (somes os ++ fst p, snd p)).
  Proof.
    induction 1 as [|l o pre os C F IH]; intros S fuel first post.
    - cbn [length app somes Nat.add]. destruct (read fuel size n (before term first post)) as [(rs, s)| | |]; reflexivity.
    - inversion S as [|? ? S1 S2]; subst. cbn [length app Nat.add]. rewrite (read_short _ term first l (pre ++ post) S1), (line_contributes n l o Hn C). cbn [bind]. rewrite (IH S2 fuel false post).
      replace (match pre with [] => false | _ :: _ => false end) with false by (destruct pre; reflexivity). destruct (read fuel size n (before term false post)) as [(rs, s)| | |]; cbn [bind fst snd]; [|reflexivity|reflexivity|reflexivity]. destruct o; reflexivity.
  Qed.
  Lemma read_long fuel term first l ls : ~ short l -> exists s', read fuel size n (before term first (l :: ls)) = Ok ([], s') /\ ieof s' = false.
  Proof. intros S. destruct fuel; cbn [CostgModel.read]; unfold before, igetline, good; cbn [ieof ifail ilines iterm negb andb]; (destruct (Z.leb_spec size (Z.of_nat (length l))); [|lia]); eexists; split; reflexivity. Qed.
  (** three cases *)
  Definition accepted (ls : list (list Z)) (rs : list bm) : Prop := Forall (fun l => short l) ls /\ exists os, Forall2 (contributes n) ls os /\ rs = somes os.
  Definition stops (P : list Z -> Prop) (ls : list (list Z)) : Prop := exists pre l post os, ls = pre ++ l :: post /\ Forall (fun l => short l) pre /\ Forall2 (contributes n) pre os /\ P l.
  Lemma parse_accepted ls term rs : accepted ls rs -> parse size n (Some (ls, term)) = Ok rs.
  Proof.
    intros (S & os & C & ->). unfold CostgModel.parse. pose proof (read_prefix term ls os C S 0 true []) as R. rewrite app_nil_r, Nat.add_0_r in R. replace (before term true ls) with (mkI ls term false false) in R by (unfold before; rewrite andb_false_r; destruct ls; reflexivity). rewrite R.
    destruct (read_end 0 term (match ls with [] => true | _ => false end)) as (s' & E & F). rewrite E. cbn [bind fst snd]. rewrite F, app_nil_r. reflexivity.
  Qed.
  Lemma parse_start ls term : mkI ls term false false = before term true ls. Proof. unfold before. rewrite andb_false_r. destruct ls; reflexivity. Qed.
  Lemma parse_long ls term : stops (fun l => ~ short l) ls -> parse size n (Some (ls, term)) = Abort.
  Proof.
    intros (pre & l & post & os & -> & S & C & L). unfold CostgModel.parse. rewrite parse_start, app_length, (read_prefix term pre os C S). destruct (read_long (length (l :: post)) term (match pre with [] => true | _ => false end) l post L) as (s' & E & F). rewrite E. cbn [bind fst snd]. rewrite F. reflexivity.
  Qed.
  Lemma parse_undefined ls term : stops (fun l => short l /\ undefined n l) ls -> parse size n (Some (ls, term)) = UB.
  Proof.
    intros (pre & l & post & os & -> & S & C & L & U). unfold CostgModel.parse. rewrite parse_start, app_length, (read_prefix term pre os C S). cbn [length]. rewrite (read_short _ _ _ l post L), (line_undefined n l U). reflexivity.
  Qed.
  Lemma cases ls : (exists rs, accepted ls rs) \/ stops (fun l => ~ short l) ls \/ stops (fun l => short l /\ undefined n l) ls.
  Proof.
    induction ls as [|l ls IH]; [left; exists []; split; [constructor|exists []; split; [constructor|reflexivity]]|].
    destruct (Z_lt_dec (Z.of_nat (length l)) size) as [S|S]; [|right; left; exists [], l, ls, []; split; [reflexivity|]; split; [constructor|]; split; [constructor|exact S]].
    destruct (line_cases n l Hn) as [(o & C)|U]; [|right; right; exists [], l, ls, []; split; [reflexivity|]; split; [constructor|]; split; [constructor|split; assumption]].
    assert (X : forall P, stops P ls -> stops P (l :: ls)). { intros P (pre & l' & post & os & -> & F & G & Q). exists (l :: pre), l', post, (o :: os). split; [reflexivity|]. split; [constructor; assumption|]. split; [constructor; assumption|exact Q]. }
    destruct IH as [(rs & F & os & G & E)|[H|H]]; [|right; left; apply X, H|right; right; apply X, H].
    left. exists (somes (o :: os)). split; [constructor; assumption|]. exists (o :: os). split; [constructor; assumption|reflexivity].
  Qed.
  Lemma accepted_iff ls term rs : parse size n (Some (ls, term)) = Ok rs <-> accepted ls rs.
  Proof.
    split; [|apply parse_accepted]. intros H. destruct (cases ls) as [(rs' & A)|[A|A]].
    - rewrite (parse_accepted ls term rs' A) in H. injection H as <-. exact A.
    - rewrite (parse_long ls term A) in H. discriminate.
    - rewrite (parse_undefined ls term A) in H. discriminate.
  Qed.
  Lemma long_iff ls term : parse size n (Some (ls, term)) = Abort <-> stops (fun l => ~ short l) ls.
  Proof.
    split; [|apply parse_long]. intros H. destruct (cases ls) as [(rs' & A)|[A|A]]; [rewrite (parse_accepted ls term rs' A) in H; discriminate|exact A|rewrite (parse_undefined ls term A) in H; discriminate].
  Qed.
  Lemma undefined_iff ls term : parse size n (Some (ls, term)) = UB <-> stops (fun l => short l /\ undefined n l) ls.
  Proof.
    split; [|apply parse_undefined]. intros H. destruct (cases ls) as [(rs' & A)|[A|A]]; [rewrite (parse_accepted ls term rs' A) in H; discriminate|rewrite (parse_long ls term A) in H; discriminate|exact A].
  Qed.
End Readers.

(** ** lines written with blanks *)
Definition spread (l : list (nat * list Z)) : list Z := concat (map (fun p => repeat 32 (S (fst p)) ++ snd p) l).
Lemma numbers_words sdbl l vs : word_scanner sdbl -> Forall2 (fun p v => word (snd p) /\ sdbl (snd p) = (Some v, [])) l vs -> forall rest, at_blank rest -> numbers sdbl (length l) (spread l ++ rest) vs.
Proof.
  intros W F. induction F as [|(k, w) v l vs ((N & B) & E) F IH]; intros rest R; [constructor|]. cbn [spread map concat fst snd length] in *. fold (spread l). rewrite <- !app_assoc. apply one with (r := spread l ++ rest).
  - destruct w as [|c w]; [congruence|]. inversion B; subst. assumption.
  - apply W; [exact E|]. destruct l as [|(k', w') l]; [exact R|reflexivity].
  - apply IH, R.
Qed.
Lemma numbers_no_lead sdbl n k s vs : (n <> 0)%nat -> numbers sdbl n (repeat 32 k ++ s) vs -> numbers sdbl n s vs.
Proof.
  intros P H. destruct n as [|n]; [lia|]. apply numbers_fields in H. destruct (skip_split s) as (j & E & N). assert (E2 : skip_blanks (repeat 32 k ++ s) = skip_blanks s). { rewrite E at 1. rewrite app_assoc, <- repeat_app. apply skip_blanks_repeat, N. }
  pose proof (fields_numbers sdbl (S n) s) as F. cbn [fields] in H, F. unfold skipws in *. rewrite E2 in H. rewrite H in F. exact (F eq_refl).
Qed.

(** ** basename *)
Lemma last_slash_in s : forall last, In 47 s -> exists dir name, s = dir ++ 47 :: name /\ ~ In 47 name /\ last_slash s last = 47 :: name.
Proof.
  induction s as [|c s IH]; intros last H; [destruct H|]. cbn [last_slash]. destruct (in_dec Z.eq_dec 47 s) as [I|N].
  - destruct (IH (if c =? 47 then c :: s else last) I) as (dir & name & -> & N & E). exists (c :: dir), name. split; [reflexivity|]. split; assumption.
  - destruct H as [->|H]; [|contradiction]. exists [], s. split; [reflexivity|]. split; [exact N|]. rewrite Z.eqb_refl. clear IH. generalize (47 :: s). induction s as [|d s IH]; intros l; [reflexivity|]. cbn [last_slash]. destruct (Z.eqb_spec d 47) as [->|]; [exfalso; apply N; left; reflexivity|]. apply IH. intros I. apply N. right. exact I.
Qed.
Lemma last_slash_out s : forall last, ~ In 47 s -> last_slash s last = last.
Proof. induction s as [|c s IH]; intros last N; [reflexivity|]. cbn [last_slash]. destruct (Z.eqb_spec c 47) as [->|]; [exfalso; apply N; left; reflexivity|]. apply IH. intros I. apply N. right. exact I. Qed.
Lemma basename_slash fn : In 47 fn -> exists name, basename fn = Ok name /\ name_of fn name.
Proof.
  destruct fn as [|c t]; [intros []|]. intros H. cbn [basename]. destruct (in_dec Z.eq_dec 47 t) as [I|N].
  - destruct (last_slash_in t (c :: t) I) as (dir & name & E & N & L). rewrite L. exists name. split; [reflexivity|]. split; [exists (c :: dir); left; rewrite E; reflexivity|exact N].
  - rewrite (last_slash_out t (c :: t) N). destruct H as [->|H]; [|contradiction]. exists t. split; [reflexivity|]. split; [exists []; left; reflexivity|exact N].
Qed.
Lemma basename_none c t : ~ In 47 (c :: t) -> basename (c :: t) = Ok t.
Proof. intros N. cbn [basename]. rewrite last_slash_out; [reflexivity|]. intros I. apply N. right. exact I. Qed.

(** ** the scanner *)
Lemma starts_blank p : Forall (fun c => c <> 32) p -> forall t rest, at_blank rest -> starts p (map lower (t ++ rest)) = starts p (map lower t).
Proof.
  induction 1 as [|c p N F IH]; intros t rest B; [reflexivity|]. destruct t as [|d t].
  - destruct rest as [|d rest]; [reflexivity|]. cbn [at_blank] in B. subst d. cbn [app map starts lower]. change (lower 32) with 32. destruct (Z.eqb_spec c 32); [contradiction|reflexivity].
  - cbn [app map starts]. rewrite (IH t rest B). reflexivity.
Qed.
Lemma starts_length p : forall t, starts p t = true -> (length p <= length t)%nat.
Proof. induction p as [|c p IH]; intros t H; [cbn; lia|]. destruct t as [|d t]; [discriminate|]. cbn [starts] in H. apply andb_true_iff in H. destruct H as (_ & H). apply IH in H. cbn [length]. lia. Qed.
Lemma scan_fl_word : word_scanner scan_fl.
Proof.
  assert (B : Forall (fun c => c <> 32) (chars "inf") /\ Forall (fun c => c <> 32) (chars "nan")) by (split; cbn; repeat (constructor; [discriminate|]); constructor). destruct B as (B1 & B2).
  intros w v H rest R. unfold scan_fl in *. set (t := match w with c :: t => if c =? 45 then t else w | [] => [] end) in *.
  assert (T : (match w ++ rest with c :: t => if c =? 45 then t else w ++ rest | [] => [] end) = t ++ rest). { unfold t. destruct w as [|c w]; [|cbn [app]; destruct (c =? 45); reflexivity]. cbn [app] in *. destruct rest as [|c rest]; [reflexivity|]. cbn [at_blank] in R. subst c. reflexivity. }
  cbv zeta. rewrite T, (starts_blank _ B1 t rest R), (starts_blank _ B2 t rest R). cbv zeta in H. destruct (starts (chars "inf") (map lower t) || starts (chars "nan") (map lower t)) eqn:E.
  - assert (L : (3 <= length t)%nat). { apply orb_true_iff in E. destruct E as [E|E]; apply starts_length in E; rewrite map_length in E; exact E. }
    assert (H1 : skipn 3 t = []) by congruence. assert (H2 : v = Special) by congruence. rewrite skipn_app, H1, H2. replace (3 - length t)%nat with O by lia. reflexivity.
  - destruct (scan_dbl w) as (o, r) eqn:S. destruct o as [x|]; [|discriminate]. cbn [option_map] in H. assert (r = []) by congruence. assert (v = Num x) by congruence. subst r v. rewrite (scan_dbl_word w x S rest R). reflexivity.
Qed.

(** ** records *)
Lemma contributes_length sdbl n l r : contributes sdbl n l (Some r) -> length (bdata r) = (n - 1)%nat.
Proof. intros H. inversion H as [x k vs N W I|]; subst. apply numbers_length in N. cbn [length bdata] in *. lia. Qed.
Lemma somes_in {A} (os : list (option A)) r : In r (somes os) -> In (Some r) os.
Proof. induction os as [|[a|] os IH]; cbn [somes In]; [auto| |auto]. intros [->|H]; auto. Qed.
Lemma accepted_length sdbl size n ls rs : accepted sdbl size n ls rs -> Forall (fun r => length (bdata r) = (n - 1)%nat) rs.
Proof.
  intros (_ & os & F & ->). apply Forall_forall. intros r H. apply somes_in in H. induction F as [|l o ls os C F IH]; [destruct H|]. destruct H as [->|H]; [exact (contributes_length sdbl n l r C)|exact (IH H)].
Qed.
