From Coq Require Import Ascii String Reals ZArith List Bool Lia.
From Verif Require Import Base CString FromChars IcgemModel IcgemSpec.
Import ListNotations.
Open Scope Z_scope.

Lemma to_ws_word w s : Forall (fun c => c <> 32) w -> at_blank s -> to_ws (w ++ s) = s.
Proof.
  intros F B. induction F as [|c w Hc F IH]; cbn [app to_ws].
  - destruct s as [|c s]; [reflexivity|]. cbn in *. subst. reflexivity.
  - destruct (Z.eqb_spec c 32); [congruence|exact IH].
Qed.
Lemma prefix_self w s : prefix w (w ++ s) = true.
Proof. induction w as [|c w IH]; [destruct s; reflexivity|]. cbn [app prefix]. rewrite Z.eqb_refl. exact IH. Qed.
Lemma prefix_true w s : prefix w s = true -> exists t, s = w ++ t.
Proof.
  revert s; induction w as [|c w IH]; intros s; [exists s; reflexivity|]. destruct s as [|d s]; [discriminate|]. cbn [prefix]. intros H. apply andb_true_iff in H as (E & H).
  apply Z.eqb_eq in E as ->. destruct (IH s H) as (t & ->). exists t. reflexivity.
Qed.
Lemma skip_blanks_split s : exists n, s = repeat 32 n ++ skip_blanks s.
Proof. induction s as [|c s (n & IH)]; [exists O; reflexivity|]. cbn [skip_blanks]. destruct (Z.eqb_spec c 32) as [->|]; [exists (S n); cbn; congruence|exists O; reflexivity]. Qed.
Lemma match_kw_none kw line : (forall n t, line <> repeat 32 n ++ kw ++ t) -> match_kw kw line = None.
Proof.
  intros H. unfold match_kw. destruct (prefix kw (skip_blanks line)) eqn:E; [|reflexivity]. apply prefix_true in E as (t & E). destruct (skip_blanks_split line) as (n & X). rewrite E in X. destruct (H n t X).
Qed.
Lemma kw_skip n kw s : word kw -> skip_blanks (repeat 32 n ++ kw ++ s) = kw ++ s.
Proof. apply skip_blanks_word. Qed.
Lemma match_kw_hit kw n k arg : word kw -> (match arg with c :: _ => c <> 32 | [] => False end) -> match_kw kw (repeat 32 n ++ kw ++ repeat 32 (S k) ++ arg) = Some arg.
Proof.
  intros W A. unfold match_kw. rewrite kw_skip by exact W. rewrite prefix_self. rewrite to_ws_word; [|apply W|reflexivity]. rewrite skip_blanks_repeat; [reflexivity|]. destruct arg; [contradiction|exact A].
Qed.
Lemma match_kw_miss kw kw' n s : word kw -> prefix kw' (kw ++ s) = false -> match_kw kw' (repeat 32 n ++ kw ++ s) = None.
Proof. intros W P. unfold match_kw. rewrite kw_skip by exact W. rewrite P. reflexivity. Qed.

Lemma drop_blanks_rev_ok j c t : c <> 32 -> drop_blanks_rev (repeat 32 j ++ c :: t) = c :: t.
Proof.
  intros N. induction j as [|j IH].
  - cbn [repeat app]. destruct t; [reflexivity|]. cbn. destruct (Z.eqb_spec c 32); [congruence|reflexivity].
  - cbn [repeat app]. rewrite <- IH at 2. destruct (repeat 32 j ++ c :: t) eqn:E; [destruct j; discriminate|reflexivity].
Qed.
Lemma rev_repeat (x : Z) n : rev (repeat x n) = repeat x n.
Proof. induction n; [reflexivity|]. cbn [repeat rev]. rewrite IHn. clear. induction n; [reflexivity|]. cbn. f_equal. exact IHn. Qed.
Lemma text_arg_ok size arg v : text_arg size arg v -> copy_to (Z.of_nat size) arg = Ok v.
Proof.
  intros (j & u & c & -> & -> & N & L). unfold copy_to. destruct (Z.ltb_spec (Z.of_nat (length ((u ++ [c]) ++ repeat 32 j))) (Z.of_nat size)); [|lia].
  f_equal. unfold right_trim. rewrite rev_app_distr, rev_app_distr, rev_repeat. cbn [rev app]. rewrite drop_blanks_rev_ok by exact N. cbn [rev]. rewrite rev_involutive. reflexivity.
Qed.
Lemma text_arg_nonempty size arg v : text_arg size arg v -> arg <> [].
Proof. intros (j & u & c & -> & -> & _) E. destruct u; discriminate. Qed.

Lemma kw_words : Forall (fun k => word (chars k)) keywords.
Proof. repeat (constructor; [split; [discriminate|repeat (constructor; [discriminate|]); constructor]|]). constructor. Qed.

Section Header.
  Variable sdbl : list Z -> option R * list Z.
  Hypothesis WS : word_scanner sdbl.

  Ltac miss := repeat match goal with
    | |- context [match_kw (chars ?a) (repeat 32 ?n ++ chars ?b ++ ?s)] => rewrite (match_kw_miss (chars b) (chars a) n s) by (assumption || reflexivity) end.

  Lemma item_line_ok line i h : item_line sdbl line i -> header_line sdbl line h = Ok (0, set_item h i).
  Proof.
    intros (_ & H). pose proof kw_words as KW. repeat (apply Forall_cons_iff in KW as (? & KW)). unfold header_line. destruct i; cbn [set_item].
    - destruct H as (arg & (n & k & -> & A) & T). rewrite match_kw_hit by assumption. destruct arg as [|c arg]; [contradiction|]. change 64 with (Z.of_nat 64). rewrite (text_arg_ok _ _ _ T). reflexivity.
    - destruct H as (arg & (n & k & -> & A) & T). miss. rewrite match_kw_hit by assumption. destruct arg as [|c arg]; [contradiction|]. change 128 with (Z.of_nat 128). rewrite (text_arg_ok _ _ _ T). reflexivity.
    - destruct H as (arg & (n & k & -> & A) & (w & rest & -> & B & E)). miss. rewrite match_kw_hit by assumption. rewrite (WS _ _ E rest B). destruct (w ++ rest); [contradiction|]. reflexivity.
    - destruct H as (arg & (n & k & -> & A) & (w & rest & -> & B & E)). miss. rewrite match_kw_hit by assumption. rewrite (WS _ _ E rest B). destruct (w ++ rest); [contradiction|]. reflexivity.
    - destruct H as (arg & (n0 & k & -> & A) & (w & rest & -> & B & E)). miss. rewrite match_kw_hit by assumption. unfold scan_i32 in *. rewrite (scan_int_word _ _ _ _ E rest B). destruct (w ++ rest); [contradiction|]. reflexivity.
    - destruct H as (arg & rest & (n & k & -> & A) & -> & B). miss. rewrite match_kw_hit by assumption. destruct e; cbn [error_name] in *;
        [destruct rest as [|c rest]; [reflexivity|cbn in B; subst c; reflexivity] ..].
    - destruct H as (arg & (n & k & -> & A) & T). miss. rewrite match_kw_hit by assumption. destruct arg as [|c arg]; [contradiction|]. change 64 with (Z.of_nat 64). rewrite (text_arg_ok _ _ _ T). reflexivity.
    - destruct H as (arg & (n & k & -> & A) & T). miss. rewrite match_kw_hit by assumption. destruct arg as [|c arg]; [contradiction|]. change 64 with (Z.of_nat 64). rewrite (text_arg_ok _ _ _ T). reflexivity.
    - destruct H as (arg & rest & (n & k & -> & A) & ->). miss. rewrite match_kw_hit by assumption. destruct b; reflexivity.
    - destruct H as (H & _). rewrite !match_kw_none by (intros; apply H; cbn; tauto). reflexivity.
  Qed.
  Lemma kw_not_end kw n s : In kw keywords -> prefix (chars "end_of_head") (repeat 32 n ++ chars kw ++ 32 :: s) = false.
  Proof. intros K. destruct n; [|reflexivity]. cbn [keywords In] in K. repeat (destruct K as [<-|K]; [reflexivity|]). contradiction. Qed.
  Lemma item_line_not_end line i : item_line sdbl line i -> prefix (chars "end_of_head") line = false.
  Proof.
    intros (_ & H).
    assert (X : forall kw arg, keyword_line kw line arg -> In kw keywords -> prefix (chars "end_of_head") line = false).
    { intros kw arg (n & k & -> & _) K. cbn [repeat app]. rewrite kw_not_end by exact K. reflexivity. }
    destruct i; try (first [destruct H as (arg & K & _); apply (X _ _ K)|destruct H as (arg & rest & K & _); apply (X _ _ K)]; cbn; tauto).
    destruct H as (_ & H). destruct (prefix _ line) eqn:E; [|reflexivity]. apply prefix_true in E as (t & E). destruct (H t E).
  Qed.
  Lemma header_loop_ok lines items : Forall2 (item_line sdbl) lines items -> forall count h e rest, count + Z.of_nat (length lines) <= 1000 -> 
    header_loop sdbl count (lines ++ (chars "end_of_head" ++ e) :: rest) h = Ok (0, fold_left set_item items h, rest).
  Proof.
    induction 1 as [|line i lines items H F IH]; intros count h e rest C.
    - cbn [app header_loop fold_left]. assert (E : prefix (chars "end_of_head") (firstn 255 (chars "end_of_head" ++ e)) = true) by (do 11 (cbn [firstn app chars map list_ascii_of_string]); reflexivity).
      rewrite E. reflexivity.
    - cbn [app header_loop fold_left]. cbn [length] in C. pose proof H as (L & _). rewrite firstn_all2 by exact L. rewrite (item_line_not_end _ _ H), (item_line_ok _ _ h H). cbn [bind Z.eqb negb].
      unfold max_header_lines. destruct (Z.ltb_spec 1000 (count + 1)); [lia|]. destruct (Z.ltb_spec 255 (Z.of_nat (length line))); [lia|]. apply IH. lia.
  Qed.
  (** no end_of_head: always refused *)
  Lemma header_loop_no_end lines : Forall (fun line => forall t, firstn 255 line <> chars "end_of_head" ++ t) lines -> forall count h,
    match header_loop sdbl count lines h with Ok (c, _, rest) => c <> 0 /\ rest = [] | UB => True | _ => False end.
  Proof.
    assert (HL : forall line h, match header_line sdbl line h with Ok _ | UB => True | _ => False end).
    { intros line h. assert (C : forall n arg (f : list Z -> hdr), match (v <- copy_to n arg ;; Ok (0, f v)) with Ok _ | UB => True | _ => False end) by (intros; unfold copy_to; destruct (_ <? _); exact I).
      unfold header_line. repeat match goal with |- match (match match_kw ?a ?b with _ => _ end) with _ => _ end => destruct (match_kw a b) as [[|? ?]|]; [exact I|first [apply C|idtac]|] end;
      repeat match goal with |- match (match sdbl ?a with _ => _ end) with _ => _ end => destruct (sdbl a) as ([?|] & ?); exact I end; try exact I.
      - destruct (scan_i32 _) as ([?|] & ?); exact I.
      - destruct (prefix _ _); [exact I|]. destruct (prefix _ _); exact I. }
    induction 1 as [|line lines H F IH]; intros count h; [cbn; split; [discriminate|reflexivity]|]. cbn [header_loop].
    destruct (prefix (chars "end_of_head") (firstn 255 line)) eqn:E; [apply prefix_true in E as (t & E); destruct (H t E)|].
    specialize (HL (firstn 255 line) h). destruct (header_line sdbl (firstn 255 line) h) as [(c, h')| | |]; try exact HL; cbn [bind].
    destruct (Z.eqb_spec c 0); cbn [negb]; [|split; [assumption|reflexivity]]. destruct (max_header_lines <? count + 1); [split; [discriminate|reflexivity]|].
    destruct (255 <? Z.of_nat (length line)); [split; [discriminate|reflexivity]|]. apply IH.
  Qed.
End Header.
