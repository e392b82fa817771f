(** Proofs about AOD1B data blocks, continued: collecting coefficients, tidal files. *)
From Coq Require Import Ascii String Reals ZArith List Bool Lia.
From Verif Require Import Base CString FromChars Aod1bModel Aod1bSpec Aod1bProofs AodBlockModel AodBlockSpec AodBlockProofs.
Import ListNotations.
Open Scope Z_scope.

Section Collect.
  Variable from_char : list Z -> option (Z * list Z).
  Variable gps2tt : Z -> Z.
  Variable EOF : Z.
  Variable sdbl : list Z -> option R * list Z.
  Hypothesis SD : word_scanner sdbl.
  Notation block_ok := (block_ok from_char).
  Notation reported := (reported gps2tt).
  Notation advance := (advance from_char gps2tt EOF).

  Lemma narrow_pos ls term : more_lines ls term = true -> narrow (pos ls term) = mkS ls term true.
  Proof. intros H. unfold narrow. rewrite good_pos. destruct ls; cbn in *; [rewrite H|]; reflexivity. Qed.
  Lemma widen_pos ls term : more_lines ls term = true -> widen (mkS ls term true) = pos ls term.
  Proof. intros H. unfold widen, pos. cbn. destruct ls; cbn in *; [rewrite H|]; reflexivity. Qed.
  Lemma block_collect fd cd co N M b rest term cs0 h : 0 <= fd -> more_lines rest term = true -> mnum_lines h = bnum b ->
    limit fd M <= limit fd N <= fd -> limit fd N <= cd -> limit fd M <= co ->
    forall cs, block_says sdbl (limit fd N) (limit fd M) b cs ->
    exists cs', collect sdbl fd cd co N M cs0 (mkIt (pos (bdata b ++ rest) term) h) = Ok (0, cs', mkIt (pos rest term) h) /\ forall l m, cs' l m = cs l m.
  Proof.
    intros F0 ML HN L1 L2 L3 cs (es & SAY & V & TD & TO & VAL). unfold collect. fold (limit fd N). fold (limit fd M). cbn [mheader mfin]. rewrite HN. unfold bnum.
    assert (ML2 : more_lines (bdata b ++ rest) term = true) by (destruct (bdata b); [exact ML|reflexivity]).
    rewrite (narrow_pos _ _ ML2).
    destruct (collect_ok sdbl SD fd cd co (limit fd N) (limit fd M) (Z.of_nat (length (bdata b))) (bdata b) rest term es cs0 SAY V ML eq_refl L1 L2 L3) as (cs' & E & P).
    rewrite E, TD, TO, !Z.eqb_refl. cbn [andb bind Z.eqb]. rewrite (widen_pos _ _ ML). exists cs'. split; [reflexivity|]. intros l m. rewrite P, VAL. reflexivity.
  Qed.
  Lemma walk_collect_ok nds ty fd cd co N M cs0 : 0 <= fd -> limit fd M <= limit fd N <= fd -> limit fd N <= cd -> limit fd M <= co ->
    forall k bs rec, (length bs <= k)%nat -> Forall block_ok bs -> gaps (nds - 1) ty bs ->
    forall css, Forall2 (block_says sdbl (limit fd N) (limit fd M)) (filter (of_type ty) bs) css ->
    exists hs it', walk_collect from_char gps2tt EOF sdbl nds ty fd cd co N M cs0 (mkIt (pos (body bs) true) rec) hs it' /\ is_eof EOF it' = true /\
      map fst hs = map reported (filter (of_type ty) bs) /\ Forall2 (fun cs h => forall l m, snd h l m = cs l m) css hs.
  Proof.
    intros F0 L1 L2 L3. induction k as [|k IH]; intros bs rec L K G css W.
    - destruct bs; [|cbn in L; lia]. pose proof (G [] [] [] eq_refl (Forall_nil _)) as G0. cbn in G0. inversion W; subst.
      destruct (advance_end from_char gps2tt EOF nds ty [] true rec K (Forall_nil _)) as (it' & E & Z); [cbn; lia|]. exists [], it'. repeat split; [apply wc_end; exact E|exact Z|constructor].
    - destruct (split_first ty bs) as [F|(pre & b & post & -> & F & T)].
      + pose proof (G [] bs [] ltac:(rewrite app_nil_r; reflexivity) F). rewrite (filter_none _ _ F) in *. inversion W; subst.
        destruct (advance_end from_char gps2tt EOF nds ty bs true rec K F) as (it' & E & Z); [lia|]. exists [], it'. repeat split; [apply wc_end; exact E|exact Z|constructor].
      + pose proof (G [] pre (b :: post) eq_refl F) as GP.
        pose proof (advance_found from_char gps2tt EOF nds ty pre b post true rec K F T GP) as A.
        assert (K3 : Forall block_ok post) by (apply Forall_app in K as (_ & K); apply Forall_cons_iff in K as (_ & K); exact K).
        rewrite (filter_first ty pre b post F T) in *. inversion W as [|b' cs bs' css' W1 W2]; subst b' bs' css.
        destruct (block_collect fd cd co N M b (body post) true cs0 (reported b) F0) with (cs := cs) as (cs' & C & P);
          [destruct (body post); reflexivity|reflexivity|exact L1|exact L2|exact L3|exact W1|].
        destruct (IH post (reported b)) with (css := css') as (hs & it' & Q & Z & H1 & H2); [rewrite app_length in L; cbn in L; lia|exact K3|apply (gaps_tail _ _ (pre ++ [b])); rewrite <- app_assoc; exact G|exact W2|].
        exists ((reported b, cs') :: hs), it'. repeat split; [|exact Z|cbn; rewrite H1; reflexivity|constructor; [exact P|exact H2]].
        change (reported b) with (mheader (mkIt (pos (bdata b ++ body post) true) (reported b))).
        eapply wc_next; [exact A|exact C|exact Q].
  Qed.
  Lemma begin_collect nds ty fd cd co N M cs0 hl bs b0 bs' css it : 0 <= fd -> limit fd M <= limit fd N <= fd -> limit fd N <= cd -> limit fd M <= co ->
    header_lines hl -> Forall block_ok bs -> gaps (nds - 1) ty bs -> filter (of_type ty) bs = b0 :: bs' ->
    Forall2 (block_says sdbl (limit fd N) (limit fd M)) (b0 :: bs') css ->
    exists it0 cs it1 hs it', set_begin from_char gps2tt (hl ++ body bs) true nds ty it = Ok it0 /\
      collect sdbl fd cd co N M cs0 it0 = Ok (0, cs, it1) /\ walk_collect from_char gps2tt EOF sdbl nds ty fd cd co N M cs0 it1 hs it' /\ is_eof EOF it' = true /\
      mheader it0 :: map fst hs = map reported (b0 :: bs') /\ Forall2 (fun c h => forall l m, h l m = c l m) css (cs :: map snd hs).
  Proof.
    intros F0 L1 L2 L3 H K G FI W. unfold set_begin.
    destruct (skip_header_ok hl (body bs) true (mkI (ilines (mfin it)) (iterm (mfin it)) false false) H eq_refl) as (s' & E & A). rewrite E. cbn [Z.eqb negb].
    apply at_lines_pos in A. subst s'.
    destruct (split_first ty bs) as [X|(pre & b' & post & -> & X & T)]; [rewrite (filter_none _ _ X) in FI; discriminate|].
    rewrite (filter_first ty pre b' post X T) in FI. injection FI as -> <-.
    pose proof (G [] pre (b0 :: post) eq_refl X) as GP.
    assert (K' := K). apply Forall_app in K' as (K1 & K2). apply Forall_cons_iff in K2 as (K2 & K3).
    unfold goto_next_block. rewrite body_app. change (body (b0 :: post)) with (block_lines b0 ++ body post).
    rewrite (next_of_found from_char gps2tt ty pre b0 _ (body post) true (mheader it) K1 X K2 T) by lia. cbn [bind Z.ltb Z.compare orb].
    inversion W as [|b'' cs bs'' css' W1 W2]; subst b'' bs'' css.
    destruct (block_collect fd cd co N M b0 (body post) true cs0 (reported b0) F0) with (cs := cs) as (cs' & C & P);
      [destruct (body post); reflexivity|reflexivity|exact L1|exact L2|exact L3|exact W1|].
    destruct (walk_collect_ok nds ty fd cd co N M cs0 F0 L1 L2 L3 (length post) post (reported b0) (le_n _) K3) with (css := css') as (hs & it' & Q & Z & H1 & H2);
      [apply (gaps_tail _ _ (pre ++ [b0])); rewrite <- app_assoc; exact G|exact W2|].
    eexists _, cs', _, hs, it'. split; [reflexivity|]. split; [exact C|]. split; [exact Q|]. split; [exact Z|]. split; [cbn; rewrite H1; reflexivity|].
    constructor; [exact P|]. clear - H2. induction H2; cbn; constructor; assumption.
  Qed.

  (** ** tidal files *)
  Notation tidal_coef_line := (tidal_coef_line sdbl).
  Notation tidal_say := (tidal_say sdbl).
  Lemma tidal_short line l m c s : tidal_coef_line line l m c s -> short line.
  Proof. intros (s1 & w1 & s2 & w2 & s3 & w3 & s4 & w4 & rest & H). decompose [and] H. assumption. Qed.
  Lemma skip_blank_cons s : skip_blanks (32 :: s) = skip_blanks s.
  Proof. reflexivity. Qed.
  Lemma tidal_line_ok N M line l m c s cs : tidal_coef_line line l m c s -> 0 <= m <= l ->
    tidal_line sdbl N M line cs = Ok (apply1 N M cs (l, m, c, s), 0).
  Proof.
    intros (s1 & w1 & s2 & w2 & s3 & w3 & s4 & w4 & rest & -> & S1 & S2 & S3 & S4 & W1 & W2 & W3 & W4 & B & R1 & R2 & R3 & R4 & _) V.
    unfold tidal_line. rewrite (skip_blanks_app s1 _ S1), (skip_blanks_solid w1 _ W1). rewrite (scan_int_word _ _ w1 l R1) by exact eq_refl.
    rewrite skip_blank_cons, (skip_blanks_app s2 _ S2), (skip_blanks_solid w2 _ W2). rewrite (scan_int_word _ _ w2 m R2) by exact eq_refl.
    unfold apply1, within_limits. destruct (l <=? N); cbn [negb andb]; [|reflexivity]. destruct (m <=? M); cbn [negb]; [|reflexivity].
    replace ((0 <=? m) && (m <=? l)) with true by (symmetry; apply andb_true_iff; rewrite !Z.leb_le; lia). cbn [negb].
    rewrite skip_blank_cons, (skip_blanks_app s3 _ S3), (skip_blanks_solid w3 _ W3), (SD w3 c R3) by exact eq_refl.
    rewrite skip_blank_cons, (skip_blanks_app s4 _ S4), (skip_blanks_solid w4 _ W4), (SD w4 s R4) by exact B. reflexivity.
  Qed.
  (** an order above the degree, or a negative one *)
  Lemma tidal_line_bad N M line l m c s cs : tidal_coef_line line l m c s -> l <= N -> m <= M -> ~ 0 <= m <= l -> tidal_line sdbl N M line cs = UB.
  Proof.
    intros (s1 & w1 & s2 & w2 & s3 & w3 & s4 & w4 & rest & -> & S1 & S2 & S3 & S4 & W1 & W2 & W3 & W4 & B & R1 & R2 & R3 & R4 & _) L1 L2 V.
    unfold tidal_line. rewrite (skip_blanks_app s1 _ S1), (skip_blanks_solid w1 _ W1). rewrite (scan_int_word _ _ w1 l R1) by exact eq_refl.
    rewrite skip_blank_cons, (skip_blanks_app s2 _ S2), (skip_blanks_solid w2 _ W2). rewrite (scan_int_word _ _ w2 m R2) by exact eq_refl.
    destruct (Z.leb_spec l N); [|lia]. destruct (Z.leb_spec m M); [|lia]. cbn [negb].
    destruct (Z.leb_spec 0 m); cbn [andb negb]; [|reflexivity]. destruct (Z.leb_spec m l); cbn [negb]; [lia|reflexivity].
  Qed.
  Lemma tidal_lines_ok N M term : forall lines es tail n cs, tidal_say lines es -> Forall valid_entry es ->
    tidal_lines sdbl N M (length lines + n) (pos (lines ++ tail) term) cs = tidal_lines sdbl N M n (pos tail term) (fold_left (apply1 N M) es cs).
  Proof.
    intros lines es tail n cs H. revert cs. induction H as [|line e lines es E H IH]; intros cs V; [reflexivity|].
    apply Forall_cons_iff in V as (V1 & V). destruct e as (((l & m) & c) & s). cbn in E, V1.
    cbn [length app Nat.add tidal_lines fold_left]. rewrite (igetline_short _ _ _ _ eq_refl (tidal_short _ _ _ _ _ E)). cbn [ifail pos].
    rewrite (tidal_line_ok N M line l m c s cs E V1). cbn [bind Z.eqb]. apply IH, V.
  Qed.
  Lemma solid_app a b : solid a -> solid (a ++ b).
  Proof. intros (c & r & -> & N). exists c, (r ++ b). split; [reflexivity|exact N]. Qed.
  Lemma tidal_block_ok set type line n N M lines es tail term cs : length set = 12%nat -> solid set -> solid type -> (match type with c :: _ => ~ digit_char c | [] => True end) ->
    tidal_header set type line n -> n = Z.of_nat (length lines) -> tidal_say lines es -> Forall valid_entry es ->
    tidal_block sdbl set type N M (pos (line :: lines ++ tail) term) cs =
      Ok (if match tail with [] => term | _ => true end then 0 else 1, fold_left (apply1 N M) es cs, pos tail term).
  Proof.
    intros LS SS ST DT (b1 & w & b2 & rest & EQ & B1 & B2 & NW & SL) EN H V. unfold tidal_block.
    rewrite (igetline_short _ _ _ _ eq_refl SL). subst line. rewrite (skip_blanks_solid set _ SS), starts_app.
    rewrite (drop_lit set 12 _ LS). cbn [bind]. rewrite (skip_blanks_app b1 _ B1), (skip_blanks_solid w _ (number_solid _ _ NW)).
    rewrite (scan_number w n (b2 ++ type ++ rest) NW).
    2:{ destruct b2 as [|c b2]; cbn; [destruct ST as (c & r & -> & _); exact DT|]. inversion B2; subst. exact not_digit_32. }
    rewrite (skip_blanks_app b2 _ B2), (skip_blanks_solid type _ ST), starts_app. cbn [Z.add failed Z.eqb negb]. rewrite EN, Nat2Z.id.
    replace (length lines) with (length lines + 0)%nat by lia.
    rewrite (tidal_lines_ok N M term lines es tail 0 cs H V). cbn [tidal_lines bind Z.eqb negb orb]. rewrite good_pos.
    destruct tail; [destruct term|]; reflexivity.
  Qed.
  Lemma cos_solid : solid (chars "COEFFICIENTS OF TYPE cos") /\ solid (chars "COEFFICIENTS OF TYPE sin") /\ solid (chars "DATA SET 01:") /\ solid (chars "DATA SET 02:").
  Proof. repeat split; eexists _, _; (split; [reflexivity|discriminate]). Qed.
  Lemma not_digit_C : ~ digit_char 67.
  Proof. unfold digit_char. lia. Qed.
  Lemma tidal_result term file ces ses fd cd co sd so N M c0 s0 : tidal_file sdbl file ces ses -> limit fd M <= limit fd N <= fd ->
    limit fd N <= cd -> limit fd M <= co -> limit fd N <= sd -> limit fd M <= so ->
    exists c s, get_tidal_wave_coeffs sdbl file term fd cd co sd so N M c0 s0 = Ok (if term then 0 else 1, c, s) /\
      cut (limit fd N) (limit fd M) ces c /\ cut (limit fd N) (limit fd M) ses s.
  Proof.
    intros (hl & h1 & ls1 & h2 & ls2 & -> & HL & T1 & Y1 & T2 & Y2 & V1 & V2) L1 L2 L3 L4 L5. unfold get_tidal_wave_coeffs. fold (limit fd N). fold (limit fd M).
    destruct (skip_header_ok hl (h1 :: ls1 ++ h2 :: ls2) term (mkI (hl ++ h1 :: ls1 ++ h2 :: ls2) term false false) HL eq_refl) as (s' & E & A).
    rewrite E. cbn [Z.eqb negb]. apply at_lines_pos in A. subst s'.
    destruct (Z.ltb_spec (limit fd N) (limit fd M)); [lia|]. destruct (Z.ltb_spec fd (limit fd N)); [lia|]. cbn [orb].
    destruct (Z.ltb_spec cd (limit fd N)); [lia|]. destruct (Z.ltb_spec co (limit fd M)); [lia|]. destruct (Z.ltb_spec sd (limit fd N)); [lia|]. destruct (Z.ltb_spec so (limit fd M)); [lia|]. cbn [orb].
    destruct cos_solid as (C1 & C2 & C3 & C4).
    rewrite (tidal_block_ok (chars "DATA SET 01:") (chars "COEFFICIENTS OF TYPE cos") h1 _ _ _ ls1 ces (h2 :: ls2) term zero eq_refl C3 C1 not_digit_C T1 eq_refl Y1 V1). cbn [bind Z.eqb negb].
    pose proof (tidal_block_ok (chars "DATA SET 02:") (chars "COEFFICIENTS OF TYPE sin") h2 _ (limit fd N) (limit fd M) ls2 ses [] term zero eq_refl C4 C2 not_digit_C T2 eq_refl Y2 V2) as X.
    rewrite app_nil_r in X. rewrite X. cbn [bind]. destruct term; cbn [Z.eqb negb].
    - destruct (igetline_end true _ eq_refl) as (x & ->). cbn [ieof]. eexists _, _. split; [reflexivity|]. split; intros l m; rewrite apply_value; reflexivity.
    - eexists _, _. split; [reflexivity|]. split; intros l m; rewrite apply_value; reflexivity.
  Qed.

  (** accepted files *)
  Lemma igetline_lines s l s' : igetline MAXL s = (l, s') -> ifail s' = false -> ilines s = l :: ilines s' /\ iterm s' = iterm s /\ short l /\ (ilines s' <> [] -> ieof s' = false) /\ (ilines s' = [] -> ieof s' = negb (iterm s)).
  Proof.
    unfold igetline. destruct (good s); cbn [negb]; [|intros X; injection X as <- <-; discriminate]. destruct s as [ls term eo fa]. cbn [ilines iterm].
    destruct ls as [|a rest]; [intros X; injection X as <- <-; discriminate|]. destruct (Z.leb_spec MAXL (Z.of_nat (length a))); intros X; injection X as <- <-; [discriminate|].
    intros _. cbn. unfold MAXL, short in *. destruct rest; repeat split; try congruence; lia.
  Qed.
  Lemma tidal_lines_sound N M : forall n s cs s' cs', tidal_lines sdbl N M n s cs = Ok (s', cs', 0) -> good s' = true ->
    exists ls, length ls = n /\ ilines s = ls ++ ilines s' /\ iterm s' = iterm s.
  Proof.
    induction n as [|n IH]; intros s cs s' cs'; cbn [tidal_lines].
    - intros X; injection X as <- <-. intros _. exists []. auto.
    - destruct (igetline MAXL s) as (l, s1) eqn:E. destruct (ifail s1) eqn:F.
      + intros X; injection X as <- <-. unfold good. rewrite F, andb_false_r. discriminate.
      + destruct (tidal_line sdbl N M l cs) as [(c, e)| | |]; try discriminate. cbn [bind]. destruct (Z.eqb_spec e 0); [|congruence].
        intros X G. destruct (IH _ _ _ _ X G) as (ls & A & B & C). destruct (igetline_lines _ _ _ E F) as (D & T & _). exists (l :: ls). cbn. rewrite A, D, B, C, T. auto.
  Qed.
  Lemma tidal_block_sound set type N M s cs cs' s' : tidal_block sdbl set type N M s cs = Ok (0, cs', s') ->
    exists line ls n ptr, ilines s = line :: ls ++ ilines s' /\ begins set (skip_blanks line) /\ scan_i32 (skip_blanks (skipn 12 line)) = (Some n, ptr) /\
      begins type (skip_blanks ptr) /\ length ls = Z.to_nat n /\ iterm s' = iterm s /\ good s' = true.
  Proof.
    unfold tidal_block. destruct (igetline MAXL s) as (line, s1) eqn:E. unfold drop. destruct (Nat.leb_spec 12 (length line)) as [L|L]; [|discriminate]. cbn [bind].
    destruct (scan_i32 (skip_blanks (skipn 12 line))) as (v, ptr) eqn:SC. destruct v as [n|]; [|discriminate].
    destruct (starts set (skip_blanks line)) eqn:A1, (starts type (skip_blanks ptr)) eqn:A2; cbn [failed Z.add Z.eqb negb Pos.eqb Pos.add]; try discriminate.
    destruct (tidal_lines sdbl N M (Z.to_nat n) s1 cs) as [((s2, c2), e)| | |] eqn:TL; try discriminate. cbn [bind].
    destruct (Z.eqb_spec e 0) as [->|]; [|discriminate]. cbn [negb orb]. destruct (good s2) eqn:G; [|discriminate]. cbn [negb]. intros X; injection X as <- <-.
    destruct (tidal_lines_sound _ _ _ _ _ _ _ TL G) as (ls & LL & B & T).
    assert (ifail s1 = false) as F.
    { unfold igetline in E. destruct (good s) eqn:GS; cbn [negb] in E; [|injection E as <- <-; cbn in L; lia]. destruct (ilines s) as [|a r]; [injection E as <- <-; cbn in L; lia|].
      destruct (MAXL <=? Z.of_nat (length a)); injection E as <- <-; [|reflexivity]. exfalso. destruct (Z.to_nat n); cbn in TL; injection TL as <- _; discriminate. }
    destruct (igetline_lines _ _ _ E F) as (D & T' & _). apply starts_begins in A1. apply starts_begins in A2.
    exists line, ls, n, ptr. rewrite D, B, T, T'. repeat split; assumption.
  Qed.
  Lemma find_end_term : forall n q s1, find_end n q = (0, s1) -> iterm s1 = iterm q.
  Proof.
    induction n as [|n IH]; intros q s1; cbn [find_end]; destruct (igetline MAXL q) as (l, q1) eqn:EQ; destruct (ifail q1) eqn:FQ; try discriminate.
    destruct (igetline_lines _ _ _ EQ FQ) as (_ & T & _). destruct (starts (chars "END OF HEADER") l); [intros X; injection X as <-; exact T|]. intros X. rewrite (IH _ _ X). exact T.
  Qed.
  Lemma tidal_sound file term fd cd co sd so N M c0 s0 c s : get_tidal_wave_coeffs sdbl file term fd cd co sd so N M c0 s0 = Ok (0, c, s) ->
    exists hl h1 ls1 h2 ls2 n1 n2 p1 p2 extra, file = hl ++ h1 :: ls1 ++ h2 :: ls2 ++ extra /\ header_lines hl /\
      begins (chars "DATA SET 01:") (skip_blanks h1) /\ scan_i32 (skip_blanks (skipn 12 h1)) = (Some n1, p1) /\ begins (chars "COEFFICIENTS OF TYPE cos") (skip_blanks p1) /\ length ls1 = Z.to_nat n1 /\
      begins (chars "DATA SET 02:") (skip_blanks h2) /\ scan_i32 (skip_blanks (skipn 12 h2)) = (Some n2, p2) /\ begins (chars "COEFFICIENTS OF TYPE sin") (skip_blanks p2) /\ length ls2 = Z.to_nat n2 /\
      (extra = [] \/ exists x, extra = [x] /\ term = false).
  Proof.
    unfold get_tidal_wave_coeffs. fold (limit fd N). fold (limit fd M). destruct (skip_header file term (mkI file term false false)) as (e, s1) eqn:E.
    destruct (Z.eqb_spec e 0) as [->|]; [|discriminate]. cbn [negb]. destruct ((limit fd N <? limit fd M) || (fd <? limit fd N)); [discriminate|].
    destruct ((cd <? limit fd N) || (co <? limit fd M) || ((sd <? limit fd N) || (so <? limit fd M))); [discriminate|].
    unfold skip_header in E.
    assert (T0 : iterm s1 = term) by exact (find_end_term _ _ _ E).
    destruct (find_end_sound _ _ _ E) as (pre & en & D & LP & B & F & S). cbn [seek0 ifail ilines] in D.
    destruct (tidal_block sdbl (chars "DATA SET 01:") (chars "COEFFICIENTS OF TYPE cos") (limit fd N) (limit fd M) s1 zero) as [((e1, c1), s2)| | |] eqn:B1; try discriminate. cbn [bind].
    destruct (Z.eqb_spec e1 0) as [->|]; [|discriminate]. cbn [negb].
    destruct (tidal_block sdbl (chars "DATA SET 02:") (chars "COEFFICIENTS OF TYPE sin") (limit fd N) (limit fd M) s2 zero) as [((e2, c2), s3)| | |] eqn:B2; try discriminate. cbn [bind].
    destruct (Z.eqb_spec e2 0) as [->|]; [|discriminate]. cbn [negb].
    destruct (igetline MAXL s3) as (l, s4) eqn:G. destruct (ieof s4) eqn:EO; [|discriminate]. intros _.
    destruct (tidal_block_sound _ _ _ _ _ _ _ _ B1) as (h1 & ls1 & n1 & p1 & I1 & X1 & Y1 & Z1 & W1 & T1 & G1).
    destruct (tidal_block_sound _ _ _ _ _ _ _ _ B2) as (h2 & ls2 & n2 & p2 & I2 & X2 & Y2 & Z2 & W2 & T2 & G2).
    exists (pre ++ [en]), h1, ls1, h2, ls2, n1, n2, p1, p2, (ilines s3).
    split; [rewrite D, I1, I2, <- !app_assoc; reflexivity|]. split; [exists pre, en; auto|]. repeat (split; [assumption|]).
    unfold igetline in G. rewrite G2 in G. cbn [negb] in G. destruct (ilines s3) as [|x r]; [left; reflexivity|]. right. exists x.
    destruct (MAXL <=? Z.of_nat (length x)); injection G as <- <-; [discriminate|]. cbn [ieof] in EO. destruct r as [|y r]; [|discriminate]. split; [reflexivity|].
    apply negb_true_iff in EO. congruence.
  Qed.
  (** nothing behind the header *)
  Lemma tidal_empty hl term fd cd co sd so N M c0 s0 : header_lines hl -> limit fd M <= limit fd N <= fd ->
    limit fd N <= cd -> limit fd M <= co -> limit fd N <= sd -> limit fd M <= so ->
    get_tidal_wave_coeffs sdbl hl term fd cd co sd so N M c0 s0 = UB.
  Proof.
    intros HL L1 L2 L3 L4 L5. unfold get_tidal_wave_coeffs. fold (limit fd N). fold (limit fd M).
    destruct (skip_header_ok hl [] term (mkI hl term false false) HL eq_refl) as (s' & E & A). rewrite app_nil_r in E.
    rewrite E. cbn [Z.eqb negb]. apply at_lines_pos in A. subst s'.
    destruct (Z.ltb_spec (limit fd N) (limit fd M)); [lia|]. destruct (Z.ltb_spec fd (limit fd N)); [lia|]. cbn [orb].
    destruct (Z.ltb_spec cd (limit fd N)); [lia|]. destruct (Z.ltb_spec co (limit fd M)); [lia|]. destruct (Z.ltb_spec sd (limit fd N)); [lia|]. destruct (Z.ltb_spec so (limit fd M)); [lia|]. cbn [orb].
    unfold tidal_block. destruct term; reflexivity.
  Qed.
  (** a first data line that cannot be handled *)
  Lemma tidal_bad_line hl h1 bad rest term n fd cd co sd so N M c0 s0 : header_lines hl ->
    tidal_header (chars "DATA SET 01:") (chars "COEFFICIENTS OF TYPE cos") h1 n -> 1 <= n -> short bad ->
    limit fd M <= limit fd N <= fd -> limit fd N <= cd -> limit fd M <= co -> limit fd N <= sd -> limit fd M <= so ->
    (forall cs, tidal_line sdbl (limit fd N) (limit fd M) bad cs = UB) ->
    get_tidal_wave_coeffs sdbl (hl ++ h1 :: bad :: rest) term fd cd co sd so N M c0 s0 = UB.
  Proof.
    intros HL (b1 & w & b2 & rr & EQ & B1 & B2 & NW & SL) NP SB L1 L2 L3 L4 L5 BAD. unfold get_tidal_wave_coeffs. fold (limit fd N). fold (limit fd M).
    destruct (skip_header_ok hl (h1 :: bad :: rest) term (mkI (hl ++ h1 :: bad :: rest) term false false) HL eq_refl) as (s' & E & A).
    rewrite E. cbn [Z.eqb negb]. apply at_lines_pos in A. subst s'.
    destruct (Z.ltb_spec (limit fd N) (limit fd M)); [lia|]. destruct (Z.ltb_spec fd (limit fd N)); [lia|]. cbn [orb].
    destruct (Z.ltb_spec cd (limit fd N)); [lia|]. destruct (Z.ltb_spec co (limit fd M)); [lia|]. destruct (Z.ltb_spec sd (limit fd N)); [lia|]. destruct (Z.ltb_spec so (limit fd M)); [lia|]. cbn [orb].
    destruct cos_solid as (C1 & C2 & C3 & C4). unfold tidal_block at 1.
    rewrite (igetline_short _ _ _ _ eq_refl SL). subst h1. rewrite (skip_blanks_solid _ _ C3), starts_app.
    rewrite (drop_lit (chars "DATA SET 01:") 12 _ eq_refl). cbn [bind]. rewrite (skip_blanks_app b1 _ B1), (skip_blanks_solid w _ (number_solid _ _ NW)).
    rewrite (scan_number w n (b2 ++ chars "COEFFICIENTS OF TYPE cos" ++ rr) NW).
    2:{ destruct b2 as [|c b2]; [exact not_digit_C|]. inversion B2; subst. exact not_digit_32. }
    rewrite (skip_blanks_app b2 _ B2), (skip_blanks_solid _ _ C1), starts_app. cbn [Z.add failed Z.eqb negb].
    assert (exists k, Z.to_nat n = S k) as (k & ->) by (exists (Z.to_nat (n - 1)); lia). cbn [tidal_lines].
    rewrite (igetline_short _ _ _ _ eq_refl SB). cbn [ifail pos]. rewrite BAD. reflexivity.
  Qed.
  (** one more line without newline behind a complete file *)
  Lemma tidal_extra file ces ses x fd cd co sd so N M c0 s0 : tidal_file sdbl file ces ses -> short x -> limit fd M <= limit fd N <= fd ->
    limit fd N <= cd -> limit fd M <= co -> limit fd N <= sd -> limit fd M <= so ->
    exists c s, get_tidal_wave_coeffs sdbl (file ++ [x]) false fd cd co sd so N M c0 s0 = Ok (0, c, s).
  Proof.
    intros (hl & h1 & ls1 & h2 & ls2 & -> & HL & T1 & Y1 & T2 & Y2 & V1 & V2) SX L1 L2 L3 L4 L5. unfold get_tidal_wave_coeffs. fold (limit fd N). fold (limit fd M).
    replace ((hl ++ h1 :: ls1 ++ h2 :: ls2) ++ [x]) with (hl ++ h1 :: ls1 ++ h2 :: ls2 ++ [x]) by (rewrite <- app_assoc; cbn; rewrite <- app_assoc; reflexivity).
    destruct (skip_header_ok hl (h1 :: ls1 ++ h2 :: ls2 ++ [x]) false (mkI (hl ++ h1 :: ls1 ++ h2 :: ls2 ++ [x]) false false false) HL eq_refl) as (s' & E & A).
    rewrite E. cbn [Z.eqb negb]. apply at_lines_pos in A. subst s'.
    destruct (Z.ltb_spec (limit fd N) (limit fd M)); [lia|]. destruct (Z.ltb_spec fd (limit fd N)); [lia|]. cbn [orb].
    destruct (Z.ltb_spec cd (limit fd N)); [lia|]. destruct (Z.ltb_spec co (limit fd M)); [lia|]. destruct (Z.ltb_spec sd (limit fd N)); [lia|]. destruct (Z.ltb_spec so (limit fd M)); [lia|]. cbn [orb].
    destruct cos_solid as (C1 & C2 & C3 & C4).
    rewrite (tidal_block_ok (chars "DATA SET 01:") (chars "COEFFICIENTS OF TYPE cos") h1 _ _ _ ls1 ces (h2 :: ls2 ++ [x]) false zero eq_refl C3 C1 not_digit_C T1 eq_refl Y1 V1). cbn [bind Z.eqb negb].
    rewrite (tidal_block_ok (chars "DATA SET 02:") (chars "COEFFICIENTS OF TYPE sin") h2 _ (limit fd N) (limit fd M) ls2 ses [x] false zero eq_refl C4 C2 not_digit_C T2 eq_refl Y2 V2). cbn [bind Z.eqb negb].
    rewrite (igetline_short _ _ _ _ eq_refl SX). cbn [ieof pos negb]. eexists _, _. reflexivity.
  Qed.
  (** a first line without a number *)
  Lemma tidal_unreadable N M line cs : fst (scan_i32 (skip_blanks line)) = None -> tidal_line sdbl N M line cs = UB.
  Proof. intros H. unfold tidal_line. destruct (scan_i32 (skip_blanks line)) as (v, r). cbn in H. subst v. destruct (scan_i32 (skip_blanks r)). reflexivity. Qed.
End Collect.
