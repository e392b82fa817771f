From Coq Require Import Reals ZArith List Bool Lia Lra.
From Verif Require Import Base FromChars EopModel EopSpec EopProofs EopParseModel EopParseSpec.
Import ListNotations.
Open Scope Z_scope.

Lemma Forall2_len {A B} (P : A -> B -> Prop) l m : Forall2 P l m -> length l = length m.
Proof. induction 1; simpl; congruence. Qed.

Section Parse.
  Context {T : Type}.
  Variable ltb : T -> T -> bool.
  Variable tt_of_utc : Z -> R -> T.
  Variable dat : Z -> R.
  Variable sdbl : list Z -> option R * list Z.
  Variable modf : R -> Z * R.
  Hypothesis sdbl_word : word_scanner sdbl.

  Notation line14 := (line14 T ltb tt_of_utc dat sdbl).
  Notation line20 := (line20 T ltb tt_of_utc dat sdbl modf).
  Notation fields := (fields sdbl). Notation number := (number sdbl). Notation unreadable := (unreadable sdbl).
  Notation says14 := (says14 tt_of_utc dat sdbl). Notation says20 := (says20 tt_of_utc dat sdbl modf).

  Lemma at_blank_join ws rest : at_blank rest -> Forall (fun nw : nat * list Z => (1 <= fst nw)%nat) ws -> at_blank (join ws rest).
  Proof. intros B F. destruct ws as [|(n, w) ws]; [exact B|]. inversion F; subst. simpl in *. destruct n; [lia|]. reflexivity. Qed.
  Lemma word_shorter (w r : list Z) : word w -> Nat.eqb (length r) (length (w ++ r)) = false.
  Proof. intros (N & _). apply Nat.eqb_neq. rewrite app_length. destruct w; [congruence|simpl; lia]. Qed.

  Lemma fields_skip n s : fields n (skip_blanks s) = fields n s.
  Proof.
    destruct n; [reflexivity|]. cbn [EopParseModel.fields]. assert (E : skip_blanks (skip_blanks s) = skip_blanks s).
    { induction s as [|c s IH]; [reflexivity|]. simpl. destruct (Z.eqb_spec c 32); [exact IH|]. simpl. destruct (Z.eqb_spec c 32); [congruence|reflexivity]. }
    rewrite E. reflexivity.
  Qed.
  Lemma fields_ok ws vs n rest : at_blank rest -> Forall (fun nw => word (snd nw)) ws -> Forall (fun nw => (1 <= fst nw)%nat) ws ->
    Forall2 number ws vs -> exists e, fields (length ws + n) (join ws rest) = (vs ++ fst (fields n rest), e) /\ (e = snd (fields n rest))%Z.
  Proof.
    intros B W G F. induction F as [|(k, w) v ws vs H F IH].
    - cbn [join length Nat.add app]. destruct (fields n rest) as (a, b). exists b. split; reflexivity.
    - inversion W; inversion G; subst. cbn [join length Nat.add EopParseModel.fields fst snd] in *.
      rewrite skip_blanks_word by assumption. unfold EopParseSpec.number in H. cbn [snd] in H.
      rewrite (sdbl_word _ _ H) by (apply at_blank_join; assumption). rewrite word_shorter by assumption.
      destruct (IH H3 H7) as (e & -> & ->). eexists. split; [reflexivity|]. lia.
  Qed.
  Lemma fields_nonneg n s : 0 <= snd (fields n s).
  Proof.
    revert s; induction n as [|n IH]; intros s; simpl; [lia|]. destruct (sdbl (skip_blanks s)) as (v, r) eqn:E. specialize (IH r).
    destruct (fields n r) as (a, e). simpl in *. destruct (match v with Some _ => _ | None => _ end); lia.
  Qed.
  Lemma fields_broken n s : unreadable (skip_blanks s) -> 0 < snd (fields (S n) s).
  Proof.
    intros U. unfold EopParseSpec.unreadable in U. cbn [EopParseModel.fields]. pose proof (fields_nonneg n (snd (sdbl (skip_blanks s)))) as P.
    destruct (sdbl (skip_blanks s)) as (v, r). cbn [fst snd] in *. destruct (fields n r) as (a, e). cbn [snd] in *.
    destruct v; [destruct U as [U|U]; [discriminate|]|lia]. rewrite U, Nat.eqb_refl. lia.
  Qed.

  Lemma dated_split line ws rest : dated line ws rest ->
    skipped line = false /\ Nat.ltb (length line) 12 = false /\ skipn 12 line = join ws rest /\ (MAX_LINE_CHARS <=? Z.of_nat (length line)) = false.
  Proof.
    intros (L & _ & _ & _ & c & pre & N1 & N2 & P & ->). split; [|split; [|split]].
    - simpl. destruct (Z.eqb_spec c 32), (Z.eqb_spec c 35); congruence || reflexivity.
    - apply Nat.ltb_ge. cbn [length]. rewrite app_length. lia.
    - change (skipn 12 (c :: pre ++ join ws rest)) with (skipn 11 (pre ++ join ws rest)). rewrite skipn_app, P, Nat.sub_diag, skipn_all2 by lia. reflexivity.
    - unfold MAX_LINE_CHARS. apply Z.leb_gt. lia.
  Qed.

  Definition in_step (start stop : T) (r : rec T) : outcome T :=
    if negb (ltb (rt T r) start) && ltb (rt T r) stop then Continue T 0 (Some r) else if negb (ltb (rt T r) stop) then Break T 0 else Continue T 0 None.

  Lemma line14_says start stop line r : says14 line r -> line14 start stop line = Ok (in_step start stop r).
  Proof.
    intros (wm & ws & rest & m & vx & vy & vu & vl & vdx & vdy & D & Hm & F & ->).
    destruct (dated_split _ _ _ D) as (E1 & E2 & E3 & _). destruct D as (_ & B & W & G & _). destruct wm as (n, w). cbn [tl] in G. inversion W; subst. cbn [snd join] in *.
    unfold EopParseModel.line14. rewrite E1, E2, E3, skip_blanks_word by assumption.
    rewrite (scan_int_word _ _ _ _ Hm) by (apply at_blank_join; assumption). rewrite word_shorter by assumption. unfold in_step. cbn [rt].
    destruct (fields_ok ws _ 0 rest B H2 G F) as (e & E & Ee). rewrite Nat.add_0_r in E. rewrite (Forall2_len _ _ _ F) in E. cbn [length] in E. rewrite E.
    cbn in Ee. subst e. cbn. destruct (negb (ltb (tt_of_utc m 0) start) && ltb (tt_of_utc m 0) stop); [reflexivity|]. destruct (negb _); reflexivity.
  Qed.
  Lemma line20_says start stop line r : says20 line r -> line20 start stop line = Ok (in_step start stop r).
  Proof.
    intros (wh & wm & ws & rest & h & mjd & m & f & vx & vy & vu & vdx & vdy & vxr & vyr & vl & D & Hh & Hm & Md & Hf & F & ->).
    destruct (dated_split _ _ _ D) as (E1 & E2 & E3 & _). destruct D as (_ & B & W & G & _). destruct wh as (nh, wh), wm as (n, w). cbn [tl] in G.
    apply Forall_cons_iff in W as (W1 & W). apply Forall_cons_iff in W as (W2 & W). pose proof G as G'. apply Forall_cons_iff in G as (_ & G). cbn [snd join fst] in *. subst f.
    unfold EopParseModel.line20. rewrite E1, E2, E3, skip_blanks_word by assumption.
    assert (B1 : at_blank (join ws rest)) by (apply at_blank_join; assumption).
    rewrite (scan_int_word _ _ _ _ Hh) by (apply (at_blank_join ((n, w) :: ws)); assumption). rewrite word_shorter by assumption.
    rewrite skip_blanks_word by assumption. unfold EopParseSpec.number in Hm. cbn [snd] in Hm. rewrite (sdbl_word _ _ Hm) by assumption. rewrite word_shorter by assumption.
    rewrite Md. destruct (Req_EM_T (IZR h / 24) (IZR h / 24)); [|congruence]. unfold in_step. cbn [rt].
    destruct (fields_ok ws _ 0 rest B W G F) as (e' & E & Ee). rewrite Nat.add_0_r in E. rewrite (Forall2_len _ _ _ F) in E. cbn [length] in E. rewrite E.
    cbn in Ee. subst e'. cbn. destruct (negb (ltb _ start) && ltb _ stop); [reflexivity|]. destruct (negb _); reflexivity.
  Qed.

  Lemma line14_ignored start stop line : ignored line -> line14 start stop line = Ok (Continue T 0 None) /\ (MAX_LINE_CHARS <=? Z.of_nat (length line)) = false.
  Proof.
    intros (L & H). split; [|unfold MAX_LINE_CHARS; apply Z.leb_gt; lia]. destruct H as [->|(c & l & -> & [->| ->])]; reflexivity.
  Qed.
  Lemma line20_ignored start stop line : ignored line -> line20 start stop line = Ok (Continue T 0 None) /\ (MAX_LINE_CHARS <=? Z.of_nat (length line)) = false.
  Proof.
    intros (L & H). split; [|unfold MAX_LINE_CHARS; apply Z.leb_gt; lia]. destruct H as [->|(c & l & -> & [->| ->])]; reflexivity.
  Qed.

  Lemma line14_broken start stop line : broken14 tt_of_utc sdbl ltb start stop line ->
    (exists e r, line14 start stop line = Ok (Continue T e r) /\ 0 < e) /\ (MAX_LINE_CHARS <=? Z.of_nat (length line)) = false.
  Proof.
    intros (wm & ws & vs & rest & m & D & Hm & I1 & I2 & F & L & U).
    destruct (dated_split _ _ _ D) as (E1 & E2 & E3 & E4). split; [|exact E4]. destruct D as (_ & B & W & G & _). destruct wm as (n, w). cbn [tl] in G. inversion W; subst. cbn [snd join] in *.
    unfold EopParseModel.line14. rewrite E1, E2, E3, skip_blanks_word by assumption.
    rewrite (scan_int_word _ _ _ _ Hm) by (apply at_blank_join; assumption). rewrite word_shorter by assumption. rewrite I1, I2. cbn [negb andb].
    destruct (fields_ok ws _ (6 - length ws) rest B H2 G F) as (e & E & Ee). replace (length ws + (6 - length ws))%nat with 6%nat in E by lia. rewrite E.
    eexists _, _. split; [reflexivity|]. subst e. replace (6 - length ws)%nat with (S (5 - length ws)) by lia. pose proof (fields_broken (5 - length ws) rest U). lia.
  Qed.
  Lemma line20_broken start stop line : broken20 tt_of_utc sdbl modf ltb start stop line ->
    (exists e r, line20 start stop line = Ok (Continue T e r) /\ 0 < e) /\ (MAX_LINE_CHARS <=? Z.of_nat (length line)) = false.
  Proof.
    intros (wh & wm & ws & vs & rest & h & mjd & m & f & D & Hh & Hm & Md & Hf & I1 & I2 & F & L & U).
    destruct (dated_split _ _ _ D) as (E1 & E2 & E3 & E4). split; [|exact E4]. destruct D as (_ & B & W & G & _). destruct wh as (nh, wh), wm as (n, w). cbn [tl] in G.
    apply Forall_cons_iff in W as (W1 & W). apply Forall_cons_iff in W as (W2 & W). pose proof G as G'. apply Forall_cons_iff in G as (_ & G). cbn [snd join fst] in *. subst f.
    unfold EopParseModel.line20. rewrite E1, E2, E3, skip_blanks_word by assumption.
    assert (B1 : at_blank (join ws rest)) by (apply at_blank_join; assumption).
    rewrite (scan_int_word _ _ _ _ Hh) by (apply (at_blank_join ((n, w) :: ws)); assumption). rewrite word_shorter by assumption.
    rewrite skip_blanks_word by assumption. unfold EopParseSpec.number in Hm. cbn [snd] in Hm. rewrite (sdbl_word _ _ Hm) by assumption. rewrite word_shorter by assumption.
    rewrite Md. destruct (Req_EM_T (IZR h / 24) (IZR h / 24)); [|congruence]. rewrite I1, I2. cbn [negb andb].
    destruct (fields_ok ws _ (8 - length ws) rest B W G F) as (e' & E & Ee). replace (length ws + (8 - length ws))%nat with 8%nat in E by lia. rewrite E.
    eexists _, _. split; [reflexivity|]. subst e'. replace (8 - length ws)%nat with (S (7 - length ws)) by lia. pose proof (fields_broken (7 - length ws) rest U). lia.
  Qed.

  Lemma says_length says line r : (says = says14 \/ says = says20) -> says line r -> (MAX_LINE_CHARS <=? Z.of_nat (length line)) = false.
  Proof.
    intros [->| ->].
    - intros (wm & ws & rest & m & vx & vy & vu & vl & vdx & vdy & D & _). apply dated_split in D. tauto.
    - intros (wh & wm & ws & rest & h & mjd & m & f & vx & vy & vu & vdx & vdy & vxr & vyr & vl & D & _). apply dated_split in D. tauto.
  Qed.

  Definition says_of (f : format) := match f with C0414 => says14 | C0420 => says20 end.
  Notation step_of f := (step_of T ltb tt_of_utc dat sdbl modf f).
  Definition broken_of (f : format) := match f with C0414 => broken14 tt_of_utc sdbl ltb | C0420 => broken20 tt_of_utc sdbl modf ltb end.
  Lemma step_says f start stop line r : says_of f line r -> step_of f start stop line = Ok (in_step start stop r) /\ (MAX_LINE_CHARS <=? Z.of_nat (length line)) = false.
  Proof.
    destruct f; cbn [says_of EopParseModel.step_of]; intros H.
    - split; [apply line14_says, H|apply (says_length says14 _ r); auto].
    - split; [apply line20_says, H|apply (says_length says20 _ r); auto].
  Qed.
  Lemma step_ignored f start stop line : ignored line -> step_of f start stop line = Ok (Continue T 0 None) /\ (MAX_LINE_CHARS <=? Z.of_nat (length line)) = false.
  Proof. destruct f; [apply line14_ignored|apply line20_ignored]. Qed.
  Lemma step_broken f start stop line : broken_of f start stop line ->
    (exists e r, step_of f start stop line = Ok (Continue T e r) /\ 0 < e) /\ (MAX_LINE_CHARS <=? Z.of_nat (length line)) = false.
  Proof. destruct f; [apply line14_broken|apply line20_broken]. Qed.

  Lemma loop_says f start stop lines rs v : file_says (says_of f) lines rs ->
    loop T (step_of f start stop) lines v = Ok (0, v ++ not_before ltb start (until ltb stop rs)).
  Proof.
    intros H. revert v. induction H as [|line l rs Hi H IH|line l r rs Hs H IH]; intros v; cbn [loop until].
    - cbn. rewrite app_nil_r. reflexivity.
    - destruct (step_ignored f start stop line Hi) as (-> & ->). cbn. apply IH.
    - destruct (step_says f start stop line r Hs) as (-> & ->). cbn [bind]. unfold in_step.
      destruct (ltb (rt T r) stop) eqn:E2; [destruct (ltb (rt T r) start) eqn:E1|].
      + cbn [negb andb]. change (0 =? 0) with true. cbn iota. rewrite IH. unfold not_before. cbn [filter]. rewrite E1. reflexivity.
      + cbn [negb andb]. change (0 =? 0) with true. cbn iota. rewrite IH. unfold not_before. cbn [filter]. rewrite E1. cbn [negb]. rewrite <- app_assoc. reflexivity.
      + rewrite andb_false_r. cbn [negb]. change (0 =? 0) with true. cbn. rewrite app_nil_r. reflexivity.
  Qed.
  (** a broken line reached before the end of the interval *)
  Lemma loop_broken f start stop l1 rs line l2 v : file_says (says_of f) l1 rs -> Forall (fun r => ltb (rt T r) stop = true) rs ->
    broken_of f start stop line -> exists v', loop T (step_of f start stop) (l1 ++ line :: l2) v = Ok (1, v').
  Proof.
    intros H. revert v. induction H as [|line' l rs Hi H IH|line' l r rs Hs H IH]; intros v F K.
    - cbn [app loop]. destruct (step_broken f start stop line K) as ((e & r & -> & P) & ->). cbn [bind]. destruct (Z.eqb_spec e 0); [lia|]. eexists; reflexivity.
    - cbn [app loop]. destruct (step_ignored f start stop line' Hi) as (-> & ->). cbn [bind Z.eqb]. apply IH; assumption.
    - inversion F; subst. cbn [app loop]. destruct (step_says f start stop line' r Hs) as (-> & ->). cbn [bind]. unfold in_step. rewrite H2, andb_true_r. cbn [negb].
      destruct (negb _); cbn [Z.eqb]; apply IH; assumption.
  Qed.

  Definition undated_of (f : format) := match f with C0414 => undated14 | C0420 => undated20 sdbl end.
  Lemma loop_undated f start stop l1 rs line l2 v : file_says (says_of f) l1 rs -> Forall (fun r => ltb (rt T r) stop = true) rs ->
    undated_of f line -> exists c v', loop T (step_of f start stop) (l1 ++ line :: l2) v = Ok (c, v') /\ (c = 1 \/ c = 2).
  Proof.
    intros H. revert v. induction H as [|line' l rs Hi H IH|line' l r rs Hs H IH]; intros v F K.
    - cbn [app loop]. destruct f; cbn [undated_of EopParseModel.step_of] in *.
      + destruct K as (rest & D & E). destruct (dated_split _ _ _ D) as (E1 & E2 & E3 & ->). cbn [join] in E3. unfold EopParseModel.line14. rewrite E1, E2, E3.
        destruct (scan_i64 (skip_blanks rest)) as (v0, r0). cbn [fst] in E. subst v0.
        pose proof (fields_nonneg 6 r0) as P. destruct (fields 6 r0) as (d, e). cbn [snd] in P.
        destruct (negb (ltb (tt_of_utc 0 0) start) && ltb (tt_of_utc 0 0) stop); [|destruct (negb _)]; cbn [bind]; try (eexists _, _; split; [reflexivity|]; left; reflexivity).
        destruct (Z.eqb_spec (1 + e) 0); [lia|]. eexists _, _. split; [reflexivity|]. left; reflexivity.
      + destruct K as [(rest & D & E)|(wh & h & rest & D & Hh & U)].
        * destruct (dated_split _ _ _ D) as (E1 & E2 & E3 & ->). cbn [join] in E3. unfold EopParseModel.line20. rewrite E1, E2, E3.
          destruct (scan_i32 (skip_blanks rest)) as (v0, r0). cbn [fst] in E. subst v0. cbn. eexists _, _. split; [reflexivity|]. right; reflexivity.
        * destruct (dated_split _ _ _ D) as (E1 & E2 & E3 & ->). destruct D as (_ & B & W & _). apply Forall_cons_iff in W as (W1 & _). destruct wh as (n, w). cbn [join snd] in *.
          unfold EopParseModel.line20. rewrite E1, E2, E3, skip_blanks_word by assumption. rewrite (scan_int_word _ _ _ _ Hh) by assumption. rewrite word_shorter by assumption.
          unfold EopParseSpec.unreadable in U. destruct (sdbl (skip_blanks rest)) as (v0, r0). cbn [fst snd] in U. destruct v0; [|cbn; eexists _, _; split; [reflexivity|right; reflexivity]].
          destruct U as [U|U]; [discriminate|]. rewrite U, Nat.eqb_refl. cbn. eexists _, _. split; [reflexivity|right; reflexivity].
    - cbn [app loop]. destruct (step_ignored f start stop line' Hi) as (-> & ->). cbn [bind Z.eqb]. apply IH; assumption.
    - inversion F; subst. cbn [app loop]. destruct (step_says f start stop line' r Hs) as (-> & ->). cbn [bind]. unfold in_step. rewrite H2, andb_true_r. cbn [negb].
      destruct (negb _); cbn [Z.eqb]; apply IH; assumption.
  Qed.
  Lemma parse_undated f start stop s l1 rs line l2 : ltb start stop = true -> file_says (says_of f) l1 rs -> Forall (fun r => ltb (rt T r) stop = true) rs ->
    undated_of f line -> exists c s', parse_details T ltb tt_of_utc dat sdbl modf f (Some (l1 ++ line :: l2)) start stop s = Ok (c, s') /\ (c = 1 \/ c = 2).
  Proof.
    intros L H F K. destruct (loop_undated f start stop l1 rs line l2 [] H F K) as (c & v' & E & C). unfold parse_details. rewrite L. cbn [negb]. rewrite E. cbn. eexists _, _. split; [reflexivity|exact C].
  Qed.
  Lemma parse_long f start stop s l1 rs line l2 : ltb start stop = true -> file_says (says_of f) l1 rs -> Forall (fun r => ltb (rt T r) stop = true) rs ->
    (256 <= length line)%nat -> exists s', parse_details T ltb tt_of_utc dat sdbl modf f (Some (l1 ++ line :: l2)) start stop s = Ok (1, s').
  Proof.
    intros L H F K. assert (X : forall v, exists v', loop T (step_of f start stop) (l1 ++ line :: l2) v = Ok (1, v')).
    { induction H as [|line' l rs Hi H IH|line' l r rs Hs H IH]; intros v.
      - cbn [app loop]. replace (MAX_LINE_CHARS <=? Z.of_nat (length line)) with true by (symmetry; apply Z.leb_le; unfold MAX_LINE_CHARS; lia). eexists; reflexivity.
      - cbn [app loop]. destruct (step_ignored f start stop line' Hi) as (-> & ->). cbn [bind Z.eqb]. apply IH; assumption.
      - inversion F; subst. cbn [app loop]. destruct (step_says f start stop line' r Hs) as (-> & ->). cbn [bind]. unfold in_step. rewrite H2, andb_true_r. cbn [negb].
        destruct (negb _); cbn [Z.eqb]; apply IH; assumption. }
    destruct (X []) as (v' & E). unfold parse_details. rewrite L. cbn [negb]. rewrite E. eexists; reflexivity.
  Qed.

  Lemma parse_says f start stop s lines rs : ltb start stop = true -> file_says (says_of f) lines rs ->
    parse_details T ltb tt_of_utc dat sdbl modf f (Some lines) start stop s =
      Ok (0, mkSer T (not_before ltb start (until ltb stop rs)) None).
  Proof. intros L H. unfold parse_details. rewrite L. cbn [negb]. rewrite (loop_says _ _ _ _ _ _ H). reflexivity. Qed.
  Lemma parse_bad_interval f start stop s file : ltb start stop = false ->
    parse_details T ltb tt_of_utc dat sdbl modf f file start stop s = Ok (1, s).
  Proof. intros L. unfold parse_details. rewrite L. reflexivity. Qed.
  Lemma parse_broken f start stop s l1 rs line l2 : ltb start stop = true -> file_says (says_of f) l1 rs -> Forall (fun r => ltb (rt T r) stop = true) rs ->
    broken_of f start stop line -> exists s', parse_details T ltb tt_of_utc dat sdbl modf f (Some (l1 ++ line :: l2)) start stop s = Ok (1, s').
  Proof.
    intros L H F K. destruct (loop_broken f start stop l1 rs line l2 [] H F K) as (v' & E). unfold parse_details. rewrite L. cbn [negb]. rewrite E. eexists; reflexivity.
  Qed.

  (** ordered files *)
  Variable days : T -> R.
  Hypothesis ltb_days : forall a b, ltb a b = true <-> (days a < days b)%R.
  Fixpoint ordered (l : list (rec T)) : Prop :=
    match l with [] => True | r :: l' => Forall (fun q => (days (rt T r) <= days (rt T q))%R) l' /\ ordered l' end.
  Lemma sorted_ordered l : sorted days l -> ordered l.
  Proof. induction l as [|r l IH]; [auto|]. intros (F & S). split; [|apply IH, S]. rewrite Forall_forall in *. intros q Hq. apply Rlt_le, F, Hq. Qed.
  Lemma until_ordered start stop rs : ordered rs -> not_before ltb start (until ltb stop rs) = within ltb start stop rs.
  Proof.
    induction rs as [|r rs IH]; intros O; [reflexivity|]. destruct O as (F & O). cbn [until]. unfold within. cbn [filter].
    destruct (ltb (rt T r) stop) eqn:E.
    - unfold not_before. cbn [filter]. fold (not_before ltb start (until ltb stop rs)). rewrite IH by exact O. rewrite andb_true_r. reflexivity.
    - rewrite andb_false_r. fold (within ltb start stop rs). rewrite <- IH by exact O. clear IH O.
      destruct rs as [|q rs]; [reflexivity|]. cbn [until]. inversion F; subst.
      assert (ltb (rt T q) stop = false) as ->; [|reflexivity]. apply (ltb_false ltb days ltb_days) in E. apply (ltb_false ltb days ltb_days). lra.
  Qed.
  Lemma sorted_filter P l : sorted days l -> sorted days (filter P l).
  Proof.
    induction l as [|r l IH]; [auto|]. intros (F & S). cbn [filter]. destruct (P r); [|apply IH, S]. split; [|apply IH, S].
    rewrite Forall_forall in *. intros q Hq. apply filter_In in Hq. apply F. tauto.
  Qed.

  Lemma parse_ordered f start stop s lines rs : ltb start stop = true -> file_says (says_of f) lines rs -> ordered rs ->
    parse_details T ltb tt_of_utc dat sdbl modf f (Some lines) start stop s = Ok (0, mkSer T (within ltb start stop rs) None).
  Proof. intros L H O. rewrite (parse_says f start stop s lines rs L H), until_ordered by exact O. reflexivity. Qed.
  (** through parse_iers_C04 the series is ready for interpolation *)
  Lemma parse_C04_ready f start stop s lines rs : choose_c04_series lines = Some f -> ltb start stop = true ->
    file_says (says_of f) lines rs -> sorted days rs ->
    exists s', parse_C04 T ltb tt_of_utc dat sdbl modf (Some lines) start stop s = Ok (0, s') /\ mvec T s' = within ltb start stop rs /\
      sorted days (mvec T s') /\ ready s'.
  Proof.
    intros C L H S. unfold parse_C04. rewrite C, (parse_ordered f start stop s lines rs L H) by (apply sorted_ordered, S). cbn [bind].
    unfold reset. cbn. eexists. split; [reflexivity|]. cbn. split; [reflexivity|]. split; [apply sorted_filter, S|]. eexists. cbn. split; [reflexivity|]. lia.
  Qed.
End Parse.
