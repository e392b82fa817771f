(** Proofs about AOD1B data blocks and iteration. *)
From Coq Require Import Ascii String Reals ZArith List Bool Lia.
From Verif Require Import Base CString FromChars Aod1bModel Aod1bSpec Aod1bProofs AodBlockModel AodBlockSpec.
Import ListNotations.
Open Scope Z_scope.

(** ** text *)
Lemma starts_app lit r : starts lit (lit ++ r) = true.
Proof. induction lit as [|a lit IH]; [reflexivity|]. cbn. rewrite Z.eqb_refl. exact IH. Qed.
Lemma starts_begins lit s : starts lit s = true <-> begins lit s.
Proof.
  split; [|intros (r & ->); apply starts_app].
  revert s; induction lit as [|a lit IH]; intros s H; [exists s; reflexivity|]. destruct s as [|b s]; [discriminate|]. cbn in H.
  apply andb_true_iff in H as (E & H). apply Z.eqb_eq in E. subst. destruct (IH s H) as (r & ->). exists r. reflexivity.
Qed.
Lemma starts_false lit s : starts lit s = false <-> ~ begins lit s.
Proof. rewrite <- starts_begins. destruct (starts lit s); split; congruence. Qed.
Lemma skip_blanks_app b s : blanks b -> skip_blanks (b ++ s) = skip_blanks s.
Proof. induction 1 as [|c b -> F IH]; [reflexivity|]. cbn. exact IH. Qed.
Lemma skip_blanks_solid w r : solid w -> skip_blanks (w ++ r) = w ++ r.
Proof. intros (c & q & -> & N). cbn. destruct (Z.eqb_spec c 32); [congruence|reflexivity]. Qed.
Lemma number_digits w v : number w v -> w <> [] /\ Forall (fun c => is_dig c = true) w /\ - 2 ^ 31 <= digits_val w <= 2 ^ 31 - 1 /\ digits_val w = v.
Proof.
  intros (N & F & V & B). split; [exact N|]. split.
  - eapply Forall_impl; [|exact F]. intros c H. unfold is_dig, digit_char in *. apply andb_true_iff. rewrite !Z.leb_le. exact H.
  - split; [|exact V]. change (2 ^ 31) with 2147483648 in *. assert (0 <= digits_val w); [|split; [lia|rewrite V; lia]]. clear V N B.
    unfold digits_val. assert (G : forall a, 0 <= a -> 0 <= fold_left (fun a c => 10 * a + (c - 48)) w a); [|apply G; lia].
    induction F as [|c w H F IH]; intros a A; [exact A|]. cbn [fold_left]. apply IH. unfold digit_char in H. lia.
Qed.
Lemma number_solid w v : number w v -> solid w.
Proof. intros (N & F & _). destruct w as [|c w]; [congruence|]. exists c, w. split; [reflexivity|]. inversion F; subst. unfold digit_char in *. lia. Qed.
Lemma scan_number w v r : number w v -> (match r with c :: _ => ~ digit_char c | [] => True end) -> scan_i32 (w ++ r) = (Some v, r).
Proof.
  intros H X. apply number_digits in H as (N & F & B & V). unfold scan_i32. rewrite scan_int_digits; [rewrite V; reflexivity|exact N|exact F| |exact B].
  destruct r as [|c r]; [exact I|]. unfold is_dig, digit_char in *. apply andb_false_iff. rewrite !Z.leb_gt. lia.
Qed.
Lemma not_digit_32 : ~ digit_char 32.
Proof. unfold digit_char. lia. Qed.
Lemma drop_app a b : drop (length a) (a ++ b) = Ok b.
Proof. unfold drop. rewrite app_length. replace (length a <=? length a + length b)%nat with true by (symmetry; apply Nat.leb_le; lia). rewrite skipn_app, skipn_all, Nat.sub_diag. reflexivity. Qed.
Lemma drop_lit lit n b : length lit = n -> drop n (lit ++ b) = Ok b.
Proof. intros <-. apply drop_app. Qed.

(** ** streams *)
Definition pos (ls : list (list Z)) (term : bool) : ifs := mkI ls term (match ls with [] => negb term | _ => false end) false.
Lemma at_lines_pos ls term s : at_lines ls term s <-> s = pos ls term.
Proof.
  unfold at_lines, pos. split; [|intros ->; repeat split]. destruct s as [a b c d]. cbn. intros (-> & -> & -> & ->). reflexivity.
Qed.
Lemma good_pos ls term : good (pos ls term) = match ls with [] => term | _ => true end.
Proof. unfold good, pos. cbn. destruct ls; [rewrite negb_involutive, andb_true_r|]; reflexivity. Qed.
Lemma igetline_short l rest term s : s = pos (l :: rest) term -> short l -> igetline MAXL s = (l, pos rest term).
Proof.
  intros -> H. unfold igetline. rewrite good_pos. cbn [negb pos ilines iterm]. unfold MAXL, short in *.
  destruct (Z.leb_spec 124 (Z.of_nat (length l))); [lia|]. reflexivity.
Qed.
Lemma igetline_end term s : s = pos [] term -> exists l, igetline MAXL s = (l, mkI [] term true true).
Proof. intros ->. unfold igetline. rewrite good_pos. destruct term; eexists; reflexivity. Qed.
Lemma seek0_pos file term s : ifail s = false -> file <> [] -> seek0 file term s = pos file term.
Proof. intros E N. unfold seek0, pos. rewrite E. destruct file; [congruence|reflexivity]. Qed.

(** skip_header *)
Lemma find_end_ok n pre e rest term : (length pre < n)%nat -> begins (chars "END OF HEADER") e ->
  Forall (fun l => ~ begins (chars "END OF HEADER") l) pre -> Forall short (pre ++ [e]) -> find_end n (pos (pre ++ e :: rest) term) = (0, pos rest term).
Proof.
  revert n; induction pre as [|l pre IH]; intros n L E F S.
  - destruct n as [|n]; [lia|]. cbn [app find_end]. apply Forall_cons_iff in S as (S & _). rewrite (igetline_short e rest term _ eq_refl S).
    cbn [ifail pos]. apply starts_begins in E. rewrite E. reflexivity.
  - destruct n as [|n]; [cbn in L; lia|]. cbn [app find_end]. cbn [app] in S. apply Forall_cons_iff in S as (S1 & S). apply Forall_cons_iff in F as (F1 & F).
    rewrite (igetline_short l (pre ++ e :: rest) term _ eq_refl S1). cbn [ifail pos]. apply starts_false in F1. rewrite F1.
    cbn in L. apply (IH n); [lia|exact E|exact F|exact S].
Qed.
Lemma skip_header_ok hl rest term s : header_lines hl -> ifail s = false -> exists s', skip_header (hl ++ rest) term s = (0, s') /\ at_lines rest term s'.
Proof.
  intros (pre & e & -> & L & E & F & S) FS. exists (pos rest term). split; [|apply at_lines_pos; reflexivity].
  unfold skip_header. rewrite seek0_pos; [|exact FS|destruct pre; discriminate]. rewrite <- app_assoc. apply find_end_ok; assumption.
Qed.
(** no such line among the first 99, or a line before it is too long *)
Lemma find_end_sound n s s' : find_end n s = (0, s') -> exists pre e, ilines s = pre ++ e :: ilines s' /\ (length pre < n)%nat /\
  begins (chars "END OF HEADER") e /\ Forall (fun l => ~ begins (chars "END OF HEADER") l) pre /\ Forall short (pre ++ [e]).
Proof.
  revert s; induction n as [|n IH]; intros s; cbn [find_end].
  - destruct (igetline MAXL s) as (l, s1). destruct (ifail s1); discriminate.
  - unfold igetline at 1. destruct (good s); cbn [negb]; [|discriminate]. destruct s as [ls term eo fa]. cbn [ilines iterm]. destruct ls as [|l rest]; [discriminate|].
    destruct (Z.leb_spec MAXL (Z.of_nat (length l))); [discriminate|]. cbn [ifail]. unfold MAXL in *.
    destruct (starts (chars "END OF HEADER") l) eqn:E.
    + intros X; injection X as <-. exists [], l. cbn. apply starts_begins in E. repeat split; [lia|exact E|constructor|]. constructor; [unfold short; lia|constructor].
    + intros X. destruct (IH _ X) as (pre & e & A & B & C & D & F). cbn [ilines] in A. exists (l :: pre), e. cbn. rewrite A. apply starts_false in E.
      repeat split; [lia|exact C|constructor; assumption|]. constructor; [unfold short; lia|exact F].
Qed.
Lemma find_end_code n s : fst (find_end n s) = 0 \/ fst (find_end n s) = 1.
Proof.
  revert s; induction n as [|n IH]; intros s; cbn [find_end]; destruct (igetline MAXL s) as (l, s1); destruct (ifail s1); cbn [fst]; auto.
  destruct (starts (chars "END OF HEADER") l); cbn [fst]; auto.
Qed.

(** skip_lines *)
Lemma skip_loop_ok ls l rest term : Forall short (l :: ls) -> skip_loop (length ls) (pos ((l :: ls) ++ rest) term) = (0, pos rest term).
Proof.
  revert l; induction ls as [|l' ls IH]; intros l S; apply Forall_cons_iff in S as (S1 & S); cbn [app length skip_loop].
  - rewrite (igetline_short l rest term _ eq_refl S1). reflexivity.
  - rewrite (igetline_short l (l' :: ls ++ rest) term _ eq_refl S1). rewrite good_pos. cbn [ifail pos]. apply (IH l' S).
Qed.
Lemma skip_lines_ok ls rest term : Forall short ls -> skip_lines (Z.of_nat (length ls)) (pos (ls ++ rest) term) = (0, pos rest term).
Proof.
  intros S. unfold skip_lines. destruct ls as [|l ls]; [reflexivity|]. destruct (Z.eqb_spec (Z.of_nat (length (l :: ls))) 0); [cbn in *; lia|].
  replace (Z.to_nat (Z.of_nat (length (l :: ls)) - 1)) with (length ls) by (cbn [length]; lia). apply skip_loop_ok, S.
Qed.
(** too few lines *)
Lemma skip_loop_few ls m term : Forall short ls -> (length ls <= m)%nat ->
  fst (skip_loop m (pos ls term)) = match ls with [] => 0 | _ => if term then 0 else -1 end.
Proof.
  revert m; induction ls as [|l ls IH]; intros m S L.
  - assert (G : exists x, igetline MAXL (pos [] term) = (x, mkI [] term true true)) by (apply igetline_end; reflexivity). destruct G as (x & G).
    destruct m; cbn [skip_loop]; rewrite G; reflexivity.
  - cbn in L. destruct m as [|m]; [lia|]. apply Forall_cons_iff in S as (S1 & S). cbn [skip_loop]. rewrite (igetline_short l ls term _ eq_refl S1). rewrite good_pos. cbn [ifail pos].
    destruct ls as [|l' ls].
    + destruct term; [|reflexivity]. apply (IH m); [constructor|cbn; lia].
    + apply (IH m S). cbn in *. lia.
Qed.

(** ** data blocks *)
Section Blocks.
  Variable from_char : list Z -> option (Z * list Z).
  Variable gps2tt : Z -> Z.
  Notation parse := (parse_data_block_header from_char gps2tt).
  Notation header_line := (header_line from_char).
  Notation block_ok := (block_ok from_char).
  Notation reported := (reported gps2tt).

  Lemma tag_solid ty r : solid (tag ty ++ r).
  Proof. destruct ty; eexists _, _; (split; [reflexivity|discriminate]). Qed.
  Lemma of_type_same ty b : same_type (btype b) ty = of_type ty b.
  Proof. unfold of_type. destruct ty, (btype b); reflexivity. Qed.

  Lemma coef_skip tl : skip_blanks (chars " COEFFICIENTS FOR " ++ tl) = chars "COEFFICIENTS FOR " ++ tl.
  Proof. reflexivity. Qed.
  Lemma coef_drop tl : drop 17 (chars " COEFFICIENTS FOR " ++ tl) = Ok (32 :: tl).
  Proof. apply (drop_lit (chars " COEFFICIENTS FOR") 17 (32 :: tl) eq_refl). Qed.
  Lemma coef_drop2 tl : drop 17 (chars "  COEFFICIENTS FOR " ++ tl) = Ok (chars "R " ++ tl).
  Proof. apply (drop_lit (chars "  COEFFICIENTS FO") 17 (chars "R " ++ tl) eq_refl). Qed.
  Lemma type_skip tl : skip_blanks (chars "OF TYPE" ++ tl) = chars "OF TYPE" ++ tl.
  Proof. reflexivity. Qed.
  Lemma header_parse line set n t ty rec : header_line line set n t ty -> parse line rec = Ok (0, mkH set n (gps2tt t) ty).
  Proof.
    intros (b1 & w1 & sep & b2 & w2 & b3 & date & b4 & rest & -> & B1 & B2 & B3 & B4 & N1 & NS & N2 & (DS & DT) & _).
    unfold parse_data_block_header. rewrite starts_app. cbn [negb].
    rewrite (drop_lit (chars "DATA SET") 8 _ eq_refl). cbn [bind].
    rewrite (skip_blanks_app b1 _ B1), (skip_blanks_solid w1 _ (number_solid _ _ N1)).
    rewrite (scan_number w1 set (sep :: b2 ++ w2 ++ chars " COEFFICIENTS FOR " ++ b3 ++ date ++ chars " OF TYPE " ++ b4 ++ tag ty ++ rest) N1 NS).
    rewrite (drop_lit [sep] 1 _ eq_refl : drop 1 (sep :: b2 ++ _) = _). cbn [bind].
    rewrite (skip_blanks_app b2 _ B2), (skip_blanks_solid w2 _ (number_solid _ _ N2)).
    rewrite (scan_number w2 n (chars " COEFFICIENTS FOR " ++ b3 ++ date ++ chars " OF TYPE " ++ b4 ++ tag ty ++ rest) N2) by exact not_digit_32.
    set (tl := b3 ++ date ++ chars " OF TYPE " ++ b4 ++ tag ty ++ rest).
    rewrite (coef_skip tl), starts_app, (coef_drop tl). cbn [bind].
    cbn [skip_blanks Z.eqb Pos.eqb]. unfold tl. rewrite (skip_blanks_app b3 _ B3), (skip_blanks_solid date _ DS).
    change (chars " OF TYPE " ++ b4 ++ tag ty ++ rest) with (32 :: chars "OF TYPE" ++ 32 :: b4 ++ tag ty ++ rest). rewrite DT. cbn [mset_nr mnum_lines mepoch mtype].
    rewrite (drop_lit [32] 1 _ eq_refl : drop 1 (32 :: chars "OF TYPE" ++ _) = _). cbn [bind].
    rewrite type_skip, starts_app, (drop_lit (chars "OF TYPE") 7 _ eq_refl). cbn [bind skip_blanks Z.eqb Pos.eqb]. rewrite (skip_blanks_app b4 _ B4), <- (app_nil_r (tag ty ++ rest)), (skip_blanks_solid _ [] (tag_solid ty rest)).
    destruct ty; reflexivity.
  Qed.
  (** lines that are no block header leave the record alone *)
  Lemma parse_other line rec : ~ begins (chars "DATA SET") line -> parse line rec = Ok (1, rec).
  Proof. intros H. apply starts_false in H. unfold parse_data_block_header. rewrite H. reflexivity. Qed.
  (** a line that ends behind the set number *)
  Lemma parse_cut b1 w1 set rec : blanks b1 -> number w1 set -> parse (chars "DATA SET" ++ b1 ++ w1) rec = UB.
  Proof.
    intros B N. unfold parse_data_block_header. rewrite starts_app. cbn [negb]. rewrite (drop_lit (chars "DATA SET") 8 _ eq_refl). cbn [bind].
    rewrite (skip_blanks_app b1 _ B). rewrite <- (app_nil_r w1), (skip_blanks_solid w1 _ (number_solid _ _ N)), (scan_number w1 set [] N I). reflexivity.
  Qed.
  (** a second blank before COEFFICIENTS: the date is looked for one character too early *)
  Lemma parse_two_blanks b1 w1 set sep b2 w2 n tl rec : blanks b1 -> blanks b2 -> number w1 set -> ~ digit_char sep -> number w2 n ->
    from_char (chars "R " ++ tl) = None -> parse (chars "DATA SET" ++ b1 ++ w1 ++ sep :: b2 ++ w2 ++ chars "  COEFFICIENTS FOR " ++ tl) rec = Abort.
  Proof.
    intros B1 B2 N1 NS N2 D. unfold parse_data_block_header. rewrite starts_app. cbn [negb].
    rewrite (drop_lit (chars "DATA SET") 8 _ eq_refl). cbn [bind].
    rewrite (skip_blanks_app b1 _ B1), (skip_blanks_solid w1 _ (number_solid _ _ N1)).
    rewrite (scan_number w1 set (sep :: b2 ++ w2 ++ chars "  COEFFICIENTS FOR " ++ tl) N1 NS).
    rewrite (drop_lit [sep] 1 _ eq_refl : drop 1 (sep :: b2 ++ _) = _). cbn [bind].
    rewrite (skip_blanks_app b2 _ B2), (skip_blanks_solid w2 _ (number_solid _ _ N2)).
    rewrite (scan_number w2 n (chars "  COEFFICIENTS FOR " ++ tl) N2) by exact not_digit_32.
    rewrite coef_drop2. cbn [bind]. change (skip_blanks (chars "R " ++ tl)) with (chars "R " ++ tl). rewrite D. reflexivity.
  Qed.

  Notation next_of := (next_of from_char gps2tt).
  Notation next_any := (next_any from_char gps2tt).
  Lemma header_short line set n t ty : header_line line set n t ty -> short line.
  Proof. intros (b1 & w1 & sep & b2 & w2 & b3 & date & b4 & rest & H). decompose [and] H. assumption. Qed.
  Lemma pass_ok ls rest term : Forall short ls -> pass (length ls) (pos (ls ++ rest) term) = pos rest term.
  Proof.
    induction ls as [|l ls IH]; intros S; [reflexivity|]. apply Forall_cons_iff in S as (S1 & S). cbn [length pass app].
    rewrite (igetline_short l (ls ++ rest) term _ eq_refl S1). cbn [snd]. apply IH, S.
  Qed.
  Lemma body_cons b bs : body (b :: bs) = bline b :: bdata b ++ body bs.
  Proof. reflexivity. Qed.
  Lemma body_app a b : body (a ++ b) = body a ++ body b.
  Proof. unfold body. rewrite map_app, concat_app. reflexivity. Qed.

  (** blocks of other types are passed over *)
  Lemma next_of_other ty pre : forall n tl term rec, Forall block_ok pre -> Forall (fun b => of_type ty b = false) pre ->
    exists rec', next_of (length pre + n) ty (pos (body pre ++ tl) term) rec = next_of n ty (pos tl term) rec' /\ (pre = [] -> rec' = rec).
  Proof.
    induction pre as [|b pre IH]; intros n tl term rec K O; [exists rec; split; [reflexivity|auto]|].
    apply Forall_cons_iff in K as ((H & S) & K). apply Forall_cons_iff in O as (O1 & O).
    destruct (IH n tl term (reported b) K O) as (rec' & E & _). exists rec'. split; [|discriminate]. rewrite <- E.
    rewrite body_cons. cbn [length Nat.add app]. cbn [AodBlockModel.next_of].
    rewrite (igetline_short _ _ _ _ eq_refl (header_short _ _ _ _ _ H)). cbn [ifail pos].
    rewrite (header_parse _ _ _ _ _ rec H). cbn [bind Z.eqb negb mtype mnum_lines]. rewrite of_type_same, O1. unfold bnum. rewrite Nat2Z.id.
    rewrite <- app_assoc. rewrite (pass_ok (bdata b) (body pre ++ tl) term S). reflexivity.
  Qed.
  Lemma next_of_found ty pre b n tl term rec : Forall block_ok pre -> Forall (fun b => of_type ty b = false) pre -> block_ok b -> of_type ty b = true ->
    (length pre < n)%nat -> next_of n ty (pos (body pre ++ block_lines b ++ tl) term) rec = Ok (0, pos (bdata b ++ tl) term, reported b).
  Proof.
    intros K O (H & S) T L. replace n with (length pre + (Datatypes.S (n - length pre - 1)))%nat by lia.
    destruct (next_of_other ty pre (Datatypes.S (n - length pre - 1)) (block_lines b ++ tl) term rec K O) as (rec' & E & _). rewrite E.
    unfold block_lines. cbn [app AodBlockModel.next_of].
    rewrite (igetline_short _ _ _ _ eq_refl (header_short _ _ _ _ _ H)). cbn [ifail pos].
    rewrite (header_parse _ _ _ _ _ rec' H). cbn [bind Z.eqb negb mtype]. rewrite of_type_same, T. reflexivity.
  Qed.
  Lemma next_of_end ty pre n term rec : Forall block_ok pre -> Forall (fun b => of_type ty b = false) pre -> (length pre <= n)%nat ->
    exists rec', next_of n ty (pos (body pre) term) rec = Ok (-1, mkI [] term true true, rec').
  Proof.
    intros K O L. replace n with (length pre + (n - length pre))%nat by lia.
    destruct (next_of_other ty pre (n - length pre) [] term rec K O) as (rec' & E & _). rewrite app_nil_r in E. exists rec'. rewrite E.
    destruct (igetline_end term _ eq_refl) as (x & G). destruct (n - length pre)%nat; cbn [AodBlockModel.next_of]; rewrite G; reflexivity.
  Qed.
  (** the block behind the last one that is looked at *)
  Lemma next_of_late ty pre b n tl term rec : Forall block_ok pre -> Forall (fun b => of_type ty b = false) pre -> block_ok b ->
    length pre = n -> exists c s' rec', next_of n ty (pos (body pre ++ block_lines b ++ tl) term) rec = Ok (c, s', rec') /\ (c = 1 \/ c = -1).
  Proof.
    intros K O (H & S) <-. destruct (next_of_other ty pre 0 (block_lines b ++ tl) term rec K O) as (rec' & E & _). rewrite Nat.add_0_r in E. rewrite E.
    unfold block_lines. cbn [app AodBlockModel.next_of].
    rewrite (igetline_short _ _ _ _ eq_refl (header_short _ _ _ _ _ H)). cbn [ifail pos].
    eexists _, _, _. split; [reflexivity|]. unfold end_code. destruct (ieof _); auto.
  Qed.
  Lemma next_any_never : forall n s rec c s' rec', next_any n s rec = Ok (c, s', rec') -> c <> 0.
  Proof.
    induction n as [|n IH]; intros s rec c s' rec'; cbn [AodBlockModel.next_any]; destruct (igetline MAXL s) as (l, s1); unfold end_code.
    - destruct (ifail s1), (ieof s1); intros X; injection X as <- <- <-; discriminate.
    - destruct (ifail s1); [destruct (ieof s1); intros X; injection X as <- <- <-; discriminate|].
      destruct (parse l rec) as [(e, r)| | |]; try discriminate. cbn [bind]. destruct (negb (e =? 0)); [intros X; injection X as <- <- <-; discriminate|apply IH].
  Qed.
  (** whatever the stream, success means that the type was found *)
  Lemma next_of_type : forall n ty s rec s' rec', next_of n ty s rec = Ok (0, s', rec') -> mtype rec' = ty.
  Proof.
    induction n as [|n IH]; intros ty s rec s' rec'; cbn [AodBlockModel.next_of]; destruct (igetline MAXL s) as (l, s1); unfold end_code.
    - destruct (ifail s1), (ieof s1); discriminate.
    - destruct (ifail s1); [destruct (ieof s1); discriminate|].
      destruct (parse l rec) as [(e, r)| | |]; try discriminate. cbn [bind]. destruct (negb (e =? 0)); [discriminate|].
      destruct (same_type (mtype r) ty) eqn:E; [|apply IH]. intros X; injection X as <- <-. destruct (mtype r), ty; (reflexivity || discriminate).
  Qed.

  (** ** iteration *)
  Variable EOF : Z.
  Notation advance := (advance from_char gps2tt EOF).
  Notation walk := (walk from_char gps2tt EOF).

  Lemma split_first ty (bs : list block) : Forall (fun b => of_type ty b = false) bs \/
    exists pre b post, bs = pre ++ b :: post /\ Forall (fun b => of_type ty b = false) pre /\ of_type ty b = true.
  Proof.
    induction bs as [|a bs IH]; [left; constructor|]. destruct (of_type ty a) eqn:E.
    - right. exists [], a, bs. repeat split; [constructor|exact E].
    - destruct IH as [F|(pre & b & post & -> & F & T)]; [left; constructor; assumption|]. right. exists (a :: pre), b, post. repeat split; [constructor; assumption|exact T].
  Qed.
  Lemma gaps_tail k ty a b : gaps k ty (a ++ b) -> gaps k ty b.
  Proof. intros G l1 l2 l3 -> F. apply (G (a ++ l1) l2 l3); [rewrite <- app_assoc; reflexivity|exact F]. Qed.
  Lemma skip_ok b rest term : Forall short (bdata b) -> skip (mkIt (pos (bdata b ++ rest) term) (reported b)) = mkIt (pos rest term) (reported b).
  Proof. intros S. unfold skip. cbn [mfin mheader mnum_lines AodBlockSpec.reported]. unfold bnum. rewrite (skip_lines_ok _ _ _ S). reflexivity. Qed.
  Lemma filter_none ty (bs : list block) : Forall (fun b => of_type ty b = false) bs -> filter (of_type ty) bs = [].
  Proof. induction 1 as [|b bs H F IH]; [reflexivity|]. cbn. rewrite H. exact IH. Qed.
  Lemma filter_first ty pre b (post : list block) : Forall (fun b => of_type ty b = false) pre -> of_type ty b = true ->
    filter (of_type ty) (pre ++ b :: post) = b :: filter (of_type ty) post.
  Proof. intros F T. rewrite filter_app, (filter_none _ _ F). cbn. rewrite T. reflexivity. Qed.
  Lemma advance_found nds ty pre b post term rec : Forall block_ok (pre ++ b :: post) -> Forall (fun b => of_type ty b = false) pre -> of_type ty b = true ->
    Z.of_nat (length pre) < nds - 1 -> advance nds ty (mkIt (pos (body (pre ++ b :: post)) term) rec) = Ok (0, mkIt (pos (bdata b ++ body post) term) (reported b)).
  Proof.
    intros K F T L. apply Forall_app in K as (K1 & K2). apply Forall_cons_iff in K2 as (K2 & K3).
    unfold AodBlockModel.advance, goto_next_block. cbn [mfin mheader]. rewrite body_app. change (body (b :: post)) with (block_lines b ++ body post).
    rewrite (next_of_found ty pre b _ (body post) term rec K1 F K2 T) by lia. reflexivity.
  Qed.
  Lemma advance_end nds ty bs term rec : Forall block_ok bs -> Forall (fun b => of_type ty b = false) bs -> Z.of_nat (length bs) <= nds - 1 ->
    exists it', advance nds ty (mkIt (pos (body bs) term) rec) = Ok (-1, it') /\ is_eof EOF it' = true.
  Proof.
    intros K F L. unfold AodBlockModel.advance, goto_next_block. cbn [mfin mheader].
    destruct (next_of_end ty bs (Z.to_nat (nds - 1)) term rec K F) as (rec' & E); [lia|]. rewrite E. cbn [bind]. eexists. split; [reflexivity|].
    unfold is_eof, set_eof. cbn. rewrite Z.eqb_refl. reflexivity.
  Qed.
  Lemma walk_ok nds ty : forall k bs term rec, (length bs <= k)%nat -> Forall block_ok bs -> gaps (nds - 1) ty bs ->
    exists it', walk nds ty (mkIt (pos (body bs) term) rec) (map reported (filter (of_type ty) bs)) it' /\ is_eof EOF it' = true.
  Proof.
    induction k as [|k IH]; intros bs term rec L K G.
    - destruct bs; [|cbn in L; lia]. pose proof (G [] [] [] eq_refl (Forall_nil _)) as G0. cbn in G0.
      destruct (advance_end nds ty [] term rec K (Forall_nil _)) as (it' & E & Z); [cbn; lia|]. exists it'. split; [constructor; exact E|exact Z].
    - destruct (split_first ty bs) as [F|(pre & b & post & -> & F & T)].
      + pose proof (G [] bs [] ltac:(rewrite app_nil_r; reflexivity) F).
        destruct (advance_end nds ty bs term rec K F) as (it' & E & Z); [lia|]. exists it'. rewrite (filter_none _ _ F). split; [constructor; exact E|exact Z].
      + pose proof (G [] pre (b :: post) eq_refl F) as GP.
        pose proof (advance_found nds ty pre b post term rec K F T GP) as A.
        assert (K3 : Forall block_ok post) by (apply Forall_app in K as (_ & K); apply Forall_cons_iff in K as (_ & K); exact K).
        assert (SB : Forall short (bdata b)) by (apply Forall_app in K as (_ & K); apply Forall_cons_iff in K as ((_ & K) & _); exact K).
        destruct (IH post term (reported b)) as (it' & W & Z); [rewrite app_length in L; cbn in L; lia|exact K3|apply (gaps_tail _ _ (pre ++ [b])); rewrite <- app_assoc; exact G|].
        exists it'. split; [|exact Z]. rewrite (filter_first ty pre b post F T). cbn [map].
        change (reported b) with (mheader (mkIt (pos (bdata b ++ body post) term) (reported b))) at 1.
        eapply walk_next; [exact A|]. rewrite (skip_ok b (body post) term SB). exact W.
  Qed.
  Lemma body_nil bs : body bs = [] -> bs = [].
  Proof. destruct bs; [reflexivity|discriminate]. Qed.
  Lemma set_begin_ok nds ty hl bs b hs term it : header_lines hl -> Forall block_ok bs -> gaps (nds - 1) ty bs -> filter (of_type ty) bs = b :: hs ->
    exists it0 it', set_begin from_char gps2tt (hl ++ body bs) term nds ty it = Ok it0 /\ mheader it0 = reported b /\
      walk nds ty (skip it0) (map reported hs) it' /\ is_eof EOF it' = true.
  Proof.
    intros H K G F. unfold set_begin.
    destruct (skip_header_ok hl (body bs) term (mkI (ilines (mfin it)) (iterm (mfin it)) false false) H eq_refl) as (s' & E & A). rewrite E. cbn [Z.eqb negb].
    apply at_lines_pos in A. subst s'.
    destruct (split_first ty bs) as [X|(pre & b' & post & -> & X & T)]; [rewrite (filter_none _ _ X) in F; discriminate|].
    rewrite (filter_first ty pre b' post X T) in F. injection F as -> <-.
    pose proof (G [] pre (b :: post) eq_refl X) as GP.
    assert (K' := K). apply Forall_app in K' as (K1 & K2). apply Forall_cons_iff in K2 as (K2 & K3).
    unfold goto_next_block. rewrite body_app. change (body (b :: post)) with (block_lines b ++ body post).
    rewrite (next_of_found ty pre b _ (body post) term (mheader it) K1 X K2 T) by lia. cbn [bind Z.ltb Z.compare orb].
    destruct (walk_ok nds ty (length post) post term (reported b) (le_n _) K3) as (it' & W & Z); [apply (gaps_tail _ _ (pre ++ [b])); rewrite <- app_assoc; exact G|].
    eexists _, it'. split; [reflexivity|]. split; [reflexivity|]. rewrite (skip_ok b (body post) term (proj2 K2)). split; [exact W|exact Z].
  Qed.
  (** no block of the type *)
  Lemma set_begin_none nds ty hl bs term it : header_lines hl -> Forall block_ok bs -> Forall (fun b => of_type ty b = false) bs ->
    set_begin from_char gps2tt (hl ++ body bs) term nds ty it = Abort.
  Proof.
    intros H K F. unfold set_begin.
    destruct (skip_header_ok hl (body bs) term (mkI (ilines (mfin it)) (iterm (mfin it)) false false) H eq_refl) as (s' & E & A). rewrite E. cbn [Z.eqb negb].
    apply at_lines_pos in A. subst s'. unfold goto_next_block.
    destruct (le_lt_dec (length bs) (Z.to_nat (nds - 1))) as [L|L].
    - destruct (next_of_end ty bs (Z.to_nat (nds - 1)) term (mheader it) K F L) as (rec' & ->). reflexivity.
    - assert (exists pre b post, bs = pre ++ b :: post /\ length pre = Z.to_nat (nds - 1)) as (pre & b & post & -> & LP).
      { exists (firstn (Z.to_nat (nds - 1)) bs). destruct (skipn (Z.to_nat (nds - 1)) bs) as [|b post] eqn:X.
        - apply (f_equal (@length _)) in X. rewrite skipn_length in X. cbn in X. lia.
        - exists b, post. split; [rewrite <- X; symmetry; apply firstn_skipn|]. rewrite firstn_length. lia. }
      apply Forall_app in K as (K1 & K2). apply Forall_cons_iff in K2 as (K2 & K3). apply Forall_app in F as (F1 & F2).
      rewrite body_app. change (body (b :: post)) with (block_lines b ++ body post).
      destruct (next_of_late ty pre b (Z.to_nat (nds - 1)) (body post) term (mheader it) K1 F1 K2 LP) as (c & s' & rec' & -> & [-> | ->]); reflexivity.
  Qed.
  (** the first block of the type is the last of the data sets announced *)
  Lemma set_begin_late nds ty hl pre b post term it : header_lines hl -> Forall block_ok (pre ++ b :: post) -> Forall (fun b => of_type ty b = false) pre ->
    Z.of_nat (length pre) = nds - 1 -> set_begin from_char gps2tt (hl ++ body (pre ++ b :: post)) term nds ty it = Abort.
  Proof.
    intros H K F L. unfold set_begin.
    destruct (skip_header_ok hl (body (pre ++ b :: post)) term (mkI (ilines (mfin it)) (iterm (mfin it)) false false) H eq_refl) as (s' & E & A). rewrite E. cbn [Z.eqb negb].
    apply at_lines_pos in A. subst s'. unfold goto_next_block. apply Forall_app in K as (K1 & K2). apply Forall_cons_iff in K2 as (K2 & K3).
    rewrite body_app. change (body (b :: post)) with (block_lines b ++ body post).
    destruct (next_of_late ty pre b (Z.to_nat (nds - 1)) (body post) term (mheader it) K1 F K2) as (c & s' & rec' & -> & [-> | ->]); [lia|reflexivity..].
  Qed.
End Blocks.
