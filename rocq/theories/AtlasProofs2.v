From Coq Require Import Ascii String Reals ZArith List Bool Lia.
From Verif Require Import Base CString FromChars DoodsonModel DoodsonSpec DoodsonProofs IcgemModel IcgemSpec IcgemProofs IcgemLoop AtlasModel AtlasSpec AtlasProofs.
Import ListNotations.
Open Scope Z_scope.

(** ** Doodson numbers in file names *)
Lemma denotes_plain c v : denotes c v -> c <> 95 /\ c <> 0.
Proof. intros H. apply (denotes_sweep (fun c v => negb (c =? 95) && negb (c =? 0))) in H; [|vm_compute; reflexivity]. rewrite andb_true_iff, !negb_true_iff, !Z.eqb_neq in H. exact H. Qed.
Lemma upper_denotes v : -13 <= v <= 22 -> denotes (toupper (int2char v)) v /\ ~ (97 <= toupper (int2char v) <= 122).
Proof.
  intros H. assert (I : In v (zrange2 (-13) 23)) by (apply in_zrange2; lia).
  assert (K : forallb (fun v => known (toupper (int2char v)) v && negb ((97 <=? toupper (int2char v)) && (toupper (int2char v) <=? 122))) (zrange2 (-13) 23) = true) by (vm_compute; reflexivity).
  rewrite forallb_forall in K. specialize (K v I). apply andb_true_iff in K as (K & L). split; [apply known_denotes, K|].
  apply negb_true_iff, andb_false_iff in L. rewrite !Z.leb_gt in L. lia.
Qed.
Lemma upper_unique c c' v : denotes c v -> denotes c' v -> ~ (97 <= c <= 122) -> ~ (97 <= c' <= 122) -> c = c'.
Proof.
  assert (K : forallb (fun p => forallb (fun q => negb (snd p =? snd q) || ((97 <=? fst p) && (fst p <=? 122)) || ((97 <=? fst q) && (fst q <=? 122)) || (fst p =? fst q)) alphabet) alphabet = true) by (vm_compute; reflexivity).
  rewrite forallb_forall in K. intros H H' N N'. specialize (K _ H). rewrite forallb_forall in K. specialize (K _ H'). cbn [fst snd] in K.
  rewrite Z.eqb_refl in K. cbn [negb orb] in K. rewrite !orb_true_iff, !andb_true_iff, !Z.leb_le, Z.eqb_eq in K. lia.
Qed.
Lemma text_plain D d : text_denotes D d -> ~ In 95 (firstn 7 D).
Proof.
  intros (a & b & c & p & e & f & g & rest & -> & -> & A & B & C & E & F & G & _). cbn [firstn]. simpl.
  apply denotes_plain in A, B, C, E, F, G. intuition.
Qed.
Lemma text_app D rest d : text_denotes D d -> text_denotes (D ++ rest) d.
Proof. intros (a & b & c & p & e & f & g & r & -> & H). exists a, b, c, p, e, f, g, (r ++ rest)%list. split; [reflexivity|exact H]. Qed.
Lemma text_seven D d : text_denotes D d -> text_denotes (firstn 7 D) d /\ length (firstn 7 D) = 7%nat.
Proof. intros (a & b & c & p & e & f & g & r & -> & H). split; [|reflexivity]. exists a, b, c, p, e, f, g, []. split; [reflexivity|exact H]. Qed.
Lemma upper_text_unique D D' d : upper_text D d -> upper_text D' d -> D = D'.
Proof.
  intros (L & (a & b & c & p & e & f & g & r & -> & -> & A & B & C & E & F & G & _) & U) (L' & (a' & b' & c' & p' & e' & f' & g' & r' & -> & -> & A' & B' & C' & E' & F' & G' & _) & U').
  destruct r; [|discriminate L]. destruct r'; [|discriminate L']. rewrite !Forall_cons_iff in U, U'.
  rewrite (upper_unique _ _ _ A A'), (upper_unique _ _ _ B B'), (upper_unique _ _ _ C C'), (upper_unique _ _ _ E E'), (upper_unique _ _ _ F F'), (upper_unique _ _ _ G G') by tauto. reflexivity.
Qed.
Lemma upper_str d : representable d -> upper_text (map toupper (str_bytes d true)) (no_pi d).
Proof.
  intros (A & B & C & D & E & F). unfold str_bytes. cbn [map].
  pose proof (upper_denotes _ A). pose proof (upper_denotes (n1 d + 5) ltac:(lia)). pose proof (upper_denotes (n2 d + 5) ltac:(lia)). pose proof (upper_denotes (n3 d + 5) ltac:(lia)). pose proof (upper_denotes (n4 d + 5) ltac:(lia)). pose proof (upper_denotes (n5 d + 5) ltac:(lia)).
  split; [reflexivity|]. split.
  - eexists _, _, _, _, _, _, _, []. split; [reflexivity|]. cbn. tauto.
  - repeat constructor; try tauto. cbn. lia.
Qed.
Lemma c_str_str d : representable d -> c_str (str_bytes d true ++ repeat 0 9) = Ok (str_bytes d true).
Proof.
  intros (A & B & C & D & E & F). assert (X : forall v, -13 <= v <= 22 -> (int2char v =? 0) = false) by (intros v H; apply int2char_denotes, denotes_plain in H; apply Z.eqb_neq; tauto).
  unfold str_bytes. cbn [app c_str]. rewrite !X by lia. reflexivity.
Qed.

(** ** reading and writing names *)
Lemma parse_loosely f m d w t : loosely f m d w t -> parse_gname f = if (16 <? length w)%nat then UB else if (48 <? length m)%nat then UB else Ok (Some (mkG m d w t)).
Proof.
  intros (D & junk & sep & -> & L & X & J & W & T). rewrite (parse_shape _ m (D ++ junk) w sep t).
  - destruct (16 <? length w)%nat; [reflexivity|]. rewrite <- app_assoc. rewrite (from_chars_accepts (D ++ _) d) by (apply text_app, X). reflexivity.
  - split; [reflexivity|]. split; [|tauto]. rewrite in_app_iff. intros [K|K]; [|contradiction]. apply text_plain in X. rewrite firstn_all2 in X by lia. contradiction.
Qed.
Lemma parse_iff f g : parse_gname f = Ok (Some g) <-> loosely f (gmodel g) (gd g) (gwave g) (gtag g) /\ (length (gmodel g) <= 48)%nat /\ (length (gwave g) <= 16)%nat.
Proof.
  split.
  - intros H. pose proof H as H0. apply parse_some in H as (D & sep & S). rewrite (parse_shape _ _ _ _ _ _ S) in H0.
    destruct (Nat.ltb_spec 16 (length (gwave g))) as [|LW]; [discriminate|]. destruct (from_chars _) as [[d|]| | |] eqn:F; try discriminate. cbn [bind] in H0.
    destruct (Nat.ltb_spec 48 (length (gmodel g))) as [|LM]; [discriminate|]. injection H0 as H0.
    assert (gd g = d) by (rewrite <- H0; reflexivity). subst d. apply from_chars_sound in F. destruct S as (E & ND & NW & T).
    split; [|split; [lia|lia]]. assert (L7 : (7 <= length D)%nat).
    { destruct (Nat.le_gt_cases 7 (length D)) as [|L]; [assumption|]. exfalso. apply text_plain in F. apply F.
      rewrite firstn_app. apply in_or_app. right. replace (7 - length D)%nat with (S (7 - length D - 1)) by lia. left. reflexivity. }
    exists (firstn 7 D), (skipn 7 D), sep. rewrite firstn_skipn. apply text_seven in F as (F1 & F2). rewrite firstn_app in F1, F2. replace (7 - length D)%nat with O in F1, F2 by lia. cbn [firstn] in F1, F2. rewrite app_nil_r in F1, F2.
    refine (conj E (conj F2 (conj F1 (conj _ (conj NW T))))). intros K. apply ND. rewrite <- (firstn_skipn 7 D). apply in_or_app. tauto.
  - intros (L & M & W). rewrite (parse_loosely _ _ _ _ _ L). destruct (Nat.ltb_spec 16 (length (gwave g))); [lia|]. destruct (Nat.ltb_spec 48 (length (gmodel g))); [lia|]. destruct g; reflexivity.
Qed.
Lemma names_loosely f m d w t : names f m d w t -> loosely f m d w t.
Proof.
  intros (D & (L & X & U) & (LM & LW & W & T) & ->). exists D, [], 95. rewrite app_nil_r. refine (conj eq_refl (conj L (conj X (conj _ (conj W T))))). intros [].
Qed.
Lemma parse_names f m d w t : names f m d w t -> parse_gname f = Ok (Some (mkG m d w t)).
Proof.
  intros H. rewrite (parse_loosely _ _ _ _ _ (names_loosely _ _ _ _ _ H)). destruct H as (D & _ & (LM & LW & _) & _).
  destruct (Nat.ltb_spec 16 (length w)); [lia|]. destruct (Nat.ltb_spec 48 (length m)); [lia|]. reflexivity.
Qed.
Lemma names_fun f m d w t m' d' w' t' : names f m d w t -> names f m' d' w' t' -> m = m' /\ d = d' /\ w = w' /\ t = t'.
Proof. intros H H'. apply parse_names in H, H'. rewrite H in H'. injection H' as -> -> -> ->. auto. Qed.
Lemma names_unique f f' m d w t : names f m d w t -> names f' m d w t -> f = f'.
Proof. intros (D & U & _ & ->) (D' & U' & _ & ->). rewrite (upper_text_unique _ _ _ U U'). reflexivity. Qed.
Lemma as_string_ok n s : as_string n s = if Z.of_nat (length s) <? n then Ok s else UB.
Proof. reflexivity. Qed.
Lemma other_tag t : is_tag t -> is_tag (other t) /\ other (other t) = t.
Proof. intros [-> | ->]; cbn; unfold is_tag; auto. Qed.
(** writing: the tag comes out as the other one *)
Lemma compile_default g t : representable (gd g) -> legal (gmodel g) (gwave g) t -> exists f, compile g None None None t = Ok f /\ names f (gmodel g) (no_pi (gd g)) (gwave g) (other t).
Proof.
  intros R (LM & LW & W & T). unfold compile. rewrite !as_string_ok. replace (Z.of_nat (length (gmodel g)) <? 48) with true by (symmetry; apply Z.ltb_lt; lia). cbn [bind].
  rewrite c_str_str by exact R. cbn [bind]. replace (Z.of_nat (length (gwave g)) <? 16) with true by (symmetry; apply Z.ltb_lt; lia). cbn [bind].
  replace (if t =? 99 then chars "sin" else chars "cos") with (tag_text (other t)) by (destruct T as [-> | ->]; reflexivity).
  pose proof (upper_str _ R) as U. set (D := map toupper (str_bytes (gd g) true)) in *. exists (pattern (gmodel g) D (gwave g) (other t)). split.
  - unfold pattern, as_string. replace (_ <? 124) with true; [reflexivity|]. symmetry. apply Z.ltb_lt. rewrite !app_length, tag_length. destruct U as (L & _). rewrite L. simpl. lia.
  - exists D. split; [exact U|]. split; [|reflexivity]. repeat split; try assumption. apply other_tag, T.
Qed.
Lemma compile_given g m d w t : representable d -> legal m w t -> exists f, compile g (Some m) (Some d) (Some w) t = Ok f /\ names f m (no_pi d) w (other t).
Proof.
  intros R (LM & LW & W & T). destruct (compile_default (mkG m d w t) t R) as (f & C & N); [cbn; unfold legal; tauto|]. exists f. split; [|exact N].
  rewrite <- C. unfold compile. cbn [gmodel gd gwave]. rewrite !as_string_ok. replace (Z.of_nat (length m) <? 48) with true by (symmetry; apply Z.ltb_lt; lia). cbn [bind].
  rewrite c_str_str by exact R. cbn [bind]. replace (Z.of_nat (length w) <? 16) with true by (symmetry; apply Z.ltb_lt; lia). reflexivity.
Qed.
Lemma compile_default_inv g t f : compile g None None None t = Ok f -> (length (gmodel g) < 48)%nat /\ (length (gwave g) < 16)%nat.
Proof.
  unfold compile, as_string. destruct (Z.ltb_spec (Z.of_nat (length (gmodel g))) 48); [|discriminate]. cbn [bind].
  destruct (c_str _); try discriminate. cbn [bind]. destruct (Z.ltb_spec (Z.of_nat (length (gwave g))) 16); [|discriminate]. intros _. split; lia.
Qed.

(** ** file lists *)
Lemma mem_true x l : mem x l = true <-> In x l.
Proof.
  unfold mem. rewrite existsb_exists. split.
  - intros (y & H & E). apply list_eqb_true in E. subst. exact H.
  - intros H. exists x. split; [exact H|]. apply list_eqb_true. reflexivity.
Qed.
Lemma distinct_true l : distinct l = true <-> NoDup l.
Proof.
  induction l as [|x l IH]; cbn [distinct].
  - split; [constructor|reflexivity].
  - rewrite andb_true_iff, negb_true_iff, IH, NoDup_cons_iff, <- mem_true, not_true_iff_false. reflexivity.
Qed.
Definition own_name_in (all : list (list Z)) (f : list Z) : Prop := exists m d w t f', loosely f m d w t /\ names f' m d w t /\ In f' all.
Lemma validate_loop_ok all l : validate_loop all l = Ok 0 <-> Forall (own_name_in all) l.
Proof.
  induction l as [|f l IH]; cbn [validate_loop]; [split; [constructor|reflexivity]|]. rewrite Forall_cons_iff, <- IH. split.
  - destruct (parse_gname f) as [[g|]| | |] eqn:P; try discriminate. cbn [bind]. apply parse_iff in P as (L & _).
    destruct (compile g None None None (if gtag g =? 115 then 99 else 115)) as [fr| | |] eqn:C; try discriminate. cbn [bind].
    destruct (mem fr all) eqn:M; [|discriminate]. intros V. split; [|exact V]. apply mem_true in M.
    pose proof (compile_default_inv _ _ _ C) as (LM & LW). destruct L as (D & junk & sep & E & L7 & X & J & W & T).
    destruct (compile_default g (other (gtag g))) as (f' & C' & N); [exact (text_representable _ _ X)|repeat split; try assumption; apply other_tag, T|].
    change (if gtag g =? 115 then 99 else 115) with (other (gtag g)) in C. rewrite C in C'. injection C' as <-.
    exists (gmodel g), (gd g), (gwave g), (gtag g), fr. split; [exists D, junk, sep; tauto|]. split; [|exact M].
    destruct (other_tag _ T) as (_ & O). rewrite O in N. replace (no_pi (gd g)) with (gd g) in N; [exact N|].
    destruct X as (? & ? & ? & ? & ? & ? & ? & ? & X). unfold no_pi. destruct (gd g). cbn in *. f_equal. tauto.
  - intros ((m & d & w & t & f' & L & N & M) & V). assert (LL : (length m < 48)%nat /\ (length w < 16)%nat) by (destruct N as (? & ? & (? & ? & ?) & ?); tauto).
    rewrite (parse_loosely _ _ _ _ _ L). destruct (Nat.ltb_spec 16 (length w)); [lia|]. destruct (Nat.ltb_spec 48 (length m)); [lia|]. cbn [bind gtag].
    destruct N as (D & U & LG & ->). assert (R : representable d) by (destruct U as (_ & X & _); exact (text_representable _ _ X)).
    destruct (compile_default (mkG m d w t) (other t)) as (f2 & C & N2); [exact R|destruct LG as (A & B & C & T); repeat split; try assumption; apply other_tag, T|].
    change (if t =? 115 then 99 else 115) with (other t). rewrite C. cbn [bind]. cbn [gmodel gd gwave] in N2.
    assert (T : is_tag t) by (destruct LG; tauto). destruct (other_tag _ T) as (_ & O). rewrite O in N2.
    assert (N3 : names (pattern m D w t) m (no_pi d) w t). { exists D. split; [|split; [exact LG|reflexivity]]. replace (no_pi d) with d; [exact U|]. destruct U as (_ & (? & ? & ? & ? & ? & ? & ? & ? & X) & _). unfold no_pi. destruct d. cbn in *. f_equal. tauto. }
    rewrite (names_unique _ _ _ _ _ _ N2 N3). rewrite (proj2 (mem_true _ _) M). exact V.
Qed.
Lemma validate_ok l : validate_file_list l = Ok 0 <-> NoDup l /\ forall f, In f l -> own_name_in l f.
Proof.
  unfold validate_file_list. rewrite <- distinct_true. destruct (distinct l); cbn [negb].
  - rewrite validate_loop_ok, Forall_forall. tauto.
  - split; [discriminate|intros (? & _); discriminate].
Qed.
Lemma validate_canonical l : (forall f, In f l -> exists m d w t, names f m d w t) -> validate_file_list l = if distinct l then Ok 0 else Ok 1.
Proof.
  intros H. destruct (distinct l) eqn:E; [|unfold validate_file_list; rewrite E; reflexivity]. apply validate_ok. split; [apply distinct_true, E|].
  intros f I. destruct (H f I) as (m & d & w & t & N). exists m, d, w, t, f. split; [apply names_loosely, N|tauto].
Qed.

(** ** lines of a file list *)
Lemma span_word_app w s : Forall (fun c => c <> 32) w -> at_blank s -> span_word (w ++ s) = (w, s).
Proof.
  intros F B. induction F as [|c w Hc F IH]; cbn [app span_word].
  - destruct s as [|c s]; [reflexivity|]. simpl in B. subst. reflexivity.
  - destruct (Z.eqb_spec c 32); [contradiction|]. rewrite IH. reflexivity.
Qed.
Lemma columns_head line w ws : columns line (w :: ws) -> exists s, skip_blanks line = (w ++ s)%list /\ word w /\ at_blank s /\ columns s ws.
Proof. intros H. inversion H; subst. exists s. split; [apply skip_blanks_word; assumption|tauto]. Qed.
Lemma resolve_lines lines pairs : Forall2 (fun line p => (length line <= 511)%nat /\ exists rest, columns line (fst p :: snd p :: rest)) lines pairs ->
  resolve_file_list lines = flat_map (fun p => [fst p; snd p]) pairs.
Proof.
  induction 1 as [|line (a, b) lines pairs (L & rest & C) F IH]; [reflexivity|]. cbn [resolve_file_list flat_map fst snd app].
  destruct (Z.ltb_spec 511 (Z.of_nat (length line))); [lia|]. apply columns_head in C as (s & -> & (_ & Wa) & B & C). rewrite span_word_app by assumption.
  apply columns_head in C as (s' & -> & (_ & Wb) & B' & C). rewrite span_word_app by assumption. f_equal. f_equal. exact IH.
Qed.
Lemma resolve_even lines : Z.odd (Z.of_nat (length (resolve_file_list lines))) = false.
Proof.
  induction lines as [|line lines IH]; [reflexivity|]. cbn [resolve_file_list]. destruct (511 <? _); [reflexivity|]. destruct (span_word _) as (a, r), (span_word (skip_blanks r)) as (b, x). cbn [length].
  rewrite !Nat2Z.inj_succ. rewrite Z.odd_succ, Z.even_succ. exact IH.
Qed.

(** ** numbers *)
Lemma numbers_ok {A} (scan : list Z -> option A * list Z) : word_scanner scan -> forall vs line, number_line scan line vs -> numbers scan (length vs) line = (map Some vs, 0).
Proof.
  intros WS vs. induction vs as [|v vs IH]; intros line (ws & rest & C & F); [reflexivity|]. inversion F as [|w ? ws' ? S F' E1 E2]; subst. cbn [app] in C.
  apply columns_head in C as (s & K & _ & B & C). cbn [length numbers]. rewrite K, (WS _ _ S _ B), (IH s); [reflexivity|]. exists ws', rest. tauto.
Qed.
Lemma numbers_length {A} (scan : list Z -> option A * list Z) n s : length (fst (numbers scan n s)) = n.
Proof. revert s; induction n; intros s; [reflexivity|]. cbn [numbers]. destruct (scan _) as (v, r). specialize (IHn r). destruct (numbers scan n r). cbn in *. congruence. Qed.
Lemma numbers_error {A} (scan : list Z -> option A * list Z) n s : 0 <= snd (numbers scan n s) /\ (snd (numbers scan n s) = 0 -> Forall (fun v => v <> None) (fst (numbers scan n s))).
Proof.
  revert s; induction n; intros s; [cbn; split; [lia|constructor]|]. cbn [numbers]. destruct (scan _) as (v, r). specialize (IHn r). destruct (numbers scan n r) as (vs, e). cbn [fst snd] in *.
  destruct IHn as (A1 & A2). unfold cnt. destruct v; (split; [lia|]); intros H; [constructor; [discriminate|apply A2; lia]|lia].
Qed.

Lemma doodson_rows_ok lines rows : Forall2 (fun line r => (length line <= 123)%nat /\ length r = 6%nat /\ number_line scan_i32 line r) lines rows ->
  doodson_rows lines 0 = (map (map Some) rows, 0).
Proof.
  induction 1 as [|line r lines rows (L & K & N) F IH]; [reflexivity|]. cbn [doodson_rows map]. destruct (Z.ltb_spec 123 (Z.of_nat (length line))); [lia|]. cbn [orb negb Z.eqb].
  rewrite <- K. rewrite (numbers_ok scan_i32 (scan_int_word _ _) r line N). cbn [Z.add]. rewrite IH. reflexivity.
Qed.
Lemma doodson_rows_sound lines error : 0 <= error -> let (rs, e) := doodson_rows lines error in
  error <= e /\ (e = 0 -> Forall (fun r => length r = 6%nat /\ Forall (fun v => v <> None) r) rs /\ exists k, (k <= length lines)%nat /\ length rs = k /\ Forall (fun l => (length l <= 123)%nat) (firstn k lines) /\ (forall l, nth_error lines k = Some l -> (123 < length l)%nat)).
Proof.
  revert error; induction lines as [|line lines IH]; intros error E; cbn [doodson_rows].
  - split; [lia|]. intros _. split; [constructor|]. exists O. cbn. repeat split; [lia|constructor|discriminate].
  - destruct (Z.ltb_spec 123 (Z.of_nat (length line))) as [G|G]; cbn [orb].
    + split; [lia|]. intros _. split; [constructor|]. exists O. cbn. repeat split; [lia|constructor|]. intros l X; injection X as <-. lia.
    + destruct (Z.eqb_spec error 0) as [->|NE]; cbn [negb].
      * pose proof (numbers_error scan_i32 6 line) as (A1 & A2). pose proof (numbers_length scan_i32 6 line) as A3. destruct (numbers scan_i32 6 line) as (r, e). cbn [fst snd] in *.
        specialize (IH (0 + e) ltac:(lia)). destruct (doodson_rows lines (0 + e)) as (rs, e'). destruct IH as (B1 & B2). split; [lia|]. intros X. destruct (B2 X) as (C1 & k & C2 & C3 & C4 & C5).
        split; [constructor; [split; [exact A3|apply A2; lia]|exact C1]|]. exists (S k). cbn [length firstn nth_error]. repeat split; [lia|lia|constructor; [lia|exact C4]|exact C5].
      * split; [lia|lia].
Qed.

Section Admittance.
  Variable sdbl : list Z -> option R * list Z.
  Hypothesis WS : word_scanner sdbl.
  Definition adm_line (f : nat) (line : list Z) (r : list R) : Prop := (Z.of_nat (length line) < 27 * Z.of_nat (f + 1)) /\ length r = f /\ number_line sdbl line r.
  Lemma admittance_rows_ok k f lines rows : Forall2 (adm_line f) lines rows -> forall done, (length done + length rows <= k)%nat ->
    admittance_rows sdbl k f lines done 0 = Ok (Some ((done ++ map (map Some) rows)%list, 0, false)).
  Proof using WS.
    induction 1 as [|line r lines rows (L & K & N) F IH]; intros done H; cbn [admittance_rows map]; [rewrite app_nil_r; reflexivity|].
    cbn [length] in H. destruct (Z.ltb_spec (Z.of_nat (f + 1) * 27 - 1) (Z.of_nat (length line))); [lia|]. cbn [Z.eqb negb].
    destruct (Nat.ltb_spec k (length done)); [lia|]. destruct (Nat.eqb_spec (length done) k); [lia|]. cbn [andb].
    rewrite <- K at 1. rewrite (numbers_ok sdbl WS r line N). cbn [Z.add]. rewrite IH by (rewrite app_length; simpl; lia). rewrite <- app_assoc. reflexivity.
  Qed.
  Lemma admittance_rows_excess k f lines rows : (0 < f)%nat -> Forall2 (adm_line f) lines rows -> forall done, (length done <= k < length done + length rows)%nat ->
    admittance_rows sdbl k f lines done 0 = Abort.
  Proof using WS.
    intros P. induction 1 as [|line r lines rows (L & K & N) F IH]; intros done H; cbn [admittance_rows]; [cbn [length] in H; lia|].
    cbn [length] in H. destruct (Z.ltb_spec (Z.of_nat (f + 1) * 27 - 1) (Z.of_nat (length line))); [lia|]. cbn [Z.eqb negb].
    destruct (Nat.ltb_spec k (length done)); [lia|]. destruct (Nat.eqb_spec (length done) k).
    - destruct (Nat.ltb_spec 0 f); [|lia]. reflexivity.
    - cbn [andb]. rewrite <- K at 1. rewrite (numbers_ok sdbl WS r line N). cbn [Z.add]. apply IH. rewrite app_length. simpl. lia.
  Qed.
  Lemma admittance_ok k f lines rows : Forall2 (adm_line f) lines rows -> (length rows <= k)%nat ->
    parse_admittance sdbl k f (Some lines) = Ok (Some (map (map Some) rows ++ repeat (repeat None f) (k - length rows))%list).
  Proof using WS.
    intros F L. unfold parse_admittance. rewrite (admittance_rows_ok k f lines rows F []) by exact L. cbn [bind negb orb Z.eqb app]. rewrite map_length. reflexivity.
  Qed.
  Lemma admittance_excess k f lines rows : (0 < f)%nat -> Forall2 (adm_line f) lines rows -> (k < length rows)%nat -> parse_admittance sdbl k f (Some lines) = Abort.
  Proof using WS. intros P F L. unfold parse_admittance. rewrite (admittance_rows_excess k f lines rows P F []) by (cbn; lia). reflexivity. Qed.
End Admittance.
(** dimensions of any accepted matrix *)
Lemma admittance_dims sdbl k f lines M : (0 < f)%nat -> parse_admittance sdbl k f (Some lines) = Ok (Some M) -> length M = k /\ Forall (fun r => length r = f) M.
Proof.
  intros P. unfold parse_admittance.
  assert (X : forall lines done error, (length done <= k)%nat -> Forall (fun r : list (option R) => length r = f) done ->
    match admittance_rows sdbl k f lines done error with Ok (Some (d, _, _)) => (length d <= k)%nat /\ Forall (fun r => length r = f) d | _ => True end).
  { clear lines. induction lines as [|line lines IH]; intros done error L F; cbn [admittance_rows]; [auto|].
    destruct (_ <? _); [auto|]. destruct (negb _); [auto|]. destruct (Nat.ltb_spec k (length done)); [exact I|]. destruct (Nat.eqb_spec (length done) k).
    - destruct (Nat.ltb_spec 0 f); [exact I|lia].
    - cbn [andb]. pose proof (numbers_length sdbl f line) as NL. destruct (numbers sdbl f line) as (r, e). apply IH; [rewrite app_length; simpl; lia|]. apply Forall_app. split; [exact F|]. constructor; [exact NL|constructor]. }
  specialize (X lines [] 0 ltac:(cbn; lia) ltac:(constructor)). destruct (admittance_rows sdbl k f lines [] 0) as [[[[d e] b]|]| | |]; try discriminate. cbn [bind].
  destruct (negb (e =? 0) || b); [discriminate|]. intros H; injection H as <-. destruct X as (L & F). split; [rewrite app_length, repeat_length; lia|].
  apply Forall_app. split; [exact F|]. apply Forall_forall. intros r I. apply repeat_spec in I. subst. apply repeat_length.
Qed.
