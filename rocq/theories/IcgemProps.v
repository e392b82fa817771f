(** C22, C58 *)
From Coq Require Import Ascii String Reals ZArith List Bool Lia Lra.
From Verif Require Import Base CString FromChars IcgemModel IcgemSpec IcgemProofs IcgemLoop IcgemHeader IcgemAccept.
Import ListNotations.
Open Scope Z_scope.

(** *** C22: the coefficients returned are those the file states *)
Theorem c22_version2 sdbl mkdate MIN MAX years er D N M t lines rs : word_scanner sdbl -> M <= N <= D ->
  Forall2 (says2 sdbl mkdate MIN MAX er) lines rs -> Forall (fun r => used2 N M t r = true -> triangular r) rs ->
  exists cs, parse_data_v2 sdbl mkdate MIN MAX years (Some er) D N M t lines = Ok (0, top_degree (filter (used2 N M t) rs), top_order (filter (used2 N M t) rs), cs) /\
    forall n m, cs n m = (value_C years t (filter (used2 N M t) rs) n m, value_S years t (filter (used2 N M t) rs) n m).
Proof. intros. apply parse_v2_ok; assumption. Qed.
Print Assumptions c22_version2.
Theorem c22_version1 sdbl mkdate years er D N M t lines rs ref : word_scanner sdbl -> M <= N <= D ->
  Forall2 (says1 sdbl mkdate er) lines rs -> Forall (fun r => within N M r = true -> triangular r) rs -> after_gfct None rs ->
  exists cs, parse_data_v1 sdbl mkdate years (Some er) D N M t lines =
      Ok (0, top_degree (filter (within N M) (dated ref rs)), top_order (filter (within N M) (dated ref rs)), cs) /\
    forall n m, cs n m = (value_C years t (filter (within N M) (dated ref rs)) n m, value_S years t (filter (within N M) (dated ref rs)) n m).
Proof. intros. apply (parse_v1_ok sdbl H mkdate 0 years); assumption. Qed.
Print Assumptions c22_version1.
(** degree left out: that of the model; order left out: the degree *)
Theorem c22_defaults sdbl mkdate MIN MAX years v2 er D l k t lines : 0 <= D ->
  (l < 0 -> parse_data sdbl mkdate MIN MAX years v2 er D l k t lines = parse_data sdbl mkdate MIN MAX years v2 er D D k t lines) /\
  (0 <= l -> k < 0 -> parse_data sdbl mkdate MIN MAX years v2 er D l k t lines = parse_data sdbl mkdate MIN MAX years v2 er D l l t lines) /\
  (0 <= l -> 0 <= k -> parse_data sdbl mkdate MIN MAX years v2 er D l k t lines = if v2 then parse_data_v2 sdbl mkdate MIN MAX years er D l k t lines else parse_data_v1 sdbl mkdate years er D l k t lines).
Proof.
  intros HD. unfold parse_data. destruct (Z.ltb_spec D 0); [lia|]. destruct (Z.ltb_spec l 0), (Z.ltb_spec k 0); repeat split; intros; try lia; reflexivity.
Qed.
Print Assumptions c22_defaults.
(** code 0: every line of the data section had a keyword and all the columns it needs, none was cut *)
Theorem c22_sound sdbl mkdate MIN MAX years er D N M t lines a b cs :
  (parse_data_v2 sdbl mkdate MIN MAX years (Some er) D N M t lines = Ok (0, a, b, cs) ->
     M <= N <= D /\ Forall (fun line => Z.of_nat (length line) <= 255 /\ exists e, contains2 sdbl mkdate MIN MAX line er e) lines) /\
  (parse_data_v1 sdbl mkdate years (Some er) D N M t lines = Ok (0, a, b, cs) ->
     M <= N <= D /\ Forall (fun line => Z.of_nat (length line) <= 254 /\ exists e, contains1 sdbl mkdate line er e) lines).
Proof.
  split; intros H; apply parse_with_sound in H as (A & B); (split; [exact A|]); (eapply Forall_impl; [|exact B]); cbv beta; intros line (L & e & e' & H).
  - split; [exact L|]. exists e'. eapply accepted2. exact H.
  - apply accepted1 in H as (C & L'). split; [exact L'|]. exists e'. exact C.
Qed.
Print Assumptions c22_sound.
Theorem c22_scanner : word_scanner scan_dbl.
Proof. exact scan_dbl_word. Qed.

(** refused: the caller's coefficients are lost all the same *)
Theorem c22_failure_keeps_caller_refuted : forall sdbl mkdate MIN MAX years er D N M t lines, D < N ->
  parse_data_v2 sdbl mkdate MIN MAX years (Some er) D N M t lines = Ok (1, N, M, zero) /\ parse_data_v1 sdbl mkdate years (Some er) D N M t lines = Ok (1, N, M, zero).
Proof. intros. unfold parse_data_v2, parse_data_v1, parse_with. cbn [get bind]. destruct (Z.ltb_spec D N); [split; reflexivity|lia]. Qed.

Definition ex_date (y m d h i : Z) : Z := (((y * 12 + m) * 31 + d) * 24 + h) * 60 + i.
Definition ex_years (t t0 : Z) : R := IZR (t - t0).
Definition p1 := parse_data_v1 scan_dbl ex_date ex_years (Some No) 4 4 4 0.
Definition p2 := parse_data_v2 scan_dbl ex_date (-1000) 10000000000 ex_years (Some No) 4 4 4 0.
(** an order above the degree writes outside the coefficients *)
Theorem c22_order_above_degree_refuted : p1 [chars "gfc 2 3 1.0 0.0"] = UB /\ p2 [chars "gfc 2 3 1.0 0.0"] = UB.
Proof. split; reflexivity. Qed.
(** a trend that does not follow its gfct line stops the program *)
Theorem c22_trend_first_refuted : p1 [chars "trnd 2 0 1.0 0.0"] = Abort.
Proof. reflexivity. Qed.
(** an empty line: first, variables are used before they are set; later, the file is refused *)
Theorem c22_empty_line_refuted : p1 [[]; chars "gfc 2 0 1.0 0.0"] = UB /\ p2 [[]; chars "gfc 2 0 1.0 0.0"] = UB /\
  (exists cs, p1 [chars "gfc 2 0 1.0 0.0"; []] = Ok (1, 4, 4, cs)) /\ (exists cs, p2 [chars "gfc 2 0 1.0 0.0"; []] = Ok (1, 4, 4, cs)).
Proof. repeat split; try reflexivity; eexists; reflexivity. Qed.
(** an exponent that is not understood is dropped from the last number of a line *)
Theorem c22_exponent_dropped_refuted : (exists cs, p2 [chars "gfc 2 0 1.0 .5D-09"] = Ok (0, 2, 0, cs) /\ snd (cs 2 0) = (1 / 2)%R) /\
  (exists cs, p1 [chars "gfc 2 0 1.0 .5D03"] = Ok (0, 2, 0, cs) /\ snd (cs 2 0) = (1 / 2)%R).
Proof.
  pose (one := (IZR 10 * pow10 (-1))%R). pose (half := (IZR 5 * pow10 (-1))%R). assert (H : half = (1 / 2)%R) by (unfold half; change (pow10 (-1)) with (/ 10 ^ 1)%R; rewrite pow_1; lra). split.
  - exists (fun n k => if (n =? 2) && (k =? 0) then ((0 + term_v2 gfc one (ex_years 0 (-1000)) 1)%R, (0 + term_v2 gfc half (ex_years 0 (-1000)) 1)%R) else (0%R, 0%R)). split; [reflexivity|].
    cbn [Z.eqb Pos.eqb andb snd]. rewrite H. unfold term_v2. cbn [keyb bR orb]. lra.
  - exists (fun n k => if (n =? 2) && (k =? 0) then ((0 + one)%R, (0 + half)%R) else (0%R, 0%R)). split; [reflexivity|]. cbn [Z.eqb Pos.eqb andb snd]. rewrite H. lra.
Qed.
(** version 2: a date with no time of day at the end of a line; a date that cannot be read before a period *)
Theorem c22_short_date_refuted : p2 [chars "gfct 2 0 1.0 0.0 20000101"] = UB /\ p2 [chars "asin 2 0 1.0 0.0 2000/01/01 20100101.0000 1.0"] = UB.
Proof. split; reflexivity. Qed.
(** version 1: a line of 255 characters *)
Theorem c22_long_line_refuted : p1 [chars "gfc 2 0 1.0 0.0" ++ repeat 32 240] = Abort /\ exists cs, p2 [chars "gfc 2 0 1.0 0.0" ++ repeat 32 240] = Ok (0, 2, 0, cs).
Proof. split; [|eexists]; vm_compute; reflexivity. Qed.

(** an example: a file of each version *)
Definition dv (s : string) : R := match scan_dbl (chars s) with (Some v, _) => v | _ => 0%R end.
Lemma ex_columns line kw v1 r es xs wl wm wc ws s : line = chars kw ++ s -> s <> [] -> at_blank s -> words s [] = wl :: wm :: wc :: ws :: es ++ xs ->
  num scan_i32 v1 wl (rl r) -> num scan_i32 v1 wm (rm r) -> num scan_dbl v1 wc (rC r) -> num scan_dbl v1 ws (rS r) -> Forall (fun w => plain v1 w <> []) es ->
  line_columns scan_dbl v1 line (chars kw) r es xs.
Proof. intros -> N B W. intros. exists s, wl, wm, wc, ws. repeat (split; [first [reflexivity|assumption]|]). split; [rewrite <- W; apply (words_columns s [] (Forall_nil _))|]. tauto. Qed.
Ltac ex_line s es xs := eapply (ex_columns _ _ _ _ es xs _ _ _ _ s); [reflexivity|discriminate|reflexivity|reflexivity|(split; [discriminate|reflexivity])..|repeat constructor; discriminate].
Ltac ex_d2 := match goal with |- date2 _ ?w _ => exists (firstn 4 w), (firstn 2 (skipn 4 w)), (firstn 2 (skipn 6 w)), (firstn 2 (skipn 9 w)), (firstn 2 (skipn 11 w)); do 5 eexists; repeat split; repeat constructor end.
Ltac ex_d1 := match goal with |- date1 _ ?w _ => exists (firstn 4 w), (firstn 2 (skipn 4 w)), (firstn 2 (skipn 6 w)); do 4 eexists; repeat split; repeat constructor end.

Definition ex_file2 : list (list Z) := map chars ["gfc    0    0  1.0  0.0  0.1 0.1"; "gfct   2    1  -.5e-3  1.5 0.1 0.1 20000101.0000 20100101.0000";
  "trnd   2    1  1.0e-10 0.0 0.1 0.1 20000101.0000 20100101.0000"; "asin   2    1  1.0e-11 2.0 0.1 0.1 20000101.0000 20100101.0000 1.0"; "gfct   2    1  7 8 0.1 0.1 20100101.0000 20200101.0000"]%string.
Definition ex_recs2 : list drec := [mkR gfc 0 0 (dv "1.0") (dv "0.0") (-1000) 10000000000 0; mkR gfct 2 1 (dv "-.5e-3") (dv "1.5") (ex_date 2000 1 1 0 0) (ex_date 2010 1 1 0 0) 0;
  mkR trnd 2 1 (dv "1.0e-10") (dv "0.0") (ex_date 2000 1 1 0 0) (ex_date 2010 1 1 0 0) 0; mkR asin 2 1 (dv "1.0e-11") (dv "2.0") (ex_date 2000 1 1 0 0) (ex_date 2010 1 1 0 0) (dv "1.0");
  mkR gfct 2 1 (dv "7") (dv "8") (ex_date 2010 1 1 0 0) (ex_date 2020 1 1 0 0) 0].
Lemma ex_says2 : Forall2 (says2 scan_dbl ex_date (-1000) 10000000000 Formal) ex_file2 ex_recs2.
Proof.
  unfold ex_file2, ex_recs2. cbn [map]. constructor; [|constructor; [|constructor; [|constructor; [|constructor; [|constructor]]]]]; (split; [cbn; lia|]).
  - exists (map chars ["0.1"; "0.1"]%string), []. split; [|split; reflexivity]. ex_line (chars "    0    0  1.0  0.0  0.1 0.1") (map chars ["0.1"; "0.1"]%string) (@nil (list Z)).
  - exists (map chars ["0.1"; "0.1"]%string), (map chars ["20000101.0000"; "20100101.0000"]%string), (chars "20000101.0000"), (chars "20100101.0000"). split; [reflexivity|]. split; [|split; [ex_d2|split; [ex_d2|reflexivity]]].
    ex_line (chars "   2    1  -.5e-3  1.5 0.1 0.1 20000101.0000 20100101.0000") (map chars ["0.1"; "0.1"]%string) (map chars ["20000101.0000"; "20100101.0000"]%string).
  - exists (map chars ["0.1"; "0.1"]%string), (map chars ["20000101.0000"; "20100101.0000"]%string), (chars "20000101.0000"), (chars "20100101.0000"). split; [reflexivity|]. split; [|split; [ex_d2|split; [ex_d2|reflexivity]]].
    ex_line (chars "   2    1  1.0e-10 0.0 0.1 0.1 20000101.0000 20100101.0000") (map chars ["0.1"; "0.1"]%string) (map chars ["20000101.0000"; "20100101.0000"]%string).
  - exists (map chars ["0.1"; "0.1"]%string), (map chars ["20000101.0000"; "20100101.0000"; "1.0"]%string), (chars "20000101.0000"), (chars "20100101.0000"), (chars "1.0"). split; [reflexivity|].
    split; [|split; [ex_d2|split; [ex_d2|split; [split; [discriminate|reflexivity]|reflexivity]]]].
    ex_line (chars "   2    1  1.0e-11 2.0 0.1 0.1 20000101.0000 20100101.0000 1.0") (map chars ["0.1"; "0.1"]%string) (map chars ["20000101.0000"; "20100101.0000"; "1.0"]%string).
  - exists (map chars ["0.1"; "0.1"]%string), (map chars ["20100101.0000"; "20200101.0000"]%string), (chars "20100101.0000"), (chars "20200101.0000"). split; [reflexivity|]. split; [|split; [ex_d2|split; [ex_d2|reflexivity]]].
    ex_line (chars "   2    1  7 8 0.1 0.1 20100101.0000 20200101.0000") (map chars ["0.1"; "0.1"]%string) (map chars ["20100101.0000"; "20200101.0000"]%string).
Qed.
(** at an epoch in 2001 the first four records count *)
Example c22_nonvacuous_2 : Forall2 (says2 scan_dbl ex_date (-1000) 10000000000 Formal) ex_file2 ex_recs2 /\ Forall (fun r => used2 4 4 (ex_date 2001 1 1 0 0) r = true -> triangular r) ex_recs2 /\ map rk (filter (used2 4 4 (ex_date 2001 1 1 0 0)) ex_recs2) = [gfc; gfct; trnd; asin] /\ top_degree (filter (used2 4 4 (ex_date 2001 1 1 0 0)) ex_recs2) = 2.
Proof. split; [exact ex_says2|]. split; [|split; reflexivity]. repeat constructor; cbn; lia. Qed.

Definition ex_file1 : list (list Z) := map chars ["gfc    0    0  1.0  0.0"; "gfct   2    1  -5.0D-4  +1.5 20000101"; "dot    2    1  1.0D-10 0.0"; "acos   2    1  1.0e-11 2.0  +0.5"]%string.
Definition ex_recs1 : list drec := [mkR gfc 0 0 (dv "1.0") (dv "0.0") 0 0 0; mkR gfct 2 1 (dv "-5.0e-4") (dv "1.5") (ex_date 2000 1 1 0 0) 0 0;
  mkR trnd 2 1 (dv "1.0e-10") (dv "0.0") 0 0 0; mkR acos 2 1 (dv "1.0e-11") (dv "2.0") 0 0 (dv "0.5")].
Lemma ex_says1 : Forall2 (says1 scan_dbl ex_date No) ex_file1 ex_recs1.
Proof.
  unfold ex_file1, ex_recs1. cbn [map]. constructor; [|constructor; [|constructor; [|constructor; [|constructor]]]]; (split; [cbn; lia|]).
  - exists [], []. ex_line (chars "    0    0  1.0  0.0") (@nil (list Z)) (@nil (list Z)).
  - exists [], [chars "20000101"], (chars "20000101"). split; [reflexivity|]. split; [|split; [ex_d1|reflexivity]]. ex_line (chars "   2    1  -5.0D-4  +1.5 20000101") (@nil (list Z)) [chars "20000101"].
  - exists [], []. right. ex_line (chars "    2    1  1.0D-10 0.0") (@nil (list Z)) (@nil (list Z)).
  - exists [], [chars "+0.5"], (chars "+0.5"). split; [reflexivity|]. split; [|split; [split; [discriminate|reflexivity]|reflexivity]]. ex_line (chars "   2    1  1.0e-11 2.0  +0.5") (@nil (list Z)) [chars "+0.5"].
Qed.
Example c22_nonvacuous_1 : Forall2 (says1 scan_dbl ex_date No) ex_file1 ex_recs1 /\ Forall (fun r => within 4 4 r = true -> triangular r) ex_recs1 /\ after_gfct None ex_recs1 /\ map rt0 (filter (within 4 4) (dated 0 ex_recs1)) = [0; ex_date 2000 1 1 0 0; ex_date 2000 1 1 0 0; ex_date 2000 1 1 0 0].
Proof. split; [exact ex_says1|]. split; [|split; [cbn; tauto|reflexivity]]. repeat constructor; cbn; lia. Qed.

(** *** C58: the header *)
Theorem c58_header sdbl lines items e rest : word_scanner sdbl -> Forall2 (item_line sdbl) lines items -> Z.of_nat (length lines) <= 1000 ->
  parse_header sdbl (lines ++ (chars "end_of_head" ++ e) :: rest) = Ok (0, fold_left set_item items default_hdr, rest).
Proof. intros. apply header_loop_ok; assumption. Qed.
Print Assumptions c58_header.
(** a file without end_of_head is never accepted *)
Theorem c58_no_end sdbl lines : Forall (fun line => forall t, firstn 255 line <> chars "end_of_head" ++ t) lines ->
  match parse_header sdbl lines with Ok (c, _, rest) => c <> 0 /\ rest = [] | UB => True | _ => False end.
Proof. intros. apply header_loop_no_end; assumption. Qed.
Print Assumptions c58_no_end.
(** the order of different items does not matter, the last of equal ones counts *)
Definition same_kind (a b : item) : bool :=
  match a, b with IProduct _, IProduct _ | IName _, IName _ | IGm _, IGm _ | IRadius _, IRadius _ | IMaxDegree _, IMaxDegree _ | IErrors _, IErrors _ | ITide _, ITide _ | INorm _, INorm _ | IVersion2 _, IVersion2 _ => true | _, _ => false end.
Theorem c58_items h a b : (same_kind a b = true -> set_item (set_item h a) b = set_item h b) /\ (same_kind a b = false -> set_item (set_item h a) b = set_item (set_item h b) a).
Proof. destruct a, b; split; intros E; try discriminate E; reflexivity. Qed.
Print Assumptions c58_items.
(** an argument of 64 characters overruns its array *)
Theorem c58_argument_length_refuted : parse_header scan_dbl [chars "tide_system " ++ repeat 97 64; chars "end_of_head"] = UB /\ parse_header scan_dbl [chars "modelname " ++ repeat 97 128; chars "end_of_head"] = UB /\
  exists h, parse_header scan_dbl [chars "tide_system " ++ repeat 97 63; chars "end_of_head"] = Ok (0, h, []).
Proof. split; [|split; [|eexists]]; vm_compute; reflexivity. Qed.
(** a word that only starts like a keyword is taken for it: a comment refuses the file, another sets the normalisation *)
Theorem c58_prefix_refuted : (exists h, parse_header scan_dbl [chars "radius_of_the_earth as in the reference"; chars "end_of_head"] = Ok (2, h, [])) /\
  (exists h, parse_header scan_dbl [chars "normalised to degree 2"; chars "end_of_head"] = Ok (0, h, []) /\ is_normalized h = false /\ is_normalized default_hdr = true).
Proof. split; [eexists; reflexivity|]. eexists. split; [reflexivity|]. split; reflexivity. Qed.
(** nothing is mandatory; without errors the data cannot be read: the error model was never set *)
Theorem c58_mandatory_refuted : exists h, parse_header scan_dbl [chars "max_degree 2"; chars "end_of_head"; chars "gfc 0 0 1 0"] = Ok (0, h, [chars "gfc 0 0 1 0"]) /\
  herr h = None /\ hgm h = 0%R /\ parse_data scan_dbl ex_date 0 1 ex_years (hv2 h) (herr h) (hmax h) (-1) (-1) 0 [chars "gfc 0 0 1 0"] = UB.
Proof. eexists. split; [reflexivity|]. repeat split. Qed.
(** Windows line ends: the coefficients count as not normalised *)
Theorem c58_carriage_return_refuted : exists h, parse_header scan_dbl [chars "norm fully_normalized" ++ [13]; chars "end_of_head" ++ [13]] = Ok (0, h, []) /\ is_normalized h = false.
Proof. eexists. split; reflexivity. Qed.
Example c58_nonvacuous : exists items, Forall2 (item_line scan_dbl) (map chars ["A model"; "product_type  gravity_field "; "  max_degree  60"; "errors   formal"; "format  icgem2.0"]%string) items /\
  hmax (fold_left set_item items default_hdr) = 60 /\ herr (fold_left set_item items default_hdr) = Some Formal /\ hv2 (fold_left set_item items default_hdr) = true.
Proof.
  exists [IOther; IProduct (chars "gravity_field"); IMaxDegree 60; IErrors Formal; IVersion2 true]. split; [|repeat split]. cbn [map].
  constructor; [|constructor; [|constructor; [|constructor; [|constructor; [|constructor]]]]]; (split; [cbn; lia|]).
  - split; [|intros t; discriminate]. intros kw n t K. cbn [keywords In] in K. repeat (destruct K as [<-|K]; [destruct n; discriminate|]). contradiction.
  - exists (chars "gravity_field "). split; [exists 0%nat, 1%nat; split; [reflexivity|discriminate]|]. exists 1%nat, (chars "gravity_fiel"), 100. repeat split; [discriminate|cbn; lia].
  - exists (chars "60"). split; [exists 2%nat, 1%nat; split; [reflexivity|discriminate]|]. exists (chars "60"), []. repeat split.
  - exists (chars "formal"), []. split; [exists 0%nat, 2%nat; split; [reflexivity|discriminate]|]. repeat split.
  - exists (chars "icgem2.0"), []. split; [exists 0%nat, 1%nat; split; [reflexivity|discriminate]|]. reflexivity.
Qed.
Print Assumptions c22_scanner.
Print Assumptions c22_failure_keeps_caller_refuted.
Print Assumptions c22_order_above_degree_refuted.
Print Assumptions c22_trend_first_refuted.
Print Assumptions c22_empty_line_refuted.
Print Assumptions c22_exponent_dropped_refuted.
Print Assumptions c22_short_date_refuted.
Print Assumptions c22_long_line_refuted.
Print Assumptions c58_argument_length_refuted.
Print Assumptions c58_prefix_refuted.
Print Assumptions c58_mandatory_refuted.
Print Assumptions c58_carriage_return_refuted.
