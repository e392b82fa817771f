(** C35: free core nutation; C61: its coefficient file. *)
From Coq Require Import Ascii String Reals ZArith List Bool Lia Lra Sorted.
From Verif Require Import Base CString FromChars IcgemSpec AtlasSpec GridModel FcnModel FcnSpec FcnProofs FcnProofs2.
Import ListNotations.
Open Scope R_scope.

(** * C35 *)
(** between two neighbouring epochs, both included: amplitudes and uncertainty on the straight line *)
Theorem c35_between v a b t : ascending v -> neighbours v a b -> lt a <= t <= lt b -> 0 <= lsg b ->
  exists r, lambert_fcn t v = Ok r /\ let on f := line (lt a) (lt b) (f a) (f b) t in says r t (on lre) (on lim) (2 * Rabs (on lsg)).
Proof. exact (fcn_between v a b t). Qed.
(** the straight line has the values of the table at its ends and stays between them *)
Theorem c35_line t0 t1 p q : t0 < t1 -> line t0 t1 p q t0 = p /\ line t0 t1 p q t1 = q /\
  forall t lo hi, t0 <= t <= t1 -> lo <= p <= hi -> lo <= q <= hi -> lo <= line t0 t1 p q t <= hi.
Proof. intros L. split; [apply line_at_start; exact L|]. split; [apply line_at_end; exact L|]. intros. apply line_between; auto. Qed.
(** at an epoch of the table: its amplitude and uncertainty *)
Theorem c35_at_epoch v e : ascending v -> In e v -> 0 <= lsg e -> exists r, lambert_fcn (lt e) v = Ok r /\ says r (lt e) (lre e) (lim e) (2 * lsg e).
Proof.
  intros S I G. apply in_split in I as (l & r & ->). destruct r as [|b r].
  - unfold lambert_fcn. rewrite (amplitudes_last _ e (lt e) S); [|exists l; reflexivity|lra]. cbn [bind]. eexists. split; [reflexivity|].
    pose proof (says_extrapolated (lt e) e) as Q. replace (lsg e + 0.3 * (lt e - lt e)) with (lsg e) in Q by lra. exact Q.
  - assert (N : neighbours (l ++ e :: b :: r) e b) by (exists l, r; reflexivity). pose proof (neighbours_earlier _ _ _ S N) as L.
    unfold lambert_fcn. rewrite (amplitudes_between _ e b (lt e) S N) by lra. cbn [bind]. eexists. split; [reflexivity|].
    pose proof (says_interpolated (lt e) e b L) as Q. cbv beta zeta in Q. rewrite !line_at_start in Q by exact L. rewrite Rabs_pos_eq in Q by exact G. exact Q.
Qed.
(** X, Y have the size of the amplitude, at every epoch *)
Theorem c35_size r t a b s : says r t a b s -> xcip r ^ 2 + ycip r ^ 2 = a ^ 2 + b ^ 2.
Proof. intros (E & _). rewrite <- (turned_size a b (phi t)), <- E. reflexivity. Qed.
(** one turn in 430.21 days *)
Theorem c35_period t a b : turned a b (phi (t + 430.21)) = turned a b (phi t).
Proof.
  assert (E : phi (t + 430.21) = phi t - 2 * PI). { unfold phi. generalize 51544.5. intros j. assert (N : 430.21 <> 0) by lra. revert N. generalize 430.21. intros p N. field. exact N. }
  unfold turned. assert (C : cos (phi (t + 430.21)) = cos (phi t)). { rewrite E. replace (phi t) with (phi t - 2 * PI + 2 * INR 1 * PI) at 2 by (cbn; lra). rewrite cos_period. reflexivity. }
  assert (S : sin (phi (t + 430.21)) = sin (phi t)). { rewrite E. replace (phi t) with (phi t - 2 * PI + 2 * INR 1 * PI) at 2 by (cbn; lra). rewrite sin_period. reflexivity. }
  rewrite C, S. reflexivity.
Qed.
(** the phase is 0 at J2000 *)
Theorem c35_phase a b : turned a b (phi 51544.5) = (a, b).
Proof. replace (phi 51544.5) with 0 by (unfold phi; replace (51544.5 - 51544.5) with 0 by lra; unfold Rdiv; ring). unfold turned. rewrite cos_0, sin_0. f_equal; ring. Qed.
(** after the last epoch *)
Theorem c35_after v e t : ascending v -> last v e -> lt e <= t -> exists r, lambert_fcn t v = Ok r /\ says r t (lre e) (lim e) (2 * (lsg e + 0.3 * (t - lt e))).
Proof. intros S L T. unfold lambert_fcn. rewrite (amplitudes_last v e t S L T). cbn [bind]. eexists. split; [reflexivity|apply says_extrapolated]. Qed.
(** before the first epoch *)
Theorem c35_before v e t : ascending v -> first v e -> t < lt e -> exists r, lambert_fcn t v = Ok r /\ says r t (lre e) (lim e) (2 * (lsg e - 0.3 * (lt e - t))).
Proof.
  intros S L T. unfold lambert_fcn. rewrite (amplitudes_first v e t S L T). cbn [bind]. eexists. split; [reflexivity|]. replace (lsg e - 0.3 * (lt e - t)) with (lsg e + 0.3 * (t - lt e)) by lra. apply says_extrapolated.
Qed.
(** uncertainties from the first epoch on are not negative *)
Theorem c35_uncertainty_partial v e t : ascending v -> Forall (fun e => 0 <= lsg e) v -> first v e -> lt e <= t -> exists r, lambert_fcn t v = Ok r /\ 0 <= sxcip r /\ 0 <= sycip r.
Proof.
  intros S F L T. assert (NE : v <> []) by (destruct L as (l & ->); discriminate). destruct (located v t S NE) as [(f & (r & E) & T')|[(a & b & N & T')|(f & La & T')]].
  - destruct L as (r' & E'). rewrite E in E'. injection E' as <- <-. lra.
  - destruct (c35_between v a b t S N ltac:(lra)) as (r & E & Q).
    + destruct N as (l & q & ->). rewrite Forall_forall in F. apply F. apply in_or_app. right. right. left. reflexivity.
    + exists r. split; [exact E|]. destruct Q as (_ & -> & ->). assert (0 <= Rabs (line (lt a) (lt b) (lsg a) (lsg b) t)) by apply Rabs_pos. lra.
  - destruct (c35_after v f t S La T') as (r & E & Q). exists r. split; [exact E|]. destruct Q as (_ & -> & ->).
    assert (0 <= lsg f) by (destruct La as (l & ->); rewrite Forall_forall in F; apply F; apply in_or_app; right; left; reflexivity). lra.
Qed.
(** far before the first epoch they are *)
Theorem c35_uncertainty_refuted v e t : ascending v -> first v e -> 0 <= lsg e -> t < lt e - lsg e / 0.3 -> exists r, lambert_fcn t v = Ok r /\ sxcip r < 0 /\ sycip r < 0.
Proof.
  intros S L G T. assert (0 <= lsg e / 0.3) by (apply Rmult_le_pos; lra). assert (E3 : lsg e / 0.3 * 0.3 = lsg e) by (field; lra).
  destruct (c35_before v e t S L ltac:(lra)) as (r & E & (_ & E1 & E2)). exists r. split; [exact E|]. rewrite E1, E2. lra.
Qed.
(** every epoch has a result, except for an empty table *)
Theorem c35_total v t : ascending v -> v <> [] -> exists r, lambert_fcn t v = Ok r.
Proof.
  intros S NE. unfold lambert_fcn. destruct (located v t S NE) as [(f & L & T)|[(a & b & N & T)|(f & La & T)]];
  [rewrite (amplitudes_first v f t S L T)|rewrite (amplitudes_between v a b t S N T)|rewrite (amplitudes_last v f t S La T)]; eexists; reflexivity.
Qed.
Theorem c35_empty_refuted t : lambert_fcn t [] = UB.
Proof. reflexivity. Qed.
(** the built-in table *)
Lemma table_ascending : StronglySorted (fun a b => (fst (fst (fst a)) < fst (fst (fst b)))%Z) table52c.
Proof. unfold table52c. repeat (constructor; [|repeat (constructor; [reflexivity|]); constructor]). constructor. Qed.
(** any table that is not empty, in any order: the last neighbours that enclose the epoch are used, if there are any; otherwise the last entry, or the first one if all entries are later *)
Theorem c35_any_order v t : v <> [] -> exists r, lambert_fcn t v = Ok r /\
  ((exists a b, latest v t a b /\ let on f := line (lt a) (lt b) (f a) (f b) t in says r t (on lre) (on lim) (2 * Rabs (on lsg))) \/
   ((forall a b, neighbours v a b -> ~ encloses t a b) /\ exists e, says r t (lre e) (lim e) (2 * (lsg e + 0.3 * (t - lt e))) /\ ((last v e /\ lt e <= t) \/ (first v e /\ Forall (fun e => t < lt e) v)))).
Proof.
  intros NE. unfold lambert_fcn. destruct (any_table v t NE) as [(a & b & L & ->)|(N & e & -> & H)]; cbn [bind]; eexists; (split; [reflexivity|]).
  - left. exists a, b. split; [exact L|]. apply says_interpolated. destruct L as (l & q & _ & X & _). destruct X; lra.
  - right. split; [exact N|]. exists e. split; [apply says_extrapolated|exact H].
Qed.
(** X and Y have no jumps, neither have the uncertainties *)
Theorem c35_continuous v : ascending v -> v <> [] -> Forall (fun e => 0 <= lsg e) v -> exists x y s, continuity x /\ continuity y /\ continuity s /\
  forall t, exists r, lambert_fcn t v = Ok r /\ xcip r = x t /\ ycip r = y t /\ sxcip r = s t /\ sycip r = s t.
Proof.
  intros S NE G. exists (fun t => fst (turned (amplitude lre v t) (amplitude lim v t) (phi t))), (fun t => snd (turned (amplitude lre v t) (amplitude lim v t) (phi t))), (uncertainty v).
  pose proof (amplitude_continuous lre v S) as C1. pose proof (amplitude_continuous lim v S) as C2. assert (CP : continuity phi) by (unfold phi; intros x; reg).
  assert (CC : continuity (fun t => cos (phi t))) by (intros x; apply (continuity_pt_comp phi cos); [apply CP|apply continuity_cos]). assert (CS : continuity (fun t => sin (phi t))) by (intros x; apply (continuity_pt_comp phi sin); [apply CP|apply continuity_sin]).
  split; [intros x; cbn; apply continuity_pt_minus; apply continuity_pt_mult; auto|]. split; [intros x; cbn; apply continuity_pt_plus; apply continuity_pt_mult; auto|]. split; [apply uncertainty_continuous; assumption|].
  intros t. destruct (fcn_curve v t S NE) as (r & E & Q). exists r. split; [exact E|]. destruct Q as (E1 & E2 & E3). rewrite <- E1. cbn. auto.
Qed.
(** a table with its rows in disorder *)
Example c35_any_order_nonvacuous : let v := [mkL 100 1 2 3; mkL 300 4 5 6; mkL 200 7 8 9; mkL 400 1 1 1] in latest v 250 (mkL 200 7 8 9) (mkL 400 1 1 1) /\ encloses 250 (mkL 100 1 2 3) (mkL 300 4 5 6).
Proof.
  split; [|unfold encloses; cbn; lra]. exists [mkL 100 1 2 3; mkL 300 4 5 6], []. split; [reflexivity|]. split; [unfold encloses; cbn; lra|]. intros c d ([|? [|]] & ? & E); discriminate E.
Qed.
Theorem c35_table : ascending load_table /\ Forall (fun e => 0 < lsg e) load_table /\ length load_table = 30%nat /\ (exists e, first load_table e /\ lt e = 45700) /\ (exists e, last load_table e /\ lt e = 56293).
Proof.
  split; [|split; [|split; [reflexivity|split]]].
  - unfold load_table. pose proof table_ascending as S. induction S as [|(((m, a), b), s) l S IH F]; cbn [map]; constructor; [exact IH|]. rewrite Forall_map. eapply Forall_impl; [|exact F].
    intros (((m', a'), b'), s') H. cbn in H. unfold earlier. cbn. apply IZR_lt. exact H.
  - unfold load_table. rewrite Forall_map. unfold table52c. repeat (constructor; [cbn; lra|]). constructor.
  - eexists. split; [eexists; reflexivity|reflexivity].
  - eexists (mkL (IZR 56293) (IZR 11342 / 100) (IZR 25650 / 100) (IZR 186 / 100)). split; [|reflexivity]. unfold load_table, last. change table52c with (removelast table52c ++ [(56293, 11342, 25650, 186)%Z])%list. rewrite map_app. eexists. reflexivity.
Qed.
(** with the built-in table: negative uncertainties in 1983 and before *)
Theorem c35_iers_refuted t : t <= 45634 -> exists r, lambert_fcn_iers t = Ok r /\ sxcip r < 0 /\ sycip r < 0.
Proof.
  intros T. destruct c35_table as (S & _). eapply c35_uncertainty_refuted; [exact S|eexists; reflexivity| |]; cbn [lsg lt]; [lra|].
  replace (IZR 1972 / 100 / 0.3) with (19.72 / 0.3) by lra. assert (19.72 / 0.3 < 66) by (apply Rmult_lt_reg_r with 0.3; [lra|]; replace (19.72 / 0.3 * 0.3) with 19.72 by (field; lra); lra). lra.
Qed.
Example c35_nonvacuous : ascending load_table /\ neighbours load_table (mkL 51179 (-4411 / 100) (-1431 / 100) (345 / 100)) (mkL 51544 (521 / 100) (-7487 / 100) (326 / 100)) /\
  line 51179 51544 (-44.11) 5.21 51361.5 = -19.45.
Proof.
  split; [apply c35_table|]. split; [|unfold line; lra]. unfold load_table.
  change table52c with (firstn 15 table52c ++ [(51179, -4411, -1431, 345); (51544, 521, -7487, 326)]%Z ++ skipn 17 table52c)%list. rewrite !map_app. eexists. eexists. reflexivity.
Qed.

(** * C61 the coefficient file *)
Section C61.
  Variable sdbl : list Z -> option R * list Z.
  (** [row_reads]: what the scanner reads from a line; accepted files give the entries of the interval, in order *)
  Theorem c61_reads from to head lines rs old : from <= to -> header head -> Forall2 (row_reads sdbl) lines rs -> Forall (fun r => wanted from to (snd r) -> in_int (snd r)) rs -> (length lines <= 999)%nat ->
    exists s, parse_lambert sdbl from to (Some (head :: lines)) old = Ok (s, 0%Z) /\ selects (wanted from to) (map snd rs) s.
  Proof. exact (parse_ok sdbl from to head lines rs old). Qed.
  Theorem c61_columns from to head lines rs old : word_scanner sdbl -> from <= to -> header head -> Forall2 (row_line sdbl) lines rs -> Forall (fun r => wanted from to (snd r) -> in_int (snd r)) rs -> (length lines <= 999)%nat ->
    exists s, parse_lambert sdbl from to (Some (head :: lines)) old = Ok (s, 0%Z) /\ selects (wanted from to) (map snd rs) s.
  Proof. intros W T H F. apply (parse_ok sdbl from to head lines rs old T H). clear -W F. induction F; constructor; auto. apply row_line_reads; auto. Qed.
  (** success means such a file *)
  Theorem c61_sound from to ls old v : parse_lambert sdbl from to (Some ls) old = Ok (v, 0%Z) ->
    from <= to /\ exists head lines rs, (ls = head :: lines)%list /\ header head /\ (length lines <= 999)%nat /\ Forall2 (row_reads sdbl) lines rs.
  Proof. exact (parse_sound sdbl from to ls old v). Qed.
  (** hence success is exact *)
  Theorem c61_exact from to ls old v : parse_lambert sdbl from to (Some ls) old = Ok (v, 0%Z) -> from <= to -> -2147483649 < from -> to <= 2147483648 ->
    exists head lines rs, (ls = head :: lines)%list /\ Forall2 (row_reads sdbl) lines rs /\ selects (wanted from to) (map snd rs) v.
  Proof.
    intros E T A B. destruct (parse_sound sdbl from to ls old v E) as (_ & head & lines & rs & -> & H & L & F). exists head, lines, rs. split; [reflexivity|]. split; [exact F|].
    destruct (parse_ok sdbl from to head lines rs old T H F) as (s & Q & S); [|exact L|rewrite Q in E; injection E as <-; exact S].
    apply Forall_forall. intros r _ (W1 & W2). split; lra.
  Qed.
  (** the entries of an ascending file can be used for interpolation *)
  Theorem c61_ascending from to (rs : list (R * lcoef)) s : selects (wanted from to) (map snd rs) s -> ascending (map snd rs) -> ascending s.
  Proof. exact (selects_ascending (wanted from to) (map snd rs) s). Qed.
  Theorem c61_refused from to old lines : to < from -> parse_lambert sdbl from to lines old = Ok (old, 5%Z).
  Proof. intros H. unfold parse_lambert. rewrite (proj2 (GridProofs.Rltb_true _ _) H). reflexivity. Qed.
  Theorem c61_no_file from to old : from <= to -> parse_lambert sdbl from to None old = Ok ([], 1%Z) /\ parse_lambert sdbl from to (Some []) old = Ok ([], 1%Z).
  Proof. intros H. unfold parse_lambert. rewrite Rltb_false by exact H. split; reflexivity. Qed.
  (** a complete file of 1000 data lines is refused *)
  Theorem c61_long_file_refuted from to head lines rs old : from <= to -> header head -> Forall2 (row_reads sdbl) lines rs -> (999 < length lines)%nat ->
    forall v, parse_lambert sdbl from to (Some (head :: lines)) old <> Ok (v, 0%Z).
  Proof. intros T H F L v E. destruct (parse_sound sdbl from to _ old v E) as (_ & h & l & r & Q & _ & L' & _). injection Q as <- <-. lia. Qed.
  (** a first line without numbers: the test of the date reads an indeterminate value *)
  Theorem c61_blank_refuted from to head rest old : from <= to -> header head -> sdbl [] = (None, []) -> parse_lambert sdbl from to (Some (head :: [] :: rest)) old = UB.
  Proof.
    intros T H E. unfold parse_lambert. rewrite Rltb_false by exact T. destruct (header_percent head H) as (t & Q). destruct H as (HL & _). rewrite (proj2 (Z.ltb_ge _ _)) by lia. rewrite Q. cbn [Z.eqb Pos.eqb].
    cbn [rows length Z.of_nat Z.ltb Z.compare Z.eqb negb Z.add]. assert (B : AtlasModel.numbers sdbl 5 [] = ([None; None; None; None; None], 5%Z)) by (do 5 (cbn [AtlasModel.numbers skip_blanks]; rewrite E); reflexivity). rewrite B. reflexivity.
  Qed.
  (** an empty line at the end of a good file makes the call fail, after its last entry has been stored twice *)
  Theorem c61_trailing_refuted from to head line r old : from <= to -> header head -> sdbl [] = (None, []) -> row_reads sdbl line r -> wanted from to (snd r) -> in_int (snd r) ->
    parse_lambert sdbl from to (Some [head; line; []]) old = Ok ([snd r; snd r], 3%Z).
  Proof.
    intros T H E (L & N) W I. unfold parse_lambert. rewrite Rltb_false by exact T. destruct (header_percent head H) as (t & Q). destruct H as (HL & _). rewrite (proj2 (Z.ltb_ge _ _)) by lia. rewrite Q. cbn [Z.eqb Pos.eqb].
    pose proof (push_ok from to (fst r) (snd r) [] (fun _ => I)) as P1. pose proof (push_ok from to (fst r) (snd r) [snd r] (fun _ => I)) as P2.
    destruct W as (W1 & W2). rewrite (proj2 (GridProofs.Rleb_true _ _) W1), (proj2 (GridProofs.Rltb_true _ _) W2) in P1, P2. cbn [andb app] in P1, P2.
    cbn [rows]. rewrite (proj2 (Z.ltb_ge 127 _)) by lia. cbn [Z.eqb negb]. change (0 + 1 <? 1000)%Z with true. cbn [negb]. rewrite N. cbn [PoleModel.keep_cells combine map fst snd repeat].
    unfold PoleModel.keep_cells at 1. cbn [combine map fst snd repeat]. rewrite P1. cbn [bind length Z.of_nat Z.ltb Z.compare Z.eqb negb].
    change (0 + 1 + 1 <? 1000)%Z with true. cbn [negb]. assert (B : AtlasModel.numbers sdbl 5 [] = ([None; None; None; None; None], 5%Z)) by (do 5 (cbn [AtlasModel.numbers skip_blanks]; rewrite E); reflexivity). rewrite B.
    cbn [PoleModel.keep_cells combine map fst snd repeat]. unfold PoleModel.keep_cells. cbn [combine map fst snd repeat]. rewrite P2. reflexivity.
  Qed.
End C61.
Theorem c61_scanner : word_scanner scan_dbl /\ scan_dbl [] = (None, []).
Proof. split; [exact scan_dbl_word|reflexivity]. Qed.
Example c61_nonvacuous : let r := (IZR 19840 * pow10 (-1), mkL (IZR 457080 * pow10 (-1)) (- (IZR 22093 * pow10 (-2))) (- (IZR 14719 * pow10 (-2))) (IZR 1022 * pow10 (-2))) in
  header (chars "%           mjd     real     imag    sigma  (all in microas)") /\ row_reads scan_dbl (chars "1984.0  45708.0   -220.93   -147.19     10.22") r /\
  wanted 45000 46000 (snd r) /\ in_int (snd r) /\ lt (snd r) = 45708.
Proof.
  intros r. split; [|split; [|]].
  - split; [cbn; lia|]. exists O. eexists. reflexivity.
  - split; [cbn; lia|reflexivity].
  - assert (E : lt (snd r) = 45708) by (unfold r; cbn [lt snd]; unfold pow10, powerRZ; change (Pos.to_nat 1) with 1%nat; rewrite pow_1; lra). unfold wanted, in_int. rewrite E. split; [lra|]. split; [lra|reflexivity].
Qed.
Print Assumptions c35_between.
Print Assumptions c35_line.
Print Assumptions c35_at_epoch.
Print Assumptions c35_size.
Print Assumptions c35_period.
Print Assumptions c35_phase.
Print Assumptions c35_after.
Print Assumptions c35_before.
Print Assumptions c35_uncertainty_partial.
Print Assumptions c35_uncertainty_refuted.
Print Assumptions c35_total.
Print Assumptions c35_empty_refuted.
Print Assumptions c35_table.
Print Assumptions c35_iers_refuted.
Print Assumptions c61_reads.
Print Assumptions c61_columns.
Print Assumptions c61_sound.
Print Assumptions c61_exact.
Print Assumptions c61_ascending.
Print Assumptions c61_refused.
Print Assumptions c61_no_file.
Print Assumptions c61_long_file_refuted.
Print Assumptions c61_blank_refuted.
Print Assumptions c61_trailing_refuted.
Print Assumptions c61_scanner.
Print Assumptions c35_any_order.
Print Assumptions c35_continuous.
