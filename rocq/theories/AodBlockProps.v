(** Property C66 (data blocks, iteration and tidal files of AOD1B products). *)
From Coq Require Import Ascii String Reals ZArith List Bool Lia.
From Verif Require Import Base CString FromChars Aod1bModel Aod1bSpec Aod1bProofs AodBlockModel AodBlockSpec AodBlockProofs AodBlockProofs2.
Import ListNotations.
Open Scope Z_scope.

(** ** the header is skipped *)
Theorem c66_skip_header : forall hl rest term s, header_lines hl -> ifail s = false -> exists s', skip_header (hl ++ rest) term s = (0, s') /\ at_lines rest term s'.
Proof. exact skip_header_ok. Qed.
Theorem c66_skip_header_sound : forall file term s s', ifail s = false -> skip_header file term s = (0, s') -> exists hl, header_lines hl /\ file = hl ++ ilines s'.
Proof.
  intros file term s s' F E. unfold skip_header, seek0 in E. rewrite F in E. destruct (find_end_sound _ _ _ E) as (pre & e & D & L & B & N & S).
  exists (pre ++ [e]). split; [exists pre, e; auto|]. rewrite <- app_assoc. exact D.
Qed.
(** a stream that has failed is not moved *)
Theorem c66_skip_header_failed : forall file term s, ifail s = true -> fst (skip_header file term s) = 1.
Proof. intros file term s F. unfold skip_header, seek0. rewrite F. reflexivity. Qed.

(** ** lines are skipped *)
Theorem c66_skip_lines : forall ls rest term s, Forall short ls -> at_lines (ls ++ rest) term s ->
  exists s', skip_lines (Z.of_nat (length ls)) s = (0, s') /\ at_lines rest term s'.
Proof.
  intros ls rest term s S A. apply at_lines_pos in A. subst s. exists (pos rest term). split; [apply skip_lines_ok, S|apply at_lines_pos; reflexivity].
Qed.
(** success is also reported when the file ends before the lines do *)
Theorem c66_skip_lines_refuted : forall ls n s, Forall short ls -> at_lines ls true s -> Z.of_nat (length ls) < n -> fst (skip_lines n s) = 0.
Proof.
  intros ls n s S A L. apply at_lines_pos in A. subst s. unfold skip_lines. destruct (Z.eqb_spec n 0); [reflexivity|].
  rewrite skip_loop_few by (try exact S; lia). destruct ls; reflexivity.
Qed.

(** ** block headers *)
Theorem c66_header : forall from_char gps2tt line set n t ty rec, header_line from_char line set n t ty ->
  parse_data_block_header from_char gps2tt line rec = Ok (0, mkH set n (gps2tt t) ty).
Proof. exact header_parse. Qed.
Theorem c66_header_other : forall from_char gps2tt line rec, ~ begins (chars "DATA SET") line -> parse_data_block_header from_char gps2tt line rec = Ok (1, rec).
Proof. exact parse_other. Qed.
(** a line cut behind the set number is read beyond its end *)
Theorem c66_header_cut_refuted : forall from_char gps2tt b1 w1 set rec, blanks b1 -> number w1 set ->
  parse_data_block_header from_char gps2tt (chars "DATA SET" ++ b1 ++ w1) rec = UB.
Proof. exact parse_cut. Qed.
(** with two blanks before COEFFICIENTS the date is looked for in the wrong place, and the exception is not caught *)
Theorem c66_header_blanks_refuted : forall from_char gps2tt b1 w1 set sep b2 w2 n tl rec, blanks b1 -> blanks b2 -> number w1 set -> ~ digit_char sep -> number w2 n ->
  from_char (chars "R " ++ tl) = None ->
  parse_data_block_header from_char gps2tt (chars "DATA SET" ++ b1 ++ w1 ++ sep :: b2 ++ w2 ++ chars "  COEFFICIENTS FOR " ++ tl) rec = Abort.
Proof. exact parse_two_blanks. Qed.

(** ** going to the next block *)
Theorem c66_next : forall from_char gps2tt nds ty pre b post term s rec, Forall (block_ok from_char) (pre ++ b :: post) ->
  Forall (fun b => of_type ty b = false) pre -> of_type ty b = true -> Z.of_nat (length pre) < nds - 1 -> at_lines (body (pre ++ b :: post)) term s ->
  exists s', goto_next_block from_char gps2tt nds ty s rec = Ok (0, s', reported gps2tt b) /\ at_lines (bdata b ++ body post) term s'.
Proof.
  intros from_char gps2tt nds ty pre b post term s rec K F T L A. apply at_lines_pos in A. subst s. exists (pos (bdata b ++ body post) term). split; [|apply at_lines_pos; reflexivity].
  apply Forall_app in K as (K1 & K2). apply Forall_cons_iff in K2 as (K2 & K3). unfold goto_next_block. rewrite body_app. change (body (b :: post)) with (block_lines b ++ body post).
  apply next_of_found; try assumption. lia.
Qed.
Theorem c66_next_end : forall from_char gps2tt nds ty bs term s rec, Forall (block_ok from_char) bs -> Forall (fun b => of_type ty b = false) bs ->
  Z.of_nat (length bs) <= nds - 1 -> at_lines (body bs) term s -> exists s' rec', goto_next_block from_char gps2tt nds ty s rec = Ok (-1, s', rec') /\ ieof s' = true.
Proof.
  intros from_char gps2tt nds ty bs term s rec K F L A. apply at_lines_pos in A. subst s.
  destruct (next_of_end from_char gps2tt ty bs (Z.to_nat (nds - 1)) term rec K F) as (rec' & E); [lia|]. eexists _, rec'. split; [exact E|reflexivity].
Qed.
(** whatever the file: no block of another type is handed out *)
Theorem c66_next_type : forall from_char gps2tt nds ty s rec s' rec', goto_next_block from_char gps2tt nds ty s rec = Ok (0, s', rec') -> mtype rec' = ty.
Proof. intros from_char gps2tt nds ty s rec s' rec'. apply next_of_type. Qed.
(** the variant for any type never succeeds *)
Theorem c66_next_any_refuted : forall from_char gps2tt nds s rec c s' rec', goto_next_block_any from_char gps2tt nds s rec = Ok (c, s', rec') -> c <> 0.
Proof. intros from_char gps2tt nds. apply next_any_never. Qed.

(** ** iteration: every block of the type, in order, and then the end *)
Theorem c66_walk_partial : forall from_char gps2tt EOF nds ty hl bs b hs term it, header_lines hl -> Forall (block_ok from_char) bs -> gaps (nds - 1) ty bs ->
  filter (of_type ty) bs = b :: hs ->
  exists it0 it', set_begin from_char gps2tt (hl ++ body bs) term nds ty it = Ok it0 /\ mheader it0 = reported gps2tt b /\
    walk from_char gps2tt EOF nds ty (skip it0) (map (reported gps2tt) hs) it' /\ is_eof EOF it' = true.
Proof. exact set_begin_ok. Qed.
Theorem c66_walk_collect_partial : forall from_char gps2tt EOF sdbl, word_scanner sdbl -> forall nds ty fd cd co N M cs0 hl bs b0 bs' css it,
  0 <= fd -> limit fd M <= limit fd N <= fd -> limit fd N <= cd -> limit fd M <= co ->
  header_lines hl -> Forall (block_ok from_char) bs -> gaps (nds - 1) ty bs -> filter (of_type ty) bs = b0 :: bs' ->
  Forall2 (block_says sdbl (limit fd N) (limit fd M)) (b0 :: bs') css ->
  exists it0 cs it1 hs it', set_begin from_char gps2tt (hl ++ body bs) true nds ty it = Ok it0 /\
    collect sdbl fd cd co N M cs0 it0 = Ok (0, cs, it1) /\ walk_collect from_char gps2tt EOF sdbl nds ty fd cd co N M cs0 it1 hs it' /\ is_eof EOF it' = true /\
    mheader it0 :: map fst hs = map (reported gps2tt) (b0 :: bs') /\ Forall2 (fun c h => forall l m, h l m = c l m) css (cs :: map snd hs).
Proof. exact begin_collect. Qed.
(** the end is reported at the end of the stream only, and only with the epoch that stands for it *)
Theorem c66_end : forall EOF it, is_eof EOF it = true <-> mepoch (mheader it) = EOF /\ ieof (mfin it) = true.
Proof. intros EOF it. unfold is_eof. rewrite andb_true_iff, Z.eqb_eq. reflexivity. Qed.
Theorem c66_no_block : forall from_char gps2tt nds ty hl bs term it, header_lines hl -> Forall (block_ok from_char) bs -> Forall (fun b => of_type ty b = false) bs ->
  set_begin from_char gps2tt (hl ++ body bs) term nds ty it = Abort.
Proof. exact set_begin_none. Qed.
(** a first block of the type that is the last of the announced data sets is not found; in particular the only block of a file is not *)
Theorem c66_last_set_refuted : forall from_char gps2tt nds ty hl pre b post term it, header_lines hl -> Forall (block_ok from_char) (pre ++ b :: post) ->
  Forall (fun b => of_type ty b = false) pre -> Z.of_nat (length pre) = nds - 1 ->
  set_begin from_char gps2tt (hl ++ body (pre ++ b :: post)) term nds ty it = Abort.
Proof. exact set_begin_late. Qed.

(** ** tidal files *)
Theorem c66_tidal_partial : forall sdbl, word_scanner sdbl -> forall file ces ses fd cd co sd so N M c0 s0, tidal_file sdbl file ces ses -> limit fd M <= limit fd N <= fd ->
  limit fd N <= cd -> limit fd M <= co -> limit fd N <= sd -> limit fd M <= so ->
  exists c s, get_tidal_wave_coeffs sdbl file true fd cd co sd so N M c0 s0 = Ok (0, c, s) /\ cut (limit fd N) (limit fd M) ces c /\ cut (limit fd N) (limit fd M) ses s.
Proof. intros sdbl SD. exact (tidal_result sdbl SD true). Qed.
(** what is accepted has the two blocks, each with as many lines as it announces *)
Theorem c66_tidal_sound_partial : forall sdbl file term fd cd co sd so N M c0 s0 c s, get_tidal_wave_coeffs sdbl file term fd cd co sd so N M c0 s0 = Ok (0, c, s) ->
  exists hl h1 ls1 h2 ls2 n1 n2 p1 p2 extra, file = hl ++ h1 :: ls1 ++ h2 :: ls2 ++ extra /\ header_lines hl /\
    begins (chars "DATA SET 01:") (skip_blanks h1) /\ scan_i32 (skip_blanks (skipn 12 h1)) = (Some n1, p1) /\ begins (chars "COEFFICIENTS OF TYPE cos") (skip_blanks p1) /\ length ls1 = Z.to_nat n1 /\
    begins (chars "DATA SET 02:") (skip_blanks h2) /\ scan_i32 (skip_blanks (skipn 12 h2)) = (Some n2, p2) /\ begins (chars "COEFFICIENTS OF TYPE sin") (skip_blanks p2) /\ length ls2 = Z.to_nat n2 /\
    (extra = [] \/ exists x, extra = [x] /\ term = false).
Proof. exact tidal_sound. Qed.
(** sizes are checked before anything is changed *)
Theorem c66_tidal_sizes : forall sdbl file term fd cd co sd so N M c0 s0, cd < limit fd N \/ co < limit fd M \/ sd < limit fd N \/ so < limit fd M \/ limit fd N < limit fd M \/ fd < limit fd N ->
  get_tidal_wave_coeffs sdbl file term fd cd co sd so N M c0 s0 = Ok (1, c0, s0).
Proof.
  intros sdbl file term fd cd co sd so N M c0 s0 H. unfold get_tidal_wave_coeffs. fold (limit fd N). fold (limit fd M).
  destruct (skip_header file term (mkI file term false false)) as (e, s1). destruct (e =? 0); [|reflexivity]. cbn [negb].
  destruct (Z.ltb_spec (limit fd N) (limit fd M)); [reflexivity|]. destruct (Z.ltb_spec fd (limit fd N)); [reflexivity|].
  destruct (Z.ltb_spec cd (limit fd N)); [reflexivity|]. destruct (Z.ltb_spec co (limit fd M)); [reflexivity|]. destruct (Z.ltb_spec sd (limit fd N)); [reflexivity|]. destruct (Z.ltb_spec so (limit fd M)); [reflexivity|]. lia.
Qed.
(** a complete file without newline at the end is refused *)
Theorem c66_tidal_newline_refuted : forall sdbl, word_scanner sdbl -> forall file ces ses fd cd co sd so N M c0 s0, tidal_file sdbl file ces ses -> limit fd M <= limit fd N <= fd ->
  limit fd N <= cd -> limit fd M <= co -> limit fd N <= sd -> limit fd M <= so ->
  exists c s, get_tidal_wave_coeffs sdbl file false fd cd co sd so N M c0 s0 = Ok (1, c, s).
Proof.
  intros sdbl SD file ces ses fd cd co sd so N M c0 s0 T L1 L2 L3 L4 L5.
  destruct (tidal_result sdbl SD false file ces ses fd cd co sd so N M c0 s0 T L1 L2 L3 L4 L5) as (c & s & E & _). exists c, s. exact E.
Qed.
(** ... but one with a further line, whatever it says, is accepted *)
Theorem c66_tidal_extra_refuted : forall sdbl, word_scanner sdbl -> forall file ces ses x fd cd co sd so N M c0 s0, tidal_file sdbl file ces ses -> short x -> limit fd M <= limit fd N <= fd ->
  limit fd N <= cd -> limit fd M <= co -> limit fd N <= sd -> limit fd M <= so ->
  exists c s, get_tidal_wave_coeffs sdbl (file ++ [x]) false fd cd co sd so N M c0 s0 = Ok (0, c, s).
Proof. intros sdbl SD. exact (tidal_extra sdbl SD). Qed.
(** a file that ends with its header *)
Theorem c66_tidal_empty_refuted : forall sdbl hl term fd cd co sd so N M c0 s0, header_lines hl -> limit fd M <= limit fd N <= fd ->
  limit fd N <= cd -> limit fd M <= co -> limit fd N <= sd -> limit fd M <= so ->
  get_tidal_wave_coeffs sdbl hl term fd cd co sd so N M c0 s0 = UB.
Proof. exact tidal_empty. Qed.
(** a data line that does not begin with a number, or with an order above the degree *)
Theorem c66_tidal_line_refuted : forall sdbl hl h1 bad rest term n fd cd co sd so N M c0 s0, header_lines hl ->
  tidal_header (chars "DATA SET 01:") (chars "COEFFICIENTS OF TYPE cos") h1 n -> 1 <= n -> short bad ->
  limit fd M <= limit fd N <= fd -> limit fd N <= cd -> limit fd M <= co -> limit fd N <= sd -> limit fd M <= so ->
  fst (scan_i32 (skip_blanks bad)) = None \/ (exists l m c s, tidal_coef_line sdbl bad l m c s /\ l <= limit fd N /\ m <= limit fd M /\ ~ 0 <= m <= l) ->
  get_tidal_wave_coeffs sdbl (hl ++ h1 :: bad :: rest) term fd cd co sd so N M c0 s0 = UB.
Proof.
  intros sdbl hl h1 bad rest term n fd cd co sd so N M c0 s0 HL TH NP SB L1 L2 L3 L4 L5 H. apply (tidal_bad_line sdbl hl h1 bad rest term n); try assumption.
  intros cs. destruct H as [H|(l & m & c & s & T & A & B & V)]; [apply tidal_unreadable, H|exact (tidal_line_bad sdbl _ _ bad l m c s cs T A B V)].
Qed.

(** ** examples *)
(** 19 characters, the first of them a digit *)
Definition ex_from_char (s : list Z) : option (Z * list Z) :=
  match s with c :: _ => if is_dig c && Nat.leb 19 (length s) then Some (digits_val (firstn 2 (skipn 11 s)), skipn 19 s) else None | [] => None end.
Definition ex_header := [chars "NUMBER OF DATA SETS      : 4"; chars "END OF HEADER"].
Definition ex_block (set : Z) (line : string) (t : Z) (ty : ctype) : block := mkBlock (chars line) set t ty [chars "   0   0  1.5  0.0"; chars "   1   0 -2.0  0.0"].
Definition ex_blocks := [ex_block 1 "DATA SET 01:   2 COEFFICIENTS FOR 2008-07-03 00:00:00 OF TYPE atm" 0 ATM;
  ex_block 1 "DATA SET 01:   2 COEFFICIENTS FOR 2008-07-03 00:00:00 OF TYPE oba" 0 OBA;
  ex_block 2 "DATA SET 02:   2 COEFFICIENTS FOR 2008-07-03 03:00:00 OF TYPE atm" 3 ATM;
  ex_block 2 "DATA SET 02:   2 COEFFICIENTS FOR 2008-07-03 03:00:00 OF TYPE oba" 3 OBA].
Definition ex_iter := mkIt (mkI [] true false false) (mkH 0 0 0 GLO).
Example c66_header_nonvacuous : Forall (block_ok ex_from_char) ex_blocks /\ header_lines ex_header /\ gaps 3 OBA ex_blocks.
Proof.
  assert (E : forall date t, length date = 19%nat -> match date with c :: _ => is_dig c = true /\ c <> 32 | [] => False end -> digits_val (firstn 2 (skipn 11 date)) = t -> date_text ex_from_char date t).
  { intros date t L D V. destruct date as [|c date]; [destruct D|]. destruct D as (D & N). split; [exists c, date; split; [reflexivity|exact N]|]. intros r.
    unfold ex_from_char. cbn [app]. rewrite D. cbn [andb]. change (c :: date ++ 32 :: r) with ((c :: date) ++ 32 :: r).
    replace (Nat.leb 19 (length ((c :: date) ++ 32 :: r))) with true by (symmetry; apply Nat.leb_le; rewrite app_length; lia).
    f_equal. f_equal; [rewrite <- V, !firstn_skipn_comm, firstn_app; replace (11 + 2 - length (c :: date))%nat with 0%nat by lia; rewrite firstn_O, app_nil_r; reflexivity|].
    rewrite skipn_app, skipn_all2, L by lia. reflexivity. }
  split; [|split].
  - assert (B : forall set sc t hh ty, number sc set -> length sc = 2%nat -> length hh = 2%nat -> digits_val hh = t ->
      header_line ex_from_char (chars "DATA SET " ++ sc ++ chars ":   2 COEFFICIENTS FOR 2008-07-03 " ++ hh ++ chars ":00:00 OF TYPE " ++ tag ty) set 2 t ty).
    { intros set sc t hh ty NS LS LH V. exists [32], sc, 58, [32; 32; 32], [50], [], (chars "2008-07-03 " ++ hh ++ chars ":00:00"), [], [].
      split; [rewrite app_nil_r; cbn [app]; rewrite <- !app_assoc; reflexivity|].
      split; [repeat constructor|]. split; [repeat constructor|]. split; [constructor|]. split; [constructor|]. split; [exact NS|].
      split; [unfold digit_char; lia|]. split; [split; [discriminate|]; split; [repeat (apply Forall_cons; [split; vm_compute; discriminate|]); apply Forall_nil|split; reflexivity]|].
      split; [|unfold short; rewrite !app_length, LS, LH; destruct ty; cbn; lia].
      apply E; [rewrite !app_length, LH; reflexivity|split; [reflexivity|discriminate]|]. destruct hh as [|a [|b [|]]]; try discriminate. exact V. }
    assert (N1 : number (chars "01") 1) by (split; [discriminate|]; split; [repeat (apply Forall_cons; [split; vm_compute; discriminate|]); apply Forall_nil|split; reflexivity]).
    assert (N2 : number (chars "02") 2) by (split; [discriminate|]; split; [repeat (apply Forall_cons; [split; vm_compute; discriminate|]); apply Forall_nil|split; reflexivity]).
    assert (D : Forall short [chars "   0   0  1.5  0.0"; chars "   1   0 -2.0  0.0"]) by (repeat constructor; unfold short; cbn; lia).
    repeat (apply Forall_cons; [split; [|exact D]|]); [exact (B 1 (chars "01") 0 (chars "00") ATM N1 eq_refl eq_refl eq_refl)|exact (B 1 (chars "01") 0 (chars "00") OBA N1 eq_refl eq_refl eq_refl)|
      exact (B 2 (chars "02") 3 (chars "03") ATM N2 eq_refl eq_refl eq_refl)|exact (B 2 (chars "02") 3 (chars "03") OBA N2 eq_refl eq_refl eq_refl)|apply Forall_nil].
  - exists [chars "NUMBER OF DATA SETS      : 4"], (chars "END OF HEADER"). split; [reflexivity|]. split; [cbn; lia|]. split; [exists []; reflexivity|].
    split; [repeat constructor; intros (r & X); discriminate|]. repeat constructor; unfold short; cbn; lia.
  - intros l1 l2 l3 EQ F. destruct l2 as [|a [|b l2]]; [cbn; lia|cbn; lia|]. exfalso.
    apply Forall_cons_iff in F as (FA & F). apply Forall_cons_iff in F as (FB & _).
    destruct l1 as [|x1 [|x2 [|x3 [|x4 l1]]]]; cbn [app] in EQ; injection EQ as; subst; try (destruct l2; discriminate); try discriminate.
    destruct l1; discriminate.
Qed.
Example c66_walk_nonvacuous : exists it0, set_begin ex_from_char (fun t => t + 51) (ex_header ++ body ex_blocks) true 4 OBA ex_iter = Ok it0 /\ mheader it0 = mkH 1 2 51 OBA /\
  exists it1, advance ex_from_char (fun t => t + 51) (-1) 4 OBA (skip it0) = Ok (0, it1) /\ mheader it1 = mkH 2 2 54 OBA /\
  exists it2, advance ex_from_char (fun t => t + 51) (-1) 4 OBA (skip it1) = Ok (-1, it2) /\ is_eof (-1) it2 = true.
Proof. eexists. split; [vm_compute; reflexivity|]. split; [reflexivity|]. eexists. split; [vm_compute; reflexivity|]. split; [reflexivity|]. eexists. split; vm_compute; reflexivity. Qed.
(** the fourth of four announced sets; a file with one block *)
Example c66_last_set_nonvacuous : set_begin ex_from_char (fun t => t) (ex_header ++ body (firstn 1 ex_blocks)) true 1 ATM ex_iter = Abort /\
  set_begin ex_from_char (fun t => t) (ex_header ++ body (firstn 2 ex_blocks)) true 2 OBA ex_iter = Abort.
Proof. split; vm_compute; reflexivity. Qed.
Definition ex_tidal := ex_header ++ [chars "DATA SET 01:   2 COEFFICIENTS OF TYPE cos"; chars "   0   0  1.5  0.0"; chars "   1   0  -2.0  0.0";
  chars "DATA SET 02:   1 COEFFICIENTS OF TYPE sin"; chars "   1   1  4.0  7.5"].
Example c66_tidal_nonvacuous : exists ces ses, tidal_file scan_dbl ex_tidal ces ses /\ length ces = 2%nat /\ length ses = 1%nat.
Proof.
  assert (N1 : number (chars "1") 1) by (split; [discriminate|]; split; [repeat (apply Forall_cons; [split; vm_compute; discriminate|]); apply Forall_nil|split; reflexivity]).
  assert (N2 : number (chars "2") 2) by (split; [discriminate|]; split; [repeat (apply Forall_cons; [split; vm_compute; discriminate|]); apply Forall_nil|split; reflexivity]).
  assert (SO : forall c r, c <> 32 -> solid (c :: r)) by (intros c r H; exists c, r; auto).
  assert (L : forall a b x y : string, forall l m c s, (String.length a < 10)%nat -> (String.length b < 10)%nat -> (String.length x < 10)%nat -> (String.length y < 10)%nat ->
    solid (chars a) -> solid (chars b) -> solid (chars x) -> solid (chars y) ->
    scan_i32 (chars a) = (Some l, []) -> scan_i32 (chars b) = (Some m, []) -> scan_dbl (chars x) = (Some c, []) -> scan_dbl (chars y) = (Some s, []) ->
    tidal_coef_line scan_dbl (chars "   " ++ chars a ++ chars "   " ++ chars b ++ chars "  " ++ chars x ++ chars "  " ++ chars y) l m c s).
  { intros a b x y l m c s LA LB LX LY SA SB SX SY RA RB RX RY. exists [32; 32; 32], (chars a), [32; 32], (chars b), [32], (chars x), [32], (chars y), [].
    split; [rewrite app_nil_r; reflexivity|]. do 4 (split; [repeat constructor|]). repeat (split; [assumption|]). split; [exact I|]. repeat (split; [assumption|]).
    assert (LEN : forall s, length (chars s) = String.length s) by (intros q; unfold chars; rewrite map_length; induction q; cbn; [reflexivity|rewrite IHq; reflexivity]).
    unfold short. rewrite !app_length, !LEN. cbn. lia. }
  assert (T : forall a b c d : string, forall l m, (String.length a < 10)%nat -> (String.length b < 10)%nat -> (String.length c < 10)%nat -> (String.length d < 10)%nat ->
    solid (chars a) -> solid (chars b) -> solid (chars c) -> solid (chars d) -> scan_i32 (chars a) = (Some l, []) -> scan_i32 (chars b) = (Some m, []) ->
    snd (scan_dbl (chars c)) = [] -> snd (scan_dbl (chars d)) = [] -> (exists v, fst (scan_dbl (chars c)) = Some v) -> (exists v, fst (scan_dbl (chars d)) = Some v) ->
    exists x y, tidal_coef_line scan_dbl (chars "   " ++ chars a ++ chars "   " ++ chars b ++ chars "  " ++ chars c ++ chars "  " ++ chars d) l m x y).
  { intros a b c d l m A1 A2 A3 A4 B1 B2 B3 B4 C1 C2 C3 C4 (x & C5) (y & C6). exists x, y. apply L; try assumption;
    [rewrite <- C5, <- C3|rewrite <- C6, <- C4]; apply surjective_pairing. }
  destruct (T "0" "0" "1.5" "0.0" 0 0)%string as (x1 & y1 & T1); try (cbn; lia); try reflexivity; try (apply SO; discriminate); try (eexists; reflexivity).
  destruct (T "1" "0" "-2.0" "0.0" 1 0)%string as (x2 & y2 & T2); try (cbn; lia); try reflexivity; try (apply SO; discriminate); try (eexists; reflexivity).
  destruct (T "1" "1" "4.0" "7.5" 1 1)%string as (x3 & y3 & T3); try (cbn; lia); try reflexivity; try (apply SO; discriminate); try (eexists; reflexivity).
  exists [(0, 0, x1, y1); (1, 0, x2, y2)], [(1, 1, x3, y3)]. split; [|split; reflexivity].
  exists ex_header, (chars "DATA SET 01:   2 COEFFICIENTS OF TYPE cos"), [chars "   0   0  1.5  0.0"; chars "   1   0  -2.0  0.0"],
    (chars "DATA SET 02:   1 COEFFICIENTS OF TYPE sin"), [chars "   1   1  4.0  7.5"].
  split; [reflexivity|]. split.
  { exists [chars "NUMBER OF DATA SETS      : 4"], (chars "END OF HEADER"). split; [reflexivity|]. split; [cbn; lia|]. split; [exists []; reflexivity|].
    split; [apply Forall_cons; [intros (r & X); discriminate|apply Forall_nil]|]. repeat (apply Forall_cons; [unfold short; cbn; lia|]). apply Forall_nil. }
  split. { exists [32; 32; 32], [50], [32], []. split; [reflexivity|]. split; [repeat constructor|]. split; [repeat constructor|]. split; [exact N2|unfold short; cbn; lia]. }
  split. { apply Forall2_cons; [exact T1|]. apply Forall2_cons; [exact T2|]. apply Forall2_nil. }
  split. { exists [32; 32; 32], [49], [32], []. split; [reflexivity|]. split; [repeat constructor|]. split; [repeat constructor|]. split; [exact N1|unfold short; cbn; lia]. }
  split. { apply Forall2_cons; [exact T3|]. apply Forall2_nil. }
  split; repeat (apply Forall_cons; [cbn; lia|]); apply Forall_nil.
Qed.
Print Assumptions c66_skip_header.
Print Assumptions c66_skip_header_sound.
Print Assumptions c66_skip_header_failed.
Print Assumptions c66_skip_lines.
Print Assumptions c66_skip_lines_refuted.
Print Assumptions c66_header.
Print Assumptions c66_header_other.
Print Assumptions c66_header_cut_refuted.
Print Assumptions c66_header_blanks_refuted.
Print Assumptions c66_next.
Print Assumptions c66_next_end.
Print Assumptions c66_next_type.
Print Assumptions c66_next_any_refuted.
Print Assumptions c66_walk_partial.
Print Assumptions c66_walk_collect_partial.
Print Assumptions c66_no_block.
Print Assumptions c66_last_set_refuted.
Print Assumptions c66_tidal_partial.
Print Assumptions c66_tidal_sound_partial.
Print Assumptions c66_tidal_sizes.
Print Assumptions c66_tidal_newline_refuted.
Print Assumptions c66_tidal_extra_refuted.
Print Assumptions c66_tidal_empty_refuted.
Print Assumptions c66_tidal_line_refuted.
Print Assumptions c66_end.
