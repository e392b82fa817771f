(** C67: header of AOD1B files. *)
From Coq Require Import Ascii String Reals ZArith List Bool Lia Lra.
From Verif Require Import Base CString FromChars AodBlockModel AodBlockSpec AodHeadModel AodHeadSpec AodHeadProofs AodHeadProofs2.
Import ListNotations.
Open Scope Z_scope.

Section Props.
  Variable W : Type.
  Variable find_wave_entry : list Z -> option W.
  Variable from_char : list Z -> option Z.
  Variable gps2tt : Z -> Z.
  Variable year_start : Z -> Z.
  Variable sdbl : list Z -> option R * list Z.
  Hypothesis sdbl_word : word_scanner sdbl.
  Notation read_header := (read_header W find_wave_entry from_char gps2tt year_start sdbl).
  Notation says := (says W find_wave_entry from_char sdbl).
  Notation header := (header W find_wave_entry from_char sdbl).
  Notation opening := (opening W find_wave_entry from_char gps2tt sdbl).
  Notation construct := (construct W find_wave_entry from_char gps2tt year_start sdbl).
  Notation head := (head W).

  (** a well-formed header is accepted, and every value is the one stated last, dates in TT *)
  Theorem c67_values hl items rest h : header hl items -> texts_within W room items -> length (charArena W h) = 80%nat -> consistent W gps2tt (time_epoch W h) items ->
    exists h', read_header (hl ++ rest) true h = Ok (0, h') /\
      (forall f, get_num W f h' = last_of W (num_of W f) items (get_num W f h)) /\
      (forall f, get_flag W f h' = last_of W (flag_of W f) items (get_flag W f h)) /\
      (forall f, get_real W f h' = last_of W (real_of W f) items (get_real W f h)) /\
      time_epoch W h' = last_of W (epoch_of W gps2tt) items (time_epoch W h) /\
      (forall w, get_time W w h' = last_of W (time_of W gps2tt year_start w) items (get_time W w h)) /\
      mwave W h' = last_of W (tide_of W) items (mwave W h).
  Proof.
    intros H R A C. eexists. split; [rewrite (header_ok W find_wave_entry from_char gps2tt year_start sdbl sdbl_word hl items h rest true H R A C); destruct rest; reflexivity|].
    refine (conj _ (conj _ (conj _ (conj _ (conj _ _))))); intros; [apply run_num|apply run_flag|apply run_real|apply run_epoch|apply run_time|apply run_tide].
  Qed.
  (** the same for a file whose last line is not ended, if something follows the header *)
  Theorem c67_values_unterminated hl items l rest h : header hl items -> texts_within W room items -> length (charArena W h) = 80%nat -> consistent W gps2tt (time_epoch W h) items ->
    read_header (hl ++ l :: rest) false h = read_header (hl ++ l :: rest) true h.
  Proof. intros H R A C. rewrite !(header_ok W find_wave_entry from_char gps2tt year_start sdbl sdbl_word hl items h (l :: rest) _ H R A C). reflexivity. Qed.

  (** the constructor: also the texts, if they fit and are stated at most once *)
  Theorem c67_construct disk fn hl items rest h : disk fn = Some (hl ++ rest, true) -> header hl items -> texts_within W width items -> consistent W gps2tt (time_epoch W h) items ->
    (forall f, once W f items) ->
    exists o, construct disk fn h = Ok o /\ mfn W o = fn /\
      (forall f, get_text W f (hd W o) = Ok (last_of W (text_of W f) items [])) /\
      (forall f, get_num W f (hd W o) = last_of W (num_of W f) items (get_num W f h)) /\
      (forall f, get_flag W f (hd W o) = last_of W (flag_of W f) items (get_flag W f h)) /\
      (forall f, get_real W f (hd W o) = last_of W (real_of W f) items (get_real W f h)) /\
      time_epoch W (hd W o) = last_of W (epoch_of W gps2tt) items (time_epoch W h) /\
      (forall w, get_time W w (hd W o) = last_of W (time_of W gps2tt year_start w) items (get_time W w h)) /\
      mwave W (hd W o) = last_of W (tide_of W) items (mwave W h).
  Proof.
    intros D H R C O. unfold AodHeadModel.construct. rewrite D. set (h0 := set_arena W (repeat 0 80) h).
    rewrite (header_ok W find_wave_entry from_char gps2tt year_start sdbl sdbl_word hl items h0 rest true H); [|apply room_fits, within_fits, R|apply repeat_length|exact C].
    cbn [bind]. replace (if match rest with [] => true | _ :: _ => true end then 0 else 1) with 0 by (destruct rest; reflexivity). cbn [Z.eqb].
    eexists. split; [reflexivity|]. cbn [mfn hd]. split; [reflexivity|]. split.
    - intros f. destruct H as (pre & e & -> & F & _). exact (run_text W find_wave_entry from_char gps2tt year_start sdbl f items pre h0 eq_refl F R (O f)).
    - refine (conj _ (conj _ (conj _ (conj _ (conj _ _))))); intros.
      + rewrite run_num. destruct f; reflexivity.
      + rewrite run_flag. destruct f; reflexivity.
      + rewrite run_real. destruct f; reflexivity.
      + rewrite run_epoch. reflexivity.
      + rewrite run_time. destruct w; reflexivity.
      + rewrite run_tide. reflexivity.
  Qed.
  Theorem c67_construct_missing disk fn h : disk fn = None -> construct disk fn h = Abort.
  Proof. intros D. unfold AodHeadModel.construct. rewrite D. reflexivity. Qed.

  (** ** refused *)
  Theorem c67_accepted file term h h' : read_header file term h = Ok (0, h') -> exists pre e rest, file = pre ++ e :: rest /\ (length pre < 99)%nat /\
    begins end_label e /\ Forall known pre /\ Forall short (pre ++ [e]) /\ (rest <> [] \/ term = true).
  Proof. apply header_sound. Qed.
  Theorem c67_code file term h e h' : read_header file term h = Ok (e, h') -> e = 0 \/ e = 1.
  Proof. apply read_code. Qed.
  Theorem c67_date_disagrees h pre items o ns t line tl term : opening h pre items -> says (Obs o ns t) line -> short line ->
    gps2tt t <> last_of W (epoch_of W gps2tt) items (time_epoch W h) + ns -> exists h', read_header (pre ++ line :: tl) term h = Ok (1, h').
  Proof.
    intros P S SL N. rewrite <- (run_epoch W gps2tt year_start items h) in N.
    destruct (step_mismatch W find_wave_entry from_char gps2tt year_start sdbl sdbl_word o ns t line _ S N) as (h' & E). exists h'.
    exact (bad_line W find_wave_entry from_char gps2tt year_start sdbl sdbl_word h pre items line tl term _ P SL E).
  Qed.
  Theorem c67_unknown_line h pre items line tl term : opening h pre items -> short line -> (forall lab, In lab (end_label :: value_labels ++ other_labels) -> ~ begins lab line) ->
    exists h', read_header (pre ++ line :: tl) term h = Ok (1, h').
  Proof.
    intros P SL N. eexists.
    exact (bad_line W find_wave_entry from_char gps2tt year_start sdbl sdbl_word h pre items line tl term _ P SL (unknown_refuse W find_wave_entry from_char gps2tt year_start sdbl line _ N) ltac:(discriminate)).
  Qed.
  Theorem c67_bad_number h pre items f line v u tl term : opening h pre items -> short line -> labelled (num_label f) line v -> unblank v -> scan_i32 v = (None, u) ->
    exists h', read_header (pre ++ line :: tl) term h = Ok (1, h').
  Proof.
    intros P SL T U E. eexists.
    exact (bad_line W find_wave_entry from_char gps2tt year_start sdbl sdbl_word h pre items line tl term _ P SL (num_refuse W find_wave_entry from_char gps2tt year_start sdbl f line v u _ T U E) ltac:(discriminate)).
  Qed.
  Theorem c67_bad_flag h pre items f line s tl term : opening h pre items -> short line -> says_text (flag_label f) line s -> length s <> 2%nat -> length s <> 3%nat ->
    exists h', read_header (pre ++ line :: tl) term h = Ok (1, h').
  Proof.
    intros P SL T N2 N3. eexists.
    exact (bad_line W find_wave_entry from_char gps2tt year_start sdbl sdbl_word h pre items line tl term _ P SL (flag_refuse W find_wave_entry from_char gps2tt year_start sdbl f line s _ T N2 N3) ltac:(discriminate)).
  Qed.
  Theorem c67_no_end h pre items term : opening h pre items -> exists h', read_header pre term h = Ok (1, h').
  Proof.
    intros P. destruct pre as [|l pre]; [exists h; apply empty_file|].
    exact (ex_intro _ _ (no_end W find_wave_entry from_char gps2tt year_start sdbl sdbl_word h (l :: pre) items term P ltac:(discriminate))).
  Qed.

  (** ** copies *)
  Theorem c67_copy raw b : length (charArena W raw) = 80%nat -> length (charArena W (hd W b)) = 80%nat -> copy W raw b = b.
  Proof. intros A B. unfold copy. rewrite (copy_members_same W _ _ A B). destruct b; reflexivity. Qed.
  Theorem c67_assign a b : length (charArena W (hd W a)) = 80%nat -> length (charArena W (hd W b)) = 80%nat -> assign W false a b = b /\ assign W true a a = a.
  Proof. intros A B. unfold assign. rewrite (copy_members_same W _ _ A B). destruct b; split; reflexivity. Qed.
  (** the source of a move keeps its header and loses its name *)
  Theorem c67_move raw b : length (charArena W raw) = 80%nat -> length (charArena W (hd W b)) = 80%nat -> move W raw b = (b, mkAod W [] (hd W b)).
  Proof. intros A B. unfold move. rewrite (copy_members_same W _ _ A B). destruct b; reflexivity. Qed.
  Theorem c67_move_assign a b : length (charArena W (hd W a)) = 80%nat -> length (charArena W (hd W b)) = 80%nat ->
    move_assign W false a b = (b, mkAod W [] (hd W b)) /\ move_assign W true a a = (a, a).
  Proof. intros A B. unfold move_assign. rewrite (copy_members_same W _ _ A B). destruct b; split; reflexivity. Qed.

  (** ** faults *)
  Theorem c67_colon_missing_refuted h pre items lab r tl term : opening h pre items -> In lab value_labels -> no_colon r -> short (lab ++ r) ->
    read_header (pre ++ (lab ++ r) :: tl) term h = UB.
  Proof.
    intros P I N SL. exact (bad_line W find_wave_entry from_char gps2tt year_start sdbl sdbl_word h pre items _ tl term UB P SL (no_colon_fault W find_wave_entry from_char gps2tt year_start sdbl lab r _ I N)).
  Qed.
  Theorem c67_blank_text_refuted h pre items f lab fill b tl term : opening h pre items -> In lab (text_labels f) -> blanks b -> b <> [] -> short (lab ++ fill ++ 58 :: b) ->
    read_header (pre ++ (lab ++ fill ++ 58 :: b) :: tl) term h = UB.
  Proof.
    intros P I B N SL. exact (bad_line W find_wave_entry from_char gps2tt year_start sdbl sdbl_word h pre items _ tl term UB P SL (blank_fault W find_wave_entry from_char gps2tt year_start sdbl f lab fill b _ I B N)).
  Qed.
  Theorem c67_long_text_refuted h pre items f s line tl term : opening h pre items -> says (Text f s) line -> short line -> (room f < length s)%nat ->
    read_header (pre ++ line :: tl) term h = UB.
  Proof.
    intros P S SL N. exact (bad_line W find_wave_entry from_char gps2tt year_start sdbl sdbl_word h pre items _ tl term UB P SL
      (long_fault W find_wave_entry from_char gps2tt year_start sdbl f s line _ S (opening_arena W find_wave_entry from_char gps2tt year_start sdbl h pre items P) N)).
  Qed.
  Theorem c67_agency_spills_refuted line s e rest h : says (Text Agency s) line -> short line -> begins end_label e -> short e -> (20 < length s < 80)%nat -> charArena W h = repeat 0 80 ->
    exists h', read_header (line :: e :: rest) true h = Ok (0, h') /\ get_text W Satellite h' = Ok (skipn 20 s).
  Proof. exact (long_agency W find_wave_entry from_char gps2tt year_start sdbl sdbl_word line s e rest h). Qed.
  Theorem c67_text_twice_refuted l1 l2 s1 s2 e rest h : says (Text Agency s1) l1 -> says (Text Agency s2) l2 -> short l1 -> short l2 -> begins end_label e -> short e ->
    (length s2 < length s1 <= 19)%nat -> charArena W h = repeat 0 80 ->
    exists h', read_header (l1 :: l2 :: e :: rest) true h = Ok (0, h') /\ get_text W Agency h' = Ok (s2 ++ skipn (length s2) s1).
  Proof. exact (twice_agency W find_wave_entry from_char gps2tt year_start sdbl sdbl_word l1 l2 s1 s2 e rest h). Qed.
  Theorem c67_radius_column_refuted h pre items fill v tl term : opening h pre items -> no_colon v -> (length fill < 8)%nat -> short (real_label Radius ++ fill ++ 58 :: v) ->
    read_header (pre ++ (real_label Radius ++ fill ++ 58 :: v) :: tl) term h = UB.
  Proof.
    intros P N L SL. exact (bad_line W find_wave_entry from_char gps2tt year_start sdbl sdbl_word h pre items _ tl term UB P SL (radius_fault W find_wave_entry from_char gps2tt year_start sdbl fill v _ N L)).
  Qed.
  Theorem c67_wave_refuted h pre items s line tl term : opening h pre items -> says_text tide_label line s -> short line -> (7 < length s)%nat \/ find_wave_entry s = None ->
    read_header (pre ++ line :: tl) term h = UB.
  Proof.
    intros P S SL D. exact (bad_line W find_wave_entry from_char gps2tt year_start sdbl sdbl_word h pre items _ tl term UB P SL (tide_fault W find_wave_entry from_char gps2tt year_start sdbl line s _ S D)).
  Qed.
  Theorem c67_seconds_refuted h pre items o line v u tl term : opening h pre items -> labelled (obs_label o) line v -> unblank v -> sdbl v = (None, u) -> short line ->
    read_header (pre ++ line :: tl) term h = UB.
  Proof.
    intros P T U E SL. exact (bad_line W find_wave_entry from_char gps2tt year_start sdbl sdbl_word h pre items _ tl term UB P SL (obs_number_fault W find_wave_entry from_char gps2tt year_start sdbl o line v u _ T U E)).
  Qed.
  Theorem c67_date_missing_refuted h pre items o line w x g tl term : opening h pre items -> labelled (obs_label o) line (w ++ g) -> word w -> sdbl w = (Some x, []) -> at_blank g ->
    Forall (fun c => ~ digit_char c) g -> short line -> read_header (pre ++ line :: tl) term h = UB.
  Proof.
    intros P T WW E A F SL. exact (bad_line W find_wave_entry from_char gps2tt year_start sdbl sdbl_word h pre items _ tl term UB P SL
      (obs_date_fault W find_wave_entry from_char gps2tt year_start sdbl sdbl_word o line w x g _ T WW E A F)).
  Qed.
  Theorem c67_year_refuted h pre items o line v u tl term : opening h pre items -> labelled (year_label o) line v -> unblank v -> scan_i32 v = (None, u) -> short line ->
    read_header (pre ++ line :: tl) term h = UB.
  Proof.
    intros P T U E SL. exact (bad_line W find_wave_entry from_char gps2tt year_start sdbl sdbl_word h pre items _ tl term UB P SL (year_fault W find_wave_entry from_char gps2tt year_start sdbl o line v u _ T U E)).
  Qed.
  Theorem c67_epoch_refuted h pre items line d tl term : opening h pre items -> labelled epoch_label line d -> solid d -> from_char d = None -> short line ->
    read_header (pre ++ line :: tl) term h = Abort.
  Proof.
    intros P T S E SL. exact (bad_line W find_wave_entry from_char gps2tt year_start sdbl sdbl_word h pre items _ tl term Abort P SL (epoch_fault W find_wave_entry from_char gps2tt year_start sdbl line d _ T S E)).
  Qed.
  Theorem c67_flag_refuted h pre items f line s tl term : opening h pre items -> says_text (flag_label f) line s -> length s = 2%nat \/ length s = 3%nat -> s <> chars "YES" -> s <> chars "NO" -> short line ->
    read_header (pre ++ line :: tl) term h = Abort.
  Proof.
    intros P T D N1 N2 SL. exact (bad_line W find_wave_entry from_char gps2tt year_start sdbl sdbl_word h pre items _ tl term Abort P SL (flag_abort W find_wave_entry from_char gps2tt year_start sdbl f line s _ T D N1 N2)).
  Qed.
  (** nothing but the end: accepted, and nothing is set *)
  Theorem c67_bare_header_refuted e rest h : begins end_label e -> short e -> read_header (e :: rest) true h = Ok (0, h).
  Proof. apply bare_header. Qed.
  (** a header at the very end of a file without a final newline is refused *)
  Theorem c67_end_unterminated_refuted hl items h : header hl items -> texts_within W room items -> length (charArena W h) = 80%nat -> consistent W gps2tt (time_epoch W h) items ->
    exists h', read_header hl false h = Ok (1, h').
  Proof.
    intros H R A C. pose proof (header_ok W find_wave_entry from_char gps2tt year_start sdbl sdbl_word hl items h [] false H R A C) as E. rewrite app_nil_r in E. exact (ex_intro _ _ E).
  Qed.
End Props.

(** ** a concrete header *)
Definition ex_wave (s : list Z) : option Z := if list_eq_dec Z.eq_dec s (chars "M2") then Some 255555 else None.
Definition ex_date (s : list Z) : option Z :=
  if starts (chars "2000-01-01 12:00:00") s then Some 0 else if starts (chars "2000-01-01 13:00:00") s then Some 3600000000000 else None.
Definition ex_tt (t : Z) : Z := t + 51184000000.
Definition ex_year (y : Z) : Z := (y - 2000) * 31557600000000000.
Definition ex_hour : R := (IZR 3600 * pow10 0)%R.
Definition ex_radius : R := (IZR 63781366 * pow10 (-1))%R.
Definition ex_lines : list (list Z) :=
  [chars "PRODUCER AGENCY               : GFZ";
   chars "PRODUCER INSTITUTION          : GFZ POTSDAM";
   chars "FILE TYPE ipAOD1BF            : 999";
   chars "SATELLITE NAME                : GRACE  ";
   chars "TIME EPOCH (GPS TIME)         : 2000-01-01 12:00:00";
   chars "TIME FIRST OBS(SEC PAST EPOCH): 3600 (2000-01-01 13:00:00)";
   chars "TIME LAST OBS (YEAR END)      : 2024";
   chars "COEFF. NORMALIZED (YES/NO)    : YES";
   chars "CONSTANT A [M]                : 6378136.6";
   chars "PARTIAL TIDE                  : M2";
   chars "END OF HEADER"].
Definition ex_items : list (item Z) :=
  [Text Agency (chars "GFZ"); Other; Num FileType 999; Text Satellite (chars "GRACE"); Epoch 0; Obs First 3600000000000 3600000000000; YearOf Last 2024;
   Flag Normalized true; Real Radius ex_radius; Tide 255555].
Ltac trim := refine (conj _ (conj _ (conj _ _))); [eexists _, _; split; [reflexivity|discriminate]|eexists _, _; split; [reflexivity|discriminate]|..]; repeat (apply Forall_cons; [discriminate|]); apply Forall_nil.
Ltac allb := repeat (apply Forall_cons; [reflexivity|]); apply Forall_nil.
Ltac noc := repeat (apply Forall_cons; [discriminate|]); apply Forall_nil.
Ltac dig := repeat (apply Forall_cons; [vm_compute; split; discriminate|]); apply Forall_nil.
Example ex_header : header Z ex_wave ex_date scan_dbl ex_lines ex_items.
Proof.
  exists (removelast ex_lines), (chars "END OF HEADER"). refine (conj eq_refl (conj _ (conj _ (conj _ _)))).
  - unfold ex_items. apply Forall2_cons; [|apply Forall2_cons; [|apply Forall2_cons; [|apply Forall2_cons; [|apply Forall2_cons; [|apply Forall2_cons; [|apply Forall2_cons; [|apply Forall2_cons; [|apply Forall2_cons; [|apply Forall2_cons; [|apply Forall2_nil]]]]]]]]]].
    + exists (chars "PRODUCER AGENCY"). split; [left; reflexivity|]. exists []. split; [|split; [trim|apply Forall_nil]]. exists (chars "               "), [32]. split; [reflexivity|]. split; [noc|allb].
    + exists (chars "PRODUCER INSTITUTION"). split; [left; reflexivity|]. eexists. reflexivity.
    + exists (chars "999"), []. split; [exists (chars "            "), [32]; split; [reflexivity|split; [noc|allb]]|]. split; [|exact I]. refine (conj _ (conj _ (conj eq_refl _))); [discriminate|dig|reflexivity].
    + exists (chars "SATELLITE NAME"). split; [left; reflexivity|]. exists [32; 32]. split; [|split; [trim|allb]]. exists (chars "                "), [32]. split; [reflexivity|]. split; [noc|allb].
    + exists (chars "2000-01-01 12:00:00"). split; [exists (chars "         "), [32]; split; [reflexivity|split; [noc|allb]]|]. split; [eexists _, _; split; [reflexivity|discriminate]|reflexivity].
    + exists (chars "3600"), ex_hour, [32; 40], 50, (chars "000-01-01 13:00:00)"). split; [exists [], [32]; split; [reflexivity|split; [noc|allb]]|].
      split; [split; [discriminate|noc]|]. split; [reflexivity|]. split; [unfold ex_hour, pow10; cbn [powerRZ]; lra|]. split; [reflexivity|]. split; [reflexivity|]. split; [discriminate|].
      split; [repeat (apply Forall_cons; [split; [reflexivity|unfold digit_char; lia]|]); apply Forall_nil|]. split; [unfold digit_char; lia|reflexivity].
    + exists (chars "2024"), []. split; [exists (chars "      "), [32]; split; [reflexivity|split; [noc|allb]]|]. split; [|exact I]. refine (conj _ (conj _ (conj eq_refl _))); [discriminate|dig|reflexivity].
    + exists []. split; [|split; [trim|apply Forall_nil]]. exists (chars "    "), [32]. split; [reflexivity|]. split; [noc|allb].
    + exists (chars "6378136.6"), [], (chars "                "), [32]. split; [reflexivity|]. split; [noc|]. split; [allb|]. split; [cbn; lia|]. split; [split; [discriminate|noc]|]. split; [exact I|reflexivity].
    + exists (chars "M2"). split; [|split; [cbn; lia|reflexivity]]. exists []. split; [|split; [trim|apply Forall_nil]]. exists (chars "                  "), [32]. split; [reflexivity|]. split; [noc|allb].
  - exists []. reflexivity.
  - unfold short. repeat (apply Forall_cons; [cbn; lia|]). apply Forall_nil.
  - cbn; lia.
Qed.
Definition ex_head : head Z := mkHead Z (repeat 0 80) 0 0 0 0 0 0 0 0%R 0%R 0%R 0%R 0 7 7 7 0.
Example ex_consistent : consistent Z ex_tt (time_epoch Z ex_head) ex_items.
Proof. cbn. repeat split. Qed.
Example ex_within : texts_within Z width ex_items.
Proof.
  intros f s I. unfold ex_items in I. repeat (destruct I as [I|I]; [try discriminate I; injection I as <- <-; cbn; lia|]). destruct I.
Qed.
Lemma ex_tl {A} (l : list A) : forall m, tl (skipn m l) = skipn (Datatypes.S m) l.
Proof. induction l as [|x l IH]; intros [|m]; try reflexivity. exact (IH m). Qed.
Example ex_once f : once Z f ex_items.
Proof.
  intros a b c i j E.
  assert (forall l k, ex_items = a ++ l -> (length a = k)%nat -> l = skipn k ex_items) as H.
  { intros l k -> <-. rewrite skipn_app, skipn_all, Nat.sub_diag. reflexivity. }
  destruct (text_of Z f i) as [u|] eqn:Ti; [|left; reflexivity]. right. destruct (text_of Z f j) as [v|] eqn:Tj; [|reflexivity]. exfalso.
  pose proof (H _ _ E eq_refl) as E2. 
  assert (K : forall (l : list (item Z)) m, i :: b ++ j :: c = skipn m ex_items -> (m < 10)%nat -> False).
  { intros _ m X M. assert (I : In j (skipn (Datatypes.S m) ex_items)).
    { replace (skipn (Datatypes.S m) ex_items) with (b ++ j :: c); [apply in_or_app; right; left; reflexivity|].
      change (b ++ j :: c) with (tl (i :: b ++ j :: c)). rewrite X. apply ex_tl. }
    do 10 (destruct m as [|m]; [cbn in X; injection X as -> _; destruct f; try discriminate Ti; cbn in I; repeat (destruct I as [<-|I]; [discriminate Tj|]); destruct I|]). lia. }
  apply (K [] (length a) E2). apply (f_equal (@length _)) in E. change (length ex_items) with 10%nat in E. rewrite !app_length in E. cbn [length] in E. rewrite app_length in E. cbn [length] in E. lia.
Qed.
Example c67_values_nonvacuous : exists h', read_header Z ex_wave ex_date ex_tt ex_year scan_dbl (ex_lines ++ [chars "DATA SET 01"]) true ex_head = Ok (0, h') /\
  file_type Z h' = 999 /\ mwave Z h' = 255555 /\ cRe Z h' = 6378136.6%R /\ first_epoch Z h' = 3651184000000 /\ coeff_normalized Z h' = 1 /\
  get_text Z Agency h' = Ok (chars "GFZ") /\ get_text Z Satellite h' = Ok (chars "GRACE") /\ get_text Z Sensor h' = Ok [].
Proof.
  eexists. split.
  - apply (header_ok Z ex_wave ex_date ex_tt ex_year scan_dbl scan_dbl_word ex_lines ex_items ex_head [chars "DATA SET 01"] true ex_header); [|reflexivity|exact ex_consistent].
    apply room_fits, within_fits, ex_within.
  - refine (conj eq_refl (conj eq_refl (conj _ (conj eq_refl (conj eq_refl (conj _ (conj _ _))))))).
    + change (ex_radius = 6378136.6%R). unfold ex_radius, pow10. replace (powerRZ 10 (-1)) with (1 / 10)%R by (unfold powerRZ; simpl; field). lra.
    + vm_compute. reflexivity.
    + vm_compute. reflexivity.
    + vm_compute. reflexivity.
Qed.
Example c67_construct_nonvacuous : exists o, construct Z ex_wave ex_date ex_tt ex_year scan_dbl (fun _ => Some (ex_lines ++ [chars "DATA SET 01"], true)) (chars "f.asc") ex_head = Ok o /\
  get_text Z Agency (hd Z o) = Ok (chars "GFZ") /\ get_num Z FileType (hd Z o) = 999.
Proof.
  destruct (c67_construct Z ex_wave ex_date ex_tt ex_year scan_dbl scan_dbl_word (fun _ => Some (ex_lines ++ [chars "DATA SET 01"], true)) (chars "f.asc") ex_lines ex_items [chars "DATA SET 01"] ex_head
    eq_refl ex_header ex_within ex_consistent ex_once) as (o & E & _ & T & N & _). exists o. split; [exact E|]. split; [exact (T Agency)|exact (N FileType)].
Qed.
Example ex_opening : opening Z ex_wave ex_date ex_tt scan_dbl ex_head [chars "PRODUCER AGENCY               : GFZ"] [Text Agency (chars "GFZ")].
Proof.
  refine (conj _ (conj _ (conj _ (conj _ (conj _ _))))).
  - apply Forall2_cons; [|apply Forall2_nil]. exists (chars "PRODUCER AGENCY"). split; [left; reflexivity|]. exists []. split; [|split; [trim|apply Forall_nil]]. exists (chars "               "), [32]. split; [reflexivity|]. split; [noc|allb].
  - apply Forall_cons; [unfold short; cbn; lia|apply Forall_nil].
  - cbn; lia.
  - intros f s [I|[]]. injection I as <- <-. cbn; lia.
  - reflexivity.
  - exact I.
Qed.
(** the faults on concrete lines *)
Definition ex_read (l : list Z) := read_header Z ex_wave ex_date ex_tt ex_year scan_dbl [chars "PRODUCER AGENCY               : GFZ"; l; chars "END OF HEADER"] true ex_head.
Example c67_faults_nonvacuous :
  ex_read (chars "MAXIMUM DEGREE 180") = UB /\ ex_read (chars "SENSOR NAME                   :  ") = UB /\ ex_read (chars "CONSTANT A [M]: 6378136.6") = UB /\
  ex_read (chars "PARTIAL TIDE                  : M99") = UB /\ ex_read (chars "COEFF. NORMALIZED (YES/NO)    : yes") = Abort /\
  ex_read (chars "TIME EPOCH (GPS TIME)         : ?") = Abort /\ ex_read (chars "TIME LAST OBS (YEAR END)      : none") = UB /\
  (exists h', ex_read (chars "TEST") = Ok (1, h')) /\ (exists h', ex_read (chars "MAXIMUM DEGREE                : x") = Ok (1, h')) /\
  (exists h', ex_read (chars "COEFF. NORMALIZED (YES/NO)    : y") = Ok (1, h')).
Proof.
  refine (conj eq_refl (conj eq_refl (conj eq_refl (conj eq_refl (conj eq_refl (conj eq_refl (conj eq_refl (conj _ (conj _ _))))))))); eexists; reflexivity.
Qed.
Example c67_agency_spills_nonvacuous : exists h',
  read_header Z ex_wave ex_date ex_tt ex_year scan_dbl [chars "PRODUCER AGENCY               : GeoForschungsZentrum Potsdam"; chars "END OF HEADER"] true ex_head = Ok (0, h') /\
  get_text Z Satellite h' = Ok (chars " Potsdam").
Proof. eexists. split; [reflexivity|vm_compute; reflexivity]. Qed.
Print Assumptions c67_values.
Print Assumptions c67_values_unterminated.
Print Assumptions c67_construct.
Print Assumptions c67_construct_missing.
Print Assumptions c67_accepted.
Print Assumptions c67_code.
Print Assumptions c67_date_disagrees.
Print Assumptions c67_unknown_line.
Print Assumptions c67_bad_number.
Print Assumptions c67_bad_flag.
Print Assumptions c67_no_end.
Print Assumptions c67_copy.
Print Assumptions c67_assign.
Print Assumptions c67_move.
Print Assumptions c67_move_assign.
Print Assumptions c67_colon_missing_refuted.
Print Assumptions c67_blank_text_refuted.
Print Assumptions c67_long_text_refuted.
Print Assumptions c67_agency_spills_refuted.
Print Assumptions c67_text_twice_refuted.
Print Assumptions c67_radius_column_refuted.
Print Assumptions c67_wave_refuted.
Print Assumptions c67_seconds_refuted.
Print Assumptions c67_date_missing_refuted.
Print Assumptions c67_year_refuted.
Print Assumptions c67_epoch_refuted.
Print Assumptions c67_flag_refuted.
Print Assumptions c67_bare_header_refuted.
Print Assumptions c67_end_unterminated_refuted.
