(** Proofs about the header of AOD1B files. *)
From Coq Require Import Ascii String Reals ZArith List Bool Lia Lra.
From Verif Require Import Base CString FromChars FundModel FundProofs Aod1bModel AodBlockModel AodBlockSpec AodBlockProofs AodHeadModel AodHeadSpec.
Import ListNotations.
Open Scope Z_scope.

(** ** fields *)
Lemma no_colon_app a b : no_colon (a ++ b) <-> no_colon a /\ no_colon b.
Proof. apply Forall_app. Qed.
Lemma no_colon_skipn k a : no_colon a -> no_colon (skipn k a).
Proof. intros H. rewrite <- (firstn_skipn k a) in H. apply no_colon_app in H. apply H. Qed.
Lemma blanks_no_colon b : blanks b -> no_colon b.
Proof. intros H. eapply Forall_impl; [|exact H]. intros c ->. discriminate. Qed.
Lemma blanks_rev b : blanks b -> blanks (rev b).
Proof. unfold blanks. rewrite !Forall_forall. intros H c I. apply H, in_rev, I. Qed.
Lemma unblank_skip v : unblank v -> skip_blanks v = v.
Proof. destruct v as [|c v]; [reflexivity|]. cbn. intros H. destruct (Z.eqb_spec c 32); [congruence|reflexivity]. Qed.
Lemma solid_unblank v r : solid v -> unblank (v ++ r).
Proof. intros (c & q & -> & N). exact N. Qed.
Lemma after_colon_ok a w : no_colon a -> after_colon (a ++ 58 :: w) = Some w.
Proof. induction 1 as [|c a N F IH]; [reflexivity|]. cbn. destruct (Z.eqb_spec c 58); [congruence|exact IH]. Qed.
Lemma after_colon_none a : no_colon a -> after_colon a = None.
Proof. induction 1 as [|c a N F IH]; [reflexivity|]. cbn. destruct (Z.eqb_spec c 58); [congruence|exact IH]. Qed.
Lemma after_last_none a : no_colon a -> after_last a = None.
Proof. induction 1 as [|c a N F IH]; [reflexivity|]. cbn. rewrite IH. destruct (Z.eqb_spec c 58); [congruence|reflexivity]. Qed.
Lemma after_last_ok a w : no_colon w -> after_last (a ++ 58 :: w) = Some w.
Proof. intros N. induction a as [|c a IH]; cbn; [rewrite (after_last_none w N); reflexivity|rewrite IH; reflexivity]. Qed.
Lemma field1_ok a b v : no_colon a -> blanks b -> unblank v -> field1 (a ++ 58 :: b ++ v) = Ok v.
Proof. intros A B U. unfold field1. rewrite (after_colon_ok a _ A), (skip_blanks_app b v B), (unblank_skip v U). reflexivity. Qed.
Lemma trailing_ok p s b : solid (rev s) -> blanks b -> trailing (p ++ s ++ b) = Z.of_nat (length b).
Proof.
  intros S B. unfold trailing. rewrite !rev_app_distr, <- app_assoc, (skip_blanks_app _ _ (blanks_rev b B)), (skip_blanks_solid _ _ S), !app_length, !rev_length. lia.
Qed.
Lemma field2_ok a b s b2 : blanks b -> trimmed s -> blanks b2 -> field2 (a ++ 58 :: b ++ s ++ b2) = Ok (s ++ b2, Z.of_nat (length s)).
Proof.
  intros B (S1 & S2 & C & _) B2. unfold field2. rewrite after_last_ok by (apply no_colon_app; split; [apply blanks_no_colon, B|apply no_colon_app; split; [exact C|apply blanks_no_colon, B2]]).
  rewrite (skip_blanks_app b _ B), (skip_blanks_solid _ _ S1).
  replace (a ++ 58 :: b ++ s ++ b2) with ((a ++ 58 :: b) ++ s ++ b2) by (rewrite <- app_assoc; reflexivity). rewrite (trailing_ok _ s b2 S2 B2), app_length. do 2 f_equal. lia.
Qed.
Lemma drop_prefix k a b : (k <= length a)%nat -> drop k (a ++ b) = Ok (skipn k a ++ b).
Proof.
  intros L. unfold drop. rewrite app_length. replace (k <=? length a + length b)%nat with true by (symmetry; apply Nat.leb_le; lia).
  rewrite skipn_app. replace (k - length a)%nat with 0%nat by lia. reflexivity.
Qed.
Lemma labelled_field k lab line v : no_colon lab -> (k <= length lab)%nat -> labelled lab line v -> unblank v -> exists p, drop k line = Ok p /\ field1 p = Ok v.
Proof.
  intros NL L (fill & b & -> & NF & B) U. exists (skipn k lab ++ fill ++ 58 :: b ++ v). split; [apply drop_prefix, L|].
  rewrite app_assoc. apply field1_ok; [apply no_colon_app; split; [apply no_colon_skipn, NL|exact NF]|exact B|exact U].
Qed.
Lemma text_field k lab line s : (k <= length lab)%nat -> says_text lab line s -> exists p b, drop k line = Ok p /\ field2 p = Ok (s ++ b, Z.of_nat (length s)).
Proof.
  intros L (b2 & (fill & b & -> & NF & B) & T & B2). exists (skipn k lab ++ fill ++ 58 :: b ++ s ++ b2), b2. split; [apply drop_prefix, L|].
  rewrite app_assoc. apply field2_ok; assumption.
Qed.
Lemma number_unblank w n r : number w n -> unblank (w ++ r).
Proof. intros N. apply solid_unblank. eapply number_solid, N. Qed.
Lemma word_solid w : word w -> solid w.
Proof. intros (N & F). destruct w as [|c w]; [congruence|]. exists c, w. split; [reflexivity|]. inversion F; assumption. Qed.
Lemma to_digit_ok g c d : Forall (fun c => 0 < c /\ ~ digit_char c) g -> digit_char c -> to_digit (g ++ c :: d) = Ok (c :: d).
Proof.
  intros F D. induction F as [|x g (P & N) F IH]; cbn [app to_digit].
  - unfold isdigit, ctype_ok, digit_char in *. destruct (Z.leb_spec (-1) c); [|lia]. cbn [bind].
    destruct (Z.leb_spec 48 c); [|lia]. destruct (Z.leb_spec c 57); [reflexivity|lia].
  - unfold isdigit, ctype_ok, digit_char in *. destruct (Z.leb_spec (-1) x); [|lia]. cbn [bind].
    destruct (Z.leb_spec 48 x); destruct (Z.leb_spec x 57); cbn [andb]; [lia|exact IH|exact IH|exact IH].
Qed.
Lemma to_digit_none g : Forall (fun c => ~ digit_char c) g -> to_digit g = UB.
Proof.
  induction 1 as [|x g N F IH]; [reflexivity|]. cbn [to_digit]. unfold isdigit, digit_char in *. destruct (ctype_ok x); [|reflexivity]. cbn [bind].
  destruct (Z.leb_spec 48 x); destruct (Z.leb_spec x 57); cbn [andb]; [lia|exact IH|exact IH|exact IH].
Qed.

(** values that are whole numbers of nanoseconds *)
Lemma trunc_int n : trunc (IZR n) = n.
Proof.
  destruct (Rle_dec 0 (IZR n)) as [P|P].
  - pose proof (trunc_nonneg _ P) as (A & B). apply le_IZR in A. replace (IZR (trunc (IZR n)) + 1)%R with (IZR (trunc (IZR n) + 1)) in B by (rewrite plus_IZR; reflexivity).
    apply lt_IZR in B. lia.
  - assert (Q : (IZR n <= 0)%R) by lra. pose proof (trunc_nonpos _ Q) as (A & B). apply le_IZR in B.
    replace (IZR (trunc (IZR n)) - 1)%R with (IZR (trunc (IZR n) - 1)) in A by (rewrite minus_IZR; reflexivity). apply lt_IZR in A. lia.
Qed.
Lemma to_ns_ok x n : (x * 1e9 = IZR n)%R -> Z.abs n < 2 ^ 63 -> to_ns x = Ok n.
Proof.
  intros E B. unfold to_ns. rewrite E, trunc_int. destruct (Z.leb_spec (- 2 ^ 63) n); [|lia]. destruct (Z.ltb_spec n (2 ^ 63)); [reflexivity|lia].
Qed.

Section Head.
  Variable W : Type.
  Variable find_wave_entry : list Z -> option W.
  Variable from_char : list Z -> option Z.
  Variable gps2tt : Z -> Z.
  Variable year_start : Z -> Z.
  Variable sdbl : list Z -> option R * list Z.
  Hypothesis sdbl_word : word_scanner sdbl.
  Notation head := (head W).
  Notation item := (item W).
  Notation branches := (branches W find_wave_entry from_char gps2tt year_start sdbl).
  Notation choose := (choose W).
  Notation says := (says W find_wave_entry from_char sdbl).
  Notation read_loop := (read_loop W find_wave_entry from_char gps2tt year_start sdbl).
  Notation read_header := (read_header W find_wave_entry from_char gps2tt year_start sdbl).
  Notation header := (header W find_wave_entry from_char sdbl).
  Notation consistent := (consistent W gps2tt).
  Notation arena := (charArena W).

  Definition put_text (off : nat) (s a : list Z) : list Z := firstn off a ++ s ++ skipn (off + length s) a.
  Definition apply (i : item) (h : head) : head :=
    match i with
    | Text f s => set_arena W (put_text (place f) s (arena h)) h
    | Num FileType n => set_file_type W n h
    | Num FileFormat n => set_file_format W n h
    | Num HeaderRecords n => set_num_header_records W n h
    | Num DataRecords n => set_num_data_records W n h
    | Num MaxDegree n => set_max_degree W n h
    | Num DataSets n => set_num_data_sets W n h
    | Flag Errors b => set_coeff_errors W (if b then 1 else 0) h
    | Flag Normalized b => set_coeff_normalized W (if b then 1 else 0) h
    | Real GM x => set_GM W x h
    | Real Radius x => set_Re W x h
    | Real Flattening x => set_flat W x h
    | Real Rotation x => set_omega W x h
    | Epoch t => set_time_epoch W (gps2tt t) h
    | Obs First _ t => set_first_epoch W (gps2tt t) h
    | Obs Last _ t => set_last_epoch W (gps2tt t) h
    | YearOf First y => set_first_epoch W (year_start y) h
    | YearOf Last y => set_last_epoch W (year_start y) h
    | Tide v => set_wave W v h
    | Other => h
    end.
  Definition agrees (i : item) (h : head) : Prop := match i with Obs _ ns t => gps2tt t = time_epoch W h + ns | _ => True end.
  Definition fits (i : item) : Prop := match i with Text f s => (length s <= room f)%nat | _ => True end.

  (** the handlers *)
  Lemma text_ok k off lab line s h : (k <= length lab)%nat -> says_text lab line s -> (off + length s <= length (arena h))%nat ->
    text W k off line h = Ok (Go W 0 (set_arena W (put_text off s (arena h)) h)).
  Proof.
    intros L T F. destruct (text_field k lab line s L T) as (p & b & E1 & E2). unfold text. rewrite E1. cbn [bind]. rewrite E2. cbn [bind].
    destruct (Z.ltb_spec (Z.of_nat (length s)) 0); [lia|]. rewrite Nat2Z.id, firstn_app, firstn_all, Nat.sub_diag, firstn_O, app_nil_r.
    unfold write_at. replace (off + length s <=? length (arena h))%nat with true by (symmetry; apply Nat.leb_le; exact F). reflexivity.
  Qed.
  Lemma integer_ok k set lab line w r n h : no_colon lab -> (k <= length lab)%nat -> labelled lab line (w ++ r) -> number w n ->
    match r with c :: _ => ~ digit_char c | [] => True end -> integer W k set line h = Ok (Go W 0 (set n h)).
  Proof.
    intros NL L T N R. destruct (labelled_field k lab line _ NL L T (number_unblank _ _ r N)) as (p & E1 & E2). unfold integer. rewrite E1. cbn [bind]. rewrite E2. cbn [bind].
    rewrite (scan_number w n r N R). reflexivity.
  Qed.
  Lemma year_ok k set lab line w r n h : no_colon lab -> (k <= length lab)%nat -> labelled lab line (w ++ r) -> number w n ->
    match r with c :: _ => ~ digit_char c | [] => True end -> year W year_start k set line h = Ok (Go W 0 (set (year_start n) h)).
  Proof.
    intros NL L T N R. destruct (labelled_field k lab line _ NL L T (number_unblank _ _ r N)) as (p & E1 & E2). unfold year. rewrite E1. cbn [bind]. rewrite E2. cbn [bind].
    rewrite (scan_number w n r N R). reflexivity.
  Qed.
  Lemma real_ok k set lab fill b w r x h : no_colon lab -> no_colon fill -> blanks b -> (k <= length (lab ++ fill))%nat -> word w -> at_blank r -> sdbl w = (Some x, []) ->
    real W sdbl k set (lab ++ fill ++ 58 :: b ++ w ++ r) h = Ok (Go W 0 (set x h)).
  Proof.
    intros NL NF B L WW A E. unfold real. rewrite app_assoc, drop_prefix by exact L. cbn [bind].
    rewrite field1_ok; [|apply no_colon_skipn, no_colon_app; split; assumption|exact B|apply solid_unblank, word_solid, WW]. cbn [bind].
    rewrite (sdbl_word w x E r A). reflexivity.
  Qed.
  Lemma yesno_ok k set lab line (f : bool) h : (k <= length lab)%nat -> says_text lab line (if f then chars "YES" else chars "NO") ->
    yesno W k set line h = Ok (Go W 0 (set (if f then 1 else 0) h)).
  Proof.
    intros L T. destruct (text_field k lab line _ L T) as (p & b & E1 & E2). unfold yesno. rewrite E1. cbn [bind]. rewrite E2. cbn [bind].
    destruct f; cbn [Z.eqb]; [change (Z.of_nat (length (chars "YES"))) with 3|change (Z.of_nat (length (chars "NO"))) with 2]; cbn [Z.eqb Pos.eqb]; rewrite starts_app; reflexivity.
  Qed.
  Lemma epoch_ok k lab line d t h : no_colon lab -> (k <= length lab)%nat -> labelled lab line d -> solid d -> from_char d = Some t ->
    epoch W from_char gps2tt k line h = Ok (Go W 0 (set_time_epoch W (gps2tt t) h)).
  Proof.
    intros NL L T S E. destruct (labelled_field k lab line d NL L T) as (p & E1 & E2); [rewrite <- (app_nil_r d); apply solid_unblank, S|].
    unfold epoch. rewrite E1. cbn [bind]. rewrite E2. cbn [bind]. rewrite E. reflexivity.
  Qed.
  Lemma observation_ok k set lab line w x g c d ns t h : no_colon lab -> (k <= length lab)%nat -> labelled lab line (w ++ g ++ c :: d) -> word w -> sdbl w = (Some x, []) ->
    (x * 1e9 = IZR ns)%R -> Z.abs ns < 2 ^ 63 -> at_blank g -> g <> [] -> Forall (fun c => 0 < c /\ ~ digit_char c) g -> digit_char c -> from_char (c :: d) = Some t ->
    observation W from_char gps2tt sdbl k set line h = Ok (if gps2tt t =? time_epoch W h + ns then Go W 0 (set (time_epoch W h + ns) h) else Ret W (set (time_epoch W h + ns) h)).
  Proof.
    intros NL L T WW E X B G GN F D FC. destruct (labelled_field k lab line _ NL L T) as (p & E1 & E2); [apply solid_unblank, word_solid, WW|].
    unfold observation. rewrite E1. cbn [bind]. rewrite E2. cbn [bind]. rewrite (sdbl_word w x E (g ++ c :: d)) by (destruct g; [congruence|exact G]).
    rewrite (to_ns_ok x ns X B). cbn [bind]. rewrite (to_digit_ok g c d F D). cbn [bind]. rewrite FC. reflexivity.
  Qed.
  Lemma tide_ok k lab line s v h : (k <= length lab)%nat -> says_text lab line s -> (length s <= 7)%nat -> find_wave_entry s = Some v ->
    tide W find_wave_entry k line h = Ok (Go W 0 (set_wave W v h)).
  Proof.
    intros L T S E. destruct (text_field k lab line _ L T) as (p & b & E1 & E2). unfold tide. rewrite E1. cbn [bind]. rewrite E2. cbn [bind].
    destruct (Z.ltb_spec (Z.of_nat (length s)) 0); [lia|]. destruct (Z.ltb_spec 7 (Z.of_nat (length s))); [lia|]. cbn [orb].
    rewrite Nat2Z.id, firstn_app, firstn_all, Nat.sub_diag, firstn_O, app_nil_r, E. reflexivity.
  Qed.

  (** which branch is taken *)
  Definition branch (lab : list Z) (f : handler W) : Prop := forall r h, choose branches (lab ++ r) h = f (lab ++ r) h.
  Lemma branch_line lab f line h : begins lab line -> branch lab f -> choose branches line h = f line h.
  Proof. intros (r & ->) B. apply B. Qed.
  Lemma labelled_begins lab line v : labelled lab line v -> begins lab line.
  Proof. intros (fill & b & -> & _). eexists. reflexivity. Qed.
  Lemma says_text_begins lab line v : says_text lab line v -> begins lab line.
  Proof. intros (b & H & _). eapply labelled_begins, H. Qed.
  Ltac br := intros ? ?; reflexivity.
  Ltac nocol := repeat (apply Forall_cons; [discriminate|]); apply Forall_nil.

  Lemma step_ok i line h : says i line -> length (arena h) = 80%nat -> fits i -> agrees i h -> choose branches line h = Ok (Go W 0 (apply i h)).
  Proof.
    intros S A F G. destruct i as [f s|f n|f b|f x|t|o ns t|o y|v|]; cbn [AodHeadSpec.says fits agrees apply] in *.
    - destruct S as (lab & I & T).
      destruct f; cbn [text_labels In room place] in *.
      + destruct I as [<-|[]]. rewrite (branch_line _ (text W 15 0) line h (says_text_begins _ _ _ T) ltac:(br)). refine (text_ok 15 0 _ line s h _ T _); [cbn; lia|lia].
      + destruct I as [<-|[]]. rewrite (branch_line _ (text W 14 20) line h (says_text_begins _ _ _ T) ltac:(br)). refine (text_ok 14 20 _ line s h _ T _); [cbn; lia|lia].
      + destruct I as [<-|[]]. rewrite (branch_line _ (text W 11 40) line h (says_text_begins _ _ _ T) ltac:(br)). refine (text_ok 11 40 _ line s h _ T _); [cbn; lia|lia].
      + destruct I as [<-|[]]. rewrite (branch_line _ (text W 24 60) line h (says_text_begins _ _ _ T) ltac:(br)). refine (text_ok 24 60 _ line s h _ T _); [cbn; lia|lia].
      + destruct I as [<-|[<-|[]]].
        * rewrite (branch_line _ (text W 24 64) line h (says_text_begins _ _ _ T) ltac:(br)). refine (text_ok 24 64 _ line s h _ T _); [cbn; lia|lia].
        * rewrite (branch_line _ (text W 26 64) line h (says_text_begins _ _ _ T) ltac:(br)). refine (text_ok 26 64 _ line s h _ T _); [cbn; lia|lia].
    - destruct S as (w & r & T & N & R).
      destruct f; cbn [num_label] in *.
      + rewrite (branch_line _ (integer W 18 (set_file_type W)) line h (labelled_begins _ _ _ T) ltac:(br)). refine (integer_ok 18 _ _ line w r n h _ _ T N R); [nocol|cbn; lia].
      + rewrite (branch_line _ (integer W 28 (set_file_format W)) line h (labelled_begins _ _ _ T) ltac:(br)). refine (integer_ok 28 _ _ line w r n h _ _ T N R); [nocol|cbn; lia].
      + rewrite (branch_line _ (integer W 24 (set_num_header_records W)) line h (labelled_begins _ _ _ T) ltac:(br)). refine (integer_ok 24 _ _ line w r n h _ _ T N R); [nocol|cbn; lia].
      + rewrite (branch_line _ (integer W 22 (set_num_data_records W)) line h (labelled_begins _ _ _ T) ltac:(br)). refine (integer_ok 22 _ _ line w r n h _ _ T N R); [nocol|cbn; lia].
      + rewrite (branch_line _ (integer W 14 (set_max_degree W)) line h (labelled_begins _ _ _ T) ltac:(br)). refine (integer_ok 14 _ _ line w r n h _ _ T N R); [nocol|cbn; lia].
      + rewrite (branch_line _ (integer W 17 (set_num_data_sets W)) line h (labelled_begins _ _ _ T) ltac:(br)). refine (integer_ok 17 _ _ line w r n h _ _ T N R); [nocol|cbn; lia].
    - destruct f; cbn [flag_label] in *.
      + rewrite (branch_line _ (yesno W 28 (set_coeff_errors W)) line h (says_text_begins _ _ _ S) ltac:(br)). refine (yesno_ok 28 _ _ line b h _ S). cbn; lia.
      + rewrite (branch_line _ (yesno W 26 (set_coeff_normalized W)) line h (says_text_begins _ _ _ S) ltac:(br)). refine (yesno_ok 26 _ _ line b h _ S). cbn; lia.
    - destruct S as (w & r & fill & b & -> & NF & B & C & WW & R & E).
      destruct f; cbn [real_label colon_from] in *.
      + rewrite (branch_line (chars "CONSTANT GM [M^3/S^2]") (real W sdbl 21 (set_GM W)) _ h (ex_intro _ _ eq_refl) ltac:(br)). apply real_ok; try assumption; [nocol|rewrite app_length; cbn; lia].
      + rewrite (branch_line (chars "CONSTANT A [M]") (real W sdbl 22 (set_Re W)) _ h (ex_intro _ _ eq_refl) ltac:(br)). apply real_ok; try assumption; nocol.
      + rewrite (branch_line (chars "CONSTANT FLAT [-]") (real W sdbl 17 (set_flat W)) _ h (ex_intro _ _ eq_refl) ltac:(br)). apply real_ok; try assumption; [nocol|rewrite app_length; cbn; lia].
      + rewrite (branch_line (chars "CONSTANT OMEGA [RAD/S]") (real W sdbl 17 (set_omega W)) _ h (ex_intro _ _ eq_refl) ltac:(br)). apply real_ok; try assumption; [nocol|rewrite app_length; cbn; lia].
    - destruct S as (d & T & S & E). unfold epoch_label in *.
      rewrite (branch_line _ (epoch W from_char gps2tt 21) line h (labelled_begins _ _ _ T) ltac:(br)). refine (epoch_ok 21 _ line d t h _ _ T S E); [nocol|cbn; lia].
    - destruct S as (w & x & g & c & d & T & WW & E & X & B & GB & GN & GF & D & FC).
      assert (Q : (gps2tt t =? time_epoch W h + ns) = true) by (apply Z.eqb_eq; exact G).
      destruct o; cbn [obs_label] in *.
      + rewrite (branch_line _ (observation W from_char gps2tt sdbl 30 (set_first_epoch W)) line h (labelled_begins _ _ _ T) ltac:(br)).
        rewrite (observation_ok 30 (set_first_epoch W) (chars "TIME FIRST OBS(SEC PAST EPOCH)") line w x g c d ns t h ltac:(nocol) ltac:(cbn; lia) T WW E X B GB GN GF D FC), Q, <- G. reflexivity.
      + rewrite (branch_line _ (observation W from_char gps2tt sdbl 29 (set_last_epoch W)) line h (labelled_begins _ _ _ T) ltac:(br)).
        rewrite (observation_ok 29 (set_last_epoch W) (chars "TIME LAST OBS(SEC PAST EPOCH)") line w x g c d ns t h ltac:(nocol) ltac:(cbn; lia) T WW E X B GB GN GF D FC), Q, <- G. reflexivity.
    - destruct S as (w & r & T & N & R). destruct o; cbn [year_label] in *.
      + rewrite (branch_line _ (year W year_start 27 (set_first_epoch W)) line h (labelled_begins _ _ _ T) ltac:(br)). refine (year_ok 27 _ _ line w r y h _ _ T N R); [nocol|cbn; lia].
      + rewrite (branch_line _ (year W year_start 24 (set_last_epoch W)) line h (labelled_begins _ _ _ T) ltac:(br)). refine (year_ok 24 _ _ line w r y h _ _ T N R); [nocol|cbn; lia].
    - destruct S as (s & T & L & E). unfold tide_label in *.
      rewrite (branch_line _ (tide W find_wave_entry 12) line h (says_text_begins _ _ _ T) ltac:(br)). refine (tide_ok 12 _ line s v h _ T L E). cbn; lia.
    - destruct S as (lab & I & B). cbn [other_labels In] in I.
      repeat (destruct I as [<-|I]; [rewrite (branch_line _ (ignore W) line h B ltac:(br)); reflexivity|]). destruct I.
  Qed.
  Lemma step_mismatch o ns t line h : says (Obs o ns t) line -> gps2tt t <> time_epoch W h + ns -> exists h', choose branches line h = Ok (Ret W h').
  Proof.
    intros (w & x & g & c & d & T & WW & E & X & B & GB & GN & GF & D & FC) G. apply Z.eqb_neq in G.
    destruct o; cbn [obs_label] in *; eexists.
    - rewrite (branch_line _ (observation W from_char gps2tt sdbl 30 (set_first_epoch W)) line h (labelled_begins _ _ _ T) ltac:(br)).
      rewrite (observation_ok 30 (set_first_epoch W) (chars "TIME FIRST OBS(SEC PAST EPOCH)") line w x g c d ns t h ltac:(nocol) ltac:(cbn; lia) T WW E X B GB GN GF D FC), G. reflexivity.
    - rewrite (branch_line _ (observation W from_char gps2tt sdbl 29 (set_last_epoch W)) line h (labelled_begins _ _ _ T) ltac:(br)).
      rewrite (observation_ok 29 (set_last_epoch W) (chars "TIME LAST OBS(SEC PAST EPOCH)") line w x g c d ns t h ltac:(nocol) ltac:(cbn; lia) T WW E X B GB GN GF D FC), G. reflexivity.
  Qed.
  Lemma step_end line h : begins end_label line -> choose branches line h = Ok (Stop W).
  Proof. intros B. exact (branch_line end_label (fun _ _ => Ok (Stop W)) line h B ltac:(br)). Qed.

  (** ** the whole header *)
  Lemma apply_arena i h : length (arena h) = 80%nat -> fits i -> length (arena (apply i h)) = 80%nat.
  Proof.
    intros A F. destruct i as [f s|f n|f b|f x|t|o ns t|o y|v|]; try (destruct f; exact A); try (destruct o; exact A); try exact A.
    cbn. unfold put_text. rewrite !app_length, skipn_length, firstn_length, A. cbn in F. destruct f; cbn [place room] in *; lia.
  Qed.
  Lemma apply_epoch i h : time_epoch W (apply i h) = match epoch_of W gps2tt i with Some t => t | None => time_epoch W h end.
  Proof. destruct i as [f s|f n|f b|f x|t|o ns t|o y|v|]; try (destruct f); try (destruct o); reflexivity. Qed.
  Lemma consistent_cons i r e : consistent e (i :: r) -> (match i with Obs _ ns t => gps2tt t = e + ns | _ => True end) /\ consistent (match epoch_of W gps2tt i with Some t => t | None => e end) r.
  Proof. destruct i; cbn; intros H; auto. Qed.
  Definition run (items : list item) (h : head) : head := fold_left (fun h i => apply i h) items h.
  Lemma read_ok items : forall pre n h e rest term, Forall2 says items pre -> begins end_label e -> Forall short (pre ++ [e]) -> (length pre < n)%nat ->
    Forall fits items -> length (arena h) = 80%nat -> consistent (time_epoch W h) items ->
    read_loop n (pos (pre ++ e :: rest) term) h = Ok (if match rest with [] => term | _ => true end then 0 else 1, run items h).
  Proof.
    induction items as [|i items IH]; intros pre n h e rest term F B S L FI A C; inversion F; subst; clear F.
    - destruct n as [|n]; [lia|]. cbn [app AodHeadModel.read_loop]. apply Forall_cons_iff in S as (S & _). rewrite (igetline_short e rest term _ eq_refl S). cbn [ifail pos].
      rewrite (step_end e h B). cbn [bind]. rewrite good_pos. reflexivity.
    - destruct n as [|n]; [lia|]. cbn [app AodHeadModel.read_loop]. cbn [app] in S. apply Forall_cons_iff in S as (S1 & S). rewrite (igetline_short _ (l' ++ e :: rest) term _ eq_refl S1). cbn [ifail pos].
      apply Forall_cons_iff in FI as (F1 & FI). apply consistent_cons in C as (C1 & C).
      rewrite (step_ok i _ h) by (try assumption; destruct i; assumption). cbn [bind Z.eqb].
      apply IH; try assumption; [cbn in L; lia|apply apply_arena; assumption|]. rewrite apply_epoch. exact C.
  Qed.
End Head.
