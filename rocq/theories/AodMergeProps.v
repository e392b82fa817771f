(** Claim C84: bin/mergeAod1b.py reads the header of an AOD1B file entry by entry, and merges two files without a common time, named in either
    order, into the entries of the earlier one with the last observation of the later one and the counts added, then the data of both in
    order. Files with a common time or with other entries are not merged. What it writes has no end of header, so that neither this program
    nor the library reads it; three files are never merged. *)
From Coq Require Import Ascii String ZArith List Bool Lia.
From Verif Require Import Base CString FromChars PyModel AodMergeModel AodMergeSpec PyProofs AodMergeProofs AodMergeProofs2.
From Verif Require AodHeadModel AodHeadSpec AodHeadProps.
Import ListNotations.
Open Scope Z_scope.

(** ** reading *)
Theorem c84_header : forall text hdr data, is_file text hdr data -> read_header (lines text) [] = Val hdr.
Proof. intros text hdr data F. exact (proj1 (read_file text hdr data F)). Qed.
Theorem c84_data : forall text hdr data, is_file text hdr data -> cat (lines text) = Val data.
Proof. intros text hdr data F. exact (proj1 (proj2 (read_file text hdr data F))). Qed.
(** The date of an observation is the text in parentheses, read from exactly the values of that form. *)
Theorem c84_date : forall v d, match_obs [] v = Some d <-> obs_text v d.
Proof. exact match_obs_iff. Qed.
Theorem c84_date_unique : forall v d d', obs_text v d -> obs_text v d' -> d = d'.
Proof. intros v d d' H H'. apply match_obs_iff in H, H'. congruence. Qed.

(** A number is read from decimal digits, with or without a sign, among blanks. *)
Theorem c84_number : forall w n b1 b2, decimal_text w n -> Forall white b1 -> Forall white b2 ->
  parse_int (b1 ++ w ++ b2) = Some n /\ parse_int (b1 ++ (45 :: w) ++ b2) = Some (- n) /\ parse_int (b1 ++ (43 :: w) ++ b2) = Some n.
Proof. intros w n b1 b2 D W1 W2. split; [apply parse_decimal; assumption|apply parse_signed; assumption]. Qed.

Section Files.
  Variable strptime : list Z -> option Z.
  Variable strftime : Z -> list Z.
  Variable disk : list Z -> option (list Z).

  (** ** two files *)
  Theorem c84_two : forall fa fb ha hb da db a1 a2 b1 b2 ve t0 wr nr ws ns out,
    stored strptime disk fa ha da a1 a2 -> stored strptime disk fb hb db b1 b2 -> a2 < b1 -> agree ha hb ->
    In (epoch_key, ve) ha -> strptime ve = Some t0 -> In (records_key, wr) ha -> decimal_text wr nr -> In (sets_key, ws) ha -> decimal_text ws ns ->
    t0 <= b2 -> date_text (strftime b2) ->
    exists hm lsm, Forall2 entry hm lsm /\ Forall2 (merged_entry (b2 - t0) (strftime b2) (2 * nr) (2 * ns)) ha hm /\
      forall files, files = [fa; fb] \/ files = [fb; fa] -> main strptime strftime disk files out = Val (output_name out fa, concat lsm ++ da ++ db).
  Proof.
    intros fa fb ha hb da db a1 a2 b1 b2 ve t0 wr nr ws ns out A B L AG HE SE HR DR HS DS T SF.
    destruct (two_files strptime strftime disk fa fb ha hb da db a1 a2 b1 b2 A B AG ve wr ws t0 nr ns HE SE HR DR HS DS L T SF out) as (hm & lsm & E & M & R1 & R2).
    exists hm, lsm. split; [exact E|]. split; [exact M|]. intros files [->| ->]; assumption.
  Qed.
  Theorem c84_overlap : forall fa ha da a1 a2 fb hb db b1 b2 out t, stored strptime disk fa ha da a1 a2 -> stored strptime disk fb hb db b1 b2 -> agree ha hb ->
    a1 <= t <= a2 -> b1 <= t <= b2 -> main strptime strftime disk [fa; fb] out = Raise AssertionError.
  Proof. intros. eapply overlap; eassumption. Qed.
  Theorem c84_differ : forall fa ha da a1 a2 fb hb db b1 b2 out k v w, stored strptime disk fa ha da a1 a2 -> stored strptime disk fb hb db b1 b2 ->
    In (k, v) ha -> In (k, w) hb -> v <> w -> ~ In k varying -> forall r, main strptime strftime disk [fa; fb] out <> Val r.
  Proof. intros. eapply differ; eassumption. Qed.
  (** So days with different numbers of records cannot be merged, though the numbers are added. *)
  Theorem c84_records_refuted : forall fa ha da a1 a2 fb hb db b1 b2 out v w, stored strptime disk fa ha da a1 a2 -> stored strptime disk fb hb db b1 b2 ->
    In (records_key, v) ha -> In (records_key, w) hb -> v <> w -> forall r, main strptime strftime disk [fa; fb] out <> Val r.
  Proof. intros. eapply differ; try eassumption. exact (proj1 (proj2 sets_not_varying)). Qed.

  (** ** three files or more are never merged: the blank in front of the sum of the data sets is a difference *)
  Theorem c84_three_refuted : forall files out r, (3 <= length files)%nat -> main strptime strftime disk files out <> Val r.
  Proof. intros files out r. apply three_files. Qed.
  (** ** merging the earlier file into the later one keeps the first observation of the later one *)
  Theorem c84_reverse_refuted : forall a b c, merge strptime strftime a b = Val (Some c) -> dget (dct c) first_key = dget (dct a) first_key.
  Proof. intros a b c. apply merge_first. Qed.

  (** ** the file written has no end of header: this program reads it for ever, the library refuses it *)
  Theorem c84_no_end_refuted : forall fa fb ha hb da db a1 a2 b1 b2 ve t0 wr nr ws ns out name text,
    stored strptime disk fa ha da a1 a2 -> stored strptime disk fb hb db b1 b2 -> a2 < b1 -> agree ha hb ->
    In (epoch_key, ve) ha -> strptime ve = Some t0 -> In (records_key, wr) ha -> decimal_text wr nr -> In (sets_key, ws) ha -> decimal_text ws ns ->
    t0 <= b2 -> date_text (strftime b2) ->
    Forall (fun kv => ~ begins_with (chars "END OF HEADER") (fst kv)) ha -> ~ contains (chars "END OF HEADER") (da ++ db) ->
    main strptime strftime disk [fa; fb] out = Val (name, text) ->
    cat (lines text) = Forever /\
    forall W find_wave_entry from_char gps2tt year_start sdbl h h', AodHeadModel.read_header W find_wave_entry from_char gps2tt year_start sdbl (text_lines text) (terminated text) h <> Ok (0, h').
  Proof.
    intros fa fb ha hb da db a1 a2 b1 b2 ve t0 wr nr ws ns out name text A B L AG HE SE HR DR HS DS T SF K N M.
    destruct (c84_two fa fb ha hb da db a1 a2 b1 b2 ve t0 wr nr ws ns out A B L AG HE SE HR DR HS DS T SF) as (hm & lsm & E & F & R). specialize (R [fa; fb] (or_introl eq_refl)). rewrite M in R. injection R as _ ->.
    split; [exact (no_end_cat hm lsm (da ++ db) E N)|]. intros W fw fc g2 ys sd h h' H. apply AodHeadProps.c67_accepted in H as (pre & e & rest & X & _ & BE & _).
    assert (KM : Forall (fun kv => ~ begins_with END (fst kv)) hm). { clear - F K. induction F as [|x y ha hm H _ IH]; [constructor|]. inversion K; subst. constructor; [rewrite (proj1 H); assumption|apply IH; assumption]. }
    apply (no_end_lines hm lsm (da ++ db) E KM N e); [rewrite X; apply in_or_app; right; left; reflexivity|]. exact BE.
  Qed.
  (** One file alone loses the end of its header as well. *)
  Theorem c84_one_refuted : forall fa ha da a1 a2 out name text, stored strptime disk fa ha da a1 a2 -> ~ contains (chars "END OF HEADER") da ->
    main strptime strftime disk [fa] out = Val (name, text) -> cat (lines text) = Forever.
  Proof.
    intros fa ha da a1 a2 out name text A N M. unfold main, sort_files in M. destruct (stored_construct strptime disk _ _ _ _ _ A) as (C & D & _). cbn [construct_all] in M. rewrite C in M. cbn [pbind insert_all insert map fn] in M. rewrite C, D in M. cbn [pbind merge_all] in M. injection M as _ <-.
    destruct A as ((t & _ & ls & e & _ & F & _) & _). unfold dump. cbn [dct]. apply (no_end_cat ha); [|exact N]. clear - F. induction F as [|[k v] l h ls H _ IH]; cbn [map]; constructor; [|exact IH]. destruct (entry_ok _ _ H) as [K V]. exact (dump_entry k [] v K V (Forall_nil _)).
  Qed.
End Files.

(** ** the name of the file written: a directory is ignored for files named from the root; the file itself is overwritten when its name does
    not contain ".asc" and it lies in the directory; ".asc" in the name of a directory is replaced as well *)
Lemma replace_root lit new c r : match lit with x :: _ => x <> c | [] => False end -> exists s, replace lit new (c :: r) = c :: s.
Proof. destruct lit as [|x lit]; [intros []|]. intros N. eexists. unfold replace. cbn [replace_from length firstn text_eqb]. rewrite (proj2 (Z.eqb_neq x c) N). reflexivity. Qed.
Theorem c84_root_refuted : forall out out' r, output_name out (47 :: r) = output_name out' (47 :: r).
Proof.
  intros out out' r. unfold output_name. destruct (replace_root (chars ".asc") (chars ".merged.asc") 47 r) as (s & ->); [discriminate|]. reflexivity.
Qed.
Lemma replace_none lit new s : lit <> [] -> ~ contains lit s -> replace lit new s = s.
Proof.
  intros NE. unfold replace. induction s as [|c s IH]; intros N; [reflexivity|]. cbn [replace_from]. destruct (text_eqb_spec lit (firstn (length lit) (c :: s))) as [E|_].
  - exfalso. apply N. exists [], (skipn (length lit) (c :: s)). cbn [app]. rewrite E at 1. rewrite firstn_skipn. reflexivity.
  - f_equal. apply IH. intros (p & r & ->). apply N. exists (c :: p), r. reflexivity.
Qed.
Theorem c84_overwrites_refuted : forall out f, ~ contains (chars ".asc") f -> output_name out f = pathjoin out f.
Proof. intros out f N. unfold output_name. rewrite replace_none; [reflexivity|discriminate|exact N]. Qed.
Theorem c84_directory_refuted : output_name (chars "/tmp") (chars "a.asc/b.asc") = chars "/tmp/a.merged.asc/b.merged.asc".
Proof. reflexivity. Qed.
(** Else the file goes to the directory, with ".merged" in front of the ending. *)
Lemma replace_last stem : (forall p r, stem ++ chars ".asc" = p ++ chars ".asc" ++ r -> p = stem) -> replace (chars ".asc") (chars ".merged.asc") (stem ++ chars ".asc") = stem ++ chars ".merged.asc".
Proof.
  unfold replace. induction stem as [|c stem IH]; intros H; [reflexivity|]. cbn [app replace_from]. destruct (text_eqb_spec (chars ".asc") (firstn (length (chars ".asc")) (c :: stem ++ chars ".asc"))) as [E|_].
  - exfalso. specialize (H [] (skipn (length (chars ".asc")) (c :: stem ++ chars ".asc"))). cbn [app] in H. rewrite E in H at 2. rewrite firstn_skipn in H. discriminate (H eq_refl).
  - f_equal. apply IH. intros p r E. specialize (H (c :: p) r). cbn [app] in H. rewrite E in H. injection (H eq_refl) as ->. reflexivity.
Qed.
Theorem c84_name : forall out stem, (forall p r, stem ++ chars ".asc" = p ++ chars ".asc" ++ r -> p = stem) -> (forall r, stem <> 47 :: r) -> out <> [] -> (forall r, out <> r ++ [47]) ->
  output_name out (stem ++ chars ".asc") = out ++ chars "/" ++ stem ++ chars ".merged.asc".
Proof.
  intros out stem H NF NE NS. unfold output_name. rewrite (replace_last stem H). change (chars "/" ++ stem ++ chars ".merged.asc") with (47 :: stem ++ chars ".merged.asc").
  assert (X : forall r, stem ++ chars ".merged.asc" <> 47 :: r) by (intros r E; destruct stem as [|c stem]; [discriminate|]; injection E as -> _; exact (NF stem eq_refl)).
  unfold pathjoin. set (b := stem ++ chars ".merged.asc") in *. clearbody b. assert (Y : match rev out with [] => b | 47 :: _ => out ++ b | _ => out ++ 47 :: b end = out ++ 47 :: b).
  { destruct (rev out) as [|c r] eqn:R; [exfalso; apply NE; rewrite <- (rev_involutive out), R; reflexivity|]. assert (C : c <> 47) by (intros ->; apply (NS (rev r)); rewrite <- (rev_involutive out), R; reflexivity).
    destruct c as [|p|p]; try reflexivity. do 6 (destruct p as [p|p|]; try reflexivity). exfalso. apply C. reflexivity. }
  destruct b as [|c b]; [exact Y|]. assert (C : c <> 47) by (intros ->; exact (X b eq_refl)). rewrite Y. destruct c as [|p|p]; try reflexivity. do 6 (destruct p as [p|p|]; try reflexivity). exfalso. apply C. reflexivity.
Qed.

(** ** two days *)
Definition day (first last : list Z) : list (list Z * list Z) :=
  [(epoch_key, chars "2000-01-01 12:00:00"); (first_key, chars "268099200.000000 (" ++ first ++ chars ")"); (last_key, chars "268164000.000000 (" ++ last ++ chars ")");
   (records_key, chars "3"); (sets_key, chars "2")].
Definition file_of (h : list (list Z * list Z)) (data : list Z) : list Z := concat (map dump_line h) ++ chars "END OF HEADER" ++ 10 :: data.
Definition a_first : list Z := chars "2008-07-01 00:00:00". Definition a_last : list Z := chars "2008-07-01 18:00:00".
Definition b_first : list Z := chars "2008-07-02 00:00:00". Definition b_last : list Z := chars "2008-07-02 18:00:00".
Definition some_disk (f : list Z) : option (list Z) :=
  if text_eqb f (chars "a.asc") then Some (file_of (day a_first a_last) (chars "1" ++ [10])) else if text_eqb f (chars "b.asc") then Some (file_of (day b_first b_last) (chars "2" ++ [10])) else None.
(** an order-preserving number for a date *)
Definition some_strptime (d : list Z) : option Z := Some (digits_val (filter is_dig d)).
Ltac solid_text := split; [vm_compute; repeat constructor; discriminate|split; [intros ? ? X; vm_compute in X; injection X as <- _; unfold white; lia|apply ends_rev; intros ? ? X; vm_compute in X; injection X as <- _; unfold white; lia]].
Ltac key_text := split; [vm_compute; repeat constructor; discriminate|split; [vm_compute; repeat constructor; discriminate|apply ends_rev; intros ? ? X; vm_compute in X; injection X as <- _; unfold white; lia]].
Lemma day_file first last data : value_ok (chars "268099200.000000 (" ++ first ++ chars ")") -> value_ok (chars "268164000.000000 (" ++ last ++ chars ")") -> is_file (file_of (day first last) data) (day first last) data.
Proof.
  intros V1 V2. exists (map dump_line (day first last)), (chars "END OF HEADER" ++ [10]). split; [unfold file_of; rewrite <- app_assoc; reflexivity|].
  split; [unfold day; cbn [map]; repeat apply Forall2_cons; try apply Forall2_nil; apply dump_entry with (b := []); try key_text; try solid_text; try assumption; constructor|].
  split; [exists [], []; split; [reflexivity|split; constructor]|]. vm_compute. repeat constructor; cbn; intuition discriminate.
Qed.
Lemma day_stored f first last data t1 t2 : value_ok (chars "268099200.000000 (" ++ first ++ chars ")") -> value_ok (chars "268164000.000000 (" ++ last ++ chars ")") -> date_text first -> date_text last ->
  some_disk f = Some (file_of (day first last) data) -> some_strptime first = Some t1 -> some_strptime last = Some t2 -> t1 <= t2 -> stored some_strptime some_disk f (day first last) data t1 t2.
Proof.
  intros V1 V2 D1 D2 S T1 T2 L. split; [exists (file_of (day first last) data); split; [exact S|apply day_file; assumption]|]. assert (DG : forall s, forallb is_dig s = true -> Forall digit s) by (intros s F; apply Forall_forall; intros c I; rewrite forallb_forall in F; apply dig_digit, F, I).
  split; [|split; [|exact L]].
  - exists (chars "268099200.000000 (" ++ first ++ chars ")"), first. split; [right; left; reflexivity|]. split; [|exact T1]. exists (chars "268099200"), 46, (chars "000000"), (chars " "), (chars ")"). split; [reflexivity|]. split; [apply DG; reflexivity|]. split; [discriminate|]. split; [apply DG; reflexivity|]. split; [repeat constructor|exact D1].
  - exists (chars "268164000.000000 (" ++ last ++ chars ")"), last. split; [right; right; left; reflexivity|]. split; [|exact T2]. exists (chars "268164000"), 46, (chars "000000"), (chars " "), (chars ")"). split; [reflexivity|]. split; [apply DG; reflexivity|]. split; [discriminate|]. split; [apply DG; reflexivity|]. split; [repeat constructor|exact D2].
Qed.
Ltac date_tac := unfold date_text; vm_compute; repeat (apply Forall2_cons; [first [reflexivity|split; discriminate]|]); apply Forall2_nil.
Example c84_nonvacuous :
  stored some_strptime some_disk (chars "a.asc") (day a_first a_last) (chars "1" ++ [10]) 20080701000000 20080701180000 /\
  stored some_strptime some_disk (chars "b.asc") (day b_first b_last) (chars "2" ++ [10]) 20080702000000 20080702180000 /\
  agree (day a_first a_last) (day b_first b_last) /\ decimal_text (chars "3") 3 /\ decimal_text (chars "2") 2 /\ date_text b_last /\
  Forall (fun kv => ~ begins_with (chars "END OF HEADER") (fst kv)) (day a_first a_last) /\ ~ contains (chars "END OF HEADER") (chars "1" ++ [10] ++ chars "2" ++ [10]) /\
  main some_strptime (fun _ => b_last) some_disk [chars "b.asc"; chars "a.asc"] (chars "/tmp") = Val (chars "/tmp/a.merged.asc",
    chars "TIME EPOCH (GPS TIME)         : 2000-01-01 12:00:00" ++ [10] ++ chars "TIME FIRST OBS(SEC PAST EPOCH): 268099200.000000 (2008-07-01 00:00:00)" ++ [10] ++
    chars "TIME LAST OBS(SEC PAST EPOCH) : 80601060000.000000 (2008-07-02 18:00:00)" ++ [10] ++ chars "NUMBER OF DATA RECORDS        :  6" ++ [10] ++ chars "NUMBER OF DATA SETS           :  4" ++ [10] ++
    chars "1" ++ [10] ++ chars "2" ++ [10]).
Proof.
  split; [apply day_stored; try solid_text; try date_tac; try reflexivity; lia|]. split; [apply day_stored; try solid_text; try date_tac; try reflexivity; lia|].
  split; [intros k v I N; unfold day in I |- *; cbn [In] in I |- *; destruct I as [I|[I|[I|[I|[I|[]]]]]]; injection I as <- <-; try (exfalso; apply N; vm_compute; tauto); tauto|].
  split; [split; [discriminate|split; [vm_compute; repeat constructor; discriminate|reflexivity]]|]. split; [split; [discriminate|split; [vm_compute; repeat constructor; discriminate|reflexivity]]|]. split; [date_tac|].
  split; [repeat constructor; intros (r & E); vm_compute in E; discriminate|]. split; [|vm_compute; reflexivity]. intros (p & r & E). apply (f_equal (@length Z)) in E. rewrite !app_length in E. change (length (chars "END OF HEADER")) with 13%nat in E. cbn in E. lia.
Qed.
Print Assumptions c84_header.
Print Assumptions c84_data.
Print Assumptions c84_date.
Print Assumptions c84_date_unique.
Print Assumptions c84_two.
Print Assumptions c84_overlap.
Print Assumptions c84_differ.
Print Assumptions c84_records_refuted.
Print Assumptions c84_three_refuted.
Print Assumptions c84_reverse_refuted.
Print Assumptions c84_no_end_refuted.
Print Assumptions c84_one_refuted.
Print Assumptions c84_root_refuted.
Print Assumptions c84_overwrites_refuted.
Print Assumptions c84_directory_refuted.
Print Assumptions c84_name.
Print Assumptions c84_number.
