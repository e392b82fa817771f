(** Proofs about merging AOD1B files: two files, more files, the text written. *)
From Coq Require Import Ascii String ZArith List Bool Lia.
From Verif Require Import Base CString FromChars PyModel AodMergeModel AodMergeSpec PyProofs AodMergeProofs.
Import ListNotations.
Open Scope Z_scope.

Lemma pbind_val {A B} (r : py A) (f : A -> py B) b : pbind r f = Val b -> exists a, r = Val a /\ f a = Val b.
Proof. destruct r as [a| |]; cbn; [intros H; exists a; split; [reflexivity|exact H]|discriminate|discriminate]. Qed.
Lemma exempt_varying : exempt = varying. Proof. reflexivity. Qed.
Lemma existsb_in k l : existsb (text_eqb k) l = true <-> In k l.
Proof. rewrite existsb_exists. split; [intros (x & I & E); apply text_eqb_eq in E; subst; exact I|intros I; exists k; split; [exact I|apply text_eqb_refl]]. Qed.
Lemma match_items_agree d other : NoDup (map fst other) -> agree d other -> match_items d other = Val true.
Proof.
  intros ND. induction d as [|[k v] d IH]; intros A; [reflexivity|]. assert (A' : agree d other) by (intros k' v' I; apply A; right; exact I). cbn [match_items]. destruct (existsb (text_eqb k) exempt) eqn:E; [exact (IH A')|].
  assert (N : ~ In k varying) by (rewrite <- exempt_varying; intros I; apply existsb_in in I; congruence). rewrite (proj2 (dget_in other k v ND) (A k v (or_introl eq_refl) N)). cbn. rewrite text_eqb_refl. exact (IH A').
Qed.
Lemma match_items_true d other : match_items d other = Val true -> forall k v, In (k, v) d -> ~ In k varying -> dget other k = Some v.
Proof.
  induction d as [|[k0 v0] d IH]; intros H k v I N; [destruct I|]. cbn [match_items] in H. destruct I as [I|I].
  - injection I as -> ->. destruct (existsb (text_eqb k) exempt) eqn:E; [exfalso; apply N; rewrite <- exempt_varying; apply existsb_in, E|]. destruct (dget other k) as [w|] eqn:G; [|discriminate]. cbn in H. destruct (text_eqb_spec v w) as [->|]; [reflexivity|discriminate].
  - destruct (existsb (text_eqb k0) exempt); [exact (IH H k v I N)|]. destruct (dget other k0) as [w|]; [|discriminate]. cbn in H. destruct (text_eqb v0 w); [exact (IH H k v I N)|discriminate].
Qed.
Lemma sets_not_varying : ~ In sets_key varying /\ ~ In records_key varying /\ ~ In epoch_key varying.
Proof. split; [|split]; vm_compute; intuition discriminate. Qed.
Lemma keys_differ : last_key <> records_key /\ last_key <> sets_key /\ records_key <> sets_key /\ last_key <> first_key /\ records_key <> first_key /\ sets_key <> first_key.
Proof. vm_compute. repeat split; discriminate. Qed.

(** ** assignment as a map *)
Definition put (k v : list Z) (e : list Z * list Z) : list Z * list Z := if text_eqb k (fst e) then (fst e, v) else e.
Lemma dset_put d k v : NoDup (map fst d) -> In k (map fst d) -> dset d k v = map (put k v) d.
Proof.
  induction d as [|[a w] d IH]; intros ND I; [destruct I|]. cbn [dset map]. unfold put at 1. cbn [fst]. inversion ND as [|? ? NI ND']; subst. destruct (text_eqb_spec k a) as [->|N].
  - f_equal. clear - NI. induction d as [|[b x] d IH]; [reflexivity|]. cbn [map]. unfold put at 1. cbn [fst]. rewrite text_eqb_neq by (intros ->; apply NI; left; reflexivity). f_equal. apply IH. intros I. apply NI. right. exact I.
  - f_equal. apply IH; [exact ND'|]. destruct I as [E|I]; [cbn in E; congruence|exact I].
Qed.
Lemma put_fst k v d : map fst (map (put k v) d) = map fst d.
Proof. rewrite map_map. apply map_ext. intros [a w]. unfold put. cbn. destruct (text_eqb k a); reflexivity. Qed.

(** ** the lines written *)
Definition dump_line (kv : list Z * list Z) : list Z := pad 30 (fst kv) ++ chars ": " ++ snd kv ++ [10].
Lemma blank_gap n : gap (repeat 32 n).
Proof. induction n as [|n IH]; constructor; [|exact IH]. split; [left; reflexivity|discriminate]. Qed.
Definition key_ok (k : list Z) : Prop := one_line k /\ Forall (fun c => c <> 58) k /\ ends_solid k.
Definition value_ok (v : list Z) : Prop := one_line v /\ begins_solid v /\ ends_solid v.
Lemma entry_ok kv l : entry kv l -> key_ok (fst kv) /\ value_ok (snd kv).
Proof. intros (f & b1 & b2 & _ & _ & _ & _ & K1 & K2 & K3 & V1 & V2 & V3). split; [split; [exact K1|split; [exact K2|exact K3]]|split; [exact V1|split; [exact V2|exact V3]]]. Qed.
Lemma dump_entry k b v : key_ok k -> value_ok v -> gap b -> entry (k, v) (dump_line (k, b ++ v)).
Proof.
  intros (K1 & K2 & K3) (V1 & V2 & V3) B. exists (repeat 32 (30 - length k)), (32 :: b), []. cbn [fst snd]. split.
  - unfold dump_line, pad. cbn [fst snd]. change (chars ": ") with [58; 32]. repeat (rewrite <- ?app_assoc; cbn [app]). reflexivity.
  - split; [apply blank_gap|]. split; [constructor; [split; [left; reflexivity|discriminate]|exact B]|]. split; [constructor|]. repeat (split; [assumption|]). exact V3.
Qed.
Lemma decimal_value_ok w n : decimal_text w n -> value_ok w.
Proof.
  intros (N & F & _). destruct (digits_begins w N F) as [B E]. split; [|split; assumption]. eapply Forall_impl; [|exact F]. cbn. unfold digit. lia.
Qed.
Lemma date_chars d : date_text d -> Forall (fun c => c <> 10) d.
Proof.
  unfold date_text. intros H. assert (M : Forall (fun m => m <> 10) (chars "0000-00-00 00:00:00")) by (vm_compute; repeat constructor; discriminate). induction H as [|m c ms d H _ IH]; [constructor|]. inversion M; subst. constructor; [|apply IH; assumption].
  destruct (m =? 48); [unfold digit in H; lia|subst; assumption].
Qed.
Lemma span_value_ok w n d : decimal_text w n -> date_text d -> value_ok (w ++ chars ".000000 (" ++ d ++ chars ")").
Proof.
  intros W D. destruct (decimal_value_ok w n W) as (V1 & V2 & _). split; [|split].
  - apply Forall_app. split; [exact V1|]. apply Forall_app. split; [vm_compute; repeat constructor; discriminate|]. apply Forall_app. split; [exact (date_chars d D)|vm_compute; repeat constructor; discriminate].
  - destruct W as (N & F & _). destruct w as [|c w]; [contradiction|]. intros c' r E. cbn in E. injection E as <- _. inversion F; subst. apply digit_solid. assumption.
  - intros r c E. rewrite !app_assoc in E. change (chars ")") with [41] in E. apply app_inj_tail in E as [_ <-]. unfold white. lia.
Qed.

Section Merging.
  Variable strptime : list Z -> option Z.
  Variable strftime : Z -> list Z.
  Variable disk : list Z -> option (list Z).
  Notation construct := (construct disk). Notation merge := (merge strptime strftime). Notation prior := (prior strptime).
  Notation main := (main strptime strftime disk). Notation observed := (observed strptime). Notation obs := (obs strptime).

  Lemma item_in k a v : NoDup (map fst (dct a)) -> In (k, v) (dct a) -> item a k = Val v.
  Proof. intros ND I. unfold item. rewrite (proj2 (dget_in _ k v ND) I). reflexivity. Qed.
  Lemma obs_observed k a t : NoDup (map fst (dct a)) -> observed k (dct a) t -> obs k a = Val t.
  Proof. intros ND (v & d & I & O & S). unfold AodMergeModel.obs. rewrite (item_in k a v ND I). cbn. apply match_obs_iff in O. rewrite O. cbn. rewrite S. reflexivity. Qed.
  Lemma number_decimal k a w n : NoDup (map fst (dct a)) -> In (k, w) (dct a) -> decimal_text w n -> number_in k a = Val n.
  Proof. intros ND I D. unfold number_in. rewrite (item_in k a w ND I). cbn. pose proof (parse_decimal w n [] [] D (Forall_nil _) (Forall_nil _)) as P. cbn in P. rewrite app_nil_r in P. rewrite P. reflexivity. Qed.

  Notation stored := (stored strptime disk).
  Lemma stored_construct f h data t1 t2 : stored f h data t1 t2 -> construct f = Val (mkA f h) /\ data_of disk f = Val data /\ NoDup (map fst h).
  Proof.
    intros ((text & D & F) & _). destruct (read_file text h data F) as (R & C & ND). unfold AodMergeModel.construct, data_of. rewrite D. cbn. rewrite R, C. split; [reflexivity|split; [reflexivity|exact ND]].
  Qed.
  Lemma stored_obs f h data t1 t2 : stored f h data t1 t2 -> firstObs strptime (mkA f h) = Val t1 /\ lastObs strptime (mkA f h) = Val t2.
  Proof. intros S. destruct (stored_construct f h data t1 t2 S) as (_ & _ & ND). destruct S as (_ & O1 & O2 & _). split; apply obs_observed; assumption. Qed.
  Lemma stored_prior fa ha da a1 a2 fb hb db b1 b2 : stored fa ha da a1 a2 -> stored fb hb db b1 b2 -> prior (mkA fa ha) (mkA fb hb) = Val (a2 <? b1).
  Proof. intros A B. unfold AodMergeModel.prior. rewrite (proj2 (stored_obs _ _ _ _ _ A)), (proj1 (stored_obs _ _ _ _ _ B)). reflexivity. Qed.
  Lemma sort_two fa ha da a1 a2 fb hb db b1 b2 : stored fa ha da a1 a2 -> stored fb hb db b1 b2 -> sort_files strptime disk [fa; fb] = Val (if b2 <? a1 then [fb; fa] else [fa; fb]).
  Proof.
    intros A B. unfold sort_files. cbn [construct_all]. rewrite (proj1 (stored_construct _ _ _ _ _ A)), (proj1 (stored_construct _ _ _ _ _ B)). cbn [pbind insert_all insert]. rewrite (stored_prior _ _ _ _ _ _ _ _ _ _ B A). cbn [pbind]. destruct (b2 <? a1); reflexivity.
  Qed.
  Lemma main_two fa ha da a1 a2 fb hb db b1 b2 out : stored fa ha da a1 a2 -> stored fb hb db b1 b2 -> (b2 <? a1) = false ->
    main [fa; fb] out = (let* m := merge (mkA fa ha) (mkA fb hb) in match m with None => Raise AttributeError | Some m => Val (output_name out fa, dump m ++ da ++ db) end).
  Proof.
    intros A B E. unfold AodMergeModel.main. rewrite (sort_two _ _ _ _ _ _ _ _ _ _ A B), E. cbn [pbind]. destruct (stored_construct _ _ _ _ _ A) as (-> & -> & _). destruct (stored_construct _ _ _ _ _ B) as (CB & DB & _). cbn [pbind merge_all]. rewrite CB. cbn [pbind].
    destruct (merge (mkA fa ha) (mkA fb hb)) as [m| |]; cbn [pbind]; [|reflexivity|reflexivity]. rewrite DB. cbn [pbind]. destruct m; reflexivity.
  Qed.
  Lemma main_swap fa ha da a1 a2 fb hb db b1 b2 out : stored fa ha da a1 a2 -> stored fb hb db b1 b2 -> a2 < b1 -> main [fb; fa] out = main [fa; fb] out.
  Proof.
    intros A B L. unfold AodMergeModel.main. rewrite (sort_two _ _ _ _ _ _ _ _ _ _ A B), (sort_two _ _ _ _ _ _ _ _ _ _ B A). rewrite (proj2 (Z.ltb_lt a2 b1) L). destruct A as (_ & _ & _ & A), B as (_ & _ & _ & B). rewrite (proj2 (Z.ltb_ge b2 a1)) by lia. reflexivity.
  Qed.

  (** ** two files without a common time *)
  Section Two.
    Variables (fa fb : list Z) (ha hb : list (list Z * list Z)) (da db : list Z) (a1 a2 b1 b2 : Z).
    Hypothesis A : stored fa ha da a1 a2.
    Hypothesis B : stored fb hb db b1 b2.
    Hypothesis AG : agree ha hb.
    Lemma stored_match : headersMatch (mkA fa ha) (mkA fb hb) = Val true.
    Proof. apply match_items_agree; [exact (proj2 (proj2 (stored_construct _ _ _ _ _ B)))|exact AG]. Qed.
    Lemma agree_in k v : In (k, v) ha -> ~ In k varying -> In (k, v) hb. Proof. apply AG. Qed.

    Variables (ve wr ws : list Z) (t0 nr ns : Z).
    Hypothesis HE : In (epoch_key, ve) ha.
    Hypothesis SE : strptime ve = Some t0.
    Hypothesis HR : In (records_key, wr) ha.
    Hypothesis DR : decimal_text wr nr.
    Hypothesis HS : In (sets_key, ws) ha.
    Hypothesis DS : decimal_text ws ns.
    Hypothesis L : a2 < b1.
    Definition last_value : list Z := str_int (b2 - t0) ++ chars ".000000 (" ++ strftime b2 ++ chars ")".
    Definition merged_dict : dict := map (fun e => put sets_key (32 :: str_int (2 * ns)) (put records_key (32 :: str_int (2 * nr)) (put last_key last_value e))) ha.
    Lemma key_in k v (h : list (list Z * list Z)) : In (k, v) h -> In k (map fst h).
    Proof. intros I. apply in_map_iff. exists (k, v). split; [reflexivity|exact I]. Qed.
    Lemma merge_two : merge (mkA fa ha) (mkA fb hb) = Val (Some (mkA fa merged_dict)).
    Proof.
      destruct (stored_construct _ _ _ _ _ A) as (_ & _ & NA). destruct (stored_construct _ _ _ _ _ B) as (_ & _ & NB). destruct (stored_obs _ _ _ _ _ A) as [OA1 OA2]. destruct (stored_obs _ _ _ _ _ B) as [OB1 OB2].
      unfold AodMergeModel.merge. rewrite stored_match. cbn [pbind negb]. rewrite OA1, OB1. cbn [pbind]. assert (X : b1 <? a1 = false) by (apply Z.ltb_ge; destruct A as (_ & _ & _ & LA); lia). rewrite X. rewrite OA2, OB1. cbn [pbind].
      rewrite (proj2 (Z.ltb_lt a2 b1) L). cbn [negb]. rewrite OB2. cbn [pbind]. unfold timeEpoch. rewrite (item_in EPOCH (mkA fa ha) ve NA HE). cbn [pbind]. rewrite SE. cbn [ofopt pbind].
      unfold numDataRecords, numDataSets. rewrite (number_decimal RECORDS (mkA fa ha) wr nr NA HR DR), (number_decimal RECORDS (mkA fb hb) wr nr NB (agree_in _ _ HR (proj1 (proj2 sets_not_varying))) DR). cbn [pbind].
      rewrite (number_decimal SETS (mkA fa ha) ws ns NA HS DS), (number_decimal SETS (mkA fb hb) ws ns NB (agree_in _ _ HS (proj1 sets_not_varying)) DS). cbn [pbind fn dct]. do 3 f_equal.
      assert (IL : In last_key (map fst ha)) by (destruct A as (_ & _ & (v & d & I & _) & _); exact (key_in _ _ _ I)).
      change LAST with last_key. change RECORDS with records_key. change SETS with sets_key.
      rewrite (dset_put ha last_key) by assumption. rewrite (dset_put _ records_key); [|rewrite put_fst; exact NA|rewrite put_fst; exact (key_in _ _ _ HR)].
      rewrite (dset_put _ sets_key); [|rewrite !put_fst; exact NA|rewrite !put_fst; exact (key_in _ _ _ HS)].
      rewrite !map_map. unfold merged_dict, last_value. replace (nr + nr) with (2 * nr) by lia. replace (ns + ns) with (2 * ns) by lia. reflexivity.
    Qed.

    Hypothesis T : t0 <= b2.
    Hypothesis SF : date_text (strftime b2).
    Lemma decimal_nonneg w n : decimal_text w n -> 0 <= n.
    Proof.
      intros (_ & F & <-). unfold digits_val. assert (G : forall x, 0 <= x -> 0 <= fold_left (fun a c => 10 * a + (c - 48)) w x); [|apply G; lia]. induction F as [|c w D _ IH]; intros x X; [exact X|]. cbn [fold_left]. apply IH. unfold digit in D. lia.
    Qed.
    Lemma merged_lines ls : Forall2 entry ha ls -> exists hm lsm, dump (mkA fa merged_dict) = concat lsm /\ Forall2 entry hm lsm /\ Forall2 (merged_entry (b2 - t0) (strftime b2) (2 * nr) (2 * ns)) ha hm.
    Proof.
      unfold dump, merged_dict. cbn [dct]. rewrite map_map. assert (NR : 0 <= nr) by (apply (decimal_nonneg wr), DR). assert (NS : 0 <= ns) by (apply (decimal_nonneg ws), DS).
      pose proof (str_int_decimal (2 * nr) ltac:(lia)) as PR. pose proof (str_int_decimal (2 * ns) ltac:(lia)) as PS. pose proof (str_int_decimal (b2 - t0) ltac:(lia)) as PL. destruct keys_differ as (N1 & N2 & N3 & _).
      clear - PR PS PL SF N1 N2 N3. induction 1 as [|[k v] l h ls H F IH]; [exists [], []; cbn; repeat split; constructor|]. destruct IH as (hm & lsm & E & FE & FM). destruct (entry_ok _ _ H) as [K V]. cbn [fst snd] in K, V.
      assert (X : exists v' b, entry (k, v') (dump_line (k, b ++ v')) /\ merged_entry (b2 - t0) (strftime b2) (2 * nr) (2 * ns) (k, v) (k, v') /\ put sets_key (32 :: str_int (2 * ns)) (put records_key (32 :: str_int (2 * nr)) (put last_key last_value (k, v))) = (k, b ++ v')).
      { unfold put. cbn [fst]. assert (G32 : gap [32]) by exact (blank_gap 1). destruct (text_eqb_spec last_key k) as [<-|NL].
        - cbn [fst]. rewrite (text_eqb_neq records_key last_key) by congruence. cbn [fst]. rewrite (text_eqb_neq sets_key last_key) by congruence. exists last_value, []. split; [apply dump_entry; [exact K|apply span_value_ok with (1 := PL), SF|constructor]|]. split; [|reflexivity].
          split; [reflexivity|]. cbn [fst snd]. split; [intros _; exists (str_int (b2 - t0)); split; [exact PL|reflexivity]|]. split; [congruence|]. split; [congruence|]. congruence.
        - cbn [fst]. destruct (text_eqb_spec records_key k) as [<-|NR].
          + cbn [fst]. rewrite (text_eqb_neq sets_key records_key) by congruence. exists (str_int (2 * nr)), [32]. split; [apply dump_entry; [exact K|apply decimal_value_ok with (1 := PR)|exact G32]|]. split; [|reflexivity].
            split; [reflexivity|]. cbn [fst snd]. split; [congruence|]. split; [intros _; exact PR|]. split; congruence.
          + cbn [fst]. destruct (text_eqb_spec sets_key k) as [<-|NS].
            * exists (str_int (2 * ns)), [32]. split; [apply dump_entry; [exact K|apply decimal_value_ok with (1 := PS)|exact G32]|]. split; [|reflexivity]. split; [reflexivity|]. cbn [fst snd]. split; [congruence|]. split; [congruence|]. split; [intros _; exact PS|congruence].
            * exists v, []. split; [apply dump_entry; [exact K|exact V|constructor]|]. split; [|reflexivity]. split; [reflexivity|]. cbn [fst snd]. split; [congruence|]. split; [congruence|]. split; [congruence|reflexivity]. }
      destruct X as (v' & b & E1 & M1 & P1). exists ((k, v') :: hm), (dump_line (k, b ++ v') :: lsm). split; [cbn [map concat]; rewrite <- E, P1; reflexivity|]. split; constructor; assumption.
    Qed.
    Lemma two_files out : exists hm lsm, Forall2 entry hm lsm /\ Forall2 (merged_entry (b2 - t0) (strftime b2) (2 * nr) (2 * ns)) ha hm /\
      main [fa; fb] out = Val (output_name out fa, concat lsm ++ da ++ db) /\ main [fb; fa] out = Val (output_name out fa, concat lsm ++ da ++ db).
    Proof.
      destruct A as ((text & D & F) & _). destruct F as (ls & e & _ & F & _). destruct (merged_lines ls F) as (hm & lsm & E & FE & FM). exists hm, lsm. split; [exact FE|]. split; [exact FM|].
      assert (M : main [fa; fb] out = Val (output_name out fa, concat lsm ++ da ++ db)).
      { rewrite (main_two _ _ _ _ _ _ _ _ _ _ out A B) by (apply Z.ltb_ge; destruct A as (_ & _ & _ & LA), B as (_ & _ & _ & LB); lia). rewrite merge_two. cbn [pbind]. rewrite E. reflexivity. }
      split; [exact M|]. rewrite (main_swap _ _ _ _ _ _ _ _ _ _ out A B L). exact M.
    Qed.
  End Two.
  (** ** two files with a common time *)
  Lemma overlap fa ha da a1 a2 fb hb db b1 b2 out t : stored fa ha da a1 a2 -> stored fb hb db b1 b2 -> agree ha hb -> a1 <= t <= a2 -> b1 <= t <= b2 -> main [fa; fb] out = Raise AssertionError.
  Proof.
    intros A B AG TA TB. rewrite (main_two _ _ _ _ _ _ _ _ _ _ out A B) by (apply Z.ltb_ge; lia). destruct (stored_obs _ _ _ _ _ A) as [OA1 OA2]. destruct (stored_obs _ _ _ _ _ B) as [OB1 OB2].
    unfold AodMergeModel.merge. rewrite (stored_match _ _ _ _ _ _ _ B AG). cbn [pbind negb]. rewrite OA1, OB1. cbn [pbind]. destruct (Z.ltb_spec b1 a1).
    - rewrite OB2, OA1. cbn [pbind]. rewrite (proj2 (Z.ltb_ge b2 a1)) by lia. reflexivity.
    - rewrite OA2, OB1. cbn [pbind]. rewrite (proj2 (Z.ltb_ge a2 b1)) by lia. reflexivity.
  Qed.
  (** ** headers that differ *)
  Lemma differ fa ha da a1 a2 fb hb db b1 b2 out k v w : stored fa ha da a1 a2 -> stored fb hb db b1 b2 -> In (k, v) ha -> In (k, w) hb -> v <> w -> ~ In k varying -> forall r, main [fa; fb] out <> Val r.
  Proof.
    assert (G : forall fa ha da a1 a2 fb hb db b1 b2 out v w, stored fa ha da a1 a2 -> stored fb hb db b1 b2 -> In (k, v) ha -> In (k, w) hb -> v <> w -> ~ In k varying -> (b2 <? a1) = false -> forall r, main [fa; fb] out <> Val r).
    { clear. intros fa ha da a1 a2 fb hb db b1 b2 out v w A B IA IB N NV E r. rewrite (main_two _ _ _ _ _ _ _ _ _ _ out A B E). destruct (stored_construct _ _ _ _ _ B) as (_ & _ & NB). intros H. apply pbind_val in H as (m & H & R). destruct m as [m|]; [|discriminate].
      unfold AodMergeModel.merge in H. apply pbind_val in H as (b & HM & H). destruct b; [|discriminate]. pose proof (match_items_true _ _ HM k v IA NV) as G. cbn [dct] in G. rewrite (proj2 (dget_in hb k w NB) IB) in G. congruence. }
    intros A B IA IB N NV. destruct (b2 <? a1) eqn:E; [|apply (G _ _ _ _ _ _ _ _ _ _ out v w A B); assumption]. apply Z.ltb_lt in E. rewrite (main_swap _ _ _ _ _ _ _ _ _ _ out B A E).
    apply (G _ _ _ _ _ _ _ _ _ _ out w v B A); try assumption; [congruence|]. apply Z.ltb_ge. destruct A as (_ & _ & _ & LA), B as (_ & _ & _ & LB). lia.
  Qed.

  (** ** three files or more *)
  Definition stripped (d : dict) : Prop := forall k v, dget d k = Some v -> begins_solid v.
  Lemma stripped_set d k v : stripped d -> begins_solid v -> stripped (dset d k v).
  Proof. intros S B k' v' G. destruct (text_eqb_spec k' k) as [->|N]; [rewrite dget_set in G; injection G as <-; exact B|]. rewrite dget_set_other in G by exact N. exact (S k' v' G). Qed.
  Lemma read_stripped ls d d' : stripped d -> read_header ls d = Val d' -> stripped d'.
  Proof.
    revert d. induction ls as [|l ls IH]; intros d S H; cbn [read_header] in H; [injection H as <-; exact S|]. destruct (text_eqb (strip l) END); [injection H as <-; exact S|]. destruct (split1 58 l) as [[k v]|]; [|discriminate]. apply (IH _ (stripped_set _ _ _ S (strip_begins v)) H).
  Qed.
  Lemma construct_stripped f a : construct f = Val a -> stripped (dct a).
  Proof.
    unfold AodMergeModel.construct. intros H. apply pbind_val in H as (text & _ & H). apply pbind_val in H as (d & R & H). injection H as <-. cbn. apply (read_stripped _ [] d) with (2 := R). intros k v G. discriminate.
  Qed.
  Lemma merge_sets a b c : merge a b = Val (Some c) -> exists w, dget (dct c) SETS = Some (32 :: w).
  Proof.
    unfold AodMergeModel.merge. intros H. apply pbind_val in H as (m & _ & H). destruct m; [|discriminate]. cbn [negb] in H. apply pbind_val in H as (x & _ & H). apply pbind_val in H as (y & _ & H). destruct (if y <? x then (b, a) else (a, b)) as [p q].
    apply pbind_val in H as (l & _ & H). apply pbind_val in H as (s & _ & H). destruct (l <? s); [|discriminate]. cbn [negb] in H. apply pbind_val in H as (e & _ & H). apply pbind_val in H as (t & _ & H). apply pbind_val in H as (r1 & _ & H). apply pbind_val in H as (r2 & _ & H).
    apply pbind_val in H as (n1 & _ & H). apply pbind_val in H as (n2 & _ & H). injection H as <-. cbn [dct]. eexists. apply dget_set.
  Qed.
  Lemma no_second_merge a b w : dget (dct a) SETS = Some (32 :: w) -> stripped (dct b) -> forall c, merge a b <> Val (Some c).
  Proof.
    intros G S c H. unfold AodMergeModel.merge in H. apply pbind_val in H as (m & M & H). destruct m; [|discriminate]. apply dget_some in G. pose proof (match_items_true _ _ M SETS _ G (proj1 sets_not_varying)) as D. apply (S SETS _ D 32 w eq_refl). left. reflexivity.
  Qed.
  Lemma merge_all_none fs out r o : merge_all strptime strftime disk fs None out = Val (r, o) -> r = None.
  Proof. destruct fs; cbn; [intros H; injection H as <- _; reflexivity|discriminate]. Qed.
  Lemma insert_length x l r : insert strptime x l = Val r -> length r = S (length l).
  Proof.
    revert r. induction l as [|y l IH]; intros r H; cbn [insert] in H; [injection H as <-; reflexivity|]. apply pbind_val in H as (c & _ & H). destruct c; [injection H as <-; reflexivity|]. apply pbind_val in H as (r' & I & H). injection H as <-. cbn. rewrite (IH r' I). reflexivity.
  Qed.
  Lemma insert_all_length l acc r : insert_all strptime l acc = Val r -> length r = (length l + length acc)%nat.
  Proof.
    revert acc. induction l as [|x l IH]; intros acc H; cbn [insert_all] in H; [injection H as <-; reflexivity|]. apply pbind_val in H as (acc' & I & H). rewrite (IH _ H), (insert_length _ _ _ I). cbn. lia.
  Qed.
  Lemma construct_all_length fs l : construct_all disk fs = Val l -> length l = length fs.
  Proof. revert l. induction fs as [|f fs IH]; intros l H; cbn [construct_all] in H; [injection H as <-; reflexivity|]. apply pbind_val in H as (a & _ & H). apply pbind_val in H as (l' & I & H). injection H as <-. cbn. rewrite (IH l' I). reflexivity. Qed.
  Lemma sort_length fs s : sort_files strptime disk fs = Val s -> length s = length fs.
  Proof.
    unfold sort_files. intros H. apply pbind_val in H as (l & C & H). apply pbind_val in H as (s' & I & H). injection H as <-. rewrite map_length, (insert_all_length _ _ _ I), (construct_all_length _ _ C). cbn. lia.
  Qed.
  Lemma merge_all_three f g r m out x : merge_all strptime strftime disk (f :: g :: r) (Some m) out = Val x -> fst x = None.
  Proof.
    cbn [merge_all]. intros H. apply pbind_val in H as (a & _ & H). apply pbind_val in H as (m1 & M1 & H). apply pbind_val in H as (s & _ & H). destruct m1 as [m1|]; [|discriminate].
    apply pbind_val in H as (b & C & H). apply pbind_val in H as (m2 & M2 & H). apply pbind_val in H as (s2 & _ & H). destruct m2 as [m2|].
    - exfalso. destruct (merge_sets _ _ _ M1) as (w & W). exact (no_second_merge _ _ w W (construct_stripped _ _ C) m2 M2).
    - destruct x as [x o]. exact (merge_all_none _ _ _ _ H).
  Qed.
  Lemma three_files fs out x : (3 <= length fs)%nat -> main fs out <> Val x.
  Proof.
    intros L H. unfold AodMergeModel.main in H. apply pbind_val in H as (s & S & H). rewrite <- (sort_length _ _ S) in L. destruct s as [|f [|g [|h r]]]; try (cbn in L; lia). apply pbind_val in H as (m & _ & H). apply pbind_val in H as (o & _ & H). apply pbind_val in H as ([merged t] & M & H).
    pose proof (merge_all_three _ _ _ _ _ _ M) as E. cbn in E. subst merged. discriminate.
  Qed.
  (** ** the later file merged with the earlier one *)
  Lemma merge_first a b c : merge a b = Val (Some c) -> dget (dct c) FIRST = dget (dct a) FIRST.
  Proof.
    unfold AodMergeModel.merge. intros H. apply pbind_val in H as (m & _ & H). destruct m; [|discriminate]. cbn [negb] in H. apply pbind_val in H as (x & _ & H). apply pbind_val in H as (y & _ & H). destruct (if y <? x then (b, a) else (a, b)) as [p q].
    apply pbind_val in H as (l & _ & H). apply pbind_val in H as (s & _ & H). destruct (l <? s); [|discriminate]. cbn [negb] in H. apply pbind_val in H as (e & _ & H). apply pbind_val in H as (t & _ & H). apply pbind_val in H as (r1 & _ & H). apply pbind_val in H as (r2 & _ & H).
    apply pbind_val in H as (n1 & _ & H). apply pbind_val in H as (n2 & _ & H). injection H as <-. cbn [dct]. destruct keys_differ as (_ & _ & _ & N1 & N2 & N3).
    rewrite dget_set_other by (exact (fun E => N3 (eq_sym E))). rewrite dget_set_other by (exact (fun E => N2 (eq_sym E))). rewrite dget_set_other by (exact (fun E => N1 (eq_sym E))). reflexivity.
  Qed.
End Merging.

(** ** the end of the header *)
Lemma contains_lines lit s l : one_line lit -> In l (lines s) -> contains lit l -> contains lit s.
Proof.
  intros O I (p & r & ->). apply in_split in I as (l1 & l2 & E). rewrite <- (lines_concat s), E, concat_app. cbn [concat]. exists (concat l1 ++ p), (r ++ concat l2). repeat rewrite <- app_assoc. reflexivity.
Qed.
Lemma no_end_cat hm lsm data : Forall2 entry hm lsm -> ~ contains END data -> cat (lines (concat lsm ++ data)) = Forever.
Proof.
  intros F N. rewrite (lines_entries hm) by exact F. induction F as [|kv l hm lsm H _ IH]; [|cbn [app cat]; rewrite (entry_not_end kv l H); exact IH]. cbn [app].
  assert (G : forall ls, incl ls (lines data) -> cat ls = Forever); [|apply G, incl_refl]. induction ls as [|l ls IH]; intros I; [reflexivity|]. cbn [cat]. rewrite text_eqb_neq; [apply IH; intros x X; apply I; right; exact X|].
  intros E. apply N. apply (contains_lines END data l); [exact (proj1 END_chars)|apply I; left; reflexivity|]. destruct (strip_parts l) as (x & y & P & _ & _). exists x, y. rewrite <- E at 1. rewrite E in P |- *. exact P.
Qed.
Lemma text_lines_contains lit s l : In l (text_lines s) -> contains lit l -> contains lit s.
Proof.
  revert l. induction s as [|c s IH]; intros l I C; [destruct I|]. cbn [text_lines] in I. assert (K : forall x, contains x s -> contains x (c :: s)) by (intros x (p & r & ->); exists (c :: p), r; reflexivity). destruct (c =? 10).
  - destruct I as [<-|I]; [|apply K, (IH l I C)]. destruct C as (p & r & E). symmetry in E. apply app_eq_nil in E as [-> E]. apply app_eq_nil in E as [-> _]. exists [], (c :: s). reflexivity.
  - assert (P : forall x r, text_lines s = x :: r -> exists y, s = x ++ y).
    { clear. induction s as [|d s IH]; intros x r E; [discriminate|]. cbn in E. destruct (d =? 10); [injection E as <- _; exists (d :: s); reflexivity|]. destruct (text_lines s) as [|z zs]; [injection E as <- _; exists s; reflexivity|]. injection E as <- _. destruct (IH z zs eq_refl) as (y & ->). exists y. reflexivity. }
    destruct (text_lines s) as [|x r] eqn:T.
    + destruct I as [<-|[]]. destruct C as (p & q & E). exists p, (q ++ s). rewrite !app_assoc, <- (app_assoc p), <- E. reflexivity.
    + destruct I as [<-|I].
      * destruct (P x r eq_refl) as (y & ->). destruct C as (p & q & E). exists p, (q ++ y). rewrite !app_assoc, <- (app_assoc p), <- E. reflexivity.
      * apply K, (IH l); [right; exact I|exact C].
Qed.
Lemma entry_begins_end kv m : entry kv (m ++ [10]) -> begins_with END m -> begins_with END (fst kv).
Proof.
  intros (fill & b1 & b2 & E & G & _ & _ & _ & _ & _ & _) (r & ->). destruct END_chars as (_ & _ & ES & NC). remember (b1 ++ snd kv ++ b2 ++ [10]) as t. clear Heqt. rewrite <- app_assoc in E.
  assert (X : exists z, fst kv ++ fill = END ++ z).
  { assert (Y : forall p (x y q : list Z), p ++ x = y ++ 58 :: q -> ~ In 58 p -> exists z, y = p ++ z).
    { clear. induction p as [|c p IH]; intros x y q E N; [exists y; reflexivity|]. destruct y as [|d y]; cbn in E; injection E as -> E; [exfalso; apply N; left; reflexivity|]. destruct (IH x y q E) as (z & ->); [intros I; apply N; right; exact I|]. exists z. reflexivity. }
    apply (Y END (r ++ [10]) (fst kv ++ fill) t); [rewrite <- app_assoc; exact E|exact NC]. }
  destruct X as (z & X). clear E. assert (Y : forall p q (k f : list Z), k ++ f = p ++ q -> (exists y, k = p ++ y) \/ exists y c, p = k ++ y ++ [c] /\ In c f).
  { clear. induction p as [|c p IH]; intros q k f E; [left; exists k; reflexivity|]. destruct k as [|d k]; cbn in E.
    - right. subst f. destruct (exists_last (l := c :: p) ltac:(discriminate)) as (y & e & EQ). exists y, e. split; [exact EQ|]. change (c :: p ++ q) with ((c :: p) ++ q). rewrite EQ. apply in_or_app. left. apply in_or_app. right. left. reflexivity.
    - injection E as -> E. destruct (IH q k f E) as [(y & ->)|(y & e & -> & I)]; [left; exists y; reflexivity|right; exists y, e; split; [reflexivity|exact I]]. }
  destruct (Y END z (fst kv) fill X) as [(y & Y')|(y & c & Y' & I)]; [exists y; exact Y'|]. exfalso. rewrite app_assoc in Y'. apply (ES _ _ Y'). unfold gap in G. rewrite Forall_forall in G. apply G, I.
Qed.
Lemma no_end_lines hm lsm data : Forall2 entry hm lsm -> Forall (fun kv => ~ begins_with END (fst kv)) hm -> ~ contains END data -> forall l, In l (text_lines (concat lsm ++ data)) -> ~ begins_with END l.
Proof.
  intros F K N. induction F as [|kv m hm lsm H _ IH]; intros l I B.
  - cbn [concat app] in I. apply N. apply (text_lines_contains END data l I). destruct B as (r & ->). exists [], r. reflexivity.
  - inversion K as [|? ? K1 K2]; subst. destruct (entry_shape kv m H) as (x & -> & O & _). cbn [concat] in I. rewrite <- !app_assoc in I. cbn [app] in I. rewrite text_lines_cons in I by exact O. destruct I as [<-|I]; [apply K1; exact (entry_begins_end kv x H B)|exact (IH K2 l I B)].
Qed.
