(** C25-C27, C59, C60: tide atlases, GROOPS file names, file lists and matrices *)
From Coq Require Import Ascii String Reals ZArith List Bool Lia.
From Verif Require Import Base CString FromChars DoodsonModel DoodsonSpec DoodsonProofs IcgemModel IcgemSpec AtlasModel AtlasSpec AtlasProofs AtlasProofs2 AtlasProofs3.
Import ListNotations.
From Verif Require Import IcgemProps.
Open Scope Z_scope.

(** ** C25 *)
(** whatever is appended, no Doodson number (with its phase) is stored twice *)
Theorem c25_unique : forall reqs, NoDup (map wd (fold_left request reqs [])).
Proof. intros. rewrite requests_firsts. cbn [app map]. apply firsts_nodup. Qed.
(** what is stored: of every number requested the first request, in order *)
Theorem c25_stored : forall reqs, fold_left request reqs [] = firsts [] reqs /\
  (forall i w, nth_error reqs i = Some w -> (forall j v, (j < i)%nat -> nth_error reqs j = Some v -> wd v <> wd w) -> In w (fold_left request reqs [])) /\
  (forall d, In d (map wd reqs) -> In d (map wd (fold_left request reqs []))).
Proof.
  intros. rewrite requests_firsts. cbn [app map]. split; [reflexivity|]. split.
  - intros i w E F. apply (firsts_first reqs i); [exact E|exact F|simpl; tauto].
  - intros d I. apply firsts_all; [exact I|simpl; tauto].
Qed.
(** a stored wave is found under its number, a number not stored is not found; further requests do not move it *)
Theorem c25_retrievable : forall reqs more w, let a := fold_left request reqs [] in In w a ->
  nth_error a (find_tidal_wave a (wd w)) = Some w /\ nth_error (fold_left request more a) (find_tidal_wave (fold_left request more a) (wd w)) = Some w /\
  find_tidal_wave (fold_left request more a) (wd w) = find_tidal_wave a (wd w).
Proof.
  intros reqs more w a I. assert (N : NoDup (map wd a)) by apply c25_unique. assert (N' : NoDup (map wd (fold_left request more a))) by (unfold a; rewrite <- fold_left_app; apply c25_unique).
  split; [apply find_found; assumption|]. split.
  - apply find_found; [exact N'|]. rewrite requests_firsts. apply in_or_app. left. exact I.
  - rewrite requests_firsts. apply find_app. apply in_map, I.
Qed.
Theorem c25_not_found : forall a d, find_tidal_wave a d = length a <-> ~ In d (map wd a).
Proof. exact find_absent. Qed.
(** appending: refused exactly if the number is present; otherwise at the end *)
Theorem c25_append : forall a w a' i, append_wave a w = Some (a', i) <-> ~ In (wd w) (map wd a) /\ a' = (a ++ [w])%list /\ i = length a.
Proof. exact append_some. Qed.
Theorem c25_refused : forall a w, append_wave a w = None <-> In (wd w) (map wd a).
Proof. exact append_none. Qed.
Theorem c25_append_by_dimensions : forall a d name n m, append_new a d name n m = append_wave a (new_wave d name n m).
Proof. exact append_new_spec. Qed.
(** degree and order of a new wave; nothing is assigned yet *)
Theorem c25_new_wave : forall d name n m, wd (new_wave d name n m) = d /\ wname (new_wave d name n m) = name /\ sval (wcos (new_wave d name n m)) = None /\ sval (wsin (new_wave d name n m)) = None /\
  sdeg (wcos (new_wave d name n m)) = n /\ sdeg (wsin (new_wave d name n m)) = n /\ (1 <= m -> sord (wcos (new_wave d name n m)) = m /\ sord (wsin (new_wave d name n m)) = m).
Proof. intros d name n m. repeat split; cbn; destruct (Z.ltb_spec 0 m); reflexivity || lia. Qed.
(** an order that is not positive (the default argument is -1) stands for the degree *)
Theorem c25_order_default : forall d name n m, m <= 0 -> sord (wcos (new_wave d name n m)) = n.
Proof. intros d name n m H. cbn. destruct (Z.ltb_spec 0 m); [lia|reflexivity]. Qed.
(** but the phase is part of the comparison: the same six multipliers can be stored twice (K1 of the two tables) *)
Theorem c25_multipliers_refuted : exists w w', let a := fold_left request [w; w'] [] in a = [w; w'] /\ no_pi (wd w) = no_pi (wd w') /\
  match_ocean_name (wname w) <> None /\ find_wave_entry (wname w') <> None.
Proof.
  exists (new_wave (mkD 1 1 0 0 0 0 1) (chars "K1") 2 2), (new_wave (mkD 1 1 0 0 0 0 (-1)) (chars "K1") 2 2). cbn zeta.
  split; [vm_compute; reflexivity|]. split; [reflexivity|]. split; vm_compute; discriminate.
Qed.
Example c25_nonvacuous : let w k := new_wave (mkD 2 k 0 0 0 0 0) (chars "x") 2 2 in
  append_wave [w 0] (w 1) = Some ([w 0; w 1], 1%nat) /\ append_wave [w 0; w 1] (w 0) = None /\ In (w 1) (fold_left request [w 0; w 1; w 0] []).
Proof. cbn zeta. split; [reflexivity|]. split; [reflexivity|]. vm_compute. tauto. Qed.

(** ** C26 *)
(** a name of the documented form gives its parts *)
Theorem c26_parse : forall f m d w t, names f m d w t -> parse_gname f = Ok (Some (mkG m d w t)).
Proof. exact parse_names. Qed.
(** and determines them; conversely the parts determine the name *)
Theorem c26_unique : forall f f' m d w t m' d' w' t', names f m d w t -> names f' m' d' w' t' -> (f = f' <-> m = m' /\ d = d' /\ w = w' /\ t = t').
Proof.
  intros f f' m d w t m' d' w' t' N N'. split; [intros <-; exact (names_fun _ _ _ _ _ _ _ _ _ N N')|]. intros (<- & <- & <- & <-). exact (names_unique _ _ _ _ _ _ N N').
Qed.
(** writing and reading back: model, multipliers and wave name come back, the tag is exchanged *)
Theorem c26_roundtrip_partial : forall g m d w t, representable d -> legal m w t -> exists f,
  compile g (Some m) (Some d) (Some w) t = Ok f /\ compile (mkG m d w t) None None None t = Ok f /\ parse_gname f = Ok (Some (mkG m (no_pi d) w (other t))).
Proof.
  intros g m d w t R L. destruct (compile_given g m d w t R L) as (f & C & N). destruct (compile_default (mkG m d w t) t R L) as (f' & C' & N'). cbn [gmodel gd gwave] in N'.
  exists f. split; [exact C|]. split; [rewrite (names_unique _ _ _ _ _ _ N N'); exact C'|]. apply parse_names, N.
Qed.
Theorem c26_tag_refuted : forall m d w t, representable d -> legal m w t -> exists f g,
  compile (mkG m d w t) None None None t = Ok f /\ parse_gname f = Ok (Some g) /\ gtag g <> t.
Proof.
  intros m d w t R L. destruct (c26_roundtrip_partial (mkG m d w t) m d w t R L) as (f & _ & C & P). exists f, (mkG m (no_pi d) w (other t)). split; [exact C|]. split; [exact P|].
  destruct L as (_ & _ & _ & [-> | ->]); cbn; discriminate.
Qed.
(** reading and writing with the other tag gives the name back *)
Theorem c26_rewrite : forall f m d w t, names f m d w t -> compile (mkG m d w t) None None None (other t) = Ok f.
Proof.
  intros f m d w t (D & U & L & ->). assert (R : representable d) by (destruct U as (_ & X & _); exact (text_representable _ _ X)). assert (T : is_tag t) by (destruct L; tauto). destruct (other_tag _ T) as (T' & O).
  destruct (compile_default (mkG m d w t) (other t) R) as (f & C & N); [destruct L as (A & B & C & _); cbn; unfold legal; tauto|]. cbn [gmodel gd gwave] in N. rewrite O in N. rewrite C. f_equal.
  apply (names_unique _ _ m (no_pi d) w t N). exists D. split; [|split; [exact L|reflexivity]]. replace (no_pi d) with d; [exact U|]. destruct U as (_ & (? & ? & ? & ? & ? & ? & ? & ? & X) & _). unfold no_pi. destruct d. cbn in *. f_equal. tauto.
Qed.
(** exactly these names are read: anything may follow the Doodson number and separate the tag *)
Theorem c26_accepts_exactly : forall f g, parse_gname f = Ok (Some g) <->
  loosely f (gmodel g) (gd g) (gwave g) (gtag g) /\ (length (gmodel g) <= 48)%nat /\ (length (gwave g) <= 16)%nat.
Proof. exact parse_iff. Qed.
Theorem c26_separator_refuted : exists g, parse_gname (chars "TiME22_255.555_m2xcos.gfc") = Ok (Some g) /\ parse_gname (chars "TiME22_255.555_m2_cos.gfc") = Ok (Some g).
Proof. exists (mkG (chars "TiME22") (mkD 2 0 0 0 0 0 0) (chars "m2") 99). split; vm_compute; reflexivity. Qed.
Theorem c26_junk_refuted : exists g, parse_gname (chars "TiME22_255.5551234_m2_cos.gfc") = Ok (Some g) /\ parse_gname (chars "TiME22_255.555_m2_cos.gfc") = Ok (Some g).
Proof. exists (mkG (chars "TiME22") (mkD 2 0 0 0 0 0 0) (chars "m2") 99). split; vm_compute; reflexivity. Qed.
(** names that are not of this form need not be refused: short names and names with too few parts are read before their start,
    long parts overflow the members *)
Theorem c26_bounds_refuted : parse_gname [] = UB /\ parse_gname (chars "255.555_m2_cos.gfc") = UB /\
  (forall f m d w t, loosely f m d w t -> (16 < length w)%nat \/ (48 < length m)%nat -> parse_gname f = UB).
Proof.
  split; [reflexivity|]. split; [vm_compute; reflexivity|]. intros f m d w t L H. rewrite (parse_loosely _ _ _ _ _ L). destruct (Nat.ltb_spec 16 (length w)); [reflexivity|]. destruct (Nat.ltb_spec 48 (length m)); [reflexivity|lia].
Qed.
(** all names with fewer than two underscores in front of the separator *)
Theorem c26_too_few_parts_refuted : forall f, (count_occ Z.eq_dec (firstn (length f - 8) f) 95%Z <= 1)%nat -> parse_gname f = UB.
Proof.
  intros f H. unfold parse_gname, same_at, back_from. set (sz := Z.of_nat (length f)).
  destruct (sz - 4 <? 0); [reflexivity|]. cbn [bind]. destruct (sz - 7 <? 0); [reflexivity|]. cbn [bind]. destruct (sz - 9 <? 0) eqn:E; [reflexivity|]. apply Z.ltb_ge in E.
  assert (U : forall n, back f n = UB \/ exists p, back f n = Ok p).
  { induction n as [|n IH]; cbn [back]; destruct (nth _ f 0 =? 95); eauto. }
  destruct (U (Z.to_nat (sz - 9))) as [->|(p & B)]; [reflexivity|]. rewrite B. cbn [bind]. destruct (16 <? _); [reflexivity|].
  destruct (Z.of_nat p - 1 <? 0) eqn:E2; [reflexivity|]. apply Z.ltb_ge in E2.
  destruct (U (Z.to_nat (Z.of_nat p - 1))) as [->|(q & B2)]; [reflexivity|]. exfalso.
  apply back_ok in B as (P1 & P2 & _). apply back_ok in B2 as (Q1 & Q2 & _).
  assert (N : forall (l : list Z) i j, (j < i < length l)%nat -> nth i l 0 = 95 -> nth j l 0 = 95 -> (2 <= count_occ Z.eq_dec l 95%Z)%nat).
  { clear. intros l i j L A B. rewrite (split_at l j) by lia. rewrite !count_occ_app, B.
    assert (X : In 95 (skipn (j + 1) l)).
    { assert (Y : nth i (firstn (j + 1) l ++ skipn (j + 1) l) 0 = 95) by (rewrite firstn_skipn; exact A).
      rewrite app_nth2 in Y by (rewrite firstn_length_le; lia). rewrite <- Y. apply nth_In. rewrite firstn_length_le, skipn_length; lia. }
    apply (count_occ_In Z.eq_dec) in X. change (count_occ Z.eq_dec [95] 95) with 1%nat. lia. }
  assert (F : forall i, (i < length f - 8)%nat -> nth i (firstn (length f - 8) f) 0 = nth i f 0).
  { intros i I. transitivity (nth i (firstn (length f - 8) f ++ skipn (length f - 8) f) 0); [|rewrite firstn_skipn; reflexivity]. rewrite app_nth1; [reflexivity|]. rewrite firstn_length_le; lia. }
  assert (sz = Z.of_nat (length f)) by reflexivity.
  specialize (N (firstn (length f - 8) f) p q). rewrite firstn_length_le in N by lia. rewrite !F in N by lia. specialize (N ltac:(lia) P2 Q2). lia.
Qed.
Example c26_nonvacuous : names (chars "TiME22_ATM_163.555_p1_cos.gfc") (chars "TiME22_ATM") (mkD 1 1 (-2) 0 0 0 0) (chars "p1") 99 /\
  names (chars "a_b_2ZA.555__sin.gfc") (chars "a_b") (mkD 2 (-6) 5 0 0 0 0) [] 115 /\ (exists g, parse_gname (chars "a_b_2za.555__sin.gfc") = Ok (Some g)).
Proof.
  split; [|split].
  - exists (chars "163.555"). split; [|split; [|vm_compute; reflexivity]].
    + split; [reflexivity|]. split; [apply from_chars_iff; vm_compute; reflexivity|]. match goal with |- Forall _ ?l => let x := eval vm_compute in l in change l with x end; repeat (apply Forall_cons; [lia|]); apply Forall_nil.
    + split; [cbn; lia|]. split; [cbn; lia|]. split; [vm_compute; intuition discriminate|right; reflexivity].
  - exists (chars "2ZA.555"). split; [|split; [|vm_compute; reflexivity]].
    + split; [reflexivity|]. split; [apply from_chars_iff; vm_compute; reflexivity|]. match goal with |- Forall _ ?l => let x := eval vm_compute in l in change l with x end; repeat (apply Forall_cons; [lia|]); apply Forall_nil.
    + split; [cbn; lia|]. split; [cbn; lia|]. split; [vm_compute; intuition discriminate|left; reflexivity].
  - exists (mkG (chars "a_b") (mkD 2 (-6) 5 0 0 0 0) [] 115). vm_compute. reflexivity.
Qed.

(** ** C27 *)
(** exactly these lists are accepted: no repetition, and the name the library itself would write for every entry is in the
    list *)
Theorem c27_accepts_iff_partial : forall l, validate_file_list l = Ok 0 <-> NoDup l /\
  forall f, In f l -> exists m d w t f', loosely f m d w t /\ names f' m d w t /\ In f' l.
Proof. exact validate_ok. Qed.
(** lists with every file and its companion, none twice, are accepted *)
Theorem c27_complete : forall l, NoDup l -> (forall f, In f l -> exists f', companion f f' /\ In f' l) -> validate_file_list l = Ok 0.
Proof.
  intros l N H. apply validate_ok. split; [exact N|]. intros f I. destruct (H f I) as (f' & (m & d & w & t & A & _) & _). exists m, d, w, t, f. split; [apply names_loosely, A|tauto].
Qed.
(** repetitions are refused *)
Theorem c27_repeated : forall l, ~ NoDup l -> validate_file_list l = Ok 1.
Proof. intros l H. unfold validate_file_list. destruct (distinct l) eqn:E; [apply distinct_true in E; contradiction|reflexivity]. Qed.
(** but companions are not asked for: every repetition-free list of well-formed names is accepted *)
Theorem c27_companion_refuted : (forall l, NoDup l -> (forall f, In f l -> exists m d w t, names f m d w t) -> validate_file_list l = Ok 0) /\
  exists f, validate_file_list [f] = Ok 0 /\ ~ companion f f.
Proof.
  split.
  - intros l N H. rewrite (validate_canonical l H). rewrite (proj2 (distinct_true l) N). reflexivity.
  - exists (chars "TiME22_ATM_163.555_p1_cos.gfc"). split; [vm_compute; reflexivity|]. intros (m & d & w & t & N & N'). pose proof (names_fun _ _ _ _ _ _ _ _ _ N N') as (_ & _ & _ & E).
    destruct N as (? & _ & (_ & _ & _ & [-> | ->]) & _); discriminate E.
Qed.
(** a complete list whose Doodson numbers are written in lower case is refused *)
Theorem c27_lowercase_refuted : validate_file_list [chars "x_27a.555_q_cos.gfc"; chars "x_27a.555_q_sin.gfc"] = Ok 2.
Proof. vm_compute. reflexivity. Qed.
(** a malformed name (here: a carriage return at the end of the line) ends the process, an empty one is undefined behaviour *)
Theorem c27_malformed_refuted : validate_file_list [chars "x_275.555_q_cos.gfc"; (chars "x_275.555_q_sin.gfc" ++ [13])%list] = Abort /\
  validate_file_list (resolve_file_list [chars "x_275.555_q_cos.gfc"]) = UB.
Proof. split; vm_compute; reflexivity. Qed.
Example c27_nonvacuous : let c := chars "TiME22_ATM_163.555_p1_cos.gfc" in let s := chars "TiME22_ATM_163.555_p1_sin.gfc" in
  companion c s /\ companion s c /\ validate_file_list [c; s] = Ok 0 /\ validate_file_list [c; s; c] = Ok 1.
Proof.
  cbn zeta. assert (X : forall t, is_tag t -> names (pattern (chars "TiME22_ATM") (chars "163.555") (chars "p1") t) (chars "TiME22_ATM") (mkD 1 1 (-2) 0 0 0 0) (chars "p1") t).
  { intros t T. exists (chars "163.555"). split; [|split; [|reflexivity]].
    - split; [reflexivity|]. split; [apply from_chars_iff; vm_compute; reflexivity|]. match goal with |- Forall _ ?l => let x := eval vm_compute in l in change l with x end; repeat (apply Forall_cons; [lia|]); apply Forall_nil.
    - split; [cbn; lia|]. split; [cbn; lia|]. split; [vm_compute; intuition discriminate|exact T]. }
  split; [|split; [|split; vm_compute; reflexivity]].
  - exists (chars "TiME22_ATM"), (mkD 1 1 (-2) 0 0 0 0), (chars "p1"), 99. split; [exact (X 99 (or_intror eq_refl))|exact (X 115 (or_introl eq_refl))].
  - exists (chars "TiME22_ATM"), (mkD 1 1 (-2) 0 0 0 0), (chars "p1"), 115. split; [exact (X 115 (or_introl eq_refl))|exact (X 99 (or_intror eq_refl))].
Qed.

(** ** C59: reading an atlas *)
(** two columns of every line of the list *)
Theorem c59_file_list : forall lines pairs,
  Forall2 (fun line p => (length line <= 511)%nat /\ exists rest, columns line (fst p :: snd p :: rest)) lines pairs ->
  resolve_file_list lines = flat_map (fun p => [fst p; snd p]) pairs.
Proof. exact resolve_lines. Qed.
(** a line of 512 characters or more silently ends the list *)
Theorem c59_long_line_refuted : forall lines line rest, (511 < length line)%nat -> resolve_file_list (lines ++ line :: rest) = resolve_file_list lines.
Proof.
  intros lines line rest H. induction lines as [|l lines IH]; cbn [app resolve_file_list].
  - destruct (Z.ltb_spec 511 (Z.of_nat (length line))); [reflexivity|lia].
  - destruct (511 <? _); [reflexivity|]. destruct (span_word _) as (a, r), (span_word (skip_blanks r)) as (b, x). rewrite IH. reflexivity.
Qed.
(** the waves are those of the file names, each once; every part comes from the last file of this number and tag, a part without
    file is left as constructed *)
Theorem c59_atlas : forall gfc dir N M lines a nm, groops_atlas gfc dir N M lines = Ok (Some (a, nm)) -> exists l, lines = Some l /\ let fl := resolve_file_list l in
  NoDup (map wd a) /\ NoDup fl /\
  (forall d, In d (map wd a) <-> exists f t, In f fl /\ tells f d t) /\
  (forall w t, In w a -> is_tag t ->
     (exists l1 f l2, fl = (l1 ++ f :: l2)%list /\ tells f (wd w) t /\ content gfc dir N M f (part t w) /\ forall f', In f' l2 -> ~ tells f' (wd w) t) \/
     ((forall f, In f fl -> ~ tells f (wd w) t) /\ exists n m, part t w = fresh n m)).
Proof.
  intros gfc dir N M lines a nm H. destruct (groops_built _ _ _ _ _ _ _ H) as (l & -> & _ & V & B). exists l. split; [reflexivity|]. cbn zeta.
  split; [apply (b_nodup _ _ _ _ _ _ B)|]. split; [apply validate_ok in V; tauto|]. split; [intros; apply (built_number _ _ _ _ _ _ _ B)|]. intros; apply (built_tells _ _ _ _ _ _ _ _ B); assumption.
Qed.
(** it succeeds if the list is accepted and every file can be read *)
Theorem c59_success : forall gfc dir N M l, resolve_file_list l <> [] -> validate_file_list (resolve_file_list l) = Ok 0 ->
  Forall (readable gfc dir N M) (resolve_file_list l) -> exists a nm, groops_atlas gfc dir N M (Some l) = Ok (Some (a, nm)).
Proof. exact groops_total. Qed.
(** with a sine and a cosine file for every wave all coefficients come from files *)
Theorem c59_complete_list : forall gfc dir N M l a nm, groops_atlas gfc dir N M (Some l) = Ok (Some (a, nm)) ->
  (forall f, In f (resolve_file_list l) -> exists f', companion f f' /\ In f' (resolve_file_list l)) ->
  forall w t, In w a -> is_tag t -> exists f, In f (resolve_file_list l) /\ tells f (wd w) t /\ content gfc dir N M f (part t w).
Proof.
  intros gfc dir N M l a nm H C w t I T. destruct (c59_atlas _ _ _ _ _ _ _ H) as (l' & E & _ & _ & D & P). injection E as <-.
  destruct (P w t I T) as [(l1 & f & l2 & E & X & Y & _)|(F & _)].
  - exists f. split; [rewrite E; apply in_or_app; right; left; reflexivity|tauto].
  - exfalso. assert (K : In (wd w) (map wd a)) by apply in_map, I. apply D in K as (f & t' & J & X). destruct (is_tag_dec t t' T) as [-> | ->].
    + destruct X as (m & v & X). destruct X as (? & ? & ? & X). tauto.
    + exact (F f J X).
    + destruct (C f J) as (f' & (m & d & v & t'' & A & B) & J'). apply (F f' J'). destruct X as (m' & v' & X).
      pose proof (parse_names _ _ _ _ _ A) as PA.
      assert (Y : tells f (wd w) (other t)) by (exists m', v'; exact X). apply (tells_parse _ _ _ _ PA) in Y as (Y1 & Y2). cbn in Y1, Y2. subst d t''.
      destruct (other_tag t T) as (_ & O). rewrite O in B. exists m, v. apply names_loosely, B.
Qed.
(** with the reader of C22 and C58 in the place of the parameter: a version 1 file gives the coefficients it states *)
Theorem c59_icgem : forall sdbl mkdate MIN MAX years fs path hl items e data er rs ref n m, word_scanner sdbl -> fs path = Some (hl ++ (chars "end_of_head" ++ e) :: data)%list ->
  Forall2 (item_line sdbl) hl items -> Z.of_nat (length hl) <= 1000 -> let h := fold_left set_item items default_hdr in
  hv2 h = false -> herr h = Some er -> 0 <= m <= n -> n <= hmax h -> Forall2 (says1 sdbl mkdate er) data rs -> Forall (fun r => within n m r = true -> triangular r) rs -> after_gfct None rs ->
  let kept := filter (within n m) (dated ref rs) in
  exists cs, icgem_gfc sdbl mkdate MIN MAX years fs path n m = Ok (Some (hname h, Some (mkStokes (top_degree kept) (top_order kept) (Some cs)))) /\
    forall l k, cs l k = (value_C years MIN kept l k, value_S years MIN kept l k).
Proof.
  intros sdbl mkdate MIN MAX years fs path hl items e data er rs ref n m SD F I L h V E M N D T A kept. unfold icgem_gfc. rewrite F, (c58_header sdbl hl items e data SD I L). cbn [bind]. fold h. change (negb (0 =? 0)) with false. cbn match.
  unfold parse_data. destruct (Z.ltb_spec n 0); [lia|]. destruct (Z.ltb_spec m 0); [lia|]. rewrite V, E. destruct (c22_version1 sdbl mkdate years er (hmax h) n m MIN data rs ref SD ltac:(lia) D T A) as (cs & -> & X). cbn [bind]. exists cs. split; [reflexivity|exact X].
Qed.
(** a file that cannot be opened or whose header is refused gives nothing *)
Theorem c59_icgem_refused : forall sdbl mkdate MIN MAX years fs path n m, (fs path = None \/ exists lines c h data, fs path = Some lines /\ parse_header sdbl lines = Ok (c, h, data) /\ c <> 0) ->
  icgem_gfc sdbl mkdate MIN MAX years fs path n m = Ok None.
Proof.
  intros sdbl mkdate MIN MAX years fs path n m [H|(lines & c & h & data & H & P & C)]; unfold icgem_gfc; rewrite H; [reflexivity|]. rewrite P. cbn [bind]. rewrite (proj2 (Z.eqb_neq _ _) C). reflexivity.
Qed.
(** with one of the two files missing, the list is accepted and half of the wave was never assigned *)
Theorem c59_missing_half_refuted : exists gfc l a nm w, groops_atlas gfc [] 2 2 (Some l) = Ok (Some (a, nm)) /\ In w a /\ sval (wcos w) <> None /\ sval (wsin w) = None.
Proof.
  exists (fun _ _ _ => Ok (Some (chars "M", Some (mkStokes 2 2 (Some zero))))), [chars "x_275.555_q_cos.gfc y_265.555_r_cos.gfc"],
    [mkW (mkD 2 2 0 0 0 0 0) (chars "q") (mkStokes 2 2 (Some zero)) (fresh 2 2); mkW (mkD 2 1 0 0 0 0 0) (chars "r") (mkStokes 2 2 (Some zero)) (fresh 2 2)], (chars "M"),
    (mkW (mkD 2 2 0 0 0 0 0) (chars "q") (mkStokes 2 2 (Some zero)) (fresh 2 2)).
  split; [vm_compute; reflexivity|]. split; [left; reflexivity|]. split; [discriminate|reflexivity].
Qed.
(** a long directory or model name overflows a local array *)
Theorem c59_long_names_refuted : forall gfc dir N M st f g, parse_gname f = Ok (Some g) -> (length (gwave g) < 16)%nat ->
  (248 <= length dir + 1 + length f)%nat \/ (exists name cs, (64 <= length name)%nat /\ gfc (dir ++ [47] ++ f)%list N M = Ok (Some (name, cs))) ->
  add_file gfc dir N M st f = UB.
Proof.
  intros gfc dir N M st f g P W H. unfold add_file. rewrite P. cbn [bind]. unfold append_new, as_string. replace (Z.of_nat (length (gwave g)) <? 16) with true by (symmetry; apply Z.ltb_lt; lia).
  assert (X : forall a : atlas, (path <- (if Z.of_nat (length (dir ++ [47] ++ f)) <? 248 then Ok (dir ++ [47] ++ f)%list else UB) ;; r <- gfc path N M ;;
    match r with None => Ok None | Some (name, cs) => name <- (if Z.of_nat (length name) <? 64 then Ok name else UB) ;;
      match cs with None => Ok None | Some cs => Ok (Some (mkGst (set_nth a (find_tidal_wave (ga st) (gd g)) (fun w => if gtag g =? 115 then mkW (wd w) (wname w) (wcos w) cs else mkW (wd w) (wname w) cs (wsin w))) name
        (if gcd st <? sdeg cs then sdeg cs else gcd st) (if gco st <? sord cs then sord cs else gco st))) end end) = UB).
  { intros a. rewrite !app_length. cbn [length]. destruct (Z.ltb_spec (Z.of_nat (length dir + (1 + length f))) 248) as [L|L]; [|reflexivity]. cbn [bind]. destruct H as [H|(name & cs & LN & ->)]; [lia|]. cbn [bind]. destruct (Z.ltb_spec (Z.of_nat (length name)) 64); [lia|reflexivity]. }
  destruct (Nat.eqb (find_tidal_wave (ga st) (gd g)) (length (ga st))); cbn [bind negb option_map fst]; apply X.
Qed.
Example c59_nonvacuous : exists a nm, groops_atlas (fun _ _ _ => Ok (Some (chars "M", Some (mkStokes 2 2 (Some zero))))) (chars "/d") (-1) (-1)
    (Some [chars "x_275.555_q_cos.gfc x_275.555_q_sin.gfc"; chars "  x_265.555_r_cos.gfc   x_265.555_r_sin.gfc "]) = Ok (Some (a, nm)) /\ length a = 2%nat /\
  companion (chars "x_275.555_q_cos.gfc") (chars "x_275.555_q_sin.gfc").
Proof.
  exists [mkW (mkD 2 2 0 0 0 0 0) (chars "q") (mkStokes 2 2 (Some zero)) (mkStokes 2 2 (Some zero)); mkW (mkD 2 1 0 0 0 0 0) (chars "r") (mkStokes 2 2 (Some zero)) (mkStokes 2 2 (Some zero))], (chars "M").
  split; [vm_compute; reflexivity|]. split; [reflexivity|]. exists (chars "x"), (mkD 2 2 0 0 0 0 0), (chars "q"), 99.
  assert (X : forall t, is_tag t -> names (pattern (chars "x") (chars "275.555") (chars "q") t) (chars "x") (mkD 2 2 0 0 0 0 0) (chars "q") t).
  { intros t T. exists (chars "275.555"). split; [|split; [|reflexivity]].
    - split; [reflexivity|]. split; [apply from_chars_iff; vm_compute; reflexivity|]. match goal with |- Forall _ ?l => let x := eval vm_compute in l in change l with x end; repeat (apply Forall_cons; [lia|]); apply Forall_nil.
    - split; [cbn; lia|]. split; [cbn; lia|]. split; [vm_compute; intuition discriminate|exact T]. }
  split; [exact (X 99 (or_intror eq_refl))|exact (X 115 (or_introl eq_refl))].
Qed.

(** ** C60: Doodson and admittance matrices *)
Theorem c60_doodson : forall lines rows, Forall2 (fun line r => (length line <= 123)%nat /\ length r = 6%nat /\ number_line scan_i32 line r) lines rows ->
  parse_doodson (Some lines) = map (map Some) rows.
Proof. intros lines rows F. unfold parse_doodson. rewrite (doodson_rows_ok _ _ F). reflexivity. Qed.
(** a matrix returned has six assigned numbers in every row, one row per line up to the first line that is too long *)
Theorem c60_doodson_sound : forall lines, parse_doodson (Some lines) <> [] -> Forall (fun r => length r = 6%nat /\ Forall (fun v => v <> None) r) (parse_doodson (Some lines)) /\
  exists k, (k <= length lines)%nat /\ length (parse_doodson (Some lines)) = k /\ Forall (fun l => (length l <= 123)%nat) (firstn k lines) /\ (forall l, nth_error lines k = Some l -> (123 < length l)%nat).
Proof.
  intros lines. unfold parse_doodson. pose proof (doodson_rows_sound lines 0 (Z.le_refl 0)) as H. destruct (doodson_rows lines 0) as (rs, e). destruct H as (_ & H). destruct (Z.eqb_spec e 0) as [E|E]; [intros _; exact (H E)|congruence].
Qed.
(** so that a long line silently ends the matrix *)
Theorem c60_long_line_refuted : exists lines, length lines = 2%nat /\ parse_doodson (Some lines) = [map Some [1; 0; 0; 0; 0; 0]].
Proof. exists [chars "1 0 0 0 0 0"; (repeat 32 120 ++ chars "2 0 0 0 0 0")%list]. split; [reflexivity|]. vm_compute. reflexivity. Qed.
(** k lines of f numbers give the matrix *)
Theorem c60_admittance : forall sdbl k f lines rows, word_scanner sdbl -> Forall2 (adm_line sdbl f) lines rows -> length rows = k ->
  parse_admittance sdbl k f (Some lines) = Ok (Some (map (map Some) rows)).
Proof. intros sdbl k f lines rows WS F <-. rewrite (admittance_ok sdbl WS _ f lines rows F) by lia. rewrite Nat.sub_diag. cbn [repeat]. rewrite app_nil_r. reflexivity. Qed.
Theorem c60_dimensions : forall sdbl k f lines M, (0 < f)%nat -> parse_admittance sdbl k f (Some lines) = Ok (Some M) -> length M = k /\ Forall (fun r => length r = f) M.
Proof. exact admittance_dims. Qed.
(** fewer lines are accepted, the missing rows are never assigned *)
Theorem c60_missing_rows_refuted : forall sdbl k f lines rows, word_scanner sdbl -> Forall2 (adm_line sdbl f) lines rows -> (length rows < k)%nat ->
  exists M, parse_admittance sdbl k f (Some lines) = Ok (Some M) /\ nth_error M (length rows) = Some (repeat None f).
Proof.
  intros sdbl k f lines rows WS F L. eexists. split; [apply (admittance_ok sdbl WS k f lines rows F); lia|].
  rewrite nth_error_app2; rewrite map_length; [|lia]. rewrite Nat.sub_diag. destruct (k - length rows)%nat eqn:E; [lia|reflexivity].
Qed.
(** one line too many is not refused but runs into the assertion of the element access *)
Theorem c60_excess_rows_refuted : forall sdbl k f lines rows, word_scanner sdbl -> (0 < f)%nat -> Forall2 (adm_line sdbl f) lines rows -> (k < length rows)%nat ->
  parse_admittance sdbl k f (Some lines) = Abort.
Proof. intros sdbl k f lines rows WS. exact (admittance_excess sdbl WS k f lines rows). Qed.
Theorem c60_model : forall sdbl k lines002 rows002 lines003 rows003, word_scanner sdbl -> rows002 <> [] ->
  Forall2 (fun line r => (length line <= 123)%nat /\ length r = 6%nat /\ number_line scan_i32 line r) lines002 rows002 ->
  Forall2 (adm_line sdbl (length rows002)) lines003 rows003 -> length rows003 = k ->
  read_model sdbl k (Some lines002) (Some lines003) = Ok (Some (map (map Some) rows002, map (map Some) rows003)).
Proof.
  intros sdbl k lines002 rows002 lines003 rows003 WS NE F2 F3 L. unfold read_model. rewrite (c60_doodson _ _ F2). destruct rows002 as [|r rows]; [congruence|]. cbn [map].
  change (length (map Some r :: map (map Some) rows)) with (S (length (map (map Some) rows))). rewrite map_length. change (S (length rows)) with (length (r :: rows)). rewrite (c60_admittance sdbl k _ lines003 rows003 WS F3 L). reflexivity.
Qed.
Example c60_nonvacuous : (exists line, adm_line scan_dbl 2 line [(IZR 1 * pow10 0)%R; (IZR 25 * pow10 (-1))%R]) /\ number_line scan_i32 (chars " 2 -1 0  1 0 0") [2; -1; 0; 1; 0; 0].
Proof.
  split.
  - exists (chars "1 2.5"). split; [cbn; lia|]. split; [reflexivity|]. exists [chars "1"; chars "2.5"], []. split.
    + apply (col_cons 0 (chars "1") (chars " 2.5")); [split; [discriminate|repeat constructor; discriminate]|reflexivity|].
      apply (col_cons 1 (chars "2.5") []); [split; [discriminate|repeat constructor; discriminate]|exact I|apply (col_nil 0)].
    + repeat constructor.
  - exists (map chars ["2"; "-1"; "0"; "1"; "0"; "0"]%string), []. split.
    + apply (col_cons 1 (chars "2") (chars " -1 0  1 0 0")); [split; [discriminate|repeat constructor; discriminate]|reflexivity|].
      apply (col_cons 1 (chars "-1") (chars " 0  1 0 0")); [split; [discriminate|repeat constructor; discriminate]|reflexivity|].
      apply (col_cons 1 (chars "0") (chars "  1 0 0")); [split; [discriminate|repeat constructor; discriminate]|reflexivity|].
      apply (col_cons 2 (chars "1") (chars " 0 0")); [split; [discriminate|repeat constructor; discriminate]|reflexivity|].
      apply (col_cons 1 (chars "0") (chars " 0")); [split; [discriminate|repeat constructor; discriminate]|reflexivity|].
      apply (col_cons 1 (chars "0") []); [split; [discriminate|repeat constructor; discriminate]|exact I|apply (col_nil 0)].
    + repeat constructor.
Qed.
Print Assumptions c59_atlas.
Print Assumptions c60_model.
Print Assumptions c25_unique.
Print Assumptions c25_stored.
Print Assumptions c25_retrievable.
Print Assumptions c25_not_found.
Print Assumptions c25_append.
Print Assumptions c25_refused.
Print Assumptions c25_append_by_dimensions.
Print Assumptions c25_multipliers_refuted.
Print Assumptions c26_parse.
Print Assumptions c26_unique.
Print Assumptions c26_roundtrip_partial.
Print Assumptions c26_tag_refuted.
Print Assumptions c26_rewrite.
Print Assumptions c26_accepts_exactly.
Print Assumptions c26_separator_refuted.
Print Assumptions c26_junk_refuted.
Print Assumptions c26_bounds_refuted.
Print Assumptions c27_accepts_iff_partial.
Print Assumptions c27_complete.
Print Assumptions c27_repeated.
Print Assumptions c27_companion_refuted.
Print Assumptions c27_lowercase_refuted.
Print Assumptions c27_malformed_refuted.
Print Assumptions c59_file_list.
Print Assumptions c59_long_line_refuted.
Print Assumptions c59_success.
Print Assumptions c59_complete_list.
Print Assumptions c59_missing_half_refuted.
Print Assumptions c59_long_names_refuted.
Print Assumptions c60_doodson.
Print Assumptions c60_doodson_sound.
Print Assumptions c60_long_line_refuted.
Print Assumptions c60_admittance.
Print Assumptions c60_dimensions.
Print Assumptions c60_missing_rows_refuted.
Print Assumptions c60_excess_rows_refuted.
Print Assumptions c25_new_wave.
Print Assumptions c25_order_default.
Print Assumptions c59_icgem.
Print Assumptions c59_icgem_refused.
Print Assumptions c26_too_few_parts_refuted.
