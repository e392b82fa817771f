From Coq Require Import Ascii String Reals ZArith List Bool Lia Lra.
From Verif Require Import Base CString FromChars IcgemModel IcgemSpec.
Import ListNotations.
Open Scope Z_scope.

(** ** text *)
Lemma columns_inv s w ws : columns s (w :: ws) -> exists n s', s = repeat 32 n ++ w ++ s' /\ word w /\ at_blank s' /\ columns s' ws.
Proof. intros H. inversion H; subst. eauto 8. Qed.

Lemma strip_plus_app w s : strip_plus w <> [] -> strip_plus (w ++ s) = strip_plus w ++ s.
Proof. induction w as [|c w IH]; simpl; [congruence|]. destruct (c =? 43); [exact IH|reflexivity]. Qed.
Lemma strip_plus_head w : match strip_plus w with c :: _ => c <> 43 | [] => True end.
Proof. induction w as [|c w IH]; simpl; [exact I|]. destruct (Z.eqb_spec c 43); [exact IH|assumption]. Qed.
Lemma strip_plus_forall P w : Forall P w -> Forall P (strip_plus w).
Proof. induction 1 as [|c w Hc F IH]; simpl; [constructor|]. destruct (c =? 43); [exact IH|constructor; assumption]. Qed.

(** the stripping of a word that is already converted *)
Definition stripped (v1 : bool) (w : list Z) : list Z := if v1 then strip_plus w else w.
Definition starts_ok (v1 : bool) (s : list Z) : Prop := match s with c :: _ => c <> 32 /\ (v1 = true -> c <> 43) | [] => True end.
Lemma stripped_word v1 w : word w -> stripped v1 w <> [] -> word (stripped v1 w) /\ starts_ok v1 (stripped v1 w).
Proof.
  intros (N & F) H. destruct v1; simpl in *.
  - split; [split; [exact H|apply strip_plus_forall, F]|]. pose proof (strip_plus_head w) as X. pose proof (strip_plus_forall _ _ F) as Y.
    destruct (strip_plus w); [exact I|]. inversion Y; subst. split; auto.
  - split; [split; assumption|]. destruct w; [exact I|]. inversion F; subst. split; [assumption|discriminate].
Qed.
Lemma skip_ws_id v1 s : starts_ok v1 s -> skip_ws v1 s = s.
Proof.
  destruct s as [|c s]; [reflexivity|]. simpl. intros (A & B). destruct (Z.eqb_spec c 32); [congruence|]. destruct v1; [|reflexivity].
  destruct (Z.eqb_spec c 43); [exfalso; apply B; [reflexivity|assumption]|reflexivity].
Qed.
Lemma starts_ok_app v1 w s : w <> [] -> starts_ok v1 w -> starts_ok v1 (w ++ s).
Proof. destruct w; [congruence|]. intros _ H. exact H. Qed.
Lemma skip_ws_blanks v1 n s : skip_ws v1 (repeat 32 n ++ s) = skip_ws v1 s.
Proof. induction n; [reflexivity|exact IHn]. Qed.
Lemma skip_ws_word v1 w s : word w -> stripped v1 w <> [] -> skip_ws v1 (w ++ s) = stripped v1 w ++ s.
Proof.
  intros W N. destruct v1; cbn [stripped] in *.
  - destruct W as (_ & F). induction F as [|c w Hc F IH]; [cbn in N; congruence|]. cbn [app skip_ws strip_plus] in *.
    destruct (Z.eqb_spec c 32); [congruence|]. destruct (c =? 43); [exact (IH N)|reflexivity].
  - destruct (stripped_word false w W N) as (_ & B). apply skip_ws_id, starts_ok_app; assumption.
Qed.
Lemma skip_ws_col v1 s w ws : columns s (w :: ws) -> stripped v1 w <> [] ->
  exists s', skip_ws v1 s = stripped v1 w ++ s' /\ at_blank s' /\ columns s' ws.
Proof.
  intros H N. apply columns_inv in H as (n & s' & -> & W & B & C). exists s'. split; [|tauto]. rewrite skip_ws_blanks. apply skip_ws_word; assumption.
Qed.

Lemma skip_cols_loop_0 s : skip_cols_loop 0 s = s.
Proof. destruct s as [|a [|b s]]; reflexivity. Qed.
Lemma skip_cols_blanks n k s : s <> [] -> skip_cols_loop (S k) (repeat 32 n ++ s) = skip_cols_loop (S k) s.
Proof.
  intros N. induction n; [reflexivity|]. cbn [repeat app]. rewrite <- IHn. destruct (repeat 32 n ++ s) as [|b t] eqn:E; [|reflexivity].
  apply app_eq_nil in E as (_ & E). congruence.
Qed.
Lemma skip_cols_word k w s : word w -> at_blank s -> s <> [] -> skip_cols_loop (S k) (w ++ s) = skip_cols_loop k s.
Proof.
  intros (N & F) B X. induction F as [|c w Hc F IH]; [congruence|]. destruct w as [|d w].
  - cbn [app]. destruct s as [|b s]; [congruence|]. simpl in B. subst b. cbn [skip_cols_loop]. destruct (Z.eqb_spec c 32); [congruence|]. reflexivity.
  - cbn [app] in *. inversion F; subst. change (skip_cols_loop (S k) (c :: d :: w ++ s)) with (skip_cols_loop (if negb (c =? 32) && (d =? 32) then k else S k) (d :: w ++ s)).
    destruct (Z.eqb_spec d 32); [congruence|]. rewrite andb_false_r. apply IH. discriminate.
Qed.
Lemma columns_nonempty s w ws : columns s (w :: ws) -> s <> [].
Proof. intros H E. apply columns_inv in H as (n & s1 & -> & (N & _) & _). apply app_eq_nil in E as (_ & E). apply app_eq_nil in E as (E & _). congruence. Qed.
Lemma skip_cols_loop_cols es : forall s w ws, columns s (es ++ w :: ws) -> columns (skip_cols_loop (length es) s) (w :: ws).
Proof.
  induction es as [|e es IH]; intros s w ws H.
  - cbn [length]. rewrite skip_cols_loop_0. exact H.
  - cbn [length app] in *. apply columns_inv in H as (n & s' & -> & W & B & C).
    assert (X : s' <> []) by (destruct es; eapply columns_nonempty; exact C).
    rewrite skip_cols_blanks by (destruct W as (N & _); destruct e; [congruence|discriminate]). rewrite skip_cols_word by assumption. apply IH, C.
Qed.
Lemma columns_stripped v1 s w ws : columns s (w :: ws) -> stripped v1 w <> [] -> columns (skip_ws v1 s) (stripped v1 w :: ws).
Proof.
  intros H N. destruct (skip_ws_col v1 s w ws H N) as (s' & -> & B & C). apply columns_inv in H as (n & s'' & -> & W & _ & _).
  apply (col_cons 0 _ s' ws); [apply stripped_word; assumption|assumption|assumption].
Qed.
Lemma stripped_idem v1 w : stripped v1 (stripped v1 w) = stripped v1 w.
Proof. destruct v1; [|reflexivity]. simpl. induction w as [|c w IH]; [reflexivity|]. simpl. destruct (c =? 43) eqn:E; [exact IH|]. simpl. rewrite E. reflexivity. Qed.
Lemma skip_cols_ok v1 es s w ws : columns s (es ++ w :: ws) -> Forall (fun w => stripped v1 w <> []) es -> stripped v1 w <> [] ->
  exists s', skip_ws v1 (skip_cols v1 (length es) s) = stripped v1 w ++ s' /\ at_blank s' /\ columns s' ws.
Proof.
  intros H F N. unfold skip_cols. destruct es as [|e es].
  - cbn [length app] in *. rewrite skip_cols_loop_0. pose proof (columns_stripped v1 _ _ _ H N) as H1.
    assert (N1 : stripped v1 (stripped v1 w) <> []) by (rewrite stripped_idem; exact N).
    pose proof (columns_stripped v1 _ _ _ H1 N1) as H2. rewrite ?stripped_idem in H2. destruct (skip_ws_col v1 _ _ _ H2) as (s' & E & B & C); [rewrite stripped_idem; exact N|].
    rewrite !stripped_idem in E. exists s'. tauto.
  - cbn [length app] in *. inversion F as [|? ? Ne Fe]; subst. pose proof (columns_stripped v1 _ _ _ H Ne) as H1.
    pose proof (skip_cols_loop_cols (stripped v1 e :: es) _ _ _ H1) as H2. cbn [length] in H2.
    pose proof (columns_stripped v1 _ _ _ H2 N) as H3. rewrite ?stripped_idem in H3. destruct (skip_ws_col v1 _ _ _ H3) as (s' & E & B & C); [rewrite stripped_idem; exact N|].
    rewrite !stripped_idem in E. exists s'. tauto.
Qed.

(** ** Fortran exponents *)
Lemma for2cpp_cons a s : for2cpp (a :: s) = (match s with b :: _ => if ((a =? 68) || (a =? 100)) && ((b =? 43) || (b =? 45)) then 101 else a | [] => a end) :: for2cpp s.
Proof. destruct s; reflexivity. Qed.
Lemma for2cpp_app w s : at_blank s -> for2cpp (w ++ s) = for2cpp w ++ for2cpp s.
Proof.
  intros B. induction w as [|a w IH]; [reflexivity|]. cbn [app]. rewrite !for2cpp_cons. rewrite IH. cbn [app]. f_equal.
  destruct w; [|reflexivity]. cbn [app]. destruct s as [|b s]; [reflexivity|]. simpl in B. subst b. cbn. rewrite andb_false_r. reflexivity.
Qed.
Lemma for2cpp_blank s : at_blank s -> at_blank (for2cpp s).
Proof. destruct s as [|c s]; [intros _; exact I|]. cbn [at_blank]. intros ->. rewrite for2cpp_cons. destruct s; reflexivity. Qed.
Lemma for2cpp_nil s : for2cpp s = [] -> s = [].
Proof. destruct s; [reflexivity|]. rewrite for2cpp_cons. discriminate. Qed.
Lemma for2cpp_forall w : Forall (fun c => c <> 32) w -> Forall (fun c => c <> 32) (for2cpp w).
Proof.
  induction 1 as [|c w Hc F IH]; [constructor|]. rewrite for2cpp_cons. constructor; [|exact IH]. destruct w; [exact Hc|]. destruct (_ && _); [discriminate|exact Hc].
Qed.
Lemma for2cpp_blanks n s : for2cpp (repeat 32 n ++ s) = repeat 32 n ++ for2cpp s.
Proof. induction n; [reflexivity|]. cbn [repeat app]. rewrite for2cpp_cons, IHn. destruct (repeat 32 n ++ s); reflexivity. Qed.
Lemma for2cpp_columns s ws : columns s ws -> columns (for2cpp s) (map for2cpp ws).
Proof.
  induction 1 as [n|n w s ws (N & F) B C IH].
  - replace (repeat 32 n) with (repeat 32 n ++ []) by apply app_nil_r. rewrite for2cpp_blanks. cbn [map for2cpp]. rewrite app_nil_r. constructor.
  - rewrite for2cpp_blanks, for2cpp_app by exact B. cbn [map]. constructor; [|apply for2cpp_blank, B|exact IH].
    split; [intros E; apply for2cpp_nil in E; congruence|apply for2cpp_forall, F].
Qed.

Definition conv (v1 : bool) (s : list Z) : list Z := if v1 then for2cpp s else s.
Lemma plain_conv v1 w : plain v1 w = stripped v1 (conv v1 w).
Proof. destruct v1; reflexivity. Qed.
Lemma conv_columns v1 s ws : columns s ws -> columns (conv v1 s) (map (conv v1) ws).
Proof. destruct v1; [apply for2cpp_columns|]. change (map (conv false) ws) with (map (fun x : list Z => x) ws); rewrite (map_id ws). auto. Qed.
Lemma conv_forall v1 es : Forall (fun w => plain v1 w <> []) es -> Forall (fun w => stripped v1 w <> []) (map (conv v1) es).
Proof. intros F. apply Forall_map. eapply Forall_impl; [|exact F]. intros w H. rewrite <- plain_conv. exact H. Qed.

Section Resolve.
  Variable sdbl : list Z -> option R * list Z.
  Hypothesis WS : word_scanner sdbl.
  Variable mkdate : Z -> Z -> Z -> Z -> Z -> Z.
  Variables MIN MAX : Z.

  Lemma num_scan {A} (scan : list Z -> option A * list Z) v1 s w ws v : word_scanner scan -> columns s (conv v1 w :: ws) -> num scan v1 w v ->
    exists s', scan (skip_ws v1 s) = (Some v, s') /\ at_blank s' /\ columns s' ws.
  Proof using.
    clear sdbl WS mkdate MIN MAX. intros K H (N & E). rewrite plain_conv in N, E. destruct (skip_ws_col v1 s _ ws H N) as (s' & -> & B & C). exists s'. rewrite (K _ _ E s' B). tauto.
  Qed.
  Lemma four_ok v1 s e wl wm wc ws xs l m c k : columns s (map (conv v1) (wl :: wm :: wc :: ws :: xs)) ->
    num scan_i32 v1 wl l -> num scan_i32 v1 wm m -> num sdbl v1 wc c -> num sdbl v1 ws k ->
    exists r, four sdbl v1 s e = (0, mkE (key e) (Some l) (Some m) (Some c) (Some k) (et0 e) (et1 e) (per e), r) /\ columns r (map (conv v1) xs).
  Proof using WS.
    clear mkdate MIN MAX. intros H Hl Hm Hc Hs. cbn [map] in H. unfold four.
    destruct (num_scan scan_i32 v1 s wl _ l (scan_int_word _ _) H Hl) as (s1 & -> & _ & H1).
    destruct (num_scan scan_i32 v1 s1 wm _ m (scan_int_word _ _) H1 Hm) as (s2 & -> & _ & H2).
    destruct (num_scan sdbl v1 s2 wc _ c WS H2 Hc) as (s3 & -> & _ & H3).
    destruct (num_scan sdbl v1 s3 ws _ k WS H3 Hs) as (s4 & -> & _ & H4). exists s4. cbn [cnt assign]. tauto.
  Qed.

  Lemma digits_val_bound d : Forall (fun c => is_dig c = true) d -> 0 <= digits_val d < 10 ^ Z.of_nat (length d).
  Proof.
    intros F. assert (G : forall d, Forall (fun c => is_dig c = true) d -> forall a, 0 <= a -> 0 <= fold_left (fun a c => 10 * a + (c - 48)) d a < (a + 1) * 10 ^ Z.of_nat (length d)).
    { induction 1 as [|c l Hc Fl IH]; intros a Ha.
      - cbn. lia.
      - cbn [fold_left length]. unfold is_dig in Hc. apply andb_true_iff in Hc as (H1 & H2). apply Z.leb_le in H1, H2.
        specialize (IH (10 * a + (c - 48)) ltac:(lia)). rewrite Nat2Z.inj_succ, Z.pow_succ_r by lia. split; [lia|].
        eapply Z.lt_le_trans; [apply IH|]. assert (0 < 10 ^ Z.of_nat (length l)) by (apply Z.pow_pos_nonneg; lia). nia. }
    specialize (G d F 0 ltac:(lia)). unfold digits_val. lia.
  Qed.
  Lemma scan_lim_digits n d v rest : (0 < n)%nat -> (n <= 9)%nat -> digits n d v -> scan_lim n (d ++ rest) = (Some v, rest).
  Proof.
    intros P Q (L & F & <-). unfold scan_lim. rewrite firstn_app, L, Nat.sub_diag. cbn [firstn]. rewrite app_nil_r. rewrite <- L, firstn_all.
    rewrite skipn_app, skipn_all, L, Nat.sub_diag. cbn [skipn app].
    pose proof (scan_int_digits (- 2 ^ 31) (2 ^ 31 - 1) d []) as X. rewrite app_nil_r in X. unfold scan_i32. rewrite X.
    - reflexivity.
    - destruct d; [cbn in L; lia|discriminate].
    - exact F.
    - exact I.
    - pose proof (digits_val_bound d F) as Y. rewrite L in Y. assert (10 ^ Z.of_nat n <= 10 ^ 9) by (apply Z.pow_le_mono_r; lia). lia.
  Qed.
  Lemma date_v1_ok w t rest : date1 mkdate w t -> exists r, date_v1 mkdate (plain true w ++ rest) = (0, Some t, r).
  Proof using.
    intros (y & m & d & ny & nm & nd & x & -> & Hy & Hm & Hd & ->). unfold date_v1. rewrite <- !app_assoc.
    rewrite (scan_lim_digits 4 y ny) by (lia || assumption). rewrite (scan_lim_digits 2 m nm) by (lia || assumption). rewrite (scan_lim_digits 2 d nd) by (lia || assumption). eauto.
  Qed.
  Lemma date_v2_ok w t rest : date2 mkdate w t -> date_v2 mkdate (w ++ rest) = Ok (0, Some t, rest).
  Proof.
    intros (y & m & d & h & i & ny & nm & nd & nh & ni & -> & Hy & Hm & Hd & Hh & Hi & ->). unfold date_v2. rewrite <- !app_assoc.
    rewrite (scan_lim_digits 4 y ny) by (lia || assumption). rewrite (scan_lim_digits 2 m nm) by (lia || assumption). rewrite (scan_lim_digits 2 d nd) by (lia || assumption).
    cbn [app]. rewrite (scan_lim_digits 2 h nh) by (lia || assumption). rewrite (scan_lim_digits 2 i ni) by (lia || assumption). reflexivity.
  Qed.
  Lemma date2_plain w t : date2 mkdate w t -> plain false w <> [].
  Proof. intros (y & m & d & h & i & ny & nm & nd & nh & ni & -> & (L & _) & _). destruct y; [discriminate|discriminate]. Qed.
  Lemma date1_plain w t : date1 mkdate w t -> plain true w <> [].
  Proof using. intros (y & m & d & ny & nm & nd & x & -> & (L & _) & _). destruct y; [discriminate|discriminate]. Qed.

  (** the columns after the keyword, as the resolver sees them; "gfc " and "dot " take one blank *)
  Lemma kw4 v1 kw s : length kw = 4%nat -> at_blank s -> conv v1 kw = kw -> skipn 4 (conv v1 (kw ++ s)) = conv v1 s.
  Proof.
    intros L B E. assert (X : conv v1 (kw ++ s) = kw ++ conv v1 s) by (destruct v1; [cbn [conv] in *; rewrite for2cpp_app by exact B; rewrite E; reflexivity|reflexivity]).
    rewrite X. do 5 (destruct kw as [|? kw]; try discriminate L). reflexivity.
  Qed.
  Lemma columns_blank s ws : columns (32 :: s) ws -> columns s ws.
  Proof.
    intros H. remember (32 :: s) as t eqn:E. destruct H as [n|n w q ws (N & F) B C].
    - destruct n; [discriminate|]. injection E as <-. constructor.
    - destruct n as [|n].
      + destruct w; [congruence|]. cbn in E. injection E as -> _. inversion F; congruence.
      + cbn in E. injection E as <-. constructor; [split|..]; assumption.
  Qed.
  Lemma kw3 v1 kw s ws : length kw = 3%nat -> at_blank s -> s <> [] -> conv v1 kw = kw -> columns s ws -> columns (skipn 4 (conv v1 (kw ++ s))) (map (conv v1) ws).
  Proof.
    intros L B N E C. assert (X : conv v1 (kw ++ s) = kw ++ conv v1 s) by (destruct v1; [cbn [conv] in *; rewrite for2cpp_app by exact B; rewrite E; reflexivity|reflexivity]).
    rewrite X. do 4 (destruct kw as [|? kw]; try discriminate L). cbn [app skipn]. apply (conv_columns v1) in C.
    destruct s as [|c s]; [congruence|]. cbn in B. subst c. destruct v1; cbn [conv] in *.
    - rewrite for2cpp_cons in *. apply columns_blank. destruct s; exact C.
    - apply columns_blank, C.
  Qed.

  (** the entry a record produces; t0, t1 and the period may be left from earlier lines *)
  Definition holds1 (r : drec) (e : entry) : Prop := key e = Some (rk r) /\ deg e = Some (rl r) /\ ord e = Some (rm r) /\ eC e = Some (rC r) /\ eS e = Some (rS r) /\
    (rk r = gfct -> et0 e = Some (rt0 r)) /\ (rk r = asin \/ rk r = acos -> per e = Some (rp r)).
  Definition holds2 (r : drec) (e : entry) : Prop := key e = Some (rk r) /\ deg e = Some (rl r) /\ ord e = Some (rm r) /\ eC e = Some (rC r) /\ eS e = Some (rS r) /\
    et0 e = Some (rt0 r) /\ et1 e = Some (rt1 r) /\ (rk r = asin \/ rk r = acos -> per e = Some (rp r)).

  Lemma err_cols_sigma er : err_cols er = sigma_columns er.
  Proof. destruct er; reflexivity. Qed.
  Lemma prefix_app a b s : length a = length b -> prefix a (b ++ s) = if list_eq_dec Z.eq_dec a b then true else false.
  Proof.
    revert b; induction a as [|x a IH]; intros [|y b] L; try discriminate; [reflexivity|]. cbn [app prefix]. rewrite IH by (cbn in L; lia).
    destruct (Z.eqb_spec x y); destruct (list_eq_dec Z.eq_dec a b); destruct (list_eq_dec Z.eq_dec (x :: a) (y :: b)); cbn; congruence.
  Qed.
  Lemma prefix3 a b s : length a = 4%nat -> length b = 3%nat -> at_blank s -> s <> [] -> prefix a (b ++ s) = if list_eq_dec Z.eq_dec a (b ++ [32]) then true else false.
  Proof. intros A B C N. destruct s as [|c s]; [congruence|]. cbn in C. subst c. replace (b ++ 32 :: s) with ((b ++ [32]) ++ s) by (rewrite <- app_assoc; reflexivity). apply prefix_app. rewrite app_length. cbn. lia. Qed.

  Ltac kwd3 := repeat match goal with |- context [prefix (chars ?a) (chars ?b ++ ?s)] => rewrite (prefix3 (chars a) (chars b) s eq_refl eq_refl) by assumption end.
  Ltac kwd4 := repeat match goal with |- context [prefix (chars ?a) (chars ?b ++ ?s)] => rewrite (prefix_app (chars a) (chars b) s eq_refl) end.
  Ltac deccmp := repeat match goal with |- context [list_eq_dec Z.eq_dec (chars ?a) ?b] => let H := fresh in destruct (list_eq_dec Z.eq_dec (chars a) b) as [H|H]; [first [exfalso; vm_compute in H; discriminate H|clear H]|first [exfalso; apply H; reflexivity|clear H]] end; cbn [orb].

  Lemma periodic1 er c e k wl wm wc ws es w l m c0 s0 p : columns c (map (conv true) (wl :: wm :: wc :: ws :: es ++ [w])) ->
    num scan_i32 true wl l -> num scan_i32 true wm m -> num sdbl true wc c0 -> num sdbl true ws s0 -> Forall (fun w => plain true w <> []) es ->
    length es = sigma_columns er -> num sdbl true w p ->
    (let '(n, e, r) := four sdbl true c e in
      let (p, _) := sdbl (skip_ws true (skip_cols true (err_cols er) r)) in
      Ok (n + cnt p, with_key k (with_per p e))) = Ok (0, mkE (Some k) (Some l) (Some m) (Some c0) (Some s0) (et0 e) (et1 e) (Some p)).
  Proof using WS.
    clear mkdate MIN MAX. intros H Hl Hm Hc Hs F L (N & E). destruct (four_ok true c e _ _ _ _ _ l m c0 s0 H Hl Hm Hc Hs) as (r & -> & Cr).
    rewrite map_app in Cr. cbn [map] in Cr. rewrite plain_conv in N, E.
    destruct (skip_cols_ok true _ _ _ _ Cr (conv_forall _ _ F) N) as (s' & X & B & _). rewrite map_length, L in X. rewrite err_cols_sigma, X.
    rewrite (WS _ _ E s' B). reflexivity.
  Qed.

  Lemma resolve_v1_ok er line r e : says1 sdbl mkdate er line r -> exists e', resolve_v1 sdbl mkdate line er e = Ok (0, e') /\ holds1 r e'.
  Proof using WS.
    clear MIN MAX. intros (LEN & es & xs & H). unfold resolve_v1. destruct (Z.ltb_spec 254 (Z.of_nat (length line))) as [?|_]; [lia|].
    change (for2cpp line) with (conv true line). destruct (rk r) eqn:K.
    - destruct H as (s & wl & wm & wc & ws & -> & N & B & C & Hl & Hm & Hc & Hs & F).
      destruct (four_ok true (skipn 4 (conv true (chars "gfc" ++ s))) e _ _ _ _ _ _ _ _ _ (kw3 true (chars "gfc") s _ eq_refl B N eq_refl C) Hl Hm Hc Hs) as (q & -> & _).
      kwd3. deccmp. eexists; split; [reflexivity|]. unfold holds1. cbn. rewrite K. intuition congruence.
    - destruct H as (w & -> & (s & wl & wm & wc & ws & -> & N & B & C & Hl & Hm & Hc & Hs & F) & D & L).
      kwd4. deccmp. rewrite (kw4 true (chars "gfct") s eq_refl B eq_refl). apply (conv_columns true) in C.
      destruct (four_ok true _ e _ _ _ _ _ _ _ _ _ C Hl Hm Hc Hs) as (q & -> & Cq).
      rewrite map_app in Cq. cbn [map] in Cq. pose proof (date1_plain w _ D) as Nw. rewrite plain_conv in Nw.
      destruct (skip_cols_ok true _ _ _ _ Cq (conv_forall _ _ F) Nw) as (s' & X & B' & _). rewrite map_length, L in X. rewrite err_cols_sigma, X.
      rewrite <- plain_conv. destruct (date_v1_ok w _ s' D) as (q' & ->). cbn [Z.eqb]. eexists; split; [reflexivity|].
      unfold holds1. cbn. rewrite K. intuition congruence.
    - destruct H as [(s & wl & wm & wc & ws & -> & N & B & C & Hl & Hm & Hc & Hs & F)|(s & wl & wm & wc & ws & -> & N & B & C & Hl & Hm & Hc & Hs & F)].
      + kwd4. deccmp. rewrite (kw4 true (chars "trnd") s eq_refl B eq_refl). apply (conv_columns true) in C.
        destruct (four_ok true _ e _ _ _ _ _ _ _ _ _ C Hl Hm Hc Hs) as (q & -> & Cq). eexists; split; [reflexivity|]. unfold holds1. cbn. rewrite K. intuition congruence.
      + kwd3. deccmp. destruct (four_ok true (skipn 4 (conv true (chars "dot" ++ s))) e _ _ _ _ _ _ _ _ _ (kw3 true (chars "dot") s _ eq_refl B N eq_refl C) Hl Hm Hc Hs) as (q & -> & _).
        eexists; split; [reflexivity|]. unfold holds1. cbn. rewrite K. intuition congruence.
    - destruct H as (w & -> & (s & wl & wm & wc & ws & -> & N & B & C & Hl & Hm & Hc & Hs & F) & D & L).
      kwd4. deccmp. rewrite (kw4 true (chars "asin") s eq_refl B eq_refl). apply (conv_columns true) in C.
      rewrite (periodic1 er _ e asin _ _ _ _ _ _ _ _ _ _ _ C Hl Hm Hc Hs F L D). eexists; split; [reflexivity|]. unfold holds1. cbn. rewrite K. intuition congruence.
    - destruct H as (w & -> & (s & wl & wm & wc & ws & -> & N & B & C & Hl & Hm & Hc & Hs & F) & D & L).
      kwd4. deccmp. rewrite (kw4 true (chars "acos") s eq_refl B eq_refl). apply (conv_columns true) in C.
      rewrite (periodic1 er _ e acos _ _ _ _ _ _ _ _ _ _ _ C Hl Hm Hc Hs F L D). eexists; split; [reflexivity|]. unfold holds1. cbn. rewrite K. intuition congruence.
  Qed.

  Lemma dates_v2_ok e er w0 w1 xs t0 t1 es r : columns r (es ++ w0 :: w1 :: xs) -> Forall (fun w => w <> []) es -> length es = sigma_columns er ->
    date2 mkdate w0 t0 -> date2 mkdate w1 t1 ->
    exists s', dates_v2 mkdate (skip_ws false (skip_cols false (err_cols er) r)) 0 e = Ok (0, with_dates None (Some t1) (with_dates (Some t0) None e), Some s') /\ columns s' xs.
  Proof.
    intros C F L D0 D1. pose proof (date2_plain w0 _ D0) as N0. pose proof (date2_plain w1 _ D1) as N1.
    destruct (skip_cols_ok false _ _ _ _ C F N0) as (s' & X & B & C'). rewrite L in X. rewrite err_cols_sigma, X. unfold dates_v2.
    cbn [stripped]. rewrite (date_v2_ok w0 t0 s' D0). cbn [bind Z.eqb]. change (0 + 0 =? 0) with true. cbv iota.
    destruct (skip_ws_col false _ _ _ C' N1) as (s2 & -> & B2 & C2). cbn [stripped]. rewrite (date_v2_ok w1 t1 s2 D1). cbn [bind Z.eqb]. exists s2. split; [reflexivity|exact C2].
  Qed.

  Lemma timed2 er c e k wl wm wc ws es w0 w1 l m c0 s0 t0 t1 : columns c (wl :: wm :: wc :: ws :: es ++ [w0; w1]) ->
    num scan_i32 false wl l -> num scan_i32 false wm m -> num sdbl false wc c0 -> num sdbl false ws s0 -> Forall (fun w => plain false w <> []) es ->
    length es = sigma_columns er -> date2 mkdate w0 t0 -> date2 mkdate w1 t1 ->
    (let '(n, e, r) := four sdbl false c e in
      ' (n, e, _) <- dates_v2 mkdate (skip_ws false (skip_cols false (err_cols er) r)) n e ;;
      Ok (n, with_key k e)) = Ok (0, mkE (Some k) (Some l) (Some m) (Some c0) (Some s0) (Some t0) (Some t1) (per e)).
  Proof.
    intros H Hl Hm Hc Hs F L D0 D1. rewrite <- (map_id (wl :: _)) in H. destruct (four_ok false c e _ _ _ _ _ l m c0 s0 H Hl Hm Hc Hs) as (r & -> & Cr).
    change (conv false) with (fun x : list Z => x) in Cr. rewrite map_id in Cr. destruct (dates_v2_ok (mkE (key e) (Some l) (Some m) (Some c0) (Some s0) (et0 e) (et1 e) (per e)) er w0 w1 [] t0 t1 es r Cr F L D0 D1) as (s' & -> & _). reflexivity.
  Qed.
  Lemma periodic2 er c e k wl wm wc ws es w0 w1 w l m c0 s0 t0 t1 p : columns c (wl :: wm :: wc :: ws :: es ++ [w0; w1; w]) ->
    num scan_i32 false wl l -> num scan_i32 false wm m -> num sdbl false wc c0 -> num sdbl false ws s0 -> Forall (fun w => plain false w <> []) es ->
    length es = sigma_columns er -> date2 mkdate w0 t0 -> date2 mkdate w1 t1 -> num sdbl false w p ->
    (let '(n, e, r) := four sdbl false c e in
      ' (n, e, ptr) <- dates_v2 mkdate (skip_ws false (skip_cols false (err_cols er) r)) n e ;;
      p <- get ptr ;;
      let (v, _) := sdbl (skip_ws false p) in
      Ok (n + cnt v, with_key k (with_per v e))) = Ok (0, mkE (Some k) (Some l) (Some m) (Some c0) (Some s0) (Some t0) (Some t1) (Some p)).
  Proof.
    intros H Hl Hm Hc Hs F L D0 D1 P. rewrite <- (map_id (wl :: _)) in H. destruct (four_ok false c e _ _ _ _ _ l m c0 s0 H Hl Hm Hc Hs) as (r & -> & Cr).
    change (conv false) with (fun x : list Z => x) in Cr. rewrite map_id in Cr. destruct (dates_v2_ok (mkE (key e) (Some l) (Some m) (Some c0) (Some s0) (et0 e) (et1 e) (per e)) er w0 w1 [w] t0 t1 es r Cr F L D0 D1) as (s' & -> & C'). cbn [bind get].
    destruct (num_scan sdbl false s' w [] p WS C' P) as (s2 & -> & _). reflexivity.
  Qed.

  Lemma resolve_v2_ok er line r e : says2 sdbl mkdate MIN MAX er line r -> exists e', resolve_v2 sdbl mkdate MIN MAX line er e = Ok (0, e') /\ holds2 r e'.
  Proof.
    intros (LEN & es & xs & H). unfold resolve_v2. destruct (rk r) eqn:K.
    - destruct H as ((s & wl & wm & wc & ws & -> & N & B & C & Hl & Hm & Hc & Hs & F) & T0 & T1).
      destruct (four_ok false (skipn 4 (conv false (chars "gfc" ++ s))) e _ _ _ _ _ _ _ _ _ (kw3 false (chars "gfc") s _ eq_refl B N eq_refl C) Hl Hm Hc Hs) as (q & E & _).
      cbn [conv] in E. rewrite E. kwd3. deccmp. eexists; split; [reflexivity|]. unfold holds2. cbn. rewrite K, T0, T1. intuition congruence.
    - destruct H as (w0 & w1 & -> & (s & wl & wm & wc & ws & -> & N & B & C & Hl & Hm & Hc & Hs & F) & D0 & D1 & L).
      kwd4. deccmp. cbv zeta. pose proof (kw4 false (chars "gfct") s eq_refl B eq_refl) as E. cbn [conv] in E. rewrite E.
      rewrite (timed2 er s e gfct _ _ _ _ _ _ _ _ _ _ _ _ _ C Hl Hm Hc Hs F L D0 D1). eexists; split; [reflexivity|]. unfold holds2. cbn. rewrite K. intuition congruence.
    - destruct H as (w0 & w1 & -> & (s & wl & wm & wc & ws & -> & N & B & C & Hl & Hm & Hc & Hs & F) & D0 & D1 & L).
      kwd4. deccmp. cbv zeta. pose proof (kw4 false (chars "trnd") s eq_refl B eq_refl) as E. cbn [conv] in E. rewrite E.
      rewrite (timed2 er s e trnd _ _ _ _ _ _ _ _ _ _ _ _ _ C Hl Hm Hc Hs F L D0 D1). eexists; split; [reflexivity|]. unfold holds2. cbn. rewrite K. intuition congruence.
    - destruct H as (w0 & w1 & w & -> & (s & wl & wm & wc & ws & -> & N & B & C & Hl & Hm & Hc & Hs & F) & D0 & D1 & P & L).
      kwd4. deccmp. cbv zeta. pose proof (kw4 false (chars "asin") s eq_refl B eq_refl) as E. cbn [conv] in E. rewrite E.
      rewrite (periodic2 er s e asin _ _ _ _ _ _ _ _ _ _ _ _ _ _ _ C Hl Hm Hc Hs F L D0 D1 P). eexists; split; [reflexivity|]. unfold holds2. cbn. rewrite K. intuition congruence.
    - destruct H as (w0 & w1 & w & -> & (s & wl & wm & wc & ws & -> & N & B & C & Hl & Hm & Hc & Hs & F) & D0 & D1 & P & L).
      kwd4. deccmp. cbv zeta. pose proof (kw4 false (chars "acos") s eq_refl B eq_refl) as E. cbn [conv] in E. rewrite E.
      rewrite (periodic2 er s e acos _ _ _ _ _ _ _ _ _ _ _ _ _ _ _ C Hl Hm Hc Hs F L D0 D1 P). eexists; split; [reflexivity|]. unfold holds2. cbn. rewrite K. intuition congruence.
  Qed.
End Resolve.
