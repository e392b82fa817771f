From Coq Require Import Ascii String Reals ZArith List Bool Lia Lra Sorted Permutation.
From Verif Require Import Base CString FromChars DoodsonModel DoodsonProofs IcgemModel IcgemSpec AtlasModel AtlasSpec AtlasProofs AtlasProofs2 GridModel GridSpec GridProofs PoleModel SiteModel SiteSpec.
Import ListNotations.
Open Scope Z_scope.

Lemma tuple4 (a b c d a' b' c' d' : Z) : a = a' -> b = b' -> c = c' -> d = d' -> Ok (a, b, c, d) = Ok (a', b', c', d').
Proof. congruence. Qed.

(** ** lines *)
Lemma buffer_short file k : Forall short file -> buffer file k = match nth_error file k with Some l => l | None => [] end.
Proof.
  intros F. unfold buffer. replace (forallb fits (firstn k file)) with true.
  - destruct (nth_error file k) as [l|] eqn:E; [|reflexivity]. apply firstn_all2. rewrite Forall_forall in F. apply F. eapply nth_error_In; eauto.
  - symmetry. apply forallb_forall. intros l H. unfold fits. apply Z.leb_le. rewrite Forall_forall in F. assert (short l) by (apply F; rewrite <- (firstn_skipn k file); apply in_or_app; auto). unfold short in *. lia.
Qed.
Lemma nf_eq pre post : ~ In 61 pre -> nf (pre ++ [61] ++ post) = Some (skip_blanks post).
Proof.
  induction pre as [|c t IH]; intros N; cbn [nf app]; [reflexivity|]. destruct (Z.eqb_spec c 61); [exfalso; apply N; left; auto|]. apply IH. intros H. apply N. right. exact H.
Qed.
Lemma starts_app str rest : starts str (str ++ rest) = true.
Proof. unfold starts. rewrite firstn_app, firstn_all, Nat.sub_diag. cbn [firstn]. rewrite app_nil_r. apply list_eqb_true. reflexivity. Qed.
Lemma header_value_ok {A} (scan : list Z -> option A * list Z) key line v : value_line scan key line v -> header_value scan key line = Ok (Some v).
Proof.
  intros (pre & post & -> & NK & NP & E). unfold header_value. rewrite starts_app. cbn [negb].
  rewrite (app_assoc key pre). rewrite nf_eq, E; [reflexivity|]. rewrite in_app_iff. tauto.
Qed.
Lemma to_int_id n : - 2 ^ 31 <= n < 2 ^ 31 -> to_int n = n.
Proof. intros H. unfold to_int. rewrite Z.mod_small; lia. Qed.

Lemma parse_header_ok sdbl file g val : desai_file sdbl file g val -> parse_header sdbl file = Ok (Some g).
Proof.
  intros [FS SM AS N1 N2 N3 N4 N5 N6 N7 N8 T1 T2 LN _]. destruct SM as (S1 & S2 & S3).
  assert (G : forall k, (k < 14)%nat -> exists l, nth_error file k = Some l /\ buffer file k = l).
  { intros k K. destruct (nth_error file k) as [l|] eqn:E; [exists l; split; [reflexivity|rewrite buffer_short, E by auto; reflexivity]|].
    apply nth_error_None in E. nia. }
  unfold parse_header.
  destruct (G 3%nat) as (l3 & E3 & ->); [lia|]. rewrite (header_value_ok _ _ _ _ (N1 _ E3)). cbn [obind bind].
  destruct (G 4%nat) as (l4 & E4 & ->); [lia|]. rewrite (header_value_ok _ _ _ _ (N2 _ E4)). cbn [obind bind].
  destruct (G 5%nat) as (l5 & E5 & ->); [lia|]. destruct (N3 _ E5) as (v5 & V5). rewrite (header_value_ok _ _ _ _ V5). cbn [obind bind].
  destruct (G 6%nat) as (l6 & E6 & ->); [lia|]. rewrite (header_value_ok _ _ _ _ (N4 _ E6)). cbn [obind bind].
  destruct (G 7%nat) as (l7 & E7 & ->); [lia|]. rewrite (header_value_ok _ _ _ _ (N5 _ E7)). cbn [obind bind].
  destruct (G 8%nat) as (l8 & E8 & ->); [lia|]. rewrite (header_value_ok _ _ _ _ (N6 _ E8)). cbn [obind bind].
  destruct (G 9%nat) as (l9 & E9 & ->); [lia|]. destruct (N7 _ E9) as (v9 & V9). rewrite (header_value_ok _ _ _ _ V9). cbn [obind bind].
  destruct (G 10%nat) as (l10 & E10 & ->); [lia|]. rewrite (header_value_ok _ _ _ _ (N8 _ E10)). cbn [obind bind].
  destruct (G 11%nat) as (l11 & E11 & ->); [lia|]. destruct (T1 _ E11) as (r1 & ->). rewrite starts_app. cbn [negb].
  destruct (G 12%nat) as (l12 & E12 & ->); [lia|]. destruct (T2 _ E12) as (r2 & ->). rewrite starts_app. cbn [negb].
  rewrite !to_int_id by nia. destruct g; reflexivity.
Qed.

(** ** sorted indices *)
Lemma insert_perm x l : Permutation (insert x l) (x :: l).
Proof.
  induction l as [|y t IH]; cbn [insert]; [apply Permutation_refl|]. destruct (x <=? y); [apply Permutation_refl|].
  eapply Permutation_trans; [apply perm_skip, IH|apply perm_swap].
Qed.
Lemma sort_perm l : Permutation (sort l) l.
Proof. induction l as [|x t IH]; cbn [sort]; [constructor|]. eapply Permutation_trans; [apply insert_perm|]. apply perm_skip, IH. Qed.
Lemma insert_sorted x l : StronglySorted Z.le l -> StronglySorted Z.le (insert x l).
Proof.
  induction 1 as [|y t S IH F]; cbn [insert]; [repeat constructor|]. destruct (Z.leb_spec x y).
  - constructor; [constructor; auto|]. constructor; [auto|]. eapply Forall_impl; [|exact F]. intros; lia.
  - constructor; [exact IH|]. apply (Permutation_Forall (Permutation_sym (insert_perm x t))). constructor; [lia|exact F].
Qed.
Lemma sort_sorted l : StronglySorted Z.le (sort l).
Proof. induction l; cbn [sort]; [constructor|apply insert_sorted; auto]. Qed.
Lemma sort_in x l : In x (sort l) <-> In x l.
Proof. split; apply Permutation_in; [apply sort_perm|apply Permutation_sym, sort_perm]. Qed.

(** ** records *)
Lemma parse_record_ok sdbl line k lon lat a b c d e f : word_scanner sdbl -> number_line sdbl line [lon; lat; a; b; c; d; e; f] ->
  parse_record sdbl line k = Some (mkOr k lon lat (mkDs a b c d e f)).
Proof. intros W N. unfold parse_record. pose proof (numbers_ok sdbl W [lon; lat; a; b; c; d; e; f] line N) as E. cbn [length] in E. rewrite E. reflexivity. Qed.

Section Sites.
  Variable sdbl : list Z -> option R * list Z.
  Hypothesis W : word_scanner sdbl.
  Variables (file : list (list Z)) (g : grid) (val : Z -> Z -> desai).
  Hypothesis D : desai_file sdbl file g val.
  Let total := nx g * ny g.
  Definition record (k : Z) : orec := let i := k mod nx g in let j := k / nx g in mkOr k (fst (node g i j)) (snd (node g i j)) (val i j).
  Lemma coords k : 0 <= k < total -> on_grid g (k mod nx g) (k / nx g) /\ linear Y g (k mod nx g) (k / nx g) = k.
  Proof.
    intros K. destruct (f_small _ _ _ _ D) as (S1 & S2 & _). pose proof (Z.mod_pos_bound k (nx g) S1). pose proof (Z.div_mod k (nx g) ltac:(lia)).
    assert (0 <= k / nx g) by (apply Z.div_pos; lia). assert (k / nx g < ny g) by (apply Z.div_lt_upper_bound; unfold total in K; lia). split; [split; lia|]. cbn [linear]. lia.
  Qed.
  Lemma record_of i j : on_grid g i j -> record (linear Y g i j) = mkOr (linear Y g i j) (fst (node g i j)) (snd (node g i j)) (val i j).
  Proof.
    intros (Hi & Hj). unfold record. cbn [linear]. rewrite (Z.add_comm (j * nx g) i), Z.mod_add, Z.mod_small, Z.div_add, Z.div_small by lia. rewrite Z.add_0_l. reflexivity.
  Qed.
  Lemma record_read k : 0 <= k < total -> parse_record sdbl (buffer file (14 + Z.to_nat k)) k = Some (record k).
  Proof.
    intros K. destruct (coords k K) as (O & L). destruct (f_data _ _ _ _ D _ _ O) as (line & E & N). rewrite L in E.
    rewrite buffer_short, E by apply (f_short _ _ _ _ D). rewrite (parse_record_ok _ _ _ _ _ _ _ _ _ _ _ W N). unfold record. destruct (val (k mod nx g) (k / nx g)); reflexivity.
  Qed.
  Lemma read_ok idxs : StronglySorted Z.le idxs -> forall c, 0 <= c -> (forall x, In x idxs -> c <= Z.max 0 x /\ x < total) -> 0 < total ->
    read_records sdbl file idxs c = Some (map (fun x => record (Z.max 0 x)) idxs).
  Proof.
    induction 1 as [|x t S IH F]; intros c C B T; [reflexivity|]. cbn [read_records map]. destruct (B x (or_introl eq_refl)) as (B1 & B2).
    replace (Z.max c x) with (Z.max 0 x) by lia. rewrite record_read by lia. rewrite IH; auto; [lia|]. intros y Hy. destruct (B y (or_intror Hy)) as (B3 & B4). rewrite Forall_forall in F. specialize (F y Hy). lia.
  Qed.
  Lemma find_record idxs i : StronglySorted Z.le idxs -> In i idxs -> 0 <= i -> find (fun r => negb (oidx r <? i)) (map (fun x => record (Z.max 0 x)) idxs) = Some (record i).
  Proof.
    induction 1 as [|x t S IH F]; intros I Hi; [contradiction|]. cbn [map find]. change (oidx (record (Z.max 0 x))) with (Z.max 0 x).
    destruct (Z.ltb_spec (Z.max 0 x) i) as [H|H]; cbn [negb].
    - apply IH; auto. destruct I as [-> | I]; [lia|exact I].
    - destruct I as [-> | I]; [rewrite Z.max_r by lia; reflexivity|]. rewrite Forall_forall in F. specialize (F i I). replace (Z.max 0 x) with i by lia. reflexivity.
  Qed.

  (** ** interpolation *)
  Lemma Reqb_refl a : Reqb a a = true.
  Proof. unfold Reqb. destruct (Req_EM_T a a); congruence. Qed.
  Lemma node_x i j j' : fst (node g i j) = fst (node g i j'). Proof. reflexivity. Qed.
  Lemma deg_pi l : deg (l + PI) = (deg l + 180)%R.
  Proof. unfold deg. field. apply PI_neq0. Qed.
  Lemma combine4_bilinear f i j x y : (0 < dx g)%R -> (0 < dy g)%R ->
    let x1 := fst (node g i j) in let x2 := fst (node g (i + 1) j) in let y1 := snd (node g i j) in let y2 := snd (node g i (j + 1)) in
    combine4 (1 / ((x2 - x1) * (y2 - y1))) ((x2 - x) * (y2 - y)) ((x - x1) * (y2 - y)) ((x2 - x) * (y - y1)) ((x - x1) * (y - y1))
      (f i j) (f (i + 1) j) (f i (j + 1)) (f (i + 1) (j + 1)) = bilinear g f i j x y.
  Proof.
    intros Hx Hy. cbv zeta. unfold combine4, bilinear, mix, node. cbn [fst snd]. rewrite !plus_IZR. field. split; lra.
  Qed.
  Lemma interpolate_ok idxs s i j : StronglySorted Z.le idxs -> inner g i j -> in_cell g i j (deg (slon s) + 180) (deg (slat s)) ->
    (forall x, In x (flat (corners Y g (linear Y g i j))) -> In x idxs) ->
    interpolate (map (fun x => record (Z.max 0 x)) idxs) s (corners Y g (linear Y g i j)) = Ok (Some (bilinear6 g val i j (deg (slon s) + 180) (deg (slat s)))).
  Proof.
    intros S (Hi & Hj) (Cx & Cy) I. cbn [corners linear flat] in *.
    assert (E2 : j * nx g + i + 1 = linear Y g (i + 1) j) by (cbn; lia). assert (E3 : j * nx g + i + nx g = linear Y g i (j + 1)) by (cbn; lia).
    assert (E4 : j * nx g + i + nx g + 1 = linear Y g (i + 1) (j + 1)) by (cbn; lia). assert (E1 : j * nx g + i = linear Y g i j) by reflexivity.
    unfold interpolate, lower_bound. assert (P : 0 <= j * nx g + i) by nia.
    rewrite !(find_record idxs) by (try exact S; try (apply I; cbn [In]; tauto); nia). cbn [bind].
    change (oidx (record ?x)) with x. rewrite !Z.eqb_refl. cbn [negb orb].
    rewrite E4, E3, E2, E1. rewrite !record_of by (split; lia). cbn [olon olat ov].
    change (fst (node g i (j + 1))) with (fst (node g i j)). change (fst (node g (i + 1) (j + 1))) with (fst (node g (i + 1) j)).
    change (snd (node g (i + 1) j)) with (snd (node g i j)). change (snd (node g (i + 1) (j + 1))) with (snd (node g i (j + 1))).
    rewrite !Reqb_refl. cbn [andb negb]. rewrite deg_pi.
    replace (Rleb (fst (node g i j)) (deg (slon s) + 180) && Rleb (snd (node g i j)) (deg (slat s))) with true.
    2:{ symmetry. apply andb_true_iff. rewrite !Rleb_true. unfold node. cbn [fst snd]. lra. }
    cbn [negb]. unfold bilinear6. destruct (f_ascending _ _ _ _ D) as (Ax & Ay).
    pose proof (fun p => combine4_bilinear (fun i j => p (val i j)) i j (deg (slon s) + 180) (deg (slat s)) Ax Ay) as Q. cbv zeta in Q.
    cbv zeta. rewrite <- !Q. reflexivity.
  Qed.
  Lemma interpolate_outside idxs s a b c : (forall x, In x idxs -> -1 <= x < total) -> In (-1) idxs -> In a idxs -> In b idxs -> In c idxs ->
    StronglySorted Z.le idxs -> 0 <= a -> 0 <= b -> 0 <= c ->
    interpolate (map (fun x => record (Z.max 0 x)) idxs) s (-1, a, b, c) = Ok None.
  Proof.
    intros B I1 I2 I3 I4 S A1 A2 A3. unfold interpolate, lower_bound. rewrite (find_record idxs a), (find_record idxs b), (find_record idxs c) by auto.
    destruct idxs as [|x t]; [contradiction|]. cbn [map find]. change (oidx (record (Z.max 0 x))) with (Z.max 0 x).
    destruct (Z.ltb_spec (Z.max 0 x) (-1)); [lia|]. cbn [negb bind]. change (oidx (record ?x)) with x. destruct (Z.eqb_spec (-1) (Z.max 0 x)); [lia|]. reflexivity.
  Qed.

  (** ** lists of sites *)
  Definition base (o : option (Z * Z)) : Z := match o with Some (i, j) => linear Y g i j | None => -1 end.
  Lemma nodes_of s o : placed g s o -> surrounding_nodes Datatypes.id Y g (deg (slon s + PI)) (deg (slat s)) = Ok (corners Y g (base o)).
  Proof.
    pose proof (f_ascending _ _ _ _ D) as A. pose proof (f_small _ _ _ _ D) as S. change (@Datatypes.id R) with id. rewrite deg_pi. fold (px s) (py s). destruct o as [(i, j)|]; cbn [placed base].
    - intros ((Hi & Hj) & C). rewrite (corners_Y g i j _ _ A S C) by (split; lia). cbn [corners linear]. apply tuple4; lia.
    - intros (i & j & N & C). rewrite (proj2 (corners_outside Y g i j _ _ A S C N)). cbn [corners]. apply tuple4; lia.
  Qed.
  Lemma all_nodes_ok sta os : Forall2 (placed g) sta os -> all_nodes g sta = Ok (map (fun o => corners Y g (base o)) os).
  Proof. induction 1 as [|s o sta os P _ IH]; [reflexivity|]. cbn [all_nodes map]. rewrite (nodes_of s o P). cbn [bind]. rewrite IH. reflexivity. Qed.
  Lemma flat_range s o x : 2 <= ny g -> placed g s o -> In x (flat (corners Y g (base o))) -> -1 <= x < total.
  Proof.
    intros N P. destruct (f_small _ _ _ _ D) as (S1 & S2 & _). unfold total. destruct o as [(i, j)|]; cbn [placed base corners linear flat In] in *.
    - destruct P as ((Hi & Hj) & _). intros H. assert (0 <= j * nx g + i /\ j * nx g + i + nx g + 1 < nx g * ny g) by nia. intuition lia.
    - intros H. assert (nx g < nx g * ny g) by nia. intuition lia.
  Qed.
  Lemma each_ok idxs sta os : StronglySorted Z.le idxs -> (forall x, In x idxs -> -1 <= x < total) -> 2 <= ny g -> Forall2 (placed g) sta os ->
    (forall o, In o os -> forall x, In x (flat (corners Y g (base o))) -> In x idxs) ->
    forall done, each_site (map (fun x => record (Z.max 0 x)) idxs) (List.combine sta (map (fun o => corners Y g (base o)) os)) done =
      Ok ((done ++ fst (served g val (List.combine sta os)))%list, snd (served g val (List.combine sta os))).
  Proof.
    intros S B N F. induction F as [|s o sta os P _ IH]; intros I done; [cbn; rewrite app_nil_r; reflexivity|]. cbn [map List.combine each_site served].
    destruct o as [(i, j)|].
    - cbn [placed] in P. change (base (Some (i, j))) with (linear Y g i j). destruct P as (Hin & C). rewrite (interpolate_ok idxs s i j S Hin C).
      2:{ intros x Hx. apply (I (Some (i, j))); [left; reflexivity|exact Hx]. }
      cbn [bind]. rewrite IH by (intros o Ho; apply I; right; exact Ho). destruct (served g val (List.combine sta os)) as (r, e). cbn [fst snd]. rewrite <- app_assoc. reflexivity.
    - assert (K : forall x, In x (flat (corners Y g (-1))) -> In x idxs) by (intros x Hx; apply (I None); [left; reflexivity|exact Hx]).
      cbn [base corners flat In] in *. destruct (f_small _ _ _ _ D) as (S1 & S2 & _). rewrite (interpolate_outside idxs s); try (apply K; tauto); auto; try lia.
      cbn [bind fst snd]. rewrite app_nil_r. reflexivity.
  Qed.
  Theorem sites_ok sta os : 2 <= ny g -> Forall2 (placed g) sta os -> site_coeffs sdbl (Some file) sta = Ok (served g val (List.combine sta os)).
  Proof.
    intros N F. unfold site_coeffs. rewrite (parse_header_ok sdbl file g val D). cbn [bind]. rewrite (all_nodes_ok sta os F). cbn [bind]. unfold nodes2indexes.
    set (l := flat_map flat _). assert (L : forall x, In x l -> -1 <= x < total).
    { intros x Hx. apply in_flat_map in Hx as (n & Hn & Hx). apply in_map_iff in Hn as (o & <- & Ho).
      assert (E : exists s, placed g s o) by (clear -F Ho; induction F; [contradiction|destruct Ho as [-> | Ho]; eauto]). destruct E as (s & P). apply (flat_range s o x N P Hx). }
    destruct (f_small _ _ _ _ D) as (S1 & S2 & _).
    rewrite (read_ok (sort l) (sort_sorted l) 0); [|lia|intros x Hx; apply (sort_in x l) in Hx; apply L in Hx; lia|unfold total; nia].
    rewrite (each_ok (sort l) sta os); auto.
    - destruct (served g val (List.combine sta os)); reflexivity.
    - apply sort_sorted.
    - intros x Hx. apply L, (sort_in x l), Hx.
    - intros o Ho x Hx. apply sort_in, in_flat_map. exists (corners Y g (base o)). split; [apply in_map_iff; eauto|exact Hx].
  Qed.
  Lemma served_code l : snd (served g val l) = 0 <-> forall s o, In (s, o) l -> o <> None.
  Proof.
    induction l as [|(s, o) l IH]; cbn [served]; [split; [intros _ ? ? []|reflexivity]|]. destruct o as [(i, j)|].
    - destruct (served g val l) as (r, e). cbn [snd] in *. rewrite IH. split.
      + intros H s' o' [E|Hin]; [injection E as <- <-; discriminate|eapply H; eauto].
      + intros H s' o' Hin. eapply H. right. exact Hin.
    - cbn [snd]. split; [discriminate|]. intros H. exfalso. apply (H s None); [left; reflexivity|reflexivity].
  Qed.

  (** ** the last column and the last row *)
  Lemma read_none idxs : fst (sdbl []) = None -> forall c x, 0 <= c -> In x idxs -> total <= x -> read_records sdbl file idxs c = None.
  Proof.
    intros E. induction idxs as [|y t IH]; intros c x C I T; [contradiction|]. cbn [read_records]. destruct (parse_record _ _ _) as [r|] eqn:P; [|reflexivity].
    destruct I as [-> | I].
    - exfalso. rewrite buffer_short in P by apply (f_short _ _ _ _ D).
      replace (nth_error file (14 + Z.to_nat (Z.max c x))) with (@None (list Z)) in P by (symmetry; apply nth_error_None; pose proof (f_length _ _ _ _ D); fold total in H; lia).
      assert (Q : exists vs, fst (AtlasModel.numbers sdbl 8 []) = None :: vs).
      { change (AtlasModel.numbers sdbl 8 []) with (let (v, r) := sdbl [] in let (vs, e) := AtlasModel.numbers sdbl 7 r in (v :: vs, cnt v + e)). destruct (sdbl []) as (v, q). cbn [fst] in E. subst v. destruct (AtlasModel.numbers sdbl 7 q) as (vs, e). exists vs. reflexivity. }
      destruct Q as (vs & Q). unfold parse_record in P. destruct (AtlasModel.numbers sdbl 8 []) as (l, e). cbn [fst] in Q. subst l. discriminate.
    - rewrite (IH (Z.max c y) x); auto. lia.
  Qed.
  Lemma on_nodes s i j : on_grid g i j -> in_cell g i j (px s) (py s) -> surrounding_nodes Datatypes.id Y g (deg (slon s + PI)) (deg (slat s)) = Ok (corners Y g (linear Y g i j)).
  Proof.
    intros O C. change (@Datatypes.id R) with id. rewrite deg_pi. fold (px s) (py s). rewrite (corners_Y g i j _ _ (f_ascending _ _ _ _ D) (f_small _ _ _ _ D) C O). cbn [corners linear]. apply tuple4; lia.
  Qed.
  Theorem last_row s i j : fst (sdbl []) = None -> on_grid g i j -> in_cell g i j (px s) (py s) -> j = ny g - 1 \/ (j = ny g - 2 /\ i = nx g - 1) ->
    site_coeffs sdbl (Some file) [s] = Ok ([], 1).
  Proof.
    intros E O C J. unfold site_coeffs. rewrite (parse_header_ok sdbl file g val D). cbn [bind all_nodes]. rewrite (on_nodes s i j O C). cbn [bind]. unfold nodes2indexes.
    match goal with |- context [read_records sdbl file ?l 0] => rewrite (read_none l E 0 (linear Y g i j + nx g + 1)) end; [reflexivity|lia| |].
    - apply sort_in. cbn. tauto.
    - destruct O as (Hi & Hj). unfold total. cbn [linear]. nia.
  Qed.
  Theorem last_column s j : 0 <= j < ny g - 2 -> in_cell g (nx g - 1) j (px s) (py s) -> site_coeffs sdbl (Some file) [s] = Abort.
  Proof.
    intros J C. destruct (f_small _ _ _ _ D) as (S1 & S2 & _). assert (O : on_grid g (nx g - 1) j) by (split; lia).
    unfold site_coeffs. rewrite (parse_header_ok sdbl file g val D). cbn [bind all_nodes]. rewrite (on_nodes s _ j O C). cbn [bind]. unfold nodes2indexes.
    set (l := flat_map flat _). assert (L : forall x, In x l -> 0 <= x < total) by (intros x Hx; subst l; cbn [flat_map flat corners app In linear] in Hx; unfold total; nia).
    rewrite (read_ok (sort l) (sort_sorted l) 0); [|lia|intros x Hx; apply (sort_in x l) in Hx; apply L in Hx; lia|unfold total; nia].
    cbn [List.combine each_site]. unfold interpolate, lower_bound. cbn [corners].
    assert (I : forall x, In x l -> find (fun r => negb (oidx r <? x)) (map (fun x => record (Z.max 0 x)) (sort l)) = Some (record x)).
    { intros x Hx. apply find_record; [apply sort_sorted|apply sort_in, Hx|apply L, Hx]. }
    rewrite !I by (subst l; cbn; tauto). cbn [bind]. change (oidx (record ?x)) with x. rewrite !Z.eqb_refl. cbn [negb orb].
    assert (E1 : linear Y g (nx g - 1) j + 1 = linear Y g 0 (j + 1)) by (cbn; lia). rewrite E1.
    replace (Reqb (olat (record (linear Y g (nx g - 1) j))) (olat (record (linear Y g 0 (j + 1))))) with false.
    - rewrite !andb_false_r. reflexivity.
    - rewrite !record_of by (split; lia). cbn [olat node snd]. unfold Reqb. destruct (Req_EM_T _ _) as [Q|Q]; [|reflexivity]. exfalso. rewrite plus_IZR in Q. destruct (f_ascending _ _ _ _ D). lra.
  Qed.
End Sites.
