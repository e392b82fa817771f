(** C34: ocean pole tide coefficients of sites. *)
From Coq Require Import Ascii String Reals ZArith List Bool Lia Lra.
From Verif Require Import Base CString FromChars IcgemSpec AtlasSpec GridModel GridSpec PoleModel SiteModel SiteSpec SiteProofs SiteProofs2.
Import ListNotations.
Open Scope Z_scope.

Section C34.
  Variable sdbl : list Z -> option R * list Z.
  Hypothesis W : word_scanner sdbl.
  Variables (file : list (list Z)) (g : grid) (val : Z -> Z -> desai).
  Hypothesis D : desai_file sdbl file g val.
  (** sites in inner cells or outside: the coefficients of the sites up to the first one outside.
      Missing: sites in the last row or column of the grid, rounding. *)
  Theorem c34_sites_partial sta os : 2 <= ny g -> Forall2 (placed g) sta os -> site_coeffs sdbl (Some file) sta = Ok (served g val (List.combine sta os)).
  Proof. exact (sites_ok sdbl W file g val D sta os). Qed.
  (** all sites in inner cells: one bilinear interpolation for each *)
  Theorem c34_inner_partial sta cells : 2 <= ny g -> Forall2 (fun s c => inner g (fst c) (snd c) /\ in_cell g (fst c) (snd c) (px s) (py s)) sta cells ->
    exists r, site_coeffs sdbl (Some file) sta = Ok (r, 0) /\ Forall2 (fun sc v => v = bilinear6 g val (fst (snd sc)) (snd (snd sc)) (px (fst sc)) (py (fst sc))) (List.combine sta cells) r.
  Proof.
    intros N F. assert (P : Forall2 (placed g) sta (map Some cells)) by (clear -F; induction F as [|s (i, j) sta l P _ IH]; cbn [map]; constructor; auto).
    rewrite (sites_ok sdbl W file g val D sta _ N P). clear P.
    induction F as [|s (i, j) sta l P _ (r & E & G)]; [exists []; split; [reflexivity|constructor]|]. cbn [map List.combine served].
    injection E as E. rewrite E. eexists. split; [reflexivity|]. constructor; [reflexivity|exact G].
  Qed.
  (** the call succeeds exactly if no site is outside *)
  Theorem c34_code_partial sta os : 2 <= ny g -> Forall2 (placed g) sta os ->
    exists r e, site_coeffs sdbl (Some file) sta = Ok (r, e) /\ (e = 0 <-> ~ In None os) /\ (length r <= length sta)%nat /\ (e = 0 -> length r = length sta).
  Proof.
    intros N F. rewrite (sites_ok sdbl W file g val D sta os N F). clear N. exists (fst (served g val (List.combine sta os))), (snd (served g val (List.combine sta os))). split; [rewrite <- surjective_pairing; reflexivity|].
    induction F as [|s o sta os P _ (IH1 & IH2 & IH3)]; [cbn; repeat split; auto|]. cbn [List.combine served]. destruct o as [(i, j)|].
    - destruct (served g val (List.combine sta os)) as (r, e). cbn [fst snd length] in *. refine (conj _ (conj _ _)); [|lia|lia]. rewrite IH1. cbn [In]. split; [intros H [Q|Q]; [discriminate|auto]|tauto].
    - cbn [fst snd length]. refine (conj _ (conj _ _)); [|lia|discriminate]. split; [discriminate|]. intros H. exfalso. apply H. left. reflexivity.
  Qed.

  (** a field that is bilinear is reproduced *)
  Theorem c34_exact (f : Z -> Z -> R) A B C E i j x y : (forall i j, f i j = A + B * fst (node g i j) + C * snd (node g i j) + E * fst (node g i j) * snd (node g i j))%R ->
    bilinear g f i j x y = (A + B * x + C * y + E * x * y)%R.
  Proof.
    intros H. destruct (f_ascending _ _ _ _ D) as (Ax & Ay). unfold bilinear, mix. rewrite !H. unfold node. cbn [fst snd]. rewrite !plus_IZR. field. split; lra.
  Qed.
  (** the value at a node is the node's *)
  Theorem c34_node (f : Z -> Z -> R) i j : bilinear g f i j (fst (node g i j)) (snd (node g i j)) = f i j.
  Proof. destruct (f_ascending _ _ _ _ D) as (Ax & Ay). unfold bilinear, mix. field. split; lra. Qed.
  (** the value in a cell lies between the values at its corners *)
  Theorem c34_between (f : Z -> Z -> R) lo hi i j x y : in_cell g i j x y ->
    (forall i' j', i <= i' <= i + 1 -> j <= j' <= j + 1 -> (lo <= f i' j' <= hi)%R) -> (lo <= bilinear g f i j x y <= hi)%R.
  Proof.
    intros (Cx & Cy) H. destruct (f_ascending _ _ _ _ D) as (Ax & Ay). unfold bilinear, node. cbn [fst snd]. rewrite plus_IZR in *.
    set (u := ((x - (x0 g + IZR i * dx g)) / dx g)%R). set (v := ((y - (y0 g + IZR j * dy g)) / dy g)%R).
    assert (Eu : (u * dx g = x - (x0 g + IZR i * dx g))%R) by (unfold u; field; lra). assert (Ev : (v * dy g = y - (y0 g + IZR j * dy g))%R) by (unfold v; field; lra).
    assert (Hu : (0 <= u <= 1)%R) by (split; apply Rmult_le_reg_r with (dx g); lra). assert (Hv : (0 <= v <= 1)%R) by (split; apply Rmult_le_reg_r with (dy g); lra).
    pose proof (H i j ltac:(lia) ltac:(lia)). pose proof (H (i + 1) j ltac:(lia) ltac:(lia)). pose proof (H i (j + 1) ltac:(lia) ltac:(lia)). pose proof (H (i + 1) (j + 1) ltac:(lia) ltac:(lia)).
    unfold mix. generalize dependent (f i j). generalize dependent (f (i + 1) j). generalize dependent (f i (j + 1)). generalize dependent (f (i + 1) (j + 1)). intros d Hd c Hc b Hb a Ha. clear -Hu Hv Ha Hb Hc Hd.
    assert (S : forall w p q, (0 <= w <= 1 -> lo <= p <= hi -> lo <= q <= hi -> lo <= (1 - w) * p + w * q <= hi)%R) by (intros w p q ? ? ?; nra).
    pose proof (S v _ _ Hv (S u a b Hu Ha Hb) (S u c d Hu Hc Hd)). lra.
  Qed.

  (** the cell contains neither the longitude of the site nor that longitude plus whole turns: it lies 180 degrees away *)
  Theorem c34_longitude_refuted s i j : 2 <= ny g -> (dx g <= 180)%R -> inner g i j -> in_cell g i j (px s) (py s) ->
    site_coeffs sdbl (Some file) [s] = Ok ([bilinear6 g val i j (px s) (py s)], 0) /\ forall k, ~ in_cell g i j (deg (slon s) + 360 * IZR k)%R (deg (slat s)).
  Proof.
    intros N X I C. split.
    - rewrite (sites_ok sdbl W file g val D [s] [Some (i, j)] N); [reflexivity|]. constructor; [split; auto|constructor].
    - intros k (Cx & _). destruct C as (Dx & _). unfold px in Dx. rewrite plus_IZR in *.
      assert (Q : (-180 < 360 * IZR k - 180 < 180)%R) by lra. assert (0 < k < 1) by (split; apply lt_IZR; lra). lia.
  Qed.
  (** on a grid around the whole circle the gap between the last and the first column belongs to no cell; one site there makes the call fail *)
  Theorem c34_gap_refuted s before after cells j : 2 <= ny g -> (IZR (nx g) * dx g = 360)%R -> (0 < x0 g < dx g)%R -> (0 <= px s < x0 g)%R ->
    (y0 g + IZR j * dy g <= py s < y0 g + IZR (j + 1) * dy g)%R ->
    Forall2 (fun s c => inner g (fst c) (snd c) /\ in_cell g (fst c) (snd c) (px s) (py s)) before cells -> Forall (fun s => exists o, placed g s o) after ->
    exists r, site_coeffs sdbl (Some file) (before ++ s :: after) = Ok (r, 1) /\ length r = length before.
  Proof.
    intros N _ X P Q F G.
    assert (O : placed g s None) by (exists (-1), j; split; [intros (H & _); lia|split; [|exact Q]; change (-1 + 1) with 0; lra]).
    assert (exists os, Forall2 (placed g) after os) as (os & G'). { clear -G. induction G as [|a l (o & P) _ (os & IH)]; [exists []; constructor|exists (o :: os); constructor; auto]. }
    exists (fst (served g val (List.combine (before ++ s :: after) (map Some cells ++ None :: os)))).
    assert (A : Forall2 (placed g) (before ++ s :: after) (map Some cells ++ None :: os)).
    { apply Forall2_app; [|constructor; auto]. clear -F. induction F as [|t (i, k) sta l P _ IH]; cbn [map]; constructor; auto. }
    rewrite (sites_ok sdbl W file g val D _ _ N A).
    assert (R : snd (served g val (List.combine (before ++ s :: after) (map Some cells ++ None :: os))) = 1 /\ length (fst (served g val (List.combine (before ++ s :: after) (map Some cells ++ None :: os)))) = length before).
    { clear -F. induction F as [|t (i, k) sta l P _ (IH1 & IH2)]; [split; reflexivity|]. cbn [app map List.combine served]. cbn [app] in *. destruct (served g val _) as (r, e). cbn [fst snd length] in *. split; congruence. }
    destruct R as (R1 & R2). split; [|exact R2]. rewrite <- R1. rewrite <- surjective_pairing. reflexivity.
  Qed.
  (** a site in the last column: an assertion fails *)
  Theorem c34_last_column_refuted s j : 0 <= j < ny g - 2 -> in_cell g (nx g - 1) j (px s) (py s) -> site_coeffs sdbl (Some file) [s] = Abort.
  Proof. exact (last_column sdbl W file g val D s j). Qed.
  (** a site in the last row: the file is read beyond its end and the call fails *)
  Theorem c34_last_row_refuted s i j : fst (sdbl []) = None -> on_grid g i j -> in_cell g i j (px s) (py s) -> j = ny g - 1 \/ (j = ny g - 2 /\ i = nx g - 1) ->
    site_coeffs sdbl (Some file) [s] = Ok ([], 1).
  Proof. exact (last_row sdbl file g val D s i j). Qed.
  (** one data line replaced. If it belongs to a corner of the cell of a site and eight numbers cannot be read from it, the call fails *)
  Theorem c34_bad_line k bad sta os i j i' j' : 0 <= k < nx g * ny g -> 2 <= ny g -> Forall2 (placed g) sta os -> In (Some (i, j)) os -> corner_of (i, j) (i', j') -> k = linear Y g i' j' ->
    (forall vs, length vs = 8%nat -> ~ reads_numbers sdbl (firstn 255 bad) vs) -> site_coeffs sdbl (Some (replace_line file k bad)) sta = Ok ([], 1).
  Proof. intros K N P. exact (bad_line sdbl file g val D k bad K sta os P i j i' j'). Qed.
  (** other lines may hold anything of up to 255 characters *)
  Theorem c34_other_line k bad sta os : 0 <= k < nx g * ny g -> 2 <= ny g -> Forall2 (placed g) sta os -> (length bad <= 255)%nat ->
    (forall o, In o os -> exists i j, o = Some (i, j) /\ forall i' j', corner_of (i, j) (i', j') -> k <> linear Y g i' j') ->
    site_coeffs sdbl (Some (replace_line file k bad)) sta = Ok (served g val (List.combine sta os)).
  Proof. intros K N P. exact (other_line sdbl W file g val D k bad K sta os N P). Qed.
  (** longer lines make every line behind them unreadable, also if they belong to no site *)
  Theorem c34_long_line k bad sta os i j i' j' : 0 <= k < nx g * ny g -> 2 <= ny g -> Forall2 (placed g) sta os -> In (Some (i, j)) os -> corner_of (i, j) (i', j') -> k < linear Y g i' j' ->
    (255 < length bad)%nat -> fst (sdbl []) = None -> site_coeffs sdbl (Some (replace_line file k bad)) sta = Ok ([], 1).
  Proof. intros K N P. exact (lost_line sdbl file g val D k bad K sta os P i j i' j'). Qed.
  Theorem c34_no_file sta : site_coeffs sdbl None sta = Ok ([], 1).
  Proof. reflexivity. Qed.
End C34.
(** a header line without '=': the search for it leaves the buffer *)
Theorem c34_header_refuted sdbl a b c rest sta : short a -> short b -> short c ->
  site_coeffs sdbl (Some (a :: b :: c :: chars "Number_longitude_Grid_Points 720" :: rest)) sta = UB.
Proof.
  intros A B C. unfold site_coeffs, parse_header, buffer. unfold short in *. cbn [firstn forallb nth_error]. unfold fits. rewrite !(proj2 (Z.leb_le _ _)) by lia. reflexivity.
Qed.

(** an example: 3 x 3 nodes, 120 and 40 degrees apart *)
Definition exg : grid := mkG 3 3 60 120 (-40) 40.
Definition exval (i j : Z) : desai := mkDs (IZR (i + 3 * j)) 1 2 3 4 5.
Open Scope string_scope.
Definition exrow (lon lat v : string) : list (list Z) := [chars lon; chars lat; chars v; chars "1"; chars "2"; chars "3"; chars "4"; chars "5"].
Definition exline (l : list (list Z)) : list Z := flat_map (fun w => 32 :: w)%list l.
Definition exfile : list (list Z) := (map chars ["a"; "b"; "c"; "Number_longitude_Grid_Points = 3"; "First_longitude_degrees = 60"; "Last_longitude_degrees = 300"; "Longitude_step_degrees = 120";
    "Number_latitude_grid_points = 3"; "First_latitude_degrees = -40"; "Last_latitude_degrees = 40"; "Latitude_step_degrees = 40"] ++ [title1; title2; chars "d"] ++
  map exline [exrow "60" "-40" "0"; exrow "180" "-40" "1"; exrow "300" "-40" "2"; exrow "60" "0" "3"; exrow "180" "0" "4"; exrow "300" "0" "5"; exrow "60" "40" "6"; exrow "180" "40" "7"; exrow "300" "40" "8"])%list.
Close Scope string_scope.
Lemma exline_columns l : Forall word l -> columns (exline l) l.
Proof.
  induction 1 as [|w t H T IH]; [exact (col_nil 0)|]. change (exline (w :: t)) with (32 :: w ++ exline t)%list. apply (col_cons 1 w (exline t)); auto.
  destruct t; [exact I|reflexivity].
Qed.
Lemma scan_is w v v' : scan_dbl w = (Some v', []) -> v' = v -> scan_dbl w = (Some v, []).
Proof. congruence. Qed.
Ltac num n := apply (scan_is _ _ (IZR n * pow10 0)%R); [reflexivity|unfold pow10, exval, exg, node; cbn; lra].
Ltac anum := first [num 0|num 1|num 2|num 3|num 4|num 5|num 6|num 7|num 8|num 40|num 60|num 180|num 300|apply (scan_is _ _ (- (IZR 40 * pow10 0))%R); [reflexivity|unfold pow10, exval, exg, node; cbn; lra]].
Lemma ex_desai : desai_file scan_dbl exfile exg exval.
Proof.
  assert (N : forall l (v : R) key s post v', l = (chars key ++ [32; 61] ++ post)%list -> s = skip_blanks post -> ~ In 61 (chars key) -> fst (scan_dbl s) = Some v' -> v' = v -> value_line scan_dbl (chars key) l v).
  { intros l v key s post v' -> -> K E <-. exists [32], post. split; [reflexivity|]. split; [exact K|]. split; [intros [H|[]]; discriminate|exact E]. }
  assert (NI : forall l v key post, l = (chars key ++ [32; 61] ++ post)%list -> ~ In 61 (chars key) -> fst (scan_i64 (skip_blanks post)) = Some v -> value_line scan_i64 (chars key) l v).
  { intros l v key post -> K E. exists [32], post. split; [reflexivity|]. split; [exact K|]. split; [intros [H|[]]; discriminate|exact E]. }
  Ltac noeq := cbn; intros H; repeat (destruct H as [H|H]; [discriminate|]); exact H.
  Ltac val N t n := intros l E; injection E as <-; eapply N with (post := chars t) (v' := n); [reflexivity|reflexivity|noeq|reflexivity|unfold pow10; cbn; lra].
  Ltac vali N t := intros l E; injection E as <-; eapply N with (post := chars t); [reflexivity|noeq|reflexivity].
  constructor.
  - unfold short. repeat (constructor; [cbn; lia|]). constructor.
  - unfold small. cbn. lia.
  - unfold ascending. cbn. lra.
  - vali NI " 3"%string.
  - val N " 60"%string (IZR 60 * pow10 0)%R.
  - intros l E. exists 300%R. revert l E. val N " 300"%string (IZR 300 * pow10 0)%R.
  - val N " 120"%string (IZR 120 * pow10 0)%R.
  - vali NI " 3"%string.
  - val N " -40"%string (- (IZR 40 * pow10 0))%R.
  - intros l E. exists 40%R. revert l E. val N " 40"%string (IZR 40 * pow10 0)%R.
  - val N " 40"%string (IZR 40 * pow10 0)%R.
  - intros l E. injection E as <-. exists []. rewrite app_nil_r. reflexivity.
  - intros l E. injection E as <-. exists []. rewrite app_nil_r. reflexivity.
  - reflexivity.
  - intros i j (Hi & Hj). cbn in Hi, Hj.
    assert (L : forall ws i j, Forall word ws -> Forall2 (fun w v => scan_dbl w = (Some v, [])) ws [fst (node exg i j); snd (node exg i j); rR (exval i j); rI (exval i j); nR (exval i j); nI (exval i j); eR (exval i j); eI (exval i j)] ->
      number_line scan_dbl (exline ws) [fst (node exg i j); snd (node exg i j); rR (exval i j); rI (exval i j); nR (exval i j); nI (exval i j); eR (exval i j); eI (exval i j)]).
    { intros ws i' j' F G. exists ws, []. rewrite app_nil_r. split; [apply exline_columns; auto|exact G]. }
    assert (C : (i = 0 \/ i = 1 \/ i = 2) /\ (j = 0 \/ j = 1 \/ j = 2)) by lia.
    destruct C as ([-> | [-> | ->]] & [-> | [-> | ->]]); (eexists; split; [reflexivity|]; apply L;
      [repeat constructor; discriminate|repeat (apply Forall2_cons; [anum|]); apply Forall2_nil]).
Qed.
(** a site at 60 degrees west, 20 degrees south lies in the cell (0, 0) of the library, 120 degrees east *)
Example c34_nonvacuous : let s := mkSite (- (PI / 3)) (- (PI / 9)) in word_scanner scan_dbl /\ desai_file scan_dbl exfile exg exval /\ 2 <= ny exg /\ placed exg s (Some (0, 0)) /\
  placed exg (mkSite (- PI) 0) None /\ fst (scan_dbl []) = None /\ (dx exg <= 180)%R /\ site_coeffs scan_dbl (Some exfile) [s] = Ok ([mkDs 2 1 2 3 4 5], 0).
Proof.
  intros s. assert (X : px s = 120%R) by (unfold px, deg, s; cbn [slon]; field; apply PI_neq0). assert (Y : py s = (-20)%R) by (unfold py, deg, s; cbn [slat]; field; apply PI_neq0).
  assert (P : placed exg s (Some (0, 0))) by (split; [unfold inner; cbn; lia|]; rewrite X, Y; unfold in_cell; cbn; lra).
  refine (conj scan_dbl_word (conj ex_desai (conj _ (conj P (conj _ (conj eq_refl (conj _ _))))))); [cbn; lia| |cbn; lra|].
  - exists (-1), 1. split; [unfold on_grid; lia|]. unfold in_cell, px, py, deg. cbn [slon slat]. replace (- PI * 180 / PI)%R with (-180)%R by (field; apply PI_neq0). cbn. unfold Rdiv. lra.
  - rewrite (c34_sites_partial scan_dbl scan_dbl_word exfile exg exval ex_desai [s] [Some (0, 0)]); [|cbn; lia|constructor; [exact P|constructor]].
    cbn [List.combine served]. do 3 f_equal. unfold bilinear6, bilinear, mix. rewrite X, Y. unfold exval, node. cbn. f_equal; field.
Qed.
(** the line of the node (1, 1) replaced *)
Example c34_bad_line_nonvacuous : let s := mkSite (- (PI / 3)) (- (PI / 9)) in placed exg s (Some (0, 0)) /\ corner_of (0, 0) (1, 1) /\ linear Y exg 1 1 = 4 /\
  (forall vs, length vs = 8%nat -> ~ reads_numbers scan_dbl (firstn 255 (chars "180 0 x")) vs) /\ site_coeffs scan_dbl (Some (replace_line exfile 4 (chars "180 0 x"))) [s] = Ok ([], 1) /\
  site_coeffs scan_dbl (Some (replace_line exfile 8 (chars "180 0 x"))) [s] = Ok ([bilinear6 exg exval 0 0 (px s) (py s)], 0).
Proof.
  intros s. destruct c34_nonvacuous as (_ & _ & _ & P & _). assert (C : corner_of (0, 0) (1, 1)) by (unfold corner_of; cbn; lia).
  assert (B : forall vs, length vs = 8%nat -> ~ reads_numbers scan_dbl (firstn 255 (chars "180 0 x")) vs).
  { intros [|a [|b [|c vs]]] L H; try discriminate L. destruct H as (r1 & E1 & r2 & E2 & r3 & E3 & _).
    assert (Q1 : snd (scan_dbl (skip_blanks (firstn 255 (chars "180 0 x")))) = chars " 0 x") by reflexivity. rewrite E1 in Q1. cbn [snd] in Q1. subst r1.
    assert (Q2 : snd (scan_dbl (skip_blanks (chars " 0 x"))) = chars " x") by reflexivity. rewrite E2 in Q2. cbn [snd] in Q2. subst r2. discriminate E3. }
  refine (conj P (conj C (conj eq_refl (conj B (conj _ _))))).
  - apply (c34_bad_line scan_dbl exfile exg exval ex_desai 4 (chars "180 0 x") [s] [Some (0, 0)] 0 0 1 1); [cbn; lia|cbn; lia|constructor; [exact P|constructor]|left; reflexivity|exact C|reflexivity|exact B].
  - rewrite (c34_other_line scan_dbl scan_dbl_word exfile exg exval ex_desai 8 (chars "180 0 x") [s] [Some (0, 0)]); [reflexivity|cbn; lia|cbn; lia|constructor; [exact P|constructor]|cbn; lia|].
    intros o [<- | []]. exists 0, 0. split; [reflexivity|]. intros i' j' (Hi & Hj). cbn [fst snd] in *. cbn [linear nx exg]. lia.
Qed.
Print Assumptions c34_sites_partial.
Print Assumptions c34_inner_partial.
Print Assumptions c34_code_partial.
Print Assumptions c34_exact.
Print Assumptions c34_node.
Print Assumptions c34_between.
Print Assumptions c34_longitude_refuted.
Print Assumptions c34_gap_refuted.
Print Assumptions c34_last_column_refuted.
Print Assumptions c34_last_row_refuted.
Print Assumptions c34_no_file.
Print Assumptions c34_header_refuted.
Print Assumptions c34_bad_line.
Print Assumptions c34_other_line.
Print Assumptions c34_long_line.
