From Coq Require Import Ascii String Reals ZArith List Bool Lia Lra.
From Verif Require Import CString FromChars IcgemModel IcgemSpec IcgemProofs AtlasModel AtlasSpec AtlasProofs AtlasProofs2.
From Verif Require Import Base StorageModel StorageSpec StorageProofs MatrixModel MatrixSpec MatrixProofs TideModel TideSpec TideProofs TideProofs2 TideProofs3 PoleModel PoleSpec PoleProofs.
Import ListNotations.
Open Scope Z_scope.

(** ** the header *)
Lemma cmp_squeeze line : forall rest, ~ In 32 rest -> cmp_nwsc line rest = false <-> squeeze line = rest.
Proof.
  induction line as [|c t IH]; intros rest N; cbn [cmp_nwsc squeeze filter].
  - destruct rest; split; congruence.
  - destruct (Z.eqb_spec c 32) as [-> | D]; cbn [negb].
    + apply IH; auto.
    + fold (squeeze t). destruct rest as [|x r]; [split; discriminate|]. destruct (Z.eqb_spec c x) as [-> | D'].
      * rewrite IH by (intros H; apply N; right; exact H). split; [intros ->; reflexivity|intros H; injection H; auto].
      * split; [discriminate|]. intros H; injection H; intros; contradiction.
Qed.
Lemma header_iff line : cmp_nwsc line header_text = false <-> squeeze line = header_text.
Proof. apply cmp_squeeze. vm_compute. intuition discriminate. Qed.

(** ** four matrices *)
Definition updf (f : Z -> Z -> cell R) (i j : Z) (c : cell R) : Z -> Z -> cell R := fun n k => if (n =? i) && (k =? j) then c else f n k.

Lemma put_frames h h' d m x f : framed h m h' -> apart x m -> sized h d x /\ shows h d x f -> sized h' d x /\ shows h' d x f.
Proof. intros F A (S & H). split; [eapply framed_sized|eapply framed_shows]; eauto. Qed.

Lemma put4_ok h d m f g p q i j ca cb cc cd : four h d m f g p q -> 0 <= j <= i -> i <= d ->
  exists h', (h1 <- put h (cAr m) i j ca ;; h2 <- put h1 (cBr m) i j cb ;; h3 <- put h2 (cAi m) i j cc ;; put h3 (cBi m) i j cd) = Ok h' /\
    four h' d m (updf f i j ca) (updf g i j cc) (updf p i j cb) (updf q i j cd).
Proof.
  intros (A & B & C & D & P) Hj Hi. pose proof P as (P1 & P2 & P3 & P4 & P5 & P6).
  destruct (put_ok h d (cAr m) i j ca f (proj1 A) Hj Hi (proj2 A)) as (h1 & E1 & S1 & F1 & G1). rewrite E1. cbn [bind].
  pose proof (put_frames _ _ _ _ _ _ F1 (apart_sym _ _ P1) B) as B1. pose proof (put_frames _ _ _ _ _ _ F1 (apart_sym _ _ P2) C) as C1. pose proof (put_frames _ _ _ _ _ _ F1 (apart_sym _ _ P3) D) as D1.
  destruct (put_ok h1 d (cBr m) i j cb p (proj1 C1) Hj Hi (proj2 C1)) as (h2 & E2 & S2 & F2 & G2). rewrite E2. cbn [bind].
  pose proof (put_frames _ _ _ _ _ _ F2 P2 (conj S1 G1)) as A2. pose proof (put_frames _ _ _ _ _ _ F2 P4 B1) as B2. pose proof (put_frames _ _ _ _ _ _ F2 (apart_sym _ _ P6) D1) as D2.
  destruct (put_ok h2 d (cAi m) i j cc g (proj1 B2) Hj Hi (proj2 B2)) as (h3 & E3 & S3 & F3 & G3). rewrite E3. cbn [bind].
  pose proof (put_frames _ _ _ _ _ _ F3 P1 A2) as A3. pose proof (put_frames _ _ _ _ _ _ F3 (apart_sym _ _ P4) (conj S2 G2)) as C3. pose proof (put_frames _ _ _ _ _ _ F3 (apart_sym _ _ P5) D2) as D3.
  destruct (put_ok h3 d (cBi m) i j cd q (proj1 D3) Hj Hi (proj2 D3)) as (h4 & E4 & S4 & F4 & G4).
  exists h4. split; [exact E4|]. refine (conj _ (conj _ (conj _ (conj _ P)))).
  - apply (put_frames _ _ _ _ _ _ F4 P3 A3).
  - apply (put_frames _ _ _ _ _ _ F4 P5 (conj S3 G3)).
  - apply (put_frames _ _ _ _ _ _ F4 P6 C3).
  - split; [exact S4|exact G4].
Qed.

(** ** one line *)
Section Lines.
  Variable sdbl : list Z -> option R * list Z.
  Hypothesis W : word_scanner sdbl.

  Lemma scan_col {A} (scan : list Z -> option A * list Z) line w ws v : word_scanner scan -> columns line (w :: ws) -> scan w = (Some v, []) ->
    exists s, scan (skip_blanks line) = (Some v, s) /\ columns s ws.
  Proof.
    intros WS C E. destruct (columns_head _ _ _ C) as (s & Q & Hw & Hs & Cs). exists s. rewrite Q. rewrite (WS w v E s Hs). auto.
  Qed.
  Lemma row_reads line r : row_line sdbl line r -> reads_row sdbl line r.
  Proof.
    intros (L & wn & wm & wa & wb & wc & wd & rest & C & E1 & E2 & E3 & E4 & E5 & E6). split; [exact L|].
    destruct (scan_col scan_i32 _ _ _ _ (scan_int_word _ _) C E1) as (s1 & Q1 & C1). destruct (scan_col scan_i32 _ _ _ _ (scan_int_word _ _) C1 E2) as (s2 & Q2 & C2).
    destruct (scan_col sdbl _ _ _ _ W C2 E3) as (s3 & Q3 & C3). destruct (scan_col sdbl _ _ _ _ W C3 E4) as (s4 & Q4 & C4).
    destruct (scan_col sdbl _ _ _ _ W C4 E5) as (s5 & Q5 & C5). destruct (scan_col sdbl _ _ _ _ W C5 E6) as (s6 & Q6 & C6).
    exists s1, s2, s3, s4, s5, s6. auto 10.
  Qed.
  Lemma scan_row line r s : reads_row sdbl line r -> length (sd s) = 4%nat ->
    scan_line sdbl line s = mkSc (dn r) (dm r) [Some (dAr r); Some (dBr r); Some (dAi r); Some (dBi r)] 0.
  Proof.
    intros (_ & r1 & r2 & r3 & r4 & r5 & r6 & E1 & E2 & E3 & E4 & E5 & E6) L. unfold scan_line, numbers. rewrite E1, E2, E3, E4, E5, E6.
    destruct (sd s) as [|x1 [|x2 [|x3 [|x4 [|]]]]]; try discriminate L. reflexivity.
  Qed.
  Lemma scan_row_inv line s : serr (scan_line sdbl line s) = 0 -> (length line <= 255)%nat -> exists r, reads_row sdbl line r.
  Proof.
    unfold scan_line, numbers. destruct (scan_i32 (skip_blanks line)) as (v1, r1) eqn:E1. destruct (scan_i32 (skip_blanks r1)) as (v2, r2) eqn:E2.
    destruct (sdbl (skip_blanks r2)) as (v3, r3) eqn:E3. destruct (sdbl (skip_blanks r3)) as (v4, r4) eqn:E4. destruct (sdbl (skip_blanks r4)) as (v5, r5) eqn:E5. destruct (sdbl (skip_blanks r5)) as (v6, r6) eqn:E6.
    cbn [serr]. intros H L. destruct v1 as [n|]; [|exfalso; destruct v2, v3, v4, v5, v6; discriminate H]. destruct v2 as [m|]; [|exfalso; destruct v3, v4, v5, v6; discriminate H].
    destruct v3 as [a|]; [|exfalso; destruct v4, v5, v6; discriminate H]. destruct v4 as [b|]; [|exfalso; destruct v5, v6; discriminate H]. destruct v5 as [c|]; [|exfalso; destruct v6; discriminate H]. destruct v6 as [d|]; [|discriminate H].
    exists (mkRow n m a b c d). split; [exact L|]. exists r1, r2, r3, r4, r5, r6. auto 10.
  Qed.
  Lemma scan_length line s : length (sd s) = 4%nat -> length (sd (scan_line sdbl line s)) = 4%nat.
  Proof.
    intros L. unfold scan_line. destruct (scan_i32 (skip_blanks line)) as (v1, r1). destruct (scan_i32 (skip_blanks r1)) as (v2, r2).
    pose proof (numbers_length sdbl 4 r2) as N. destruct (numbers sdbl 4 r2) as (vs, e). cbn [fst] in N. cbn [sd]. unfold keep_cells. rewrite map_length, combine_length. lia.
  Qed.

  (** ** the data lines *)
  Definition stored (md mo : Z) (part : drow -> R) (r : drow) (f : Z -> Z -> cell R) : Z -> Z -> cell R :=
    if (dn r <=? md) && (dm r <=? mo) then updf f (dn r) (dm r) (Some (part r)) else f.
  Lemma store_row md mo m s r h f g p q : four h md m f g p q -> in_file md mo r ->
    sl s = dn r -> sm s = dm r -> sd s = [Some (dAr r); Some (dBr r); Some (dAi r); Some (dBi r)] ->
    exists h', store_line md mo m s h = Ok h' /\
      four h' md m (stored md mo dAr r f) (stored md mo dAi r g) (stored md mo dBr r p) (stored md mo dBi r q).
  Proof.
    intros F I E1 E2 E3. unfold store_line, stored. rewrite E1, E2, E3. destruct (Z.leb_spec (dn r) md), (Z.leb_spec (dm r) mo); cbn [andb]; try (exists h; split; [reflexivity|exact F]).
    apply put4_ok; auto.
  Qed.
  Fixpoint stored_all (md mo : Z) (part : drow -> R) (rs : list drow) (f : Z -> Z -> cell R) : Z -> Z -> cell R :=
    match rs with [] => f | r :: t => stored_all md mo part t (stored md mo part r f) end.
  Lemma data_loop_ok md mo m lines rs : Forall2 (reads_row sdbl) lines rs -> Forall (in_file md mo) rs -> forall s h f g p q,
    length (sd s) = 4%nat -> four h md m f g p q ->
    exists h', data_loop sdbl md mo m lines s h = Ok (h', 0) /\
      four h' md m (stored_all md mo dAr rs f) (stored_all md mo dAi rs g) (stored_all md mo dBr rs p) (stored_all md mo dBi rs q).
  Proof.
    induction 1 as [|line r lines rs RL _ IH]; intros FI s h f g p q L F.
    - exists h. split; [reflexivity|exact F].
    - inversion FI as [|? ? I FI']; subst. cbn [data_loop stored_all]. pose proof RL as (LL & _).
      destruct (Z.ltb_spec 255 (Z.of_nat (length line))); [lia|]. rewrite (scan_row line r s RL L).
      destruct (store_row md mo m (mkSc (dn r) (dm r) [Some (dAr r); Some (dBr r); Some (dAi r); Some (dBi r)] 0) r h f g p q F I) as (h1 & -> & F1); auto.
      cbn [bind serr Z.eqb negb]. apply IH; auto.
  Qed.
  Lemma stored_all_at md mo part rs : forall f n k, 0 <= k <= n -> n <= md ->
    stored_all md mo part rs f n k = if k <=? mo then match last_row rs n k with Some r => Some (part r) | None => f n k end else f n k.
  Proof.
    induction rs as [|r rs IH]; intros f n k Hk Hn; cbn [stored_all last_row]; [destruct (k <=? mo); reflexivity|].
    rewrite IH by auto. unfold stored, updf. destruct (Z.leb_spec k mo) as [Hm|Hm].
    - destruct (last_row rs n k); [reflexivity|]. destruct (Z.eqb_spec (dn r) n) as [En|En], (Z.eqb_spec (dm r) k) as [Ek|Ek]; cbn [andb].
      + rewrite En, Ek. rewrite (proj2 (Z.leb_le n md)), (proj2 (Z.leb_le k mo)) by lia. cbn [andb]. rewrite !Z.eqb_refl. reflexivity.
      + destruct (_ && _); [|reflexivity]. destruct (Z.eqb_spec n (dn r)), (Z.eqb_spec k (dm r)); cbn [andb]; congruence.
      + destruct (_ && _); [|reflexivity]. destruct (Z.eqb_spec n (dn r)), (Z.eqb_spec k (dm r)); cbn [andb]; congruence.
      + destruct (_ && _); [|reflexivity]. destruct (Z.eqb_spec n (dn r)), (Z.eqb_spec k (dm r)); cbn [andb]; congruence.
    - destruct (Z.leb_spec (dn r) md), (Z.leb_spec (dm r) mo); cbn [andb]; auto. destruct (Z.eqb_spec n (dn r)), (Z.eqb_spec k (dm r)); cbn [andb]; auto. lia.
  Qed.

  (** ** the whole file *)
  Lemma prepare_ok h m d : valid h m -> sch (st m) = LwTriCol -> 0 <= d ->
    exists h' m', prepare h m (d + 1) = Ok (h', m') /\ effect h (ptr m) h' m' /\ sized h' d m'.
  Proof.
    intros V E Hd. destruct (resize_spec h m (d + 1) (d + 1) V) as (h' & m' & Q & Ef & T & _); [rewrite E; apply legal_lw; exact Hd|].
    exists h', m'. split; [exact Q|]. split; [exact Ef|]. split; [apply Ef|]. unfold rows, cols. rewrite T, E. auto.
  Qed.
  Lemma moved (h : mem R) h' m m' x d : effect h (ptr m) h' m' -> apart x m -> sized h d x -> sized h' d x /\ apart x m'.
  Proof. intros Ef A (V & E & Hr & C). destruct (replace_frame h h' m m' x Ef V A) as (V' & A' & _). split; auto. szd. Qed.
  Lemma movedv (h : mem R) h' m m' x : effect h (ptr m) h' m' -> apart x m -> valid h x -> valid h' x /\ apart x m'.
  Proof. intros Ef A V. destruct (replace_frame h h' m m' x Ef V A) as (V' & A' & _). auto. Qed.
  Lemma fill_ok (h : mem R) d m (v : R) : sized h d m -> exists h', fill_with R h m v = Ok h' /\ sized h' d m /\ shows h' d m (fun _ _ => Some v) /\ framed h m h'.
  Proof.
    intros S. pose proof S as (V & E & Hr & C). destruct (fill_spec (A := R) h m v V) as (h' & Q & Ef & _ & Rd). exists h'. split; [exact Q|].
    assert (S' : sized h' d m) by (szd; apply Ef). split; [exact S'|]. split; [apply (shows_reads h' d m); auto|apply effect_framed; exact Ef].
  Qed.

  Lemma prepared h m d : own4 h m -> 0 <= d -> exists h1 a h2 b h3 c h4 e h5 h6 h7 h8,
    prepare h (cAr m) (d + 1) = Ok (h1, a) /\ prepare h1 (cAi m) (d + 1) = Ok (h2, b) /\ prepare h2 (cBr m) (d + 1) = Ok (h3, c) /\ prepare h3 (cBi m) (d + 1) = Ok (h4, e) /\
    fill_with R h4 a 0%R = Ok h5 /\ fill_with R h5 b 0%R = Ok h6 /\ fill_with R h6 c 0%R = Ok h7 /\ fill_with R h7 e 0%R = Ok h8 /\
    four h8 d (mkCf a b c e) (fun _ _ => Some 0%R) (fun _ _ => Some 0%R) (fun _ _ => Some 0%R) (fun _ _ => Some 0%R).
  Proof.
    intros ((V1 & T1) & (V2 & T2) & (V3 & T3) & (V4 & T4) & (P1 & P2 & P3 & P4 & P5 & P6)) Hd.
    destruct (prepare_ok h (cAr m) d V1 T1 Hd) as (h1 & a & E1 & F1 & S1).
    destruct (movedv _ _ _ _ _ F1 (apart_sym _ _ P1) V2) as (V2a & Q1). destruct (movedv _ _ _ _ _ F1 (apart_sym _ _ P2) V3) as (V3a & Q2). destruct (movedv _ _ _ _ _ F1 (apart_sym _ _ P3) V4) as (V4a & Q3).
    destruct (prepare_ok h1 (cAi m) d V2a T2 Hd) as (h2 & b & E2 & F2 & S2).
    destruct (moved _ _ _ _ _ _ F2 (apart_sym _ _ Q1) S1) as (S1b & Q4). destruct (movedv _ _ _ _ _ F2 (apart_sym _ _ P4) V3a) as (V3b & Q5). destruct (movedv _ _ _ _ _ F2 (apart_sym _ _ P5) V4a) as (V4b & Q6).
    destruct (prepare_ok h2 (cBr m) d V3b T3 Hd) as (h3 & c & E3 & F3 & S3).
    destruct (moved _ _ _ _ _ _ F3 (apart_sym _ _ Q2) S1b) as (S1c & Q7). destruct (moved _ _ _ _ _ _ F3 (apart_sym _ _ Q5) S2) as (S2c & Q8). destruct (movedv _ _ _ _ _ F3 (apart_sym _ _ P6) V4b) as (V4c & Q9).
    destruct (prepare_ok h3 (cBi m) d V4c T4 Hd) as (h4 & e & E4 & F4 & S4).
    destruct (moved _ _ _ _ _ _ F4 (apart_sym _ _ Q3) S1c) as (S1d & Q10). destruct (moved _ _ _ _ _ _ F4 (apart_sym _ _ Q6) S2c) as (S2d & Q11). destruct (moved _ _ _ _ _ _ F4 (apart_sym _ _ Q9) S3) as (S3d & Q12).
    destruct (fill_ok h4 d a 0%R S1d) as (h5 & E5 & S5 & G5 & F5).
    pose proof (framed_sized _ _ _ _ _ F5 (apart_sym _ _ Q4) S2d) as S2e. pose proof (framed_sized _ _ _ _ _ F5 (apart_sym _ _ Q7) S3d) as S3e. pose proof (framed_sized _ _ _ _ _ F5 (apart_sym _ _ Q10) S4) as S4e.
    destruct (fill_ok h5 d b 0%R S2e) as (h6 & E6 & S6 & G6 & F6).
    pose proof (put_frames _ _ _ _ _ _ F6 Q4 (conj S5 G5)) as A6. pose proof (framed_sized _ _ _ _ _ F6 (apart_sym _ _ Q8) S3e) as S3f. pose proof (framed_sized _ _ _ _ _ F6 (apart_sym _ _ Q11) S4e) as S4f.
    destruct (fill_ok h6 d c 0%R S3f) as (h7 & E7 & S7 & G7 & F7).
    pose proof (put_frames _ _ _ _ _ _ F7 Q7 A6) as A7. pose proof (put_frames _ _ _ _ _ _ F7 Q8 (conj S6 G6)) as B7. pose proof (framed_sized _ _ _ _ _ F7 (apart_sym _ _ Q12) S4f) as S4g.
    destruct (fill_ok h7 d e 0%R S4g) as (h8 & E8 & S8 & G8 & F8).
    exists h1, a, h2, b, h3, c, h4, e, h5, h6, h7, h8. do 8 (split; [assumption|]).
    refine (conj _ (conj _ (conj _ (conj (conj S8 G8) _)))).
    - apply (put_frames _ _ _ _ _ _ F8 Q10 A7).
    - apply (put_frames _ _ _ _ _ _ F8 Q11 B7).
    - apply (put_frames _ _ _ _ _ _ F8 Q12 (conj S7 G7)).
    - unfold disjoint4; cbn. auto 10.
  Qed.
  Lemma parse_open h m md mo ls : own4 h m -> 0 <= md -> mo <= md -> md <= 360 -> exists h8 m',
    four h8 md m' (fun _ _ => Some 0%R) (fun _ _ => Some 0%R) (fun _ _ => Some 0%R) (fun _ _ => Some 0%R) /\
    parse_desai sdbl h m md mo (Some ls) =
      match ls with
      | [] => Ok (h8, m', 1)
      | head :: rest =>
          if 255 <? Z.of_nat (length head) then Ok (h8, m', if cmp_nwsc (firstn 255 head) header_text then 1 else 5)
          else if cmp_nwsc head header_text then Ok (h8, m', 1)
          else ' (h9, e) <- data_loop sdbl md mo m' rest (mkSc 0 0 [None; None; None; None] 0) h8 ;; Ok (h9, m', e)
      end.
  Proof.
    intros O H0 Hm Hd. destruct (prepared h m md O H0) as (h1 & a & h2 & b & h3 & c & h4 & e & h5 & h6 & h7 & h8 & E1 & E2 & E3 & E4 & E5 & E6 & E7 & E8 & F).
    exists h8, (mkCf a b c e). split; [exact F|]. unfold parse_desai. replace ((md <? mo) || (360 <? md) || (360 <? mo)) with false by (symmetry; rewrite !orb_false_iff, !Z.ltb_ge; lia).
    rewrite E1. cbn [bind]. rewrite E2. cbn [bind]. rewrite E3. cbn [bind]. rewrite E4. cbn [bind]. rewrite E5. cbn [bind]. rewrite E6. cbn [bind]. rewrite E7. cbn [bind]. rewrite E8. cbn [bind]. reflexivity.
  Qed.

  Lemma four_ext h d m f g p q f' g' p' q' : four h d m f g p q ->
    (forall n k, 0 <= k <= n -> n <= d -> f n k = f' n k /\ g n k = g' n k /\ p n k = p' n k /\ q n k = q' n k) -> four h d m f' g' p' q'.
  Proof.
    intros ((A & A') & (B & B') & (C & C') & (D & D') & P) E.
    refine (conj (conj A _) (conj (conj B _) (conj (conj C _) (conj (conj D _) P))));
      [eapply shows_ext; [|exact A']|eapply shows_ext; [|exact B']|eapply shows_ext; [|exact C']|eapply shows_ext; [|exact D']]; intros; apply E; auto.
  Qed.
  Theorem parse_ok h m md mo head lines rs : own4 h m -> 0 <= mo <= md -> md <= 360 -> (length head <= 255)%nat -> squeeze head = header_text ->
    Forall2 (reads_row sdbl) lines rs -> Forall (in_file md mo) rs ->
    exists h' m', parse_desai sdbl h m md mo (Some (head :: lines)) = Ok (h', m', 0) /\ shows_file h' m' rs md mo.
  Proof.
    intros O Hm Hd LH SQ FR FI. destruct (parse_open h m md mo (head :: lines) O) as (h8 & m' & F & ->); try lia.
    destruct (Z.ltb_spec 255 (Z.of_nat (length head))); [lia|]. apply header_iff in SQ. rewrite SQ.
    destruct (data_loop_ok md mo m' lines rs FR FI (mkSc 0 0 [None; None; None; None] 0) h8 _ _ _ _ eq_refl F) as (h9 & E & F9).
    rewrite E. cbn [bind]. exists h9, m'. split; [reflexivity|]. eapply four_ext; [exact F9|]. intros n k Hk Hn. rewrite !stored_all_at by auto.
    unfold file_value. destruct (k <=? mo); [|auto]. destruct (last_row rs n k); auto.
  Qed.
  (** ** converse *)
  Lemma data_loop_sound md mo m lines : forall s h h', data_loop sdbl md mo m lines s h = Ok (h', 0) -> exists rs, Forall2 (reads_row sdbl) lines rs.
  Proof.
    induction lines as [|line lines IH]; intros s h h' H; [exists []; constructor|]. cbn [data_loop] in H.
    destruct (Z.ltb_spec 255 (Z.of_nat (length line))); [discriminate|]. destruct (store_line _ _ _ _ _) as [h1| | |]; try discriminate. cbn [bind] in H.
    destruct (Z.eqb_spec (serr (scan_line sdbl line s)) 0) as [E|E]; cbn [negb] in H; [|discriminate].
    destruct (scan_row_inv line s E) as (r & Hr); [lia|]. destruct (IH _ _ _ H) as (rs & Hs). exists (r :: rs). constructor; auto.
  Qed.
  Theorem parse_sound h m md mo ls h' m' : own4 h m -> parse_desai sdbl h m md mo (Some ls) = Ok (h', m', 0) ->
    mo <= md <= 360 /\ exists head lines rs, ls = head :: lines /\ (length head <= 255)%nat /\ squeeze head = header_text /\ Forall2 (reads_row sdbl) lines rs.
  Proof.
    intros O H. assert (G : (md <? mo) || (360 <? md) || (360 <? mo) = false).
    { unfold parse_desai in H. destruct (_ || _); [discriminate|reflexivity]. }
    assert (K : mo <= md <= 360) by (rewrite !orb_false_iff, !Z.ltb_ge in G; lia). split; [exact K|].
    unfold parse_desai in H. rewrite G in H. repeat (destruct (prepare _ _ _) as [(?, ?)| | |]; try discriminate; cbn [bind] in H). repeat (destruct (fill_with _ _ _ _) as [?| | |]; try discriminate; cbn [bind] in H).
    destruct ls as [|head lines]; [discriminate|]. destruct (Z.ltb_spec 255 (Z.of_nat (length head))); [destruct (cmp_nwsc _ _); discriminate|].
    destruct (cmp_nwsc head header_text) eqn:C; [discriminate|]. destruct (data_loop _ _ _ _ _ _ _) as [(h9, e)| | |] eqn:D; try discriminate. cbn [bind] in H. injection H as _ _ ->.
    destruct (data_loop_sound _ _ _ _ _ _ _ D) as (rs & Hr). exists head, lines, rs. apply header_iff in C. refine (conj eq_refl (conj _ (conj C Hr))). lia.
  Qed.
  (** ** failures *)
  Lemma parse_refused h m md mo lines : lines = None \/ md < mo \/ 360 < md -> parse_desai sdbl h m md mo lines = Ok (h, m, 1).
  Proof.
    unfold parse_desai. intros H. destruct lines as [ls|]; [|reflexivity]. replace (_ || _) with true; [reflexivity|]. symmetry. rewrite !orb_true_iff, !Z.ltb_lt. destruct H as [H|H]; [discriminate|lia].
  Qed.
  Lemma parse_header h m md mo head lines : own4 h m -> 0 <= md -> mo <= md -> md <= 360 -> squeeze head <> header_text -> (length head <= 255)%nat ->
    exists h' m', parse_desai sdbl h m md mo (Some (head :: lines)) = Ok (h', m', 1).
  Proof.
    intros O H0 Hm Hd N L. destruct (parse_open h m md mo (head :: lines) O H0 Hm Hd) as (h8 & m' & F & ->). destruct (Z.ltb_spec 255 (Z.of_nat (length head))); [lia|].
    destruct (cmp_nwsc head header_text) eqn:C; [eauto|]. apply header_iff in C. contradiction.
  Qed.
  (** a long line after well-formed ones *)
  Lemma data_loop_app md mo m lines rs tail : Forall2 (reads_row sdbl) lines rs -> Forall (in_file md mo) rs -> forall s h f g p q,
    length (sd s) = 4%nat -> four h md m f g p q ->
    exists s' h' f' g' p' q', data_loop sdbl md mo m (lines ++ tail) s h = data_loop sdbl md mo m tail s' h' /\ length (sd s') = 4%nat /\ four h' md m f' g' p' q' /\
      (lines = [] -> s' = s /\ h' = h).
  Proof.
    induction 1 as [|line r lines rs RL _ IH]; intros FI s h f g p q L F.
    - exists s, h, f, g, p, q. auto.
    - inversion FI as [|? ? I FI']; subst. cbn [app data_loop]. pose proof RL as (LL & _).
      destruct (Z.ltb_spec 255 (Z.of_nat (length line))); [lia|]. rewrite (scan_row line r s RL L).
      destruct (store_row md mo m (mkSc (dn r) (dm r) [Some (dAr r); Some (dBr r); Some (dAi r); Some (dBi r)] 0) r h f g p q F I) as (h1 & -> & F1); auto.
      cbn [bind serr Z.eqb negb]. destruct (IH FI' (mkSc (dn r) (dm r) [Some (dAr r); Some (dBr r); Some (dAi r); Some (dBi r)] 0) h1 _ _ _ _ eq_refl F1) as (s' & h' & f' & g' & p' & q' & E & L' & F' & _).
      exists s', h', f', g', p', q'. refine (conj E (conj L' (conj F' _))). discriminate.
  Qed.
  Theorem parse_long h m md mo head lines rs long tail : own4 h m -> 0 <= mo <= md -> md <= 360 -> (length head <= 255)%nat -> squeeze head = header_text ->
    Forall2 (reads_row sdbl) lines rs -> Forall (in_file md mo) rs -> (255 < length long)%nat ->
    exists h' m', parse_desai sdbl h m md mo (Some (head :: lines ++ long :: tail)) = Ok (h', m', 5).
  Proof.
    intros O Hm Hd LH SQ FR FI LL. destruct (parse_open h m md mo (head :: lines ++ long :: tail) O) as (h8 & m' & F & ->); try lia.
    destruct (Z.ltb_spec 255 (Z.of_nat (length head))); [lia|]. apply header_iff in SQ. rewrite SQ.
    destruct (data_loop_app md mo m' lines rs (long :: tail) FR FI (mkSc 0 0 [None; None; None; None] 0) h8 _ _ _ _ eq_refl F) as (s' & h' & f' & g' & p' & q' & E & _ & F' & _).
    rewrite E. cbn [data_loop]. destruct (Z.ltb_spec 255 (Z.of_nat (length long))); [|lia]. cbn [bind]. eauto.
  Qed.
  (** a line whose first number cannot be read, after well-formed ones: the numbers kept from before are stored *)
  Theorem parse_garbage h m md mo head long tail : own4 h m -> 0 <= mo <= md -> md <= 360 -> (length head <= 255)%nat -> squeeze head = header_text ->
    (length long <= 255)%nat -> (forall r, ~ reads_row sdbl long r) -> fst (scan_i32 (skip_blanks long)) = None ->
    fst (scan_i32 (skip_blanks (snd (scan_i32 (skip_blanks long))))) = None ->
    exists h' m', parse_desai sdbl h m md mo (Some (head :: long :: tail)) = Ok (h', m', 1).
  Proof.
    intros O Hm Hd LH SQ LL NR G1 G2. destruct (parse_open h m md mo (head :: long :: tail) O) as (h8 & m' & F & ->); try lia.
    destruct (Z.ltb_spec 255 (Z.of_nat (length head))); [lia|]. apply header_iff in SQ. rewrite SQ. cbn [data_loop]. destruct (Z.ltb_spec 255 (Z.of_nat (length long))); [lia|].
    set (s := scan_line sdbl long (mkSc 0 0 [None; None; None; None] 0)).
    assert (L : length (sd s) = 4%nat) by (apply scan_length; reflexivity).
    assert (E : sl s = 0 /\ sm s = 0).
    { unfold s, scan_line. destruct (scan_i32 (skip_blanks long)) as (v1, r1). cbn [fst snd] in G1, G2. destruct (scan_i32 (skip_blanks r1)) as (v2, r2). cbn [fst] in G2. subst. destruct (numbers sdbl 4 r2). auto. }
    assert (N : serr s <> 0) by (intros Z; destruct (scan_row_inv long _ Z) as (r & Hr); [lia|apply (NR r Hr)]).
    unfold store_line. destruct E as (-> & ->). rewrite (proj2 (Z.leb_le 0 md)), (proj2 (Z.leb_le 0 mo)) by lia. cbn [andb].
    destruct (sd s) as [|x1 [|x2 [|x3 [|x4 [|]]]]]; try discriminate L.
    destruct (put4_ok h8 md m' _ _ _ _ 0 0 x1 x2 x3 x4 F) as (h9 & E9 & _); [lia|lia|]. rewrite E9. cbn [bind]. destruct (Z.eqb_spec (serr s) 0); [contradiction|]. cbn [negb bind]. eauto.
  Qed.

  (** ** indices outside the triangle *)
  Lemma put_negative h d m i c : sized h d m -> 0 <= d -> i < 0 -> put h m i 0 c = UB.
  Proof.
    intros (V & E & Hr & C) Hd Hi. unfold put. assert (X : index (st m) i 0 = i) by (unfold index; rewrite E; unfold slice; rewrite E; cbn [Z.mul Z.sub Z.opp Z.add Z.quot Z.quotrem fst]; lia). rewrite X.
    unfold store. destruct (ptr m) as [q|]; [|reflexivity]. destruct (nth_error h q) as [[l|]|]; try reflexivity.
    unfold znth. destruct (Z.ltb_spec i 0); [reflexivity|lia].
  Qed.
  Lemma put_alias h d m c : sized h d m -> 1 <= d -> put h m 0 1 c = put h m d 0 c.
  Proof.
    intros (V & E & Hr & C) Hd. unfold put. f_equal. unfold index. rewrite E. unfold slice. rewrite E. unfold rows in Hr. rewrite Hr. change (Z.quot (1 * (1 - 1)) 2) with 0. change (Z.quot (0 * (0 - 1)) 2) with 0. lia.
  Qed.
  Theorem parse_negative h m md mo head line r lines : own4 h m -> 0 <= mo <= md -> md <= 360 -> (length head <= 255)%nat -> squeeze head = header_text ->
    reads_row sdbl line r -> dn r < 0 -> dm r = 0 -> parse_desai sdbl h m md mo (Some (head :: line :: lines)) = UB.
  Proof.
    intros O Hm Hd LH SQ RL N Z0. destruct (parse_open h m md mo (head :: line :: lines) O) as (h8 & m' & F & ->); try lia.
    destruct (Z.ltb_spec 255 (Z.of_nat (length head))); [lia|]. apply header_iff in SQ. rewrite SQ. cbn [data_loop]. pose proof RL as (LL & _).
    destruct (Z.ltb_spec 255 (Z.of_nat (length line))); [lia|]. rewrite (scan_row line r (mkSc 0 0 [None; None; None; None] 0) RL eq_refl). unfold store_line. cbn [sl sm sd]. rewrite Z0.
    rewrite (proj2 (Z.leb_le (dn r) md)), (proj2 (Z.leb_le 0 mo)) by lia. cbn [andb]. destruct F as ((S1 & _) & _). rewrite (put_negative h8 md) by (auto; lia). reflexivity.
  Qed.
  Theorem parse_alias h m md mo head line r line' r' : own4 h m -> 1 <= mo <= md -> md <= 360 -> (length head <= 255)%nat -> squeeze head = header_text ->
    reads_row sdbl line r -> dn r = 0 -> dm r = 1 -> reads_row sdbl line' r' -> dn r' = md -> dm r' = 0 -> dAr r = dAr r' -> dAi r = dAi r' -> dBr r = dBr r' -> dBi r = dBi r' ->
    parse_desai sdbl h m md mo (Some [head; line]) = parse_desai sdbl h m md mo (Some [head; line']).
  Proof.
    intros O Hm Hd LH SQ RL N0 M1 RL' N' M' Q1 Q2 Q3 Q4.
    assert (X : forall ls, exists X, parse_desai sdbl h m md mo (Some (head :: ls)) = X) by eauto.
    assert (O' := O). destruct (prepared h m md O) as (h1 & a & h2 & b & h3 & c & h4 & e & h5 & h6 & h7 & h8 & E1 & E2 & E3 & E4 & E5 & E6 & E7 & E8 & F); [lia|].
    unfold parse_desai. replace ((md <? mo) || (360 <? md) || (360 <? mo)) with false by (symmetry; rewrite !orb_false_iff, !Z.ltb_ge; lia).
    rewrite E1. cbn [bind]. rewrite E2. cbn [bind]. rewrite E3. cbn [bind]. rewrite E4. cbn [bind]. rewrite E5. cbn [bind]. rewrite E6. cbn [bind]. rewrite E7. cbn [bind]. rewrite E8. cbn [bind].
    destruct (Z.ltb_spec 255 (Z.of_nat (length head))); [lia|]. apply header_iff in SQ. rewrite SQ. cbn [data_loop].
    pose proof RL as (LL & _). pose proof RL' as (LL' & _). destruct (Z.ltb_spec 255 (Z.of_nat (length line))); [lia|]. destruct (Z.ltb_spec 255 (Z.of_nat (length line'))); [lia|].
    rewrite (scan_row line r (mkSc 0 0 [None; None; None; None] 0) RL eq_refl), (scan_row line' r' (mkSc 0 0 [None; None; None; None] 0) RL' eq_refl). unfold store_line. cbn [sl sm sd serr]. rewrite N0, M1, N', M', Q1, Q2, Q3, Q4.
    rewrite (proj2 (Z.leb_le 0 md)), (proj2 (Z.leb_le 1 mo)), (proj2 (Z.leb_le md md)), (proj2 (Z.leb_le 0 mo)) by lia. cbn [andb].
    set (m' := mkCf a b c e) in *.
    assert (G : forall ca cb cc cd, (h1 <- put h8 (cAr m') 0 1 ca ;; h2 <- put h1 (cBr m') 0 1 cb ;; h3 <- put h2 (cAi m') 0 1 cc ;; put h3 (cBi m') 0 1 cd) =
                              (h1 <- put h8 (cAr m') md 0 ca ;; h2 <- put h1 (cBr m') md 0 cb ;; h3 <- put h2 (cAi m') md 0 cc ;; put h3 (cBi m') md 0 cd)).
    { intros ca cb cc cd. clear -F Hm. destruct F as (A & B & C & D & P). pose proof P as (P1 & P2 & P3 & P4 & P5 & P6).
      assert (T : forall (h : mem R) x v, sized h md x -> put h x 0 1 v = put h x md 0 v) by (intros; apply (put_alias h md); auto; lia).
      rewrite (T h8 _ ca (proj1 A)). destruct (put_ok h8 md (cAr m') md 0 ca _ (proj1 A) ltac:(lia) ltac:(lia) (proj2 A)) as (h1 & E1 & S1 & F1 & G1). rewrite E1. cbn [bind].
      pose proof (put_frames _ _ _ _ _ _ F1 (apart_sym _ _ P1) B) as B1. pose proof (put_frames _ _ _ _ _ _ F1 (apart_sym _ _ P2) C) as C1. pose proof (put_frames _ _ _ _ _ _ F1 (apart_sym _ _ P3) D) as D1.
      rewrite (T h1 _ cb (proj1 C1)). destruct (put_ok h1 md (cBr m') md 0 cb _ (proj1 C1) ltac:(lia) ltac:(lia) (proj2 C1)) as (h2 & E2 & S2 & F2 & G2). rewrite E2. cbn [bind].
      pose proof (put_frames _ _ _ _ _ _ F2 P4 B1) as B2. pose proof (put_frames _ _ _ _ _ _ F2 (apart_sym _ _ P6) D1) as D2.
      rewrite (T h2 _ cc (proj1 B2)). destruct (put_ok h2 md (cAi m') md 0 cc _ (proj1 B2) ltac:(lia) ltac:(lia) (proj2 B2)) as (h3 & E3 & S3 & F3 & G3). rewrite E3. cbn [bind].
      pose proof (put_frames _ _ _ _ _ _ F3 (apart_sym _ _ P5) D2) as D3. apply T, D3. }
    rewrite G. reflexivity.
  Qed.
End Lines.
