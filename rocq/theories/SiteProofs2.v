(** Sites and files with altered data lines. *)
From Coq Require Import Ascii String Reals ZArith List Bool Lia Lra Sorting.Sorted.
From Verif Require Import Base CString FromChars IcgemSpec AtlasSpec AtlasProofs AtlasProofs2 GridModel GridSpec GridProofs PoleModel SiteModel SiteSpec SiteProofs.
From Verif Require AtlasModel.
Import ListNotations.
Open Scope Z_scope.

Lemma numbers_reads sdbl n : forall text, fst (AtlasModel.numbers sdbl n text) = map Some (map (fun o => match o with Some v => v | None => 0%R end) (fst (AtlasModel.numbers sdbl n text))) ->
  reads_numbers sdbl text (map (fun o => match o with Some v => v | None => 0%R end) (fst (AtlasModel.numbers sdbl n text))).
Proof.
  induction n as [|n IH]; intros text H; [exact I|]. cbn [AtlasModel.numbers] in *. destruct (sdbl (skip_blanks text)) as (v, r) eqn:E. specialize (IH r). destruct (AtlasModel.numbers sdbl n r) as (vs, e). cbn [fst map reads_numbers] in *.
  injection H as H1 H2. exists r. split; [rewrite E; f_equal; exact H1|exact (IH H2)].
Qed.
Lemma unreadable sdbl text k : (forall vs, length vs = 8%nat -> ~ reads_numbers sdbl text vs) -> parse_record sdbl text k = None.
Proof.
  intros H. pose proof (numbers_reads sdbl 8 text) as N. pose proof (numbers_length sdbl 8 text) as L. unfold parse_record. destruct (AtlasModel.numbers sdbl 8 text) as (vs, e). cbn [fst] in N, L.
  destruct vs as [|a1 [|a2 [|a3 [|a4 [|a5 [|a6 [|a7 [|a8 [|]]]]]]]]]; try discriminate L.
  destruct a1, a2, a3, a4, a5, a6, a7, a8; try reflexivity. exfalso. specialize (N eq_refl). refine (H _ _ N). reflexivity.
Qed.
Lemma read_fails sdbl file idxs x : StronglySorted Z.le idxs -> forall c, 0 <= c -> (forall y, In y idxs -> c <= Z.max 0 y) -> In x idxs ->
  parse_record sdbl (buffer file (14 + Z.to_nat (Z.max 0 x))) (Z.max 0 x) = None -> read_records sdbl file idxs c = None.
Proof.
  induction 1 as [|y t S IH F]; intros c C B I P; [contradiction|]. cbn [read_records]. pose proof (B y (or_introl eq_refl)) as By. replace (Z.max c y) with (Z.max 0 y) by lia.
  destruct I as [-> | I]; [rewrite P; reflexivity|]. destruct (parse_record sdbl (buffer file (14 + Z.to_nat (Z.max 0 y))) (Z.max 0 y)); [|reflexivity]. rewrite IH; auto; [lia|]. intros z Hz. rewrite Forall_forall in F. specialize (F z Hz). lia.
Qed.
Lemma read_same sdbl file file' idxs : StronglySorted Z.le idxs -> forall c, 0 <= c -> (forall y, In y idxs -> c <= Z.max 0 y) ->
  (forall y, In y idxs -> buffer file (14 + Z.to_nat (Z.max 0 y)) = buffer file' (14 + Z.to_nat (Z.max 0 y))) -> read_records sdbl file idxs c = read_records sdbl file' idxs c.
Proof.
  induction 1 as [|y t S IH F]; intros c C B E; [reflexivity|]. cbn [read_records]. pose proof (B y (or_introl eq_refl)) as By. replace (Z.max c y) with (Z.max 0 y) by lia.
  rewrite (E y (or_introl eq_refl)). destruct (parse_record _ _ _); [|reflexivity]. rewrite IH; auto; [lia| |]; intros z Hz; [|apply E; right; exact Hz]. rewrite Forall_forall in F. specialize (F z Hz). lia.
Qed.
Lemma header_same sdbl file file' : (forall k, (k < 14)%nat -> buffer file k = buffer file' k) -> parse_header sdbl file = parse_header sdbl file'.
Proof. intros H. unfold parse_header. rewrite !(H 3%nat), !(H 4%nat), !(H 5%nat), !(H 6%nat), !(H 7%nat), !(H 8%nat), !(H 9%nat), !(H 10%nat), !(H 11%nat), !(H 12%nat) by lia. reflexivity. Qed.

Lemma nth_error_firstn_in {A} (l : list A) n : forall m, (n < m)%nat -> nth_error (firstn m l) n = nth_error l n.
Proof. revert n. induction l as [|x l IH]; intros [|n] [|m] H; cbn; try reflexivity; try lia. apply IH. lia. Qed.

Section Replace.
  Variable sdbl : list Z -> option R * list Z.
  Hypothesis W : word_scanner sdbl.
  Variables (file : list (list Z)) (g : grid) (val : Z -> Z -> desai).
  Hypothesis D : desai_file sdbl file g val.
  Let total := nx g * ny g.
  Variables (k : Z) (bad : list Z).
  Hypothesis K : 0 <= k < total.
  Let file' := replace_line file k bad.
  Lemma buffer_before n : (n < 14 + Z.to_nat k)%nat -> buffer file' n = buffer file n.
  Proof.
    intros H. pose proof (f_length _ _ _ _ D) as L. fold total in L. assert (LN : (14 + Z.to_nat k < length file)%nat) by lia. unfold buffer, file', replace_line.
    rewrite firstn_app, firstn_firstn, firstn_length. replace (n - Nat.min (14 + Z.to_nat k) (length file))%nat with 0%nat by lia. rewrite Nat.min_l by lia. cbn [firstn]. rewrite app_nil_r.
    rewrite nth_error_app1 by (rewrite firstn_length; lia). assert (N : nth_error (firstn (14 + Z.to_nat k) file) n = nth_error file n) by (apply nth_error_firstn_in; lia). rewrite N. reflexivity.
  Qed.
  Lemma buffer_at : buffer file' (14 + Z.to_nat k) = firstn 255 bad.
  Proof.
    pose proof (f_length _ _ _ _ D) as L. fold total in L. unfold buffer, file', replace_line. assert (LF : length (firstn (14 + Z.to_nat k) file) = (14 + Z.to_nat k)%nat) by (rewrite firstn_length; lia).
    rewrite firstn_app, LF, Nat.sub_diag, firstn_firstn, Nat.min_id. cbn [firstn]. rewrite app_nil_r, nth_error_app2 by lia. rewrite LF, Nat.sub_diag. cbn [nth_error].
    replace (forallb fits (firstn (14 + Z.to_nat k) file)) with true; [reflexivity|]. symmetry. apply forallb_forall. intros l Hl. pose proof (f_short _ _ _ _ D) as FS. rewrite Forall_forall in FS.
    assert (I : In l file) by (rewrite <- (firstn_skipn (14 + Z.to_nat k) file); apply in_or_app; left; exact Hl). specialize (FS l I). unfold fits. apply Z.leb_le. unfold short in FS. lia.
  Qed.
  Lemma buffer_after n : (length bad <= 255)%nat -> (14 + Z.to_nat k < n)%nat -> buffer file' n = buffer file n.
  Proof.
    intros LB H. pose proof (f_length _ _ _ _ D) as L. fold total in L. pose proof (f_short _ _ _ _ D) as FS.
    assert (FS' : Forall short file'). { unfold file', replace_line. apply Forall_app. split; [|constructor; [exact LB|]]; rewrite Forall_forall in *; intros l Hl; apply FS; [rewrite <- (firstn_skipn (14 + Z.to_nat k) file)|rewrite <- (firstn_skipn (15 + Z.to_nat k) file)]; apply in_or_app; auto. }
    rewrite !buffer_short by assumption. unfold file', replace_line. assert (LF : length (firstn (14 + Z.to_nat k) file) = (14 + Z.to_nat k)%nat) by (rewrite firstn_length; lia).
    rewrite nth_error_app2 by lia. rewrite LF. destruct (n - (14 + Z.to_nat k))%nat as [|d] eqn:Ed; [lia|]. cbn [nth_error]. replace (nth_error (skipn (15 + Z.to_nat k) file) d) with (nth_error file n); [reflexivity|].
    rewrite <- (firstn_skipn (15 + Z.to_nat k) file) at 1. rewrite nth_error_app2 by (rewrite firstn_length; lia). f_equal. rewrite firstn_length. lia.
  Qed.
  Lemma buffer_lost n : (255 < length bad)%nat -> (14 + Z.to_nat k < n)%nat -> buffer file' n = [].
  Proof.
    intros LB H. pose proof (f_length _ _ _ _ D) as L. fold total in L. unfold buffer. replace (forallb fits (firstn n file')) with false; [reflexivity|]. symmetry.
    destruct (forallb fits (firstn n file')) eqn:E; [|reflexivity]. rewrite forallb_forall in E. assert (I : In bad (firstn n file')).
    { unfold file', replace_line. assert (LF : length (firstn (14 + Z.to_nat k) file) = (14 + Z.to_nat k)%nat) by (rewrite firstn_length; lia). rewrite firstn_app, LF. apply in_or_app. right.
      destruct (n - (14 + Z.to_nat k))%nat as [|d] eqn:Ed; [lia|]. left. reflexivity. }
    apply E in I. unfold fits in I. apply Z.leb_le in I. lia.
  Qed.
  Lemma header' : parse_header sdbl file' = Ok (Some g).
  Proof. rewrite <- (parse_header_ok sdbl file g val D). apply header_same. intros n Hn. apply buffer_before. lia. Qed.
  Lemma corner_in i j i' j' : corner_of (i, j) (i', j') -> In (linear Y g i' j') (flat (corners Y g (linear Y g i j))).
  Proof.
    unfold corner_of. cbn [fst snd corners linear flat In]. intros (Hi & Hj). assert (Ei : i' = i \/ i' = i + 1) by lia. assert (Ej : j' = j \/ j' = j + 1) by lia.
    destruct Ei as [-> | ->], Ej as [-> | ->]; [left; lia|right; right; left; lia|right; left; lia|right; right; right; left; lia].
  Qed.
  Lemma in_corner i j x : In x (flat (corners Y g (linear Y g i j))) -> exists i' j', corner_of (i, j) (i', j') /\ x = linear Y g i' j'.
  Proof.
    unfold corner_of. cbn [fst snd corners linear flat In]. intros [H|[H|[H|[H|[]]]]]; [exists i, j|exists (i + 1), j|exists i, (j + 1)|exists (i + 1), (j + 1)]; cbn [fst snd]; lia.
  Qed.
  Section AtSites.
    Variables (sta : list site) (os : list (option (Z * Z))).
    Hypotheses (NY : 2 <= ny g) (P : Forall2 (placed g) sta os).
    Let l := flat_map flat (map (fun o => corners Y g (base g o)) os).
    Lemma l_range x : In x l -> -1 <= x < total.
    Proof.
      intros Hx. apply in_flat_map in Hx as (n & Hn & Hx). apply in_map_iff in Hn as (o & <- & Ho).
      assert (E : exists s, placed g s o) by (clear -P Ho; induction P; [contradiction|destruct Ho as [-> | Ho]; eauto]). destruct E as (s & Q). exact (flat_range sdbl file g val D s o x NY Q Hx).
    Qed.
    Lemma unfold' f : parse_header sdbl f = Ok (Some g) -> site_coeffs sdbl (Some f) sta = match read_records sdbl f (sort l) 0 with None => Ok ([], 1) | Some recs => each_site recs (List.combine sta (map (fun o => corners Y g (base g o)) os)) [] end.
    Proof. intros H. unfold site_coeffs. rewrite H. cbn [bind]. rewrite (all_nodes_ok sdbl file g val D sta os P). reflexivity. Qed.
    Lemma low x : In x (sort l) -> 0 <= Z.max 0 x. Proof. lia. Qed.
    Lemma in_l i j i' j' : In (Some (i, j)) os -> corner_of (i, j) (i', j') -> In (linear Y g i' j') (sort l).
    Proof. intros Ho C. apply sort_in, in_flat_map. exists (corners Y g (base g (Some (i, j)))). split; [apply in_map_iff; eauto|exact (corner_in i j i' j' C)]. Qed.
    (** a needed line that cannot be read *)
    Theorem bad_line i j i' j' : In (Some (i, j)) os -> corner_of (i, j) (i', j') -> k = linear Y g i' j' -> (forall vs, length vs = 8%nat -> ~ reads_numbers sdbl (firstn 255 bad) vs) ->
      site_coeffs sdbl (Some file') sta = Ok ([], 1).
    Proof.
      intros Ho C E U. rewrite (unfold' file' header'). rewrite (read_fails sdbl file' (sort l) k); [reflexivity|apply sort_sorted|lia|intros; lia|rewrite E; exact (in_l i j i' j' Ho C)|].
      rewrite Z.max_r by lia. rewrite buffer_at. apply unreadable, U.
    Qed.
    (** a needed line behind one that is too long *)
    Theorem lost_line i j i' j' : In (Some (i, j)) os -> corner_of (i, j) (i', j') -> k < linear Y g i' j' -> (255 < length bad)%nat -> fst (sdbl []) = None -> site_coeffs sdbl (Some file') sta = Ok ([], 1).
    Proof.
      intros Ho C E LB U. rewrite (unfold' file' header'). rewrite (read_fails sdbl file' (sort l) (linear Y g i' j')); [reflexivity|apply sort_sorted|lia|intros; lia|exact (in_l i j i' j' Ho C)|].
      rewrite Z.max_r by lia. rewrite buffer_lost by lia. apply unreadable. intros [|v vs] Lv H; [discriminate|]. destruct H as (r & H & _). cbn [skip_blanks] in H. rewrite H in U. discriminate.
    Qed.
    (** a line that is not needed *)
    Theorem other_line : (length bad <= 255)%nat -> (forall o, In o os -> exists i j, o = Some (i, j) /\ forall i' j', corner_of (i, j) (i', j') -> k <> linear Y g i' j') ->
      site_coeffs sdbl (Some file') sta = Ok (served g val (List.combine sta os)).
    Proof.
      intros LB N. rewrite <- (sites_ok sdbl W file g val D sta os NY P). rewrite (unfold' file' header'), (unfold' file (parse_header_ok sdbl file g val D)).
      rewrite (read_same sdbl file' file (sort l)); [reflexivity|apply sort_sorted|lia|intros; lia|]. intros y Hy. apply (proj1 (sort_in y l)) in Hy. apply in_flat_map in Hy as (n & Hn & Hx). apply in_map_iff in Hn as (o & <- & Ho).
      destruct (N o Ho) as (i & j & -> & Q). destruct (in_corner i j y Hx) as (i' & j' & C & E). specialize (Q i' j' C). rewrite <- E in Q.
      assert (Y0 : 0 <= y). { assert (PL : exists s, placed g s (Some (i, j))) by (clear -P Ho; induction P; [contradiction|destruct Ho as [-> | Ho]; eauto]). destruct PL as (s & (Hi & Hj) & _). unfold corner_of in C. cbn [fst snd] in C. rewrite E. cbn [linear]. nia. }
      rewrite Z.max_r by lia. destruct (Z_lt_le_dec y k) as [Hl|Hl]; [apply buffer_before; lia|apply buffer_after; [exact LB|lia]].
    Qed.
  End AtSites.
End Replace.
