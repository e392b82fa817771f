(** Malformed lines in Desai's coefficient file. *)
From Coq Require Import Reals ZArith List Bool Lia Lra.
From Verif Require Import Base StorageModel StorageSpec MatrixModel MatrixSpec MatrixProofs CString FromChars AtlasModel TideModel TideSpec TideProofs TideProofs2 PoleModel PoleSpec PoleProofs PoleProofs2.
Import ListNotations.

Section Lines.
  Variable sdbl : list Z -> option R * list Z.
  Lemma scan_ints line s : sl (scan_line sdbl line s) = match first_int line with Some v => v | None => sl s end /\ sm (scan_line sdbl line s) = match second_int line with Some v => v | None => sm s end.
  Proof.
    unfold first_int, second_int, scan_line. destruct (scan_i32 (skip_blanks line)) as (v1, r1). cbn [fst snd]. destruct (scan_i32 (skip_blanks r1)) as (v2, r2). cbn [fst snd]. destruct (numbers sdbl 4 r2) as (vs, e). split; reflexivity.
  Qed.
  Lemma data_loop_after md mo m lines rs tail : Forall2 (reads_row sdbl) lines rs -> Forall (in_file md mo) rs -> forall s h f g p q,
    length (sd s) = 4%nat -> four h md m f g p q ->
    exists s' h', data_loop sdbl md mo m (lines ++ tail) s h = data_loop sdbl md mo m tail s' h' /\ length (sd s') = 4%nat /\
      four h' md m (stored_all md mo dAr rs f) (stored_all md mo dAi rs g) (stored_all md mo dBr rs p) (stored_all md mo dBi rs q) /\
      (rs = [] -> s' = s) /\ (forall r, last rs r = r -> rs <> [] -> sl s' = dn r /\ sm s' = dm r).
  Proof.
    induction 1 as [|line r lines rs RL FR IH]; intros FI s h f g p q L F.
    - exists s, h. refine (conj eq_refl (conj L (conj F (conj (fun _ => eq_refl) _)))). congruence.
    - inversion FI as [|? ? I FI']; subst. cbn [app data_loop stored_all]. pose proof RL as (LL & _).
      destruct (Z.ltb_spec 255 (Z.of_nat (length line))); [lia|]. rewrite (scan_row sdbl line r s RL L).
      destruct (store_row md mo m (mkSc (dn r) (dm r) [Some (dAr r); Some (dBr r); Some (dAi r); Some (dBi r)] 0) r h f g p q F I) as (h1 & -> & F1); auto.
      cbn [bind serr Z.eqb negb]. destruct (IH FI' (mkSc (dn r) (dm r) [Some (dAr r); Some (dBr r); Some (dAi r); Some (dBi r)] 0) h1 _ _ _ _ eq_refl F1) as (s' & h' & E & L' & F' & Z0 & Z1).
      exists s', h'. refine (conj E (conj L' (conj F' (conj _ _)))); [discriminate|]. intros r0 Hl _. cbn [last] in Hl. destruct rs as [|r1 rs]; [rewrite (Z0 eq_refl); subst r0; split; reflexivity|].
      apply Z1; [exact Hl|discriminate].
  Qed.
  Theorem parse_malformed h m md mo head lines rs bad tail : own4 h m -> 0 <= mo <= md -> md <= 360 -> (length head <= 255)%nat -> squeeze head = header_text ->
    Forall2 (reads_row sdbl) lines rs -> Forall (in_file md mo) rs -> (length bad <= 255)%nat -> (forall r, ~ reads_row sdbl bad r) ->
    let n := match first_int bad with Some v => v | None => dn (last rs row0) end in let k := match second_int bad with Some v => v | None => dm (last rs row0) end in
    (n <= md -> k <= mo -> 0 <= k <= n) ->
    exists h' m', parse_desai sdbl h m md mo (Some (head :: lines ++ bad :: tail)) = Ok (h', m', 1) /\
      exists a b c d, four h' md m' a b c d /\ forall i j, 0 <= j <= i -> i <= md -> (i <> n \/ j <> k) ->
        a i j = Some (file_value dAr rs mo i j) /\ b i j = Some (file_value dAi rs mo i j) /\ c i j = Some (file_value dBr rs mo i j) /\ d i j = Some (file_value dBi rs mo i j).
  Proof.
    intros O Hm Hd LH SQ FR FI LB NR n k Hnk. destruct (parse_open sdbl h m md mo (head :: lines ++ bad :: tail) O) as (h8 & m' & F & ->); try lia.
    destruct (Z.ltb_spec 255 (Z.of_nat (length head))); [lia|]. apply header_iff in SQ. rewrite SQ.
    destruct (data_loop_after md mo m' lines rs (bad :: tail) FR FI (mkSc 0 0 [None; None; None; None] 0) h8 _ _ _ _ eq_refl F) as (s & h9 & E & L & F9 & Z0 & Z1). rewrite E. clear E.
    assert (P : sl s = dn (last rs row0) /\ sm s = dm (last rs row0)).
    { destruct rs as [|r rs]; [rewrite (Z0 eq_refl); split; reflexivity|]. apply Z1; [|discriminate].
      assert (T : forall (l : list drow) x y, l <> [] -> last l x = last l y). { induction l as [|z [|z' l] IHl]; intros x y Hl; [congruence|reflexivity|]. exact (IHl x y ltac:(discriminate)). } apply T. discriminate. }
    cbn [data_loop]. destruct (Z.ltb_spec 255 (Z.of_nat (length bad))); [lia|]. destruct (scan_ints bad s) as [S1 S2]. rewrite (proj1 P) in S1. rewrite (proj2 P) in S2. fold n in S1. fold k in S2.
    pose proof (scan_length sdbl bad s L) as L1. assert (N : serr (scan_line sdbl bad s) <> 0) by (intros Z; destruct (scan_row_inv sdbl bad _ Z LB) as (r & Hr); exact (NR r Hr)).
    set (s' := scan_line sdbl bad s) in *. unfold store_line. rewrite S1, S2. destruct (Z.eqb_spec (serr s') 0); [contradiction|]. cbn [negb].
    assert (V : forall part i j, 0 <= j <= i -> i <= md -> stored_all md mo part rs (fun _ _ => Some 0%R) i j = Some (file_value part rs mo i j)).
    { intros part i j Hj Hi. rewrite stored_all_at by auto. unfold file_value. destruct (j <=? mo); [destruct (last_row rs i j)|]; reflexivity. }
    destruct (Z.leb_spec n md) as [H1|H1], (Z.leb_spec k mo) as [H2|H2]; cbn [andb].
    2-4: cbn [bind]; exists h9, m'; split; [reflexivity|]; do 4 eexists; split; [exact F9|]; intros i j Hj Hi _; rewrite !V by assumption; auto.
    destruct (sd s') as [|x1 [|x2 [|x3 [|x4 [|]]]]]; try discriminate L1. destruct (put4_ok h9 md m' _ _ _ _ n k x1 x2 x3 x4 F9 (Hnk H1 H2) H1) as (h10 & E10 & F10). rewrite E10. cbn [bind].
    exists h10, m'. split; [reflexivity|]. do 4 eexists. split; [exact F10|]. intros i j Hj Hi D. unfold updf.
    replace ((i =? n) && (j =? k)) with false by (symmetry; rewrite andb_false_iff, !Z.eqb_neq; lia). rewrite !V by assumption. auto.
  Qed.
  Theorem parse_long_header h m md mo head lines : own4 h m -> 0 <= mo <= md -> md <= 360 -> (255 < length head)%nat ->
    exists h' m', parse_desai sdbl h m md mo (Some (head :: lines)) = Ok (h', m', if cmp_nwsc (firstn 255 head) header_text then 1 else 5).
  Proof.
    intros O Hm Hd L. destruct (parse_open sdbl h m md mo (head :: lines) O) as (h8 & m' & F & ->); try lia. destruct (Z.ltb_spec 255 (Z.of_nat (length head))); [|lia]. eauto.
  Qed.
  Theorem parse_empty h m md mo : own4 h m -> 0 <= mo <= md -> md <= 360 -> exists h' m', parse_desai sdbl h m md mo (Some []) = Ok (h', m', 1).
  Proof. intros O Hm Hd. destruct (parse_open sdbl h m md mo [] O) as (h8 & m' & F & ->); try lia. eauto. Qed.
  Lemma reads_dec line : (255 < length line)%nat \/ (exists r, reads_row sdbl line r) \/ ((length line <= 255)%nat /\ forall r, ~ reads_row sdbl line r).
  Proof.
    destruct (le_lt_dec (length line) 255) as [L|L]; [right|left; exact L]. destruct (Z.eq_dec (serr (scan_line sdbl line (mkSc 0 0 [None; None; None; None] 0))) 0) as [E|E].
    - left. exact (scan_row_inv sdbl line _ E L).
    - right. split; [exact L|]. intros r H. apply E. rewrite (scan_row sdbl line r (mkSc 0 0 [None; None; None; None] 0) H eq_refl). reflexivity.
  Qed.
  Lemma file_cases lines : (exists rs, Forall2 (reads_row sdbl) lines rs) \/
    exists good rs bad tail, lines = good ++ bad :: tail /\ Forall2 (reads_row sdbl) good rs /\ ((255 < length bad)%nat \/ ((length bad <= 255)%nat /\ forall r, ~ reads_row sdbl bad r)).
  Proof.
    induction lines as [|line lines IH]; [left; exists []; constructor|]. destruct (reads_dec line) as [L|[(r & H)|B]].
    - right. exists [], [], line, lines. repeat split; auto; constructor.
    - destruct IH as [(rs & F)|(good & rs & bad & tail & -> & F & B)]; [left; exists (r :: rs); constructor; assumption|]. right. exists (line :: good), (r :: rs), bad, tail. repeat split; [constructor; assumption|exact B].
    - right. exists [], [], line, lines. repeat split; [constructor|right; exact B].
  Qed.
End Lines.
