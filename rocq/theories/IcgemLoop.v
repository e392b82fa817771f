From Coq Require Import Ascii String Reals ZArith List Bool Lia Lra.
From Verif Require Import Base CString FromChars IcgemModel IcgemSpec IcgemProofs.
Import ListNotations.
Open Scope Z_scope.

Section Loop.
  Variable sdbl : list Z -> option R * list Z.
  Hypothesis WS : word_scanner sdbl.
  Variable mkdate : Z -> Z -> Z -> Z -> Z -> Z.
  Variables MIN MAX : Z.
  Variable years : Z -> Z -> R.

  Definition plus_value (t : Z) (rs : list drec) (cs : coeffs) : coeffs := fun n m => ((fst (cs n m) + value_C years t rs n m)%R, (snd (cs n m) + value_S years t rs n m)%R).
  Definition one (t : Z) (r : drec) (cs : coeffs) : coeffs := fun n m =>
    if (n =? rl r) && (m =? rm r) then ((fst (cs n m) + rC r * factor years t r)%R, (snd (cs n m) + rS r * factor years t r)%R) else cs n m.
  Lemma plus_value_cons t r rs cs n m : plus_value t (r :: rs) cs n m = plus_value t rs (one t r cs) n m.
  Proof.
    unfold plus_value, one, value_C, value_S. cbn [filter]. rewrite (Z.eqb_sym n), (Z.eqb_sym m). destruct ((rl r =? n) && (rm r =? m)); cbn [map sum fold_right fst snd]; [|reflexivity].
    f_equal; unfold sum; ring.
  Qed.

  Lemma accum_one t r cs : triangular r -> forall c s, c = (rC r * factor years t r)%R -> s = (rS r * factor years t r)%R -> accum cs (rl r) (rm r) c s = Ok (one t r cs).
  Proof.
    intros (A & B) c s -> ->. unfold accum. replace ((0 <=? rm r) && (rm r <=? rl r)) with true; [reflexivity|]. symmetry. apply andb_true_iff. rewrite !Z.leb_le. lia.
  Qed.
  Lemma term_v2_factor t r c : term_v2 (rk r) c (years t (rt0 r)) (rp r) = (c * factor years t r)%R.
  Proof. unfold term_v2, factor, two_pi. destruct (rk r); cbn [keyb bR orb]; ring. Qed.
  Lemma term_v2_factor' t r c p : (rk r = asin \/ rk r = acos -> p = rp r) -> term_v2 (rk r) c (years t (rt0 r)) p = (c * factor years t r)%R.
  Proof. intros H. rewrite <- term_v2_factor. unfold term_v2. destruct (rk r); cbn [keyb bR orb] in *; [reflexivity..|rewrite H by tauto; reflexivity|rewrite H by tauto; reflexivity]. Qed.

  Definition used2 (N M t : Z) (r : drec) : bool := valid_at t r && within N M r.
  Lemma use_v2_ok N M t st r : holds2 r (lent st) -> (used2 N M t r = true -> triangular r) ->
    use_v2 years N M t st = Ok (if used2 N M t r then mkL (one t r (lcs st)) (Z.max (ldeg st) (rl r)) (Z.max (lord st) (rm r)) (lent st) (ldt st) (lcn st) (lcm st) else st).
  Proof.
    intros (Hk & Hl & Hm & Hc & Hs & H0 & H1 & Hp) T. unfold use_v2, used2, valid_at, within in *. rewrite Hk, Hl, Hm, Hc, Hs, H0, H1. cbn [get bind].
    destruct (rt0 r <=? t); cbn [negb andb] in *; [|reflexivity]. destruct (t <? rt1 r); cbn [negb andb] in *; [|reflexivity].
    destruct (rl r <=? N); cbn [negb andb] in *; [|reflexivity]. destruct (rm r <=? M); cbn [negb andb] in *; [|reflexivity]. specialize (T eq_refl).
    assert (E : exists p, (if keyb (rk r) asin || keyb (rk r) acos then get (per (lent st)) else Ok 1%R) = Ok p /\ (rk r = asin \/ rk r = acos -> p = rp r)).
    { destruct (rk r); cbn [keyb orb]; [exists 1%R; split; [reflexivity|intuition discriminate]..|exists (rp r); rewrite Hp by tauto; split; reflexivity|exists (rp r); rewrite Hp by tauto; split; reflexivity]. }
    destruct E as (p & E & P). rewrite E. cbn [bind]. rewrite (accum_one t r (lcs st) T) by (apply term_v2_factor'; exact P). reflexivity.
  Qed.

  Definition lines_ok (K : Z) (lines : list (list Z)) := Forall (fun l => Z.of_nat (length l) <= K) lines.
  Lemma top_degree_cons r rs : top_degree (r :: rs) = Z.max (rl r) (top_degree rs). Proof. reflexivity. Qed.
  Lemma top_order_cons r rs : top_order (r :: rs) = Z.max (rm r) (top_order rs). Proof. reflexivity. Qed.
  Lemma top_degree_nonneg rs : 0 <= top_degree rs.
  Proof. induction rs; [cbn; lia|rewrite top_degree_cons; lia]. Qed.
  Lemma top_order_nonneg rs : 0 <= top_order rs.
  Proof. induction rs; [cbn; lia|rewrite top_order_cons; lia]. Qed.

  Lemma read_v2 er N M t lines rs : Forall2 (says2 sdbl mkdate MIN MAX er) lines rs -> Forall (fun r => used2 N M t r = true -> triangular r) rs ->
    forall st, 0 <= ldeg st -> 0 <= lord st ->
    exists st', read_loop (fun line => resolve_v2 sdbl mkdate MIN MAX line er) (use_v2 years N M t) lines 0 st = Ok (st', 0, false) /\
      (forall n m, lcs st' n m = plus_value t (filter (used2 N M t) rs) (lcs st) n m) /\
      ldeg st' = Z.max (ldeg st) (top_degree (filter (used2 N M t) rs)) /\ lord st' = Z.max (lord st) (top_order (filter (used2 N M t) rs)).
  Proof.
    induction 1 as [|line r lines rs Hr F IH]; intros T st D O.
    - exists st. repeat split; [|cbn; lia|cbn; lia]. intros n m. unfold plus_value, value_C, value_S. cbn. rewrite !Rplus_0_r. destruct (lcs st n m); reflexivity.
    - apply Forall_cons_iff in T as (Tr & T). cbn [read_loop]. pose proof Hr as (LEN & _).
      destruct (Z.ltb_spec 255 (Z.of_nat (length line))) as [?|_]; [lia|]. cbn [negb Z.eqb].
      destruct (resolve_v2_ok sdbl WS mkdate MIN MAX er line r (lent st) Hr) as (e & -> & He). cbn [bind].
      rewrite (use_v2_ok N M t (set_entry st e) r He Tr). cbn [bind]. change (0 + 0) with 0. cbn [filter].
      destruct (used2 N M t r) eqn:U.
      + destruct (IH T (mkL (one t r (lcs st)) (Z.max (ldeg st) (rl r)) (Z.max (lord st) (rm r)) e (ldt st) (lcn st) (lcm st))) as (st' & E & V & A & B); [cbn; lia|cbn; lia|].
        cbn [lcs ldeg lord] in *. exists st'. cbn [set_entry lcs ldeg lord lent ldt lcn lcm]. split; [exact E|]. rewrite top_degree_cons, top_order_cons.
        split; [intros n m; rewrite plus_value_cons; apply V|lia].
      + destruct (IH T (set_entry st e)) as (st' & E & V & A & B); [exact D|exact O|]. exists st'. split; [exact E|]. split; [exact V|split; assumption].
  Qed.

  Theorem parse_v2_ok er max_degree N M t lines rs : M <= N <= max_degree -> Forall2 (says2 sdbl mkdate MIN MAX er) lines rs ->
    Forall (fun r => used2 N M t r = true -> triangular r) rs ->
    exists cs, parse_data_v2 sdbl mkdate MIN MAX years (Some er) max_degree N M t lines = Ok (0, top_degree (filter (used2 N M t) rs), top_order (filter (used2 N M t) rs), cs) /\
      forall n m, cs n m = (value_C years t (filter (used2 N M t) rs) n m, value_S years t (filter (used2 N M t) rs) n m).
  Proof.
    intros B F T. unfold parse_data_v2, parse_with. cbn [get bind]. destruct (Z.ltb_spec max_degree N); [lia|]. destruct (Z.ltb_spec N M); [lia|]. cbn [orb].
    destruct (read_v2 er N M t lines rs F T start) as (st & -> & V & A & O); [cbn; lia|cbn; lia|]. cbn [bind negb Z.eqb orb]. exists (lcs st).
    cbn [start ldeg lord] in A, O. rewrite A, O. rewrite !Z.max_r by (apply top_degree_nonneg || apply top_order_nonneg). split; [reflexivity|].
    intros n m. rewrite V. unfold plus_value, start, zero. cbn [lcs fst snd]. rewrite !Rplus_0_l. reflexivity.
  Qed.

  (** version 1 *)
  Lemma use_v1_out N M t st r : holds1 r (lent st) -> within N M r = false -> use_v1 years N M t st = Ok st.
  Proof.
    intros (Hk & Hl & Hm & Hc & Hs & H0 & Hp) W. unfold use_v1, within in *. rewrite Hk, Hl, Hm, Hc, Hs. cbn [get bind].
    destruct (rl r <=? N); cbn [negb andb] in *; [|reflexivity]. rewrite W. reflexivity.
  Qed.
  Lemma use_v1_in N M t st r : holds1 r (lent st) -> within N M r = true -> triangular r ->
    forall r', r' = (match rk r with gfc | gfct => r | _ => mkR (rk r) (rl r) (rm r) (rC r) (rS r) (rt0 r') (rt1 r) (rp r) end) ->
    (match rk r with gfc | gfct => True | _ => lcn st = rl r /\ lcm st = rm r /\ ldt st = years t (rt0 r') end) ->
    use_v1 years N M t st = Ok (match rk r with
      | gfct => mkL (one t r' (lcs st)) (Z.max (ldeg st) (rl r)) (Z.max (lord st) (rm r)) (lent st) (years t (rt0 r)) (rl r) (rm r)
      | _ => mkL (one t r' (lcs st)) (Z.max (ldeg st) (rl r)) (Z.max (lord st) (rm r)) (lent st) (ldt st) (lcn st) (lcm st) end).
  Proof.
    intros (Hk & Hl & Hm & Hc & Hs & H0 & Hp) W T r' Er Hst. unfold use_v1, within in *. rewrite Hk, Hl, Hm, Hc, Hs. cbn [get bind].
    destruct (rl r <=? N); cbn [negb andb] in *; [|discriminate]. rewrite W. cbn [negb].
    destruct (rk r) eqn:K; subst.
    - cbn [bind]. rewrite (accum_one t r (lcs st) T); [reflexivity|..]; unfold factor; rewrite K; ring.
    - rewrite H0 by reflexivity. cbn [get bind]. rewrite (accum_one t r (lcs st) T); [reflexivity|..]; unfold factor; rewrite K; ring.
    - destruct Hst as (-> & -> & ->). rewrite !Z.eqb_refl. cbn [andb bind]. rewrite Er. cbn [rt0]. set (q := mkR _ _ _ _ _ _ _ _) in *.
      change (rl r) with (rl q). change (rm r) with (rm q). rewrite (accum_one t q (lcs st) T); [reflexivity|..]; unfold factor, q; cbn; ring.
    - destruct Hst as (-> & -> & ->). rewrite Hp by tauto. cbn [get bind]. rewrite !Z.eqb_refl. cbn [andb bind]. rewrite Er. cbn [rt0]. set (q := mkR _ _ _ _ _ _ _ _) in *.
      change (rl r) with (rl q). change (rm r) with (rm q). rewrite (accum_one t q (lcs st) T); [reflexivity|..]; unfold factor, q, two_pi; cbn; ring.
    - destruct Hst as (-> & -> & ->). rewrite Hp by tauto. cbn [get bind]. rewrite !Z.eqb_refl. cbn [andb bind]. rewrite Er. cbn [rt0]. set (q := mkR _ _ _ _ _ _ _ _) in *.
      change (rl r) with (rl q). change (rm r) with (rm q). rewrite (accum_one t q (lcs st) T); [reflexivity|..]; unfold factor, q, two_pi; cbn; ring.
  Qed.

  (** state of the loop and the last gfct record *)
  Definition tracks (N M t ref : Z) (cur : option (Z * Z)) (st : lst) : Prop :=
    match cur with Some (l, m) => l <= N -> m <= M -> lcn st = l /\ lcm st = m /\ ldt st = years t ref | None => True end.

  Definition reref (ref : Z) (r : drec) : drec := mkR (rk r) (rl r) (rm r) (rC r) (rS r) ref (rt1 r) (rp r).
  Lemma within_reref N M ref r : within N M (reref ref r) = within N M r. Proof. reflexivity. Qed.
  Lemma within_le N M r : within N M r = true <-> rl r <= N /\ rm r <= M.
  Proof. unfold within. rewrite andb_true_iff, !Z.leb_le. tauto. Qed.

  Lemma read_v1 er N M t lines rs : Forall2 (says1 sdbl mkdate er) lines rs -> Forall (fun r => within N M r = true -> triangular r) rs ->
    forall st ref cur, 0 <= ldeg st -> 0 <= lord st -> after_gfct cur rs -> tracks N M t ref cur st ->
    let used := filter (within N M) (dated ref rs) in
    exists st', read_loop (fun line => resolve_v1 sdbl mkdate line er) (use_v1 years N M t) lines 0 st = Ok (st', 0, false) /\
      (forall n m, lcs st' n m = plus_value t used (lcs st) n m) /\
      ldeg st' = Z.max (ldeg st) (top_degree used) /\ lord st' = Z.max (lord st) (top_order used).
  Proof.
    induction 1 as [|line r lines rs Hr F IH]; intros T st ref cur D O AG TR; cbv zeta.
    - exists st. repeat split; [|cbn; lia|cbn; lia]. intros n m. unfold plus_value, value_C, value_S. cbn. rewrite !Rplus_0_r. destruct (lcs st n m); reflexivity.
    - apply Forall_cons_iff in T as (Tr & T). cbn [read_loop]. pose proof Hr as (LEN & _).
      destruct (Z.ltb_spec 255 (Z.of_nat (length line))) as [?|_]; [lia|]. cbn [negb Z.eqb].
      destruct (resolve_v1_ok sdbl WS mkdate er line r (lent st) Hr) as (e & -> & He). cbn [bind].
      (* the record with its reference epoch, and what follows *)
      assert (X : exists r' ref' cur', dated ref (r :: rs) = r' :: dated ref' rs /\ after_gfct cur' rs /\ rl r' = rl r /\ rm r' = rm r /\ within N M r' = within N M r /\
        r' = (match rk r with gfc | gfct => r | _ => mkR (rk r) (rl r) (rm r) (rC r) (rS r) (rt0 r') (rt1 r) (rp r) end) /\
        (within N M r = true -> match rk r with gfc | gfct => True | _ => lcn st = rl r /\ lcm st = rm r /\ ldt st = years t (rt0 r') end) /\
        (match rk r with gfct => cur' = Some (rl r, rm r) /\ ref' = rt0 r | _ => cur' = cur /\ ref' = ref end)).
      { cbn [dated after_gfct] in *. destruct (rk r) eqn:K.
        - exists r, ref, cur. repeat split; auto.
        - exists r, (rt0 r), (Some (rl r, rm r)). repeat split; auto.
        - destruct AG as (-> & AG). rewrite <- K. fold (reref ref r). exists (reref ref r), ref, (Some (rl r, rm r)). refine (conj eq_refl (conj AG (conj eq_refl (conj eq_refl (conj eq_refl (conj _ (conj _ (conj eq_refl eq_refl)))))))); [unfold reref; rewrite K; reflexivity|]. intros W; apply within_le in W as (W1 & W2); exact (TR W1 W2).
        - destruct AG as (-> & AG). rewrite <- K. fold (reref ref r). exists (reref ref r), ref, (Some (rl r, rm r)). refine (conj eq_refl (conj AG (conj eq_refl (conj eq_refl (conj eq_refl (conj _ (conj _ (conj eq_refl eq_refl)))))))); [unfold reref; rewrite K; reflexivity|]. intros W; apply within_le in W as (W1 & W2); exact (TR W1 W2).
        - destruct AG as (-> & AG). rewrite <- K. fold (reref ref r). exists (reref ref r), ref, (Some (rl r, rm r)). refine (conj eq_refl (conj AG (conj eq_refl (conj eq_refl (conj eq_refl (conj _ (conj _ (conj eq_refl eq_refl)))))))); [unfold reref; rewrite K; reflexivity|]. intros W; apply within_le in W as (W1 & W2); exact (TR W1 W2). }
      destruct X as (r' & ref' & cur' & -> & AG' & El & Em & Ew & Er & Hst & Hc). cbn [filter]. rewrite Ew.
      destruct (within N M r) eqn:W.
      + specialize (Tr eq_refl). specialize (Hst eq_refl). rewrite (use_v1_in N M t (set_entry st e) r He W Tr r' Er Hst). cbn [bind]. change (0 + 0) with 0.
        set (st1 := match rk r with gfct => _ | _ => _ end).
        assert (Y : lcs st1 = one t r' (lcs st) /\ ldeg st1 = Z.max (ldeg st) (rl r) /\ lord st1 = Z.max (lord st) (rm r)) by (unfold st1; destruct (rk r); repeat split).
        destruct Y as (Y1 & Y2 & Y3).
        assert (TR' : tracks N M t ref' cur' st1).
        { unfold st1. destruct (rk r); destruct Hc as (-> & ->); cbn [tracks lcn lcm ldt set_entry]; try exact TR. intros _ _. repeat split. }
        destruct (IH T st1 ref' cur') as (st' & E & V & A & B); [rewrite Y2; lia|rewrite Y3; lia|exact AG'|exact TR'|].
        exists st'. split; [exact E|]. rewrite top_degree_cons, top_order_cons, El, Em. split; [intros n m; rewrite plus_value_cons, V; unfold plus_value; rewrite Y1; reflexivity|lia].
      + rewrite (use_v1_out N M t (set_entry st e) r He W). cbn [bind]. change (0 + 0) with 0.
        assert (TR' : tracks N M t ref' cur' (set_entry st e)).
        { destruct (rk r); destruct Hc as (-> & ->); cbn [tracks lcn lcm ldt set_entry]; try exact TR. intros W1 W2. assert (within N M r = true) by (apply within_le; tauto). congruence. }
        destruct (IH T (set_entry st e) ref' cur') as (st' & E & V & A & B); [exact D|exact O|exact AG'|exact TR'|]. exists st'. split; [exact E|]. split; [exact V|split; assumption].
  Qed.

  Theorem parse_v1_ok er max_degree N M t lines rs : M <= N <= max_degree -> Forall2 (says1 sdbl mkdate er) lines rs ->
    Forall (fun r => within N M r = true -> triangular r) rs -> after_gfct None rs -> forall ref,
    let used := filter (within N M) (dated ref rs) in
    exists cs, parse_data_v1 sdbl mkdate years (Some er) max_degree N M t lines = Ok (0, top_degree used, top_order used, cs) /\
      forall n m, cs n m = (value_C years t used n m, value_S years t used n m).
  Proof.
    intros B F T AG ref used. unfold parse_data_v1, parse_with. cbn [get bind]. destruct (Z.ltb_spec max_degree N); [lia|]. destruct (Z.ltb_spec N M); [lia|]. cbn [orb].
    destruct (read_v1 er N M t lines rs F T start ref None) as (st & -> & V & A & O); [cbn; lia|cbn; lia|exact AG|exact I|]. fold used in V, A, O. cbn [bind negb Z.eqb orb]. exists (lcs st).
    cbn [start ldeg lord] in A, O. rewrite A, O. rewrite !Z.max_r by (apply top_degree_nonneg || apply top_order_nonneg). split; [reflexivity|].
    intros n m. rewrite V. unfold plus_value, start, zero. cbn [lcs fst snd]. rewrite !Rplus_0_l. reflexivity.
  Qed.
End Loop.

(** code 0 means that every line was understood *)
Lemma read_loop_sound resolve use lines : forall st st' b, read_loop resolve use lines 0 st = Ok (st', 0, b) ->
  b = false -> Forall (fun line => Z.of_nat (length line) <= 255 /\ exists e e', resolve line e = Ok (0, e')) lines.
Proof.
  induction lines as [|line lines IH]; intros st st' b H B; [constructor|]. cbn [read_loop] in H.
  destruct (Z.ltb_spec 255 (Z.of_nat (length line))); [injection H as <- <-; discriminate|]. cbn [Z.eqb negb] in H.
  destruct (resolve line (lent st)) as [(n, e)| | |] eqn:E; try discriminate. cbn [bind] in H.
  destruct (use (set_entry st e)) as [st1| | |] eqn:U; try discriminate. cbn [bind] in H. change (0 + n) with n in H.
  assert (N : n = 0).
  { destruct lines as [|l2 lines]; cbn [read_loop] in H; [injection H; auto|]. destruct (255 <? _); [injection H as <- ->; reflexivity|].
    destruct (Z.eqb_spec n 0); [assumption|]. cbn [negb] in H. injection H; auto. }
  subst n. constructor; [split; [lia|eauto]|]. eapply IH; eauto.
Qed.
Lemma parse_with_sound resolve use D N M lines a b cs : parse_with resolve use D N M lines = Ok (0, a, b, cs) ->
  M <= N <= D /\ Forall (fun line => Z.of_nat (length line) <= 255 /\ exists e e', resolve line e = Ok (0, e')) lines.
Proof.
  unfold parse_with. destruct (Z.ltb_spec D N); [discriminate|]. destruct (Z.ltb_spec N M); [discriminate|]. cbn [orb].
  destruct (read_loop resolve use lines 0 start) as [((st, err), bad)| | |] eqn:E; try discriminate. cbn [bind].
  destruct (Z.eqb_spec err 0); cbn [negb orb]; [|discriminate]. destruct bad; [discriminate|]. intros H1. subst err. split; [lia|]. eapply read_loop_sound; eauto.
Qed.

(** the words of a line, for examples *)
Fixpoint words (s cur : list Z) : list (list Z) :=
  match s with
  | [] => match cur with [] => [] | _ => [rev cur] end
  | c :: t => if c =? 32 then match cur with [] => words t [] | _ => rev cur :: words t [] end else words t (c :: cur)
  end.
Lemma columns_more n s ws : columns s ws -> columns (repeat 32 n ++ s) ws.
Proof.
  intros H. inversion H; subst.
  - rewrite <- repeat_app. constructor.
  - rewrite app_assoc, <- repeat_app. constructor; assumption.
Qed.
Lemma words_columns s : forall cur, Forall (fun c => c <> 32) cur -> columns (rev cur ++ s) (words s cur).
Proof.
  induction s as [|c s IH]; intros cur F; cbn [words].
  - destruct cur as [|d cur]; [apply (col_nil 0)|]. apply (col_cons 0 (rev (d :: cur)) [] []); [|exact I|apply (col_nil 0)].
    split; [intros E; apply (f_equal (@length Z)) in E; rewrite rev_length in E; discriminate|apply Forall_rev, F].
  - destruct (Z.eqb_spec c 32) as [->|N].
    + specialize (IH [] (Forall_nil _)). cbn [rev app] in IH. apply (columns_more 1) in IH. destruct cur as [|d cur]; [exact IH|].
      apply (col_cons 0 (rev (d :: cur)) (32 :: s)); [|reflexivity|exact IH].
      split; [intros E; apply (f_equal (@length Z)) in E; rewrite rev_length in E; discriminate|apply Forall_rev, F].
    + specialize (IH (c :: cur) ltac:(constructor; assumption)). cbn [rev] in IH. rewrite <- app_assoc in IH. exact IH.
Qed.
