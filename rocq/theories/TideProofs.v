From Coq Require Import Reals ZArith List Bool Lia Lra Permutation.
From Verif Require Import Base StorageModel StorageSpec StorageProofs MatrixModel MatrixSpec MatrixProofs MatrixProps DoodsonModel DoodsonArgModel DoodsonArgSpec
  TideModel TideSpec.
Import ListNotations.
Open Scope Z_scope.

Ltac szd := refine (conj _ (conj _ (conj _ _))); auto.

Section Gen.
  Context {A : Type}.
  Variables add mul : A -> A -> A.
  Variable zero : A.
  Hypothesis add_comm : forall x y, add x y = add y x.
  Notation mem := (mem A).
  Notation cell := (cell A).

  Lemma kept_lw m d n k : sch (st m) = LwTriCol -> rows m = d + 1 -> cols m = d + 1 ->
    (kept m (n, k) <-> 0 <= k <= n /\ n <= d).
  Proof. intros E R C. unfold kept, stored. rewrite E, R, C. simpl. unfold rows, cols in *. lia. Qed.

  Lemma shows_reads (h : mem) d m f : sized h d m -> (shows h d m f <-> reads h m f).
  Proof.
    intros (V & E & R & C). unfold shows, reads. split; intros H.
    - intros i j K. apply (kept_lw m d) in K; auto. apply H; lia.
    - intros n k Hk Hn. apply H. apply (kept_lw m d); auto; lia.
  Qed.

  Lemma read_any (h : mem) m : valid h m -> reads h m (fun i j => match get A h m i j with Ok x => x | _ => None end).
  Proof.
    intros V i j K. destruct (valid_contents _ _ V) as (l & L). destruct (kept_cell _ _ _ _ _ V L K) as (c & Hc).
    rewrite (get_contents _ _ _ _ _ _ L Hc). reflexivity.
  Qed.

  Definition val (h : mem) (m : mat) i j : cell := match get A h m i j with Ok x => x | _ => None end.

  Definition termv (c s : cell) (fc fs : A) : cell := lift2 A add (lift2 A mul c (Some fc)) (lift2 A mul s (Some fs)).

  Lemma add_term (h : mem) d m c s fc fs old :
    sized h d m -> sized h d c -> sized h d s -> apart c m -> apart s m -> shows h d m old ->
    exists h', add_assign A add mul h m (term A c s fc fs) = Ok h' /\ sized h' d m /\
      shows h' d m (fun i j => lift2 A add (old i j) (termv (val h c i j) (val h s i j) fc fs)) /\
      others_unchanged h (ptr m) h'.
  Proof.
    intros Sm Sc Ss Ac As O. pose proof Sm as (V & E & R & C). pose proof Sc as (Vc & Ec & Rc & Cc). pose proof Ss as (Vs & Es & Rs & Cs).
    destruct (c05_add_assign A add mul h m (term A c s fc fs) (val h) old) as (h' & H1 & H2 & H3 & H4); auto.
    - intros n [<- | [<- | []]]; (refine (conj _ (conj _ _)); [assumption|congruence|]).
      + intros N Q. destruct Ac; congruence.
      + intros N Q. destruct As; congruence.
    - unfold term. simpl. rewrite Rc, Rs, Cc, Cs, !Z.eqb_refl. reflexivity.
    - simpl. lia.
    - intros n [<- | [<- | []]]; apply read_any; auto.
    - apply (proj1 (shows_reads h d m old Sm) O).
    - exists h'. split; [exact H1|]. assert (S' : sized h' d m) by (szd). split; [exact S'|]. split; [|exact H4].
      apply (shows_reads h' d m); auto. intros i j K. rewrite (H3 i j K). apply (kept_lw m d) in K; auto. simpl erows. simpl ecols.
      rewrite (proj2 (Z.ltb_lt i (rows c))), (proj2 (Z.ltb_lt j (cols c))) by lia. reflexivity.
  Qed.

  Lemma val_shows (h : mem) d m f n k : shows h d m f -> 0 <= k <= n -> n <= d -> val h m n k = f n k.
  Proof. intros S H1 H2. unfold val. rewrite S; auto. Qed.

  Lemma sized_frame (h : mem) acc h' d m : only_acc h acc h' -> sized h d m -> apart m (mC acc) -> apart m (mS acc) -> sized h' d m.
  Proof. intros O (V & E & R & C) A1 A2. szd. apply (proj1 (O m V A1 A2)). Qed.

  Lemma shows_frame (h : mem) acc h' d m f : only_acc h acc h' -> sized h d m -> apart m (mC acc) -> apart m (mS acc) -> shows h d m f -> shows h' d m f.
  Proof.
    intros O Z A1 A2 S n k Hk Hn. pose proof Z as (V & E & R & C). rewrite (proj2 (O m V A1 A2)); [apply S; auto|].
    apply (kept_lw m d); auto.
  Qed.

  Lemma only_refl (h : mem) acc : only_acc h acc h.
  Proof. intros m V _ _. auto. Qed.
  Lemma only_trans (h1 : mem) h2 h3 acc : only_acc h1 acc h2 -> only_acc h2 acc h3 -> only_acc h1 acc h3.
  Proof.
    intros A1 A2 m V B1 B2. destruct (A1 m V B1 B2) as (V2 & G2). destruct (A2 m V2 B1 B2) as (V3 & G3). split; auto.
    intros n k K. rewrite G3, G2; auto.
  Qed.
  Lemma unchanged_only (h : mem) h' acc m : (m = mC acc \/ m = mS acc) -> others_unchanged h (ptr m) h' -> only_acc h acc h'.
  Proof.
    intros E O n V A1 A2. apply O; auto. destruct E as [-> | ->]; [destruct A1|destruct A2]; auto.
  Qed.

  Lemma add_wave_ok h d acc w fc fs oC oS :
    pair_sized h d acc -> waves_sized h d [w] -> acc_alone acc [w] ->
    shows h d (mC acc) oC -> shows h d (mS acc) oS ->
    exists h', add_wave A add mul acc h (w, (fc, fs)) = Ok h' /\ pair_sized h' d acc /\ only_acc h acc h' /\
      shows h' d (mC acc) (fun i j => lift2 A add (oC i j) (termv (val h (mC (tcos w)) i j) (val h (mC (tsin w)) i j) fc fs)) /\
      shows h' d (mS acc) (fun i j => lift2 A add (oS i j) (termv (val h (mS (tcos w)) i j) (val h (mS (tsin w)) i j) fc fs)).
  Proof.
    intros (PC & PS) W (A1 & A2 & A3) OC OS. pose proof (W w (or_introl eq_refl)) as Ww. pose proof (A3 w (or_introl eq_refl)) as Aw.
    assert (I : forall m, In m (wave_mats w) <-> m = mC (tcos w) \/ m = mS (tcos w) \/ m = mC (tsin w) \/ m = mS (tsin w))
      by (intros m; unfold wave_mats; simpl; intuition).
    destruct (add_term h d (mC acc) (mC (tcos w)) (mC (tsin w)) fc fs oC) as (h1 & E1 & Z1 & S1 & U1); auto.
    { apply Ww, I; auto. } { apply Ww, I; auto. } { apply Aw, I; auto. } { apply Aw, I; auto. }
    assert (O1 : only_acc h acc h1) by (apply (unchanged_only h h1 acc (mC acc)); auto).
    assert (N : sized h1 d (mS acc) /\ shows h1 d (mS acc) oS).
    { destruct PS as (V & E & R & C). destruct (U1 (mS acc) V) as (V' & G); [destruct A2; auto|]. split; [szd|].
      intros n k Hk Hn. rewrite G; [apply OS; auto|]. apply (kept_lw (mS acc) d); auto. }
    destruct N as (Z2 & OS2).
    assert (F : forall m, In m (wave_mats w) -> sized h1 d m) by (intros m Hm; apply (sized_frame h acc); auto; apply Aw; auto).
    destruct (add_term h1 d (mS acc) (mS (tcos w)) (mS (tsin w)) fc fs oS) as (h2 & E2 & Z3 & S3 & U3); auto.
    { apply F, I; auto. } { apply F, I; auto. } { apply Aw, I; auto. } { apply Aw, I; auto. }
    assert (O2 : only_acc h1 acc h2) by (apply (unchanged_only h1 h2 acc (mS acc)); auto).
    exists h2. split; [unfold add_wave; cbn [fst snd]; rewrite E1; cbn [bind]; exact E2|].
    destruct Z1 as (V1 & EE1 & R1 & C1). destruct (U3 (mC acc) V1) as (V1' & G1); [destruct A1; auto|].
    refine (conj _ (conj _ (conj _ _))).
    - split; [szd|exact Z3].
    - apply (only_trans h h1); auto.
    - intros n k Hk Hn. rewrite G1; [apply S1; auto|]. apply (kept_lw (mC acc) d); auto.
    - intros n k Hk Hn. rewrite S3; auto. do 2 f_equal.
      assert (Q : forall m, In m (wave_mats w) -> val h1 m n k = val h m n k).
      { intros m Hm. unfold val. pose proof (Ww m Hm) as (Vm & Em & Rm & Cm). destruct (O1 m Vm) as (_ & G); [apply Aw; auto|apply Aw; auto|].
        rewrite G; auto. apply (kept_lw m d); auto. }
      rewrite !Q by (apply I; auto). reflexivity.
  Qed.

  (** values after the loop *)
  Fixpoint loopC (h : mem) (l : list (twave * (A * A))) (n k : Z) (x : cell) : cell :=
    match l with
    | [] => x
    | (w, (fc, fs)) :: t => loopC h t n k (lift2 A add x (termv (val h (mC (tcos w)) n k) (val h (mC (tsin w)) n k) fc fs))
    end.
  Fixpoint loopS (h : mem) (l : list (twave * (A * A))) (n k : Z) (x : cell) : cell :=
    match l with
    | [] => x
    | (w, (fc, fs)) :: t => loopS h t n k (lift2 A add x (termv (val h (mS (tcos w)) n k) (val h (mS (tsin w)) n k) fc fs))
    end.

  Lemma val_frame h acc h' d m n k : only_acc h acc h' -> sized h d m -> apart m (mC acc) -> apart m (mS acc) -> 0 <= k <= n -> n <= d ->
    val h' m n k = val h m n k.
  Proof.
    intros O (V & E & R & C) A1 A2 Hk Hn. unfold val. rewrite (proj2 (O m V A1 A2)); auto. apply (kept_lw m d); auto.
  Qed.

  Lemma loop_frame h acc h' d l n k : only_acc h acc h' -> waves_sized h d (map fst l) -> acc_alone acc (map fst l) -> 0 <= k <= n -> n <= d ->
    forall x, loopC h' l n k x = loopC h l n k x /\ loopS h' l n k x = loopS h l n k x.
  Proof.
    intros O W (_ & _ & AA) Hk Hn. induction l as [|(w, (fc, fs)) t IH]; intros x; [split; reflexivity|].
    cbn [map fst] in *. cbn [loopC loopS].
    assert (Q : forall m, In m (wave_mats w) -> val h' m n k = val h m n k).
    { intros m Hm. destruct (AA w (or_introl eq_refl) m Hm). apply (val_frame h acc h' d); auto. apply (W w (or_introl eq_refl) m Hm). }
    rewrite !Q by (unfold wave_mats; simpl; auto). split; apply IH; intros w' Hw'; [apply W|apply AA|apply W|apply AA]; right; auto.
  Qed.

  Lemma loop_ok d acc l : forall h oC oS, pair_sized h d acc -> waves_sized h d (map fst l) -> acc_alone acc (map fst l) ->
    shows h d (mC acc) oC -> shows h d (mS acc) oS ->
    exists h', fold_res (add_wave A add mul acc) l h = Ok h' /\ pair_sized h' d acc /\ only_acc h acc h' /\
      shows h' d (mC acc) (fun i j => loopC h l i j (oC i j)) /\ shows h' d (mS acc) (fun i j => loopS h l i j (oS i j)).
  Proof.
    induction l as [|(w, (fc, fs)) t IH]; intros h oC oS P W AA OC OS.
    - exists h. refine (conj _ (conj _ (conj _ (conj _ _)))); auto. apply only_refl.
    - assert (AA' : acc_alone acc [w]) by (destruct AA as (? & ? & AA); refine (conj _ (conj _ _)); auto; intros w' [<- | []]; apply AA; left; auto).
      assert (W' : waves_sized h d [w]) by (intros w' [<- | []]; apply W; left; auto).
      destruct (add_wave_ok h d acc w fc fs oC oS P W' AA' OC OS) as (h1 & E1 & P1 & O1 & S1 & S2).
      assert (WT : waves_sized h1 d (map fst t)).
      { intros w' Hw' m Hm. destruct AA as (? & ? & AA). destruct (AA w' (or_intror Hw') m Hm). apply (sized_frame h acc); auto.
        apply (W w' (or_intror Hw') m Hm). }
      assert (AT : acc_alone acc (map fst t)) by (destruct AA as (? & ? & AA); refine (conj _ (conj _ _)); auto; intros w' Hw'; apply AA; right; auto).
      destruct (IH h1 _ _ P1 WT AT S1 S2) as (h2 & E2 & P2 & O2 & S3 & S4).
      exists h2. cbn [fold_res]. rewrite E1. cbn [bind]. split; [exact E2|]. split; [exact P2|]. split; [apply (only_trans h h1); auto|].
      assert (WT0 : waves_sized h d (map fst t)) by (intros w' Hw'; apply W; right; auto).
      split; intros n k Hk Hn; [rewrite S3|rewrite S4]; auto; cbn [loopC loopS]; apply f_equal;
        apply (loop_frame h acc h1 d t n k O1 WT0 AT Hk Hn).
  Qed.

  Lemma clear_ok h d acc : pair_sized h d acc -> apart (mC acc) (mS acc) -> apart (mS acc) (mC acc) ->
    exists h', clear A zero h acc = Ok h' /\ pair_sized h' d acc /\ only_acc h acc h' /\
      shows h' d (mC acc) (fun _ _ => Some zero) /\ shows h' d (mS acc) (fun _ _ => Some zero).
  Proof.
    intros (PC & PS) A1 A2. pose proof PC as (VC & EC & RC & CC). pose proof PS as (VS & ES & RS & CS).
    destruct (c05_fill A h (mC acc) zero VC) as (h1 & E1 & V1 & F1 & U1).
    destruct (U1 (mS acc) VS) as (VS1 & GS1); [destruct A2; auto|].
    destruct (c05_fill A h1 (mS acc) zero VS1) as (h2 & E2 & V2 & F2 & U2).
    destruct (U2 (mC acc) V1) as (VC2 & GC2); [destruct A1; auto|].
    exists h2. unfold clear. rewrite E1. cbn [bind]. split; [exact E2|].
    assert (ZC : sized h2 d (mC acc)) by (szd). assert (ZS : sized h2 d (mS acc)) by (szd).
    split; [split; auto|]. split; [|split].
    - apply (only_trans h h1); [apply (unchanged_only h h1 acc (mC acc))|apply (unchanged_only h1 h2 acc (mS acc))]; auto.
    - intros n k Hk Hn. assert (K : kept (mC acc) (n, k)) by (apply (kept_lw (mC acc) d); auto). rewrite GC2; auto.
    - apply (shows_reads h2 d); auto.
  Qed.

  Lemma evaluate_ok h d acc l : pair_sized h d acc -> waves_sized h d (map fst l) -> acc_alone acc (map fst l) ->
    exists h', evaluate A add mul zero h acc l = Ok h' /\ pair_sized h' d acc /\ only_acc h acc h' /\
      shows h' d (mC acc) (fun i j => loopC h l i j (Some zero)) /\ shows h' d (mS acc) (fun i j => loopS h l i j (Some zero)).
  Proof.
    intros P W AA. pose proof AA as (A1 & A2 & A3).
    destruct (clear_ok h d acc P A1 A2) as (h1 & E1 & P1 & O1 & S1 & S2).
    assert (W1 : waves_sized h1 d (map fst l)).
    { intros w Hw m Hm. destruct (A3 w Hw m Hm). apply (sized_frame h acc); auto. apply (W w Hw m Hm). }
    destruct (loop_ok d acc l h1 _ _ P1 W1 AA S1 S2) as (h2 & E2 & P2 & O2 & S3 & S4).
    exists h2. unfold evaluate. rewrite E1. cbn [bind]. split; [exact E2|]. split; [exact P2|]. split; [apply (only_trans h h1); auto|].
    split; intros n k Hk Hn; [rewrite S3|rewrite S4]; auto; apply f_equal; apply (loop_frame h acc h1 d l n k O1 W AA Hk Hn).
  Qed.

  (** a wave of another size: the assertion fails *)
  Definition fits (m c s : mat) : Prop := rows c = rows s /\ cols c = cols s /\ rows m = rows c /\ cols m = cols c.
  Lemma unfit_abort (h : mem) m c s fc fs : ~ fits m c s -> add_assign A add mul h m (term A c s fc fs) = Abort.
  Proof.
    intros N. unfold add_assign, term. simpl. destruct (Z.eqb_spec (rows c) (rows s)); [|reflexivity].
    destruct (Z.eqb_spec (cols c) (cols s)); [|reflexivity]. cbn [andb].
    destruct (Z.eqb_spec (rows m) (rows c)); [|reflexivity]. destruct (Z.eqb_spec (cols m) (cols c)); [|reflexivity].
    exfalso. apply N. unfold fits. auto.
  Qed.
  Lemma fits_dec m c s : fits m c s \/ ~ fits m c s.
  Proof. unfold fits. lia. Qed.

  (** a matrix of some size *)
  Definition some_size (h : mem) (m : mat) : Prop := exists e, 0 <= e /\ sized h e m.
  Lemma fits_sized (h : mem) d m c s : sized h d m -> some_size h c -> some_size h s -> (fits m c s <-> sized h d c /\ sized h d s).
  Proof.
    intros (V & E & R & C) (e & ? & Vc & Ec & Rc & Cc) (e' & ? & Vs & Es & Rs & Cs). unfold fits. split.
    - intros (? & ? & ? & ?). split; szd; lia.
    - intros ((_ & _ & ? & ?) & (_ & _ & ? & ?)). lia.
  Qed.

  Lemma add_wave_abort (h : mem) d acc w f : pair_sized h d acc -> acc_alone acc [w] ->
    (forall m, In m (wave_mats w) -> some_size h m) ->
    (exists m, In m (wave_mats w) /\ ~ sized h d m) -> add_wave A add mul acc h (w, f) = Abort.
  Proof.
    intros (PC & PS) AA V (m & Hm & Nm). destruct f as (fc, fs).
    assert (I : forall m, In m (wave_mats w) <-> m = mC (tcos w) \/ m = mS (tcos w) \/ m = mC (tsin w) \/ m = mS (tsin w))
      by (intros x; unfold wave_mats; simpl; intuition).
    unfold add_wave. cbn [fst snd].
    destruct (fits_dec (mC acc) (mC (tcos w)) (mC (tsin w))) as [F1|F1]; [|rewrite unfit_abort by auto; reflexivity].
    destruct (fits_dec (mS acc) (mS (tcos w)) (mS (tsin w))) as [F2|F2].
    - exfalso. apply Nm.
      assert (VV : forall m, m = mC (tcos w) \/ m = mS (tcos w) \/ m = mC (tsin w) \/ m = mS (tsin w) -> some_size h m) by (intros x Hx; apply V, I; auto).
      apply (fits_sized h d) in F1; auto. apply (fits_sized h d) in F2; auto. apply I in Hm. destruct Hm as [-> | [-> | [-> | ->]]]; tauto.
    - assert (VV : forall m, m = mC (tcos w) \/ m = mS (tcos w) \/ m = mC (tsin w) \/ m = mS (tsin w) -> some_size h m) by (intros x Hx; apply V, I; auto).
      apply (fits_sized h d) in F1; auto. destruct F1 as (Q1 & Q2). destruct AA as (A1 & A2 & A3). pose proof (A3 w (or_introl eq_refl)) as Aw.
      destruct (add_term h d (mC acc) (mC (tcos w)) (mC (tsin w)) fc fs (val h (mC acc))) as (h1 & E1 & _); auto.
      { apply Aw, I; auto. } { apply Aw, I; auto. }
      { apply (shows_reads h d); auto. apply read_any. apply PC. }
      rewrite E1. cbn [bind]. apply unfit_abort; auto.
  Qed.

  Lemma some_frame (h : mem) acc h' m : only_acc h acc h' -> apart m (mC acc) -> apart m (mS acc) -> some_size h m -> some_size h' m.
  Proof. intros O A1 A2 (e & He & S). exists e. split; auto. apply (sized_frame h acc); auto. Qed.

  Lemma unsized_frame (h : mem) acc h' d m : only_acc h acc h' -> apart m (mC acc) -> apart m (mS acc) -> valid h m -> ~ sized h d m -> ~ sized h' d m.
  Proof. intros O A1 A2 V N (V' & E & R & C). apply N. szd. Qed.

  Lemma all_or_not {X} (P : X -> Prop) l : (forall x, In x l -> P x \/ ~ P x) -> (forall x, In x l -> P x) \/ (exists x, In x l /\ ~ P x).
  Proof.
    induction l as [|a l IH]; intros D; [left; intros x []|]. destruct (D a (or_introl eq_refl)) as [Pa|Na]; [|right; exists a; simpl; auto].
    destruct IH as [H|(x & Hx & Nx)]; [intros x Hx; apply D; right; auto| |right; exists x; simpl; auto].
    left. intros x [<- | Hx]; auto.
  Qed.

  Lemma loop_abort d acc l : forall (h : mem), pair_sized h d acc -> acc_alone acc (map fst l) ->
    (forall w, In w (map fst l) -> forall m, In m (wave_mats w) -> some_size h m) ->
    (exists w m, In w (map fst l) /\ In m (wave_mats w) /\ ~ sized h d m) -> fold_res (add_wave A add mul acc) l h = Abort.
  Proof.
    induction l as [|(w, (fc, fs)) t IH]; intros h P AA V (w0 & m0 & H0 & H1 & H2); [destruct H0|].
    assert (AA' : acc_alone acc [w]) by (destruct AA as (? & ? & AA); refine (conj _ (conj _ _)); auto; intros w' [<- | []]; apply AA; left; auto).
    pose proof AA as (A1 & A2 & A3).
    assert (Dec : forall m, In m (wave_mats w) -> sized h d m \/ ~ sized h d m).
    { intros x Hx. destruct (V w (or_introl eq_refl) x Hx) as (e & _ & Ve & Ee & Re & Ce).
      destruct (Z.eq_dec e d) as [-> | Ne]; [left; szd|right]. intros (_ & _ & R' & _). lia. }
    assert (All : (forall m, In m (wave_mats w) -> sized h d m) \/ (exists m, In m (wave_mats w) /\ ~ sized h d m)).
    { apply all_or_not; auto. }
    cbn [fold_res]. destruct All as [All|All].
    - assert (W' : waves_sized h d [w]) by (intros w' [<- | []]; apply All).
      destruct (add_wave_ok h d acc w fc fs (val h (mC acc)) (val h (mS acc)) P W' AA') as (h1 & E1 & P1 & O1 & _).
      { apply (shows_reads h d); [apply P|]. apply read_any. apply P. } { apply (shows_reads h d); [apply P|]. apply read_any. apply P. }
      rewrite E1. cbn [bind]. apply IH; auto.
      + refine (conj _ (conj _ _)); auto. intros w' Hw'. apply A3. right; auto.
      + intros w' Hw' m Hm. destruct (A3 w' (or_intror Hw') m Hm). apply (some_frame h acc); auto. apply (V w' (or_intror Hw') m Hm).
      + destruct H0 as [<- | H0]; [exfalso; apply H2, All, H1|]. exists w0, m0. split; auto. split; auto.
        destruct (A3 w0 (or_intror H0) m0 H1). apply (unsized_frame h acc h1 d); auto. destruct (V w0 (or_intror H0) m0 H1) as (? & _ & ? & _); auto.
    - rewrite (add_wave_abort h d acc w (fc, fs)); auto. apply V. left; auto.
  Qed.

  Lemma evaluate_abort (h : mem) d acc l : pair_sized h d acc -> acc_alone acc (map fst l) ->
    (forall w, In w (map fst l) -> forall m, In m (wave_mats w) -> some_size h m) ->
    (exists w m, In w (map fst l) /\ In m (wave_mats w) /\ ~ sized h d m) -> evaluate A add mul zero h acc l = Abort.
  Proof.
    intros P AA V (w0 & m0 & H0 & H1 & H2). pose proof AA as (A1 & A2 & A3).
    destruct (clear_ok h d acc P A1 A2) as (h1 & E1 & P1 & O1 & _). unfold evaluate. rewrite E1. cbn [bind].
    apply (loop_abort d acc l h1 P1 AA).
    - intros w Hw m Hm. destruct (A3 w Hw m Hm). apply (some_frame h acc); auto. apply (V w Hw m Hm).
    - exists w0, m0. split; auto. split; auto. destruct (A3 w0 H0 m0 H1). apply (unsized_frame h acc h1 d); auto.
      destruct (V w0 H0 m0 H1) as (? & _ & ? & _); auto.
  Qed.
End Gen.
