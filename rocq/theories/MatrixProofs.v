(** Proofs about the matrix class model. *)
From Coq Require Import ZArith List Bool Lia.
From Verif Require Import Base StorageModel StorageSpec StorageProofs MatrixModel MatrixSpec.
Import ListNotations.
Open Scope Z_scope.

Section Proofs.
  Context {A : Type}.
  Variables add mul : A -> A -> A.
  Notation mem := (mem A).
  Notation cell := (cell A).
  Notation load := (load A).
  Notation store := (store A).
  Notation memcpy := (memcpy A).

  Implicit Types (h : mem) (l : list cell) (m : mat).

  (** ** heap primitives *)
  Lemma load_live h q l k c :
    nth_error h q = Some (Live l) -> znth l k = Some c -> load h (Some q) k = Ok c.
  Proof. intros E1 E2. unfold MatrixModel.load. rewrite E1, E2. reflexivity. Qed.

  Lemma store_live h q l k c :
    nth_error h q = Some (Live l) -> 0 <= k < Z.of_nat (length l) ->
    store h (Some q) k c = Ok (upd h q (Live (upd l (Z.to_nat k) c))).
  Proof.
    intros E1 E2. unfold MatrixModel.store. rewrite E1.
    destruct (znth_in_range l k E2) as (x & ->). reflexivity.
  Qed.

  Lemma nth_lt {X} (l : list X) n x : nth_error l n = Some x -> (n < length l)%nat.
  Proof. intros E. apply nth_error_Some. congruence. Qed.

  Lemma upd_upd {X} (l : list X) n (x y : X) : upd (upd l n x) n y = upd l n y.
  Proof. revert n; induction l; destruct n; simpl; congruence. Qed.

  Lemma upd_same {X} (l : list X) n (x : X) : nth_error l n = Some x -> upd l n x = l.
  Proof. revert n; induction l; destruct n; simpl; intros H; try discriminate; f_equal; auto; congruence. Qed.

  Lemma znth_upd {X} (l : list X) k k' (x : X) :
    0 <= k < Z.of_nat (length l) ->
    znth (upd l (Z.to_nat k) x) k' = if k' =? k then Some x else znth l k'.
  Proof.
    intros Hk. unfold znth. destruct (Z.ltb_spec k' 0).
    - destruct (Z.eqb_spec k' k); [lia|reflexivity].
    - rewrite nth_error_upd. destruct (Z.eqb_spec k' k).
      + subst. rewrite Nat.eqb_refl. destruct (Nat.ltb_spec (Z.to_nat k) (length l)); [reflexivity|lia].
      + destruct (Nat.eqb_spec (Z.to_nat k') (Z.to_nat k)); [lia|reflexivity].
  Qed.

  (** ** the loop lemma *)
  Lemma loop_spec_gen (X : Type) (F : mem -> X -> res mem) (off : X -> Z) (W : X -> cell) h q l xs :
    nth_error h q = Some (Live l) ->
    (forall x, In x xs -> 0 <= off x < Z.of_nat (length l)) ->
    NoDup (map off xs) ->
    (forall h' l' x, In x xs -> nth_error h' q = Some (Live l') -> length l' = length l ->
       znth l' (off x) = znth l (off x) ->
       (forall p, p <> q -> nth_error h' p = nth_error h p) ->
       F h' x = store h' (Some q) (off x) (W x)) ->
    exists l', fold_res F xs h = Ok (upd h q (Live l')) /\ length l' = length l /\
      (forall x, In x xs -> znth l' (off x) = Some (W x)) /\
      (forall k, ~ In k (map off xs) -> znth l' k = znth l k).
  Proof.
    intros Hq Hoff Hnd HF.
    (* generalise over the current contents *)
    enough (G : forall ys l1, (forall y, In y ys -> In y xs) -> NoDup (map off ys) ->
      length l1 = length l -> (forall y, In y ys -> znth l1 (off y) = znth l (off y)) ->
      exists l', fold_res F ys (upd h q (Live l1)) = Ok (upd h q (Live l')) /\ length l' = length l /\
      (forall x, In x ys -> znth l' (off x) = Some (W x)) /\
      (forall k, ~ In k (map off ys) -> znth l' k = znth l1 k)).
    { destruct (G xs l) as (l' & E & ?); auto. exists l'. rewrite (upd_same h q) in E by assumption. auto. }
    induction ys as [|y ys IH]; intros l1 Hsub Hn Hlen Hag.
    - exists l1. simpl. repeat split; auto. intros x [].
    - simpl. inversion Hn as [|? ? Hni Hn']; subst.
      assert (Hlt : (q < length h)%nat) by (eapply nth_lt; eauto).
      assert (Hy : 0 <= off y < Z.of_nat (length l1)) by (rewrite Hlen; apply Hoff, Hsub; left; reflexivity).
      rewrite (HF (upd h q (Live l1)) l1 y).
      + rewrite (store_live _ _ l1) by (try apply nth_error_upd_eq; assumption).
        simpl. rewrite upd_upd.
        destruct (IH (upd l1 (Z.to_nat (off y)) (W y))) as (l' & E & E1 & E2 & E3).
        * intros z Hz; apply Hsub; right; assumption.
        * assumption.
        * rewrite upd_length; assumption.
        * intros z Hz. rewrite znth_upd by assumption.
          destruct (Z.eqb_spec (off z) (off y)) as [e|]; [|apply Hag; right; assumption].
          exfalso. apply Hni. rewrite <- e. apply in_map. assumption.
        * exists l'. split; [exact E|]. split; [exact E1|]. split.
          -- intros x [->|Hx]; [|auto].
             rewrite E3 by assumption. rewrite znth_upd by assumption.
             rewrite Z.eqb_refl. reflexivity.
          -- intros k Hk. simpl in Hk. rewrite E3 by tauto.
             rewrite znth_upd by assumption.
             destruct (Z.eqb_spec k (off y)); [exfalso; apply Hk; left; congruence|reflexivity].
      + apply Hsub; left; reflexivity.
      + apply nth_error_upd_eq; assumption.
      + assumption.
      + apply Hag; left; reflexivity.
      + intros p Hp. apply nth_error_upd_ne; assumption.
  Qed.

  (** ** facts about storages *)
  Definition wf_st (s : storage) : Prop :=
    legal_dims (sch s) (srows s) (scols s) /\ scols_field s = scols s.

  Lemma st_eta s : wf_st s -> s = mkStorage (sch s) (srows s) (scols s).
  Proof. destruct s as [k r c]. unfold wf_st, scols. simpl. intros [_ <-]. reflexivity. Qed.

  Lemma wf_mk k r c : legal_dims k r c -> wf_st (mkStorage k r c).
  Proof.
    unfold wf_st, scols, legal_dims; simpl. intros (H1 & H2 & H3).
    destruct k; simpl; repeat split; auto; try lia;
      try (specialize (H3 (or_introl eq_refl)); lia); try (specialize (H3 (or_intror eq_refl)); lia).
  Qed.

  Lemma scols_mk k r c : legal_dims k r c -> scols (mkStorage k r c) = c.
  Proof. intros H. destruct (wf_mk k r c H) as [_ E]. simpl in E. congruence. Qed.

  Lemma num_elements_nonneg s : wf_st s -> 0 <= num_elements s.
  Proof.
    intros Hw. rewrite (st_eta s Hw). destruct Hw as [Hl _].
    rewrite <- slice_total by assumption.
    rewrite <- (slice_0 (mkStorage (sch s) (srows s) (scols s))) at 1.
    pose proof (num_slices_nonneg _ _ _ Hl).
    apply (tile_mono _ _ _ H (slice_0 _) (slice_step_at _ _ _ Hl)); lia.
  Qed.

  Lemma index_bij s : wf_st s ->
    bijection_onto (stored (sch s) (srows s) (scols s)) (index s) (num_elements s).
  Proof.
    intros Hw. pose proof (st_eta s Hw) as E. destruct Hw as [Hl _].
    pose proof (index_bijection _ _ _ Hl) as B. rewrite <- E in B. exact B.
  Qed.

  Lemma tile s : wf_st s ->
    forall i e, 0 <= i < num_slices s ->
      (0 <= e < slice_len s i <-> 0 <= e /\ stored (sch s) (srows s) (scols s) (slice_position (sch s) i e)) /\
      (0 <= e < slice_len s i ->
       index s (fst (slice_position (sch s) i e)) (snd (slice_position (sch s) i e)) = slice s i + e).
  Proof.
    intros Hw i e. pose proof (st_eta s Hw) as E.
    destruct Hw as [Hl _]. destruct (slices_tile _ _ _ Hl) as (_ & _ & _ & H4 & H5).
    rewrite <- E in H4, H5. intros Hi. split; [apply H4|apply H5]; assumption.
  Qed.

  Lemma valid_wf h m : valid h m -> wf_st (st m).
  Proof. intros (H1 & H2 & _). split; assumption. Qed.

  Lemma nelem_nonneg h m : valid h m -> 0 <= nelem m.
  Proof. intros H. apply num_elements_nonneg. eapply valid_wf; eauto. Qed.

  Lemma in_slice s i j : wf_st s -> stored (sch s) (srows s) (scols s) (i, j) ->
    exists q e, 0 <= q < num_slices s /\ 0 <= e < slice_len s q /\ slice_position (sch s) q e = (i, j) /\
      index s i j = slice s q + e.
  Proof.
    intros Hw Hs. pose proof (st_eta s Hw) as E.
    destruct (stored_in_slice _ _ _ i j (proj1 Hw) Hs) as (q & e & H1 & H2 & H3).
    rewrite <- E in H1, H2. exists q, e. repeat split; try tauto.
    destruct (tile s Hw q e H1) as [_ H4]. specialize (H4 H2). rewrite H3 in H4. exact H4.
  Qed.

  Lemma slice_range s q e : wf_st s -> 0 <= q < num_slices s -> 0 <= e < slice_len s q ->
    0 <= slice s q + e < num_elements s.
  Proof.
    intros Hw Hq He. destruct (tile s Hw q e Hq) as [H1 H2]. rewrite <- (H2 He).
    apply (index_bij s Hw). rewrite <- surjective_pairing. apply H1. assumption.
  Qed.

  Lemma slice_inj s q e q' e' : wf_st s -> 0 <= q < num_slices s -> 0 <= e < slice_len s q ->
    0 <= q' < num_slices s -> 0 <= e' < slice_len s q' ->
    slice s q + e = slice s q' + e' -> q = q' /\ e = e'.
  Proof.
    intros Hw Hq He Hq' He' E0. pose proof (st_eta s Hw) as E. destruct Hw as [Hl _].
    pose proof (num_slices_nonneg _ _ _ Hl) as Hn.
    pose proof (tile_inj _ _ _ Hn (slice_0 _) (slice_step_at _ _ _ Hl) q e q' e') as T.
    rewrite <- E in T. auto.
  Qed.

  (** ** contents of an object *)
  Definition contents h m l : Prop :=
    match ptr m with
    | None => l = []
    | Some p => nth_error h p = Some (Live l)
    end /\ Z.of_nat (length l) = cap m.

  Lemma valid_contents h m : valid h m -> exists l, contents h m l.
  Proof.
    intros (_ & _ & _ & H). unfold contents. destruct (ptr m).
    - destruct H as (l & H1 & H2). eauto.
    - exists []. rewrite H. auto.
  Qed.

  Lemma load_contents h m l k c : contents h m l -> znth l k = Some c -> load h (ptr m) k = Ok c.
  Proof.
    unfold contents. intros [H1 H2] H. destruct (ptr m).
    - eapply load_live; eauto.
    - subst. apply znth_Some in H. simpl in H. lia.
  Qed.

  Lemma get_contents h m l i j c : contents h m l -> znth l (index (st m) i j) = Some c ->
    get A h m i j = Ok c.
  Proof. apply load_contents. Qed.

  Lemma kept_index h m i j : valid h m -> kept m (i, j) -> 0 <= index (st m) i j < nelem m.
  Proof. intros Hv Hk. apply (index_bij _ (valid_wf _ _ Hv)). exact Hk. Qed.

  Lemma kept_cell h m l i j : valid h m -> contents h m l -> kept m (i, j) ->
    exists c, znth l (index (st m) i j) = Some c.
  Proof.
    intros Hv [_ Hc] Hk. apply znth_in_range. pose proof (kept_index _ _ _ _ Hv Hk).
    destruct Hv as (_ & _ & Hn & _). lia.
  Qed.

  Lemma reads_cell h m l f i j : valid h m -> contents h m l -> reads h m f -> kept m (i, j) ->
    znth l (index (st m) i j) = Some (f i j).
  Proof.
    intros Hv Hc Hr Hk. destruct (kept_cell _ _ _ _ _ Hv Hc Hk) as (c & E).
    rewrite E. f_equal. pose proof (get_contents _ _ _ _ _ _ Hc E) as G.
    rewrite (Hr i j Hk) in G. congruence.
  Qed.

  (** ** memcpy *)
  Lemma zrange_nonpos n : n <= 0 -> zrange n = [].
  Proof. intros H. unfold zrange. replace (Z.to_nat n) with 0%nat by lia. reflexivity. Qed.

  Lemma memcpy_0 h d doff s soff n : n <= 0 -> memcpy h d doff s soff n = Ok h.
  Proof. intros H. unfold MatrixModel.memcpy. rewrite zrange_nonpos by assumption. reflexivity. Qed.

  Lemma memcpy_spec h d doff s soff n ld ls :
    d <> s -> nth_error h d = Some (Live ld) -> nth_error h s = Some (Live ls) ->
    0 <= doff -> doff + n <= Z.of_nat (length ld) -> 0 <= soff -> soff + n <= Z.of_nat (length ls) ->
    exists l', memcpy h (Some d) doff (Some s) soff n = Ok (upd h d (Live l')) /\ length l' = length ld /\
      (forall k, 0 <= k < n -> znth l' (doff + k) = znth ls (soff + k)) /\
      (forall k, ~ (doff <= k < doff + n) -> znth l' k = znth ld k).
  Proof.
    intros Hne Hd Hs H1 H2 H3 H4. unfold MatrixModel.memcpy.
    destruct (loop_spec_gen Z (fun h k => c <- load h (Some s) (soff + k) ;; store h (Some d) (doff + k) c)
                (fun k => doff + k) (fun k => match znth ls (soff + k) with Some c => c | None => None end)
                h d ld (zrange n)) as (l' & E1 & E2 & E3 & E4).
    - assumption.
    - intros x Hx. apply in_zrange in Hx. lia.
    - apply NoDup_map_inj; [intros; lia|apply NoDup_zrange].
    - intros h' l' x Hx Hl' _ _ Hfr. apply in_zrange in Hx.
      destruct (znth_in_range ls (soff + x)) as (c & Ec); [lia|].
      rewrite (load_live h' s ls _ c); [|rewrite Hfr; auto|assumption].
      simpl. rewrite Ec. reflexivity.
    - exists l'. repeat split; auto.
      + intros k Hk. rewrite (E3 k) by (apply in_zrange; assumption).
        destruct (znth_in_range ls (soff + k)) as (c & Ec); [lia|]. rewrite Ec. reflexivity.
      + intros k Hk. apply E4. rewrite in_map_iff. intros (x & Hx & Hin). apply in_zrange in Hin. lia.
  Qed.

  (** ** effect of an operation that replaces object [m] by [m'] *)
  Definition effect h (op_ : option nat) h' m' : Prop :=
    valid h' m' /\
    (forall q, Some q <> op_ -> (q < length h)%nat -> nth_error h' q = nth_error h q) /\
    (ptr m' = op_ \/ exists p', ptr m' = Some p' /\ (length h <= p')%nat) /\
    (forall q l, nth_error h' q = Some (Live l) ->
       Some q = ptr m' \/ ((q < length h)%nat /\ Some q <> op_)).

  Lemma alloc_nth h n h' p : alloc A h n = (h', p) ->
    p = length h /\ nth_error h' p = Some (Live (repeat None (Z.to_nat n))) /\
    length h' = S (length h) /\
    (forall q, (q < length h)%nat -> nth_error h' q = nth_error h q).
  Proof.
    unfold alloc. intros E. inversion E; subst. repeat split.
    - rewrite nth_error_app2, Nat.sub_diag by lia. reflexivity.
    - rewrite app_length. simpl. lia.
    - intros q Hq. apply nth_error_app1. assumption.
  Qed.

  Lemma dims_ok_legal k r c : 0 <= r -> 0 <= c -> dims_ok k r c = true -> legal_dims k r c.
  Proof.
    unfold legal_dims, dims_ok. intros H1 H2 H. repeat split; try lia.
    intros [->| ->]; apply Z.eqb_eq; assumption.
  Qed.
  Lemma legal_dims_ok k r c : legal_dims k r c -> dims_ok k r c = true.
  Proof.
    unfold legal_dims, dims_ok. intros (H1 & H2 & H). destruct k; try reflexivity; apply Z.eqb_eq; auto.
  Qed.

  Lemma valid_mk h k r c p n : legal_dims k r c -> num_elements (mkStorage k r c) <= n ->
    match p with None => n = 0 | Some q => exists l, nth_error h q = Some (Live l) /\ Z.of_nat (length l) = n end ->
    valid h (mkMat (mkStorage k r c) p n).
  Proof.
    intros Hl Hn Hp. destruct (wf_mk k r c Hl) as [W1 W2].
    repeat split; try apply W1; auto.
  Qed.

  Lemma ctor_spec h k r c : legal_dims k r c ->
    exists h' m, ctor A h k r c = Ok (h', m) /\ effect h None h' m /\
      rows m = r /\ cols m = c /\ sch (st m) = k.
  Proof.
    intros Hl. unfold ctor. rewrite (legal_dims_ok _ _ _ Hl).
    pose proof (num_elements_nonneg _ (wf_mk _ _ _ Hl)) as Hn.
    destruct (Z.ltb_spec 0 (num_elements (mkStorage k r c))).
    - destruct (alloc A h (num_elements (mkStorage k r c))) as [h' p] eqn:E.
      apply alloc_nth in E. destruct E as (-> & E1 & E2 & E3).
      eexists _, _. split; [reflexivity|]. split; [|split; [reflexivity|split; [apply scols_mk; assumption|reflexivity]]].
      split; [|split; [|split]].
      + apply valid_mk; auto. lia. eexists. split; [exact E1|]. rewrite repeat_length. lia.
      + intros q _ Hq. auto.
      + right. exists (length h). auto.
      + intros q l Hq. simpl. destruct (Nat.eq_dec q (length h)); [left; congruence|].
        right. split; [|discriminate]. apply nth_lt in Hq. lia.
    - eexists _, _. split; [reflexivity|]. split; [|split; [reflexivity|split; [apply scols_mk; assumption|reflexivity]]].
      split; [|split; [|split]].
      + apply valid_mk; auto; lia.
      + auto.
      + left; reflexivity.
      + intros q l Hq. right. split; [eapply nth_lt; eauto|discriminate].
  Qed.

  Lemma free_live h q l : nth_error h q = Some (Live l) -> free A h q = Ok (upd h q Freed).
  Proof. intros E. unfold free. rewrite E. reflexivity. Qed.

  Lemma free_opt_spec h m : valid h m ->
    exists h', free_opt A h (ptr m) = Ok h' /\ length h' = length h /\
      (forall q, Some q <> ptr m -> nth_error h' q = nth_error h q) /\
      (forall q, Some q = ptr m -> nth_error h' q = Some Freed).
  Proof.
    intros (_ & _ & _ & H). unfold free_opt. destruct (ptr m) as [p|].
    - destruct H as (l & E & _). rewrite (free_live _ _ _ E). eexists. split; [reflexivity|].
      split; [apply upd_length|]. split.
      + intros q Hq. apply nth_error_upd_ne. congruence.
      + intros q Hq. inversion Hq; subst. apply nth_error_upd_eq. eapply nth_lt; eauto.
    - eexists. split; [reflexivity|]. repeat split; auto. discriminate.
  Qed.

  Lemma valid_frame h h' m : valid h m ->
    (forall q, Some q = ptr m -> nth_error h' q = nth_error h q) -> valid h' m.
  Proof.
    intros (H1 & H2 & H3 & H4) Hf. repeat split; try apply H1; auto.
    destruct (ptr m) as [p|]; [|assumption]. destruct H4 as (l & E & L). exists l. rewrite Hf; auto.
  Qed.

  Lemma get_frame h h' m i j : (forall q, Some q = ptr m -> nth_error h' q = nth_error h q) ->
    get A h' m i j = get A h m i j.
  Proof.
    intros Hf. unfold get, MatrixModel.load. destruct (ptr m); [|reflexivity]. rewrite Hf; auto.
  Qed.

  (** copy construction *)
  Lemma copy_ctor_spec h src : valid h src ->
    exists h' m, copy_ctor A h src = Ok (h', m) /\ effect h None h' m /\
      st m = st src /\ ptr m = Some (length h) /\
      (forall i j, kept src (i, j) -> get A h' m i j = get A h src i j).
  Proof.
    intros Hv. unfold copy_ctor. pose proof (nelem_nonneg _ _ Hv) as Hn.
    destruct (alloc A h (nelem src)) as [h1 p] eqn:E.
    apply alloc_nth in E. destruct E as (-> & E1 & E2 & E3).
    destruct (valid_contents _ _ Hv) as (l & Hc).
    assert (Hnc : nelem src <= cap src) by apply Hv.
    assert (Hcopy : exists l', MatrixModel.memcpy A h1 (Some (length h)) 0 (ptr src) 0 (nelem src)
              = Ok (upd h1 (length h) (Live l')) /\ Z.of_nat (length l') = nelem src /\
              forall k, 0 <= k < nelem src -> znth l' k = znth l k).
    { destruct Hc as [Hp Hlen]. destruct (ptr src) as [s|] eqn:Es.
      - pose proof (nth_lt _ _ _ Hp).
        destruct (memcpy_spec h1 (length h) 0 s 0 (nelem src) (repeat None (Z.to_nat (nelem src))) l) as (l' & F1 & F2 & F3 & _); eauto.
        + lia.
        + rewrite E3 by lia. exact Hp.
        + lia.
        + rewrite repeat_length. lia.
        + lia.
        + lia.
        + exists l'. split; [exact F1|]. split; [rewrite F2, repeat_length; lia|].
          intros k Hk. apply (F3 k Hk).
      - subst l. simpl in Hlen. rewrite memcpy_0 by lia.
        eexists. split; [rewrite upd_same by exact E1; reflexivity|].
        rewrite repeat_length. split; [lia|]. intros; lia. }
    destruct Hcopy as (l' & -> & Hlen' & Hval). simpl.
    assert (Hnew : nth_error (upd h1 (length h) (Live l')) (length h) = Some (Live l')).
    { apply nth_error_upd_eq. lia. }
    eexists _, _. split; [reflexivity|]. split; [|split; [reflexivity|split; [reflexivity|]]].
    - split; [|split; [|split]].
      + destruct Hv as (V1 & V2 & V3 & V4). split; [apply V1|]. split; [apply V2|].
        split; [unfold nelem in *; simpl; lia|]. simpl. eauto.
      + intros q _ Hq. rewrite nth_error_upd_ne by lia. auto.
      + right. simpl. eexists; eauto.
      + intros q lq Hq. destruct (Nat.eq_dec q (length h)); [left; simpl; congruence|].
        right. split; [|discriminate]. apply nth_lt in Hq. rewrite upd_length in Hq. lia.
    - intros i j Hk. destruct (kept_cell _ _ _ _ _ Hv Hc Hk) as (c & Ec).
      rewrite (get_contents _ _ _ _ _ _ Hc Ec).
      pose proof (kept_index _ _ _ _ Hv Hk).
      unfold get. simpl. eapply load_live; [exact Hnew|]. rewrite Hval; assumption.
  Qed.

  (** copy assignment *)
  Lemma set_dims_legal s r c : legal_dims (sch s) r c -> set_dims s r c = Ok (mkStorage (sch s) r c).
  Proof. intros H. unfold set_dims. rewrite (legal_dims_ok _ _ _ H). reflexivity. Qed.

  Lemma copy_assign_spec h dst src : valid h dst -> valid h src -> sch (st dst) = sch (st src) ->
    (ptr dst <> None -> ptr dst <> ptr src) ->
    exists h' m, copy_assign A h dst src = Ok (h', m) /\ effect h (ptr dst) h' m /\
      st m = st src /\
      (forall i j, kept src (i, j) -> get A h' m i j = get A h src i j).
  Proof.
    intros Vd Vs Hsch Hne. unfold copy_assign.
    pose proof (nelem_nonneg _ _ Vs) as Hn.
    assert (Hnc : nelem src <= cap src) by apply Vs.
    destruct (valid_contents _ _ Vs) as (ls & Hcs).
    assert (Hst : mkStorage (sch (st dst)) (rows src) (cols src) = st src).
    { rewrite Hsch. symmetry. apply st_eta. eapply valid_wf; eauto. }
    assert (Hleg : legal_dims (sch (st dst)) (rows src) (cols src)) by (rewrite Hsch; apply Vs).
    (* phase 1 *)
    assert (P1 : exists h1 p1 cap1 l1,
      (if cap dst <? cap src
       then h0 <- free_opt A h (ptr dst) ;;
            let (h1, p) := alloc A h0 (nelem src) in Ok (h1, Some p, nelem src)
       else Ok (h, ptr dst, cap dst)) = Ok (h1, p1, cap1) /\
      nelem src <= cap1 /\ Z.of_nat (length l1) = cap1 /\
      match p1 with None => cap1 = 0 /\ l1 = [] | Some q => nth_error h1 q = Some (Live l1) end /\
      (forall q, Some q <> ptr dst -> (q < length h)%nat -> nth_error h1 q = nth_error h q) /\
      (p1 = ptr dst /\ length h1 = length h \/
         p1 = Some (length h) /\ length h1 = S (length h) /\
         (forall q, Some q = ptr dst -> nth_error h1 q = Some Freed))).
    { destruct (Z.ltb_spec (cap dst) (cap src)).
      - destruct (free_opt_spec _ _ Vd) as (h0 & -> & F1 & F2 & F3). cbn [bind].
        destruct (alloc A h0 (nelem src)) as [h1 p] eqn:E.
        apply alloc_nth in E. destruct E as (-> & E1 & E2 & E3).
        eexists _, _, _, _. split; [reflexivity|]. split; [lia|].
        split; [|split; [exact E1|split]].
        + rewrite repeat_length. lia.
        + intros q Hq Hlt. rewrite E3 by lia. auto.
        + right. rewrite F1. split; [reflexivity|]. split; [lia|].
          intros q Hq. rewrite E3; [auto|]. rewrite F1.
          destruct Vd as (_ & _ & _ & Vp). rewrite <- Hq in Vp. destruct Vp as (? & Vp & _).
          eapply nth_lt; eauto.
      - destruct (valid_contents _ _ Vd) as (ld & Hp & Hlen).
        eexists _, _, _, ld. split; [reflexivity|]. split; [lia|]. split; [assumption|]. split.
        + destruct (ptr dst); [assumption|]. split; [|assumption]. subst; simpl in *; lia.
        + split; auto. }
    destruct P1 as (h1 & p1 & cap1 & l1 & -> & Hcap & Hl1 & Hp1 & Hfr & Hcase). simpl.
    (* phase 2: memcpy *)
    assert (P2 : exists h2 l2, MatrixModel.memcpy A h1 p1 0 (ptr src) 0 (nelem src) = Ok h2 /\
       length h2 = length h1 /\ length l2 = length l1 /\
       match p1 with None => l2 = [] | Some q => nth_error h2 q = Some (Live l2) end /\
       (forall q, Some q <> p1 -> nth_error h2 q = nth_error h1 q) /\
       (forall k, 0 <= k < nelem src -> znth l2 k = znth ls k)).
    { destruct (Z.le_gt_cases (nelem src) 0) as [Hz|Hz].
      - rewrite memcpy_0 by assumption. exists h1, l1. repeat split; auto; [|intros; lia].
        destruct p1; tauto.
      - destruct Hcs as [Hps Hls]. destruct (ptr src) as [s|] eqn:Es.
        2:{ subst ls; simpl in *; lia. }
        pose proof (nth_lt _ _ _ Hps) as Hslt.
        destruct p1 as [d|]; [|lia].
        assert (Hds : d <> s).
        { destruct Hcase as [[Hd _]|[Hd _]].
          - intros ->. apply Hne; congruence.
          - inversion Hd. lia. }
        assert (Hs1 : nth_error h1 s = Some (Live ls)).
        { rewrite Hfr; [assumption| |assumption].
          intros Hx. apply Hne; congruence. }
        destruct (memcpy_spec h1 d 0 s 0 (nelem src) l1 ls) as (l2 & F1 & F2 & F3 & F4); auto; try lia.
        exists (upd h1 d (Live l2)), l2. split; [exact F1|].
        split; [apply upd_length|]. split; [assumption|]. split; [|split].
        + apply nth_error_upd_eq. eapply nth_lt; eauto.
        + intros q Hq. apply nth_error_upd_ne. congruence.
        + intros k Hk. apply (F3 k Hk). }
    destruct P2 as (h2 & l2 & -> & Q1 & Q2 & Q3 & Q4 & Q5). simpl.
    rewrite set_dims_legal by assumption. simpl.
    eexists _, _. split; [reflexivity|]. split; [|split; [exact Hst|]].
    - split; [|split; [|split]].
      + apply valid_mk; auto.
        * rewrite Hst. assumption.
        * destruct p1; [|tauto]. exists l2. split; [assumption|]. lia.
      + intros q Hq Hlt. rewrite Q4; [auto|].
        destruct Hcase as [[Hp _]|[Hp _]]; [congruence|]. rewrite Hp. intros Hx; inversion Hx; lia.
      + simpl. destruct Hcase as [[Hp _]|[Hp _]]; [left; assumption|right; eauto].
      + simpl. intros q l Hq.
        assert (Dec : Some q = p1 \/ Some q <> p1).
        { destruct p1 as [d|]; [|right; discriminate]. destruct (Nat.eq_dec q d); [left|right]; congruence. }
        destruct Dec as [|Hqp]; [left; assumption|]. right.
        pose proof (nth_lt _ _ _ Hq) as Hlt. rewrite Q1 in Hlt.
        destruct Hcase as [[Hp Hlen]|(Hp & Hlen & Hfreed)].
        * split; [lia|congruence].
        * split.
          -- rewrite Hp in Hqp. assert (q <> length h) by congruence. lia.
          -- intros Hx. rewrite Q4 in Hq by assumption. rewrite (Hfreed q Hx) in Hq. discriminate.
    - intros i j Hk. destruct (kept_cell _ _ _ _ _ Vs Hcs Hk) as (c & Ec).
      rewrite (get_contents _ _ _ _ _ _ Hcs Ec).
      pose proof (kept_index _ _ _ _ Vs Hk).
      unfold get. simpl. rewrite Hst.
      destruct p1 as [d|].
      + eapply load_live; [exact Q3|]. rewrite Q5; assumption.
      + lia.
  Qed.

  (** resize: the dimensions change, other objects do not *)
  Lemma resize_spec h m r c : valid h m -> legal_dims (sch (st m)) r c ->
    exists h' m', resize A h m r c = Ok (h', m') /\ effect h (ptr m) h' m' /\
      st m' = mkStorage (sch (st m)) r c /\
      (num_elements (mkStorage (sch (st m)) r c) <= cap m -> h' = h /\ ptr m' = ptr m).
  Proof.
    intros Hv Hl. unfold resize. rewrite (legal_dims_ok _ _ _ Hl).
    pose proof (num_elements_nonneg _ (wf_mk _ _ _ Hl)) as Hn.
    destruct (Z.ltb_spec (cap m) (num_elements (mkStorage (sch (st m)) r c))).
    - destruct (free_opt_spec _ _ Hv) as (h0 & -> & F1 & F2 & F3). cbn [bind].
      destruct (alloc A h0 (num_elements (mkStorage (sch (st m)) r c))) as [h1 p] eqn:E.
      apply alloc_nth in E. destruct E as (-> & E1 & E2 & E3).
      eexists _, _. split; [reflexivity|]. split; [|split; [reflexivity|intros; lia]].
      split; [|split; [|split]].
      + apply valid_mk; auto; [lia|]. eexists. split; [exact E1|]. rewrite repeat_length. lia.
      + intros q Hq Hlt. rewrite E3 by lia. auto.
      + right. exists (length h0). split; [reflexivity|lia].
      + intros q l Hq. simpl. destruct (Nat.eq_dec q (length h0)); [left; congruence|].
        right. pose proof (nth_lt _ _ _ Hq). split; [lia|].
        intros Hx. rewrite E3 in Hq by lia. rewrite (F3 q Hx) in Hq. discriminate.
    - eexists _, _. split; [reflexivity|]. split; [|split; [reflexivity|auto]].
      destruct Hv as (V1 & V2 & V3 & V4).
      split; [|split; [|split]].
      + apply valid_mk; auto.
      + auto.
      + left; reflexivity.
      + intros q l Hq. simpl. pose proof (nth_lt _ _ _ Hq).
        destruct (ptr m) as [d|]; [|right; split; [lia|discriminate]].
        destruct (Nat.eq_dec q d); [left; congruence|right; split; [lia|congruence]].
  Qed.

  Lemma NoDup_pairs {X Y} (g : X -> list Y) xs :
    NoDup xs -> (forall x, In x xs -> NoDup (g x)) ->
    NoDup (flat_map (fun x => map (fun y => (x, y)) (g x)) xs).
  Proof.
    induction xs as [|x xs IH]; intros Hn Hg; [constructor|].
    inversion Hn; subst. simpl.
    assert (Happ : forall (l1 l2 : list (X * Y)), NoDup l1 -> NoDup l2 ->
              (forall p, In p l1 -> ~ In p l2) -> NoDup (l1 ++ l2)).
    { induction l1 as [|p l1 IHl]; intros l2 N1 N2 D; [assumption|].
      inversion N1; subst. simpl. constructor.
      - rewrite in_app_iff. intros [?|?]; [auto|]. apply (D p); [left; reflexivity|assumption].
      - apply IHl; auto. intros p' Hp'. apply D. right; assumption. }
    apply Happ.
    - apply NoDup_map_inj; [intros; congruence|]. apply Hg; left; reflexivity.
    - apply IH; [assumption|]. intros; apply Hg; right; assumption.
    - intros p Hp Hp'. apply in_map_iff in Hp. destruct Hp as (y & <- & _).
      apply in_flat_map in Hp'. destruct Hp' as (x' & Hx' & Hy').
      apply in_map_iff in Hy'. destruct Hy' as (y' & E & _). inversion E; subst. contradiction.
  Qed.

  Lemma slice_pos_same_scheme k i e i' e' : slice_position k i e = slice_position k i' e' -> i = i' /\ e = e'.
  Proof. destruct k; simpl; intros E; inversion E; split; lia. Qed.

  (** cresize: common elements survive *)
  Lemma cresize_spec h m r c : valid h m -> legal_dims (sch (st m)) r c ->
    exists h' m', cresize A h m r c = Ok (h', m') /\ effect h (ptr m) h' m' /\
      st m' = mkStorage (sch (st m)) r c /\
      (forall i j, kept m (i, j) -> kept m' (i, j) -> get A h' m' i j = get A h m i j).
  Proof.
    intros Hv Hl. unfold cresize.
    destruct ((r =? rows m) && (c =? cols m)) eqn:Esame.
    - apply andb_true_iff in Esame. destruct Esame as [Er Ec].
      apply Z.eqb_eq in Er. apply Z.eqb_eq in Ec. subst r c.
      exists h, m. split; [reflexivity|]. split; [|split; [apply st_eta; eapply valid_wf; eauto|auto]].
      split; [assumption|]. split; [auto|]. split; [left; reflexivity|].
      intros q l Hq. pose proof (nth_lt _ _ _ Hq).
      destruct (ptr m) as [d|]; [|right; split; [lia|discriminate]].
      destruct (Nat.eq_dec q d); [left; congruence|right; split; [lia|congruence]].
    - rewrite (legal_dims_ok _ _ _ Hl).
      set (s := mkStorage (sch (st m)) r c).
      assert (Ws : wf_st s) by (apply wf_mk; assumption).
      pose proof (valid_wf _ _ Hv) as Wm.
      pose proof (num_elements_nonneg s Ws) as Hn.
      destruct (alloc A h (num_elements s)) as [h1 p] eqn:E.
      apply alloc_nth in E. destruct E as (-> & E1 & E2 & E3).
      destruct (valid_contents _ _ Hv) as (l & Hc & Hlen).
      assert (Hnc : nelem m <= cap m) by apply Hv.
      destruct (ptr m) as [d|] eqn:Ep.
      + pose proof (nth_lt _ _ _ Hc) as Hd.
        pose (mn i := Z.min (slice_len (st m) i) (slice_len s i)).
        pose (ns := Z.min (num_slices s) (num_slices (st m))).
        pose (items := flat_map (fun i => map (fun k => (i, k)) (zrange (mn i))) (zrange ns)).
        remember (length h) as pn eqn:Hpn.
        pose (F := fun hh (x : Z * Z) => c <- MatrixModel.load A hh (Some d) (slice (st m) (fst x) + snd x) ;;
                     MatrixModel.store A hh (Some pn) (slice s (fst x) + snd x) c).
        assert (Hitems : forall x, In x items -> 0 <= fst x < num_slices s /\ 0 <= fst x < num_slices (st m) /\
                   0 <= snd x < slice_len s (fst x) /\ 0 <= snd x < slice_len (st m) (fst x)).
        { intros x Hx. unfold items in Hx. apply in_flat_map in Hx. destruct Hx as (i & Hi & Hk).
          apply in_map_iff in Hk. destruct Hk as (k & <- & Hk). apply in_zrange in Hi. apply in_zrange in Hk.
          unfold ns, mn in *. simpl. lia. }
        assert (Efold : forall h, fold_res (fun h i =>
                  MatrixModel.memcpy A h (Some pn) (slice s i) (Some d) (slice (st m) i)
                    (Z.min (slice_len (st m) i) (slice_len s i)))
                  (zrange (Z.min (num_slices s) (num_slices (st m)))) h = fold_res F items h).
        { intros h0. unfold items. rewrite <- fold_res_flat_map. apply fold_res_ext.
          intros h2 i _. unfold MatrixModel.memcpy. rewrite fold_res_map. reflexivity. }
        rewrite Efold. clear Efold.
        destruct (loop_spec_gen (Z * Z) F (fun x => slice s (fst x) + snd x)
           (fun x => match znth l (slice (st m) (fst x) + snd x) with Some c => c | None => None end)
           h1 pn (repeat None (Z.to_nat (num_elements s))) items) as (l' & L1 & L2 & L3 & L4).
        * exact E1.
        * intros x Hx. destruct (Hitems x Hx) as (I1 & I2 & I3 & I4). rewrite repeat_length.
          pose proof (slice_range s (fst x) (snd x) Ws I1 I3). lia.
        * apply NoDup_map_inj.
          -- intros x y Hx Hy Exy. destruct (Hitems x Hx) as (I1 & I2 & I3 & I4).
             destruct (Hitems y Hy) as (J1 & J2 & J3 & J4).
             destruct (slice_inj s _ _ _ _ Ws I1 I3 J1 J3 Exy). destruct x, y; simpl in *; congruence.
          -- apply NoDup_pairs; [apply NoDup_zrange|]. intros; apply NoDup_zrange.
        * intros h' l' x Hx Hl' _ _ Hfr. destruct (Hitems x Hx) as (I1 & I2 & I3 & I4).
          pose proof (slice_range (st m) (fst x) (snd x) Wm I2 I4) as R. fold (nelem m) in R.
          destruct (znth_in_range l (slice (st m) (fst x) + snd x)) as (cc & Ecc); [lia|].
          unfold F. rewrite (load_live h' d l _ cc); [|rewrite Hfr by lia; rewrite E3 by lia; assumption|assumption].
          simpl. rewrite Ecc. reflexivity.
        * rewrite L1. cbn [bind].
          assert (Hd2 : nth_error (upd h1 pn (Live l')) d = Some (Live l)).
          { rewrite nth_error_upd_ne by lia. rewrite E3 by lia. assumption. }
          rewrite (free_live _ _ _ Hd2). cbn [bind].
          assert (Hp2 : nth_error (upd (upd h1 pn (Live l')) d Freed) pn = Some (Live l')).
          { rewrite nth_error_upd_ne by lia. apply nth_error_upd_eq. lia. }
          eexists _, _. split; [reflexivity|]. split; [|split; [reflexivity|]].
          -- split; [|split; [|split]].
             ++ apply valid_mk; auto; [subst s; lia|]. exists l'. split; [exact Hp2|]. rewrite L2, repeat_length. lia.
             ++ intros q Hq Hlt. rewrite nth_error_upd_ne by congruence. rewrite nth_error_upd_ne by lia. apply E3. lia.
             ++ right. exists pn. split; [subst; reflexivity|lia].
             ++ intros q lq Hq. simpl. destruct (Nat.eq_dec q pn); [left; congruence|].
                right. pose proof (nth_lt _ _ _ Hq) as Hlt. rewrite !upd_length in Hlt. split; [lia|].
                intros Hx. inversion Hx; subst q.
                rewrite nth_error_upd_eq in Hq by (rewrite upd_length; lia). discriminate.
          -- intros i j Hk Hk'.
             destruct (in_slice (st m) i j Wm Hk) as (qi & e & S1 & S2 & S3 & S4).
             destruct (in_slice s i j Ws) as (qi' & e' & S1' & S2' & S3' & S4').
             { exact Hk'. }
             assert (Hsame : qi = qi' /\ e = e').
             { apply (slice_pos_same_scheme (sch (st m))). rewrite S3. symmetry. exact S3'. }
             destruct Hsame; subst qi' e'.
             pose proof (slice_range (st m) qi e Wm S1 S2) as R. fold (nelem m) in R.
             destruct (znth_in_range l (slice (st m) qi + e)) as (cc & Ecc); [lia|].
             unfold get. rewrite S4. simpl st. fold s. rewrite S4'. rewrite Ep. simpl ptr.
             rewrite (load_live h d l _ cc Hc Ecc).
             eapply load_live; [exact Hp2|].
             specialize (L3 (qi, e)). simpl in L3. rewrite L3, Ecc; [reflexivity|].
             unfold items. apply in_flat_map. exists qi. split; [apply in_zrange; unfold ns; lia|].
             apply in_map_iff. exists e. split; [reflexivity|]. apply in_zrange. unfold mn; lia.
      + cbn [bind]. subst l. simpl in Hlen.
        eexists _, _. split; [reflexivity|]. split; [|split; [reflexivity|]].
        * split; [|split; [|split]].
          -- apply valid_mk; auto; [subst s; lia|]. eexists. split; [exact E1|]. rewrite repeat_length. lia.
          -- intros q _ Hq. auto.
          -- right. exists (length h). auto.
          -- intros q lq Hq. simpl. destruct (Nat.eq_dec q (length h)); [left; congruence|].
             right. pose proof (nth_lt _ _ _ Hq). split; [lia|discriminate].
        * intros i j Hk _. exfalso.
          pose proof (kept_index _ _ _ _ Hv Hk). lia.
  Qed.

  (** ** in-place loops *)
  Lemma inplace_effect h m q l l' : valid h m -> ptr m = Some q -> nth_error h q = Some (Live l) ->
    length l' = length l -> effect h (ptr m) (upd h q (Live l')) m.
  Proof.
    intros Hv Hp Hl Hlen. pose proof (nth_lt _ _ _ Hl) as Hq.
    destruct Hv as (V1 & V2 & V3 & V4). rewrite Hp in V4. destruct V4 as (l0 & V4 & V5).
    assert (l0 = l) by congruence. subst l0.
    split; [|split; [|split]].
    - split; [apply V1|]. split; [apply V2|]. split; [apply V3|]. rewrite Hp.
      exists l'. split; [apply nth_error_upd_eq; assumption|]. lia.
    - intros q' Hne _. apply nth_error_upd_ne. congruence.
    - left; reflexivity.
    - intros q' lq Hq'. rewrite Hp. destruct (Nat.eq_dec q' q); [left; congruence|].
      right. pose proof (nth_lt _ _ _ Hq') as Hlt. rewrite upd_length in Hlt. split; [lia|congruence].
  Qed.

  Lemma same_effect h m : valid h m -> effect h (ptr m) h m.
  Proof.
    intros Hv. split; [assumption|]. split; [auto|]. split; [left; reflexivity|].
    intros q l Hq. pose proof (nth_lt _ _ _ Hq).
    destruct (ptr m) as [d|]; [|right; split; [lia|discriminate]].
    destruct (Nat.eq_dec q d); [left; congruence|right; split; [lia|congruence]].
  Qed.

  (** A loop over element positions of [m]: [off] gives the cell, [W] the value. *)
  Lemma inplace_loop (X : Type) (F : mem -> X -> res mem) (off : X -> Z) (W : X -> cell) h m l xs :
    valid h m -> contents h m l ->
    (forall x, In x xs -> 0 <= off x < cap m) ->
    NoDup (map off xs) ->
    (forall q h' l' x, ptr m = Some q -> In x xs -> nth_error h' q = Some (Live l') -> length l' = length l ->
       znth l' (off x) = znth l (off x) ->
       (forall p, p <> q -> nth_error h' p = nth_error h p) ->
       F h' x = store h' (Some q) (off x) (W x)) ->
    exists h' l', fold_res F xs h = Ok h' /\ effect h (ptr m) h' m /\ length h' = length h /\
      contents h' m l' /\
      (forall x, In x xs -> znth l' (off x) = Some (W x)) /\
      (forall k, ~ In k (map off xs) -> znth l' k = znth l k).
  Proof.
    intros Hv Hc Hoff Hnd HF. destruct Hc as [Hp Hlen].
    destruct (ptr m) as [q|] eqn:Ep.
    - destruct (loop_spec_gen X F off W h q l xs Hp) as (l' & E & L1 & L2 & L3); auto.
      + intros x Hx. rewrite Hlen. auto.
      + intros h' l' x. apply HF. reflexivity.
      + exists (upd h q (Live l')), l'. split; [exact E|].
        split; [|split; [apply upd_length|split; [|auto]]].
        * rewrite <- Ep. eapply inplace_effect; eauto.
        * split; [|lia]. rewrite Ep. apply nth_error_upd_eq. eapply nth_lt; eauto.
    - subst l. destruct xs as [|x xs].
      + exists h, []. split; [reflexivity|]. split; [rewrite <- Ep; apply same_effect; assumption|].
        split; [reflexivity|]. split; [split; [rewrite Ep; reflexivity|assumption]|].
        split; [intros x []|auto].
      + simpl in Hlen. specialize (Hoff x (or_introl eq_refl)). lia.
  Qed.

  Lemma NoDup_id (zs : list Z) : NoDup zs -> NoDup (map (fun k : Z => k) zs).
  Proof. rewrite map_id. auto. Qed.

  Lemma fill_spec h m v : valid h m ->
    exists h', fill_with A h m v = Ok h' /\ effect h (ptr m) h' m /\ length h' = length h /\
      reads h' m (fun _ _ => Some v).
  Proof.
    intros Hv. destruct (valid_contents _ _ Hv) as (l & Hc). unfold fill_with.
    destruct (inplace_loop Z (fun h i => MatrixModel.store A h (ptr m) i (Some v)) (fun k => k)
                (fun _ => Some v) h m l (zrange (cap m))) as (h' & l' & E & E1 & E2 & E3 & E4 & _); auto.
    - intros x Hx. apply in_zrange in Hx. assumption.
    - apply NoDup_id, NoDup_zrange.
    - intros q h' l' x -> ? ? ? ? ?. reflexivity.
    - exists h'. split; [exact E|]. split; [exact E1|]. split; [exact E2|]. intros i j Hk. eapply get_contents; [exact E3|].
      apply E4. apply in_zrange. pose proof (kept_index _ _ _ _ Hv Hk).
      destruct Hv as (_ & _ & Hn & _). lia.
  Qed.

  Lemma multiply_spec h m v f : valid h m -> reads h m f ->
    exists h', multiply A mul h m v = Ok h' /\ effect h (ptr m) h' m /\ length h' = length h /\
      reads h' m (fun i j => lift2 A mul (f i j) (Some v)).
  Proof.
    intros Hv Hr. destruct (valid_contents _ _ Hv) as (l & Hc). unfold multiply.
    assert (Hnc : nelem m <= cap m) by apply Hv.
    destruct (inplace_loop Z (fun h i => x <- MatrixModel.load A h (ptr m) i ;;
                  MatrixModel.store A h (ptr m) i (lift2 A mul x (Some v))) (fun k => k)
                (fun k => lift2 A mul (match znth l k with Some c => c | None => None end) (Some v))
                h m l (zrange (nelem m))) as (h' & l' & E & E1 & E2 & E3 & E4 & _); auto.
    - intros x Hx. apply in_zrange in Hx. lia.
    - apply NoDup_id, NoDup_zrange.
    - intros q h' l' x -> Hx Hq Hlen Hz _. apply in_zrange in Hx.
      destruct (znth_in_range l x) as (c & Ec); [destruct Hc; lia|].
      rewrite (load_live h' q l' x c); [|assumption|congruence]. simpl. rewrite Ec. reflexivity.
    - exists h'. split; [exact E|]. split; [exact E1|]. split; [exact E2|]. intros i j Hk. eapply get_contents; [exact E3|].
      rewrite E4 by (apply in_zrange; eapply kept_index; eauto).
      rewrite (reads_cell _ _ _ _ _ _ Hv Hc Hr Hk). reflexivity.
  Qed.

  Lemma set_spec h m r c v f : valid h m -> kept m (r, c) -> reads h m f ->
    exists h', set A h m r c v = Ok h' /\ effect h (ptr m) h' m /\ length h' = length h /\
      reads h' m (fun i j => if (i =? r) && (j =? c) then Some v else f i j).
  Proof.
    intros Hv Hk Hr. destruct (valid_contents _ _ Hv) as (l & Hc).
    pose proof (kept_index _ _ _ _ Hv Hk) as Hi.
    assert (Hnc : nelem m <= cap m) by apply Hv.
    destruct (inplace_loop unit (fun h _ => MatrixModel.store A h (ptr m) (index (st m) r c) (Some v))
                (fun _ => index (st m) r c) (fun _ => Some v) h m l [tt])
      as (h' & l' & E & E1 & E2 & E3 & E4 & E5); auto.
    - intros; lia.
    - simpl. constructor; [intros []|constructor].
    - intros q h' l' x -> ? ? ? ? ?. reflexivity.
    - exists h'. unfold set. split.
      { simpl in E. destruct (MatrixModel.store A h (ptr m) (index (st m) r c) (Some v)); simpl in E; congruence. }
      split; [exact E1|]. split; [exact E2|]. intros i j Hk'. eapply get_contents; [exact E3|].
      destruct ((i =? r) && (j =? c)) eqn:Eij.
      + apply andb_true_iff in Eij. destruct Eij as [Er Ec']. apply Z.eqb_eq in Er. apply Z.eqb_eq in Ec'. subst.
        apply (E4 tt). left; reflexivity.
      + rewrite E5; [eapply reads_cell; eauto|]. simpl. intros [Hx|[]].
        destruct (index_bij _ (valid_wf _ _ Hv)) as (_ & Inj & _).
        destruct (Inj _ _ _ _ Hk Hk' Hx); subst. rewrite !Z.eqb_refl in Eij. discriminate.
  Qed.

  (** ** expressions *)
  Lemma leaves_dims (e : expr A) n : eassert A e = true -> In n (leaves e) ->
    erows A e <= rows n /\ ecols A e <= cols n /\
    (contiguous A e = true -> rows n = erows A e /\ cols n = ecols A e).
  Proof.
    induction e as [m|e IH f|a IHa b IHb|e IH r c]; simpl; intros He Hin.
    - destruct Hin as [<-|[]]. repeat split; lia.
    - auto.
    - rewrite !andb_true_iff in He. destruct He as [[[H1 H2] H3] H4].
      apply Z.eqb_eq in H3. apply Z.eqb_eq in H4.
      apply in_app_or in Hin. destruct Hin as [Hin|Hin].
      + destruct (IHa H1 Hin) as (A1 & A2 & A3). repeat split; try assumption;
          apply andb_true_iff in H; apply A3, H.
      + destruct (IHb H2 Hin) as (A1 & A2 & A3). repeat split; try lia;
          apply andb_true_iff in H; destruct (A3 (proj2 H)); lia.
    - rewrite !andb_true_iff in He. destruct He as [[H1 H2] H3].
      apply Z.leb_le in H2. apply Z.leb_le in H3.
      destruct (IH H1 Hin) as (A1 & A2 & _). repeat split; try lia; discriminate.
  Qed.

  Lemma eval_data_ok h (e : expr A) (V : mat -> Z -> Z -> cell) k i j : contiguous A e = true ->
    (forall n, In n (leaves e) -> load h (ptr n) k = Ok (V n i j)) ->
    eval_data A add mul h e k = Ok (meaning add mul V e i j).
  Proof.
    induction e as [m|e IH f|a IHa b IHb|e IH r c]; simpl; intros Hc Hl.
    - apply Hl; left; reflexivity.
    - rewrite IH by auto. reflexivity.
    - apply andb_true_iff in Hc. rewrite IHa; [|tauto|intros; apply Hl, in_or_app; auto].
      rewrite IHb; [|tauto|intros; apply Hl, in_or_app; auto]. reflexivity.
    - discriminate.
  Qed.

  (** sums are evaluated right operand first by element access (185-188) *)
  Definition flip_add (x y : A) : A := add y x.

  Lemma meaning_flip (e : expr A) (V : mat -> Z -> Z -> cell) i j :
    (forall x y, add x y = add y x) -> meaning flip_add mul V e i j = meaning add mul V e i j.
  Proof.
    intros Hc. induction e as [m|e IH f|a IHa b IHb|e IH r c]; simpl; try congruence.
    rewrite IHa, IHb. unfold lift2, flip_add.
    destruct (meaning add mul V a i j), (meaning add mul V b i j); try reflexivity. rewrite Hc. reflexivity.
  Qed.

  Lemma eval_at_ok h (e : expr A) (V : mat -> Z -> Z -> cell) i j :
    (forall n, In n (leaves e) -> get A h n i j = Ok (V n i j)) ->
    eval_at A add mul h e i j = Ok (meaning flip_add mul V e i j).
  Proof.
    induction e as [m|e IH f|a IHa b IHb|e IH r c]; simpl; intros Hl.
    - apply Hl; left; reflexivity.
    - rewrite IH by auto. reflexivity.
    - rewrite IHb by (intros; apply Hl, in_or_app; auto).
      rewrite IHa by (intros; apply Hl, in_or_app; auto). simpl.
      unfold lift2, flip_add. destruct (meaning _ mul V a i j), (meaning _ mul V b i j); reflexivity.
    - auto.
  Qed.

  (** reading an operand while the target is being updated *)
  Lemma load_operand h h' m n q l l' k c :
    valid h m -> valid h n -> ptr m = Some q -> nth_error h q = Some (Live l) ->
    (ptr n <> None -> ptr n = ptr m -> n = m) ->
    nth_error h' q = Some (Live l') -> znth l' k = znth l k ->
    (forall p, p <> q -> nth_error h' p = nth_error h p) ->
    load h (ptr n) k = Ok c -> load h' (ptr n) k = Ok c.
  Proof.
    intros Vm Vn Hp Hq Hal Hq' Hz Hfr. unfold MatrixModel.load.
    destruct (ptr n) as [d|] eqn:En; [|auto].
    destruct (Nat.eq_dec d q) as [->|Hne].
    - rewrite Hq, Hq', Hz. auto.
    - rewrite Hfr by assumption. auto.
  Qed.

  Lemma st_eq h n m : valid h n -> valid h m -> sch (st n) = sch (st m) -> rows n = rows m ->
    cols n = cols m -> st n = st m.
  Proof.
    intros Vn Vm H1 H2 H3. rewrite (st_eta _ (valid_wf _ _ Vn)), (st_eta _ (valid_wf _ _ Vm)).
    unfold rows, cols in *. congruence.
  Qed.

  Lemma data_loop_spec acc h m (e : expr A) (V : mat -> Z -> Z -> cell) old :
    valid h m -> operands_ok h (sch (st m)) m e -> eassert A e = true -> contiguous A e = true ->
    rows m = erows A e -> cols m = ecols A e ->
    (forall n, In n (leaves e) -> reads h n (V n)) -> reads h m old ->
    exists h', data_loop A add mul acc h m e = Ok h' /\ effect h (ptr m) h' m /\ length h' = length h /\
      reads h' m (fun i j => assign_op A add acc (old i j) (meaning add mul V e i j)).
  Proof.
    intros Hv Hop Hea Hct Hr Hcl HV Hold.
    destruct (valid_contents _ _ Hv) as (l & Hc). unfold data_loop.
    assert (Hnc : nelem m <= cap m) by apply Hv.
    pose (val k := match eval_data A add mul h e k with Ok c => c | _ => None end).
    assert (Hst : forall n, In n (leaves e) -> st n = st m).
    { intros n Hn. destruct (Hop n Hn) as (Vn & Hs & _). destruct (leaves_dims e n Hea Hn) as (_ & _ & D).
      destruct (D Hct). eapply st_eq; eauto; congruence. }
    assert (Hkept : forall k, 0 <= k < nelem m -> exists i j, kept m (i, j) /\ index (st m) i j = k).
    { intros k Hk. destruct (index_bij _ (valid_wf _ _ Hv)) as (_ & _ & Sur).
      destruct (Sur k Hk) as (i & j & H1 & H2). eauto. }
    assert (Hload : forall i j n, kept m (i, j) -> In n (leaves e) ->
              load h (ptr n) (index (st m) i j) = Ok (V n i j)).
    { intros i j n Hk Hn. rewrite <- (Hst n Hn). apply (HV n Hn).
      unfold kept, rows, cols. rewrite (Hst n Hn). exact Hk. }
    destruct (inplace_loop Z (fun h k => v <- eval_data A add mul h e k ;;
                  old <- MatrixModel.load A h (ptr m) k ;;
                  MatrixModel.store A h (ptr m) k (assign_op A add acc old v)) (fun k => k)
                (fun k => assign_op A add acc (match znth l k with Some c => c | None => None end) (val k))
                h m l (zrange (nelem m))) as (h' & l' & E & E1 & E2 & E3 & E4 & _); auto.
    - intros x Hx. apply in_zrange in Hx. lia.
    - apply NoDup_id, NoDup_zrange.
    - intros q h' l' x Hp Hx Hq Hlen Hz Hfr. apply in_zrange in Hx.
      destruct (Hkept x Hx) as (i & j & Hk & <-).
      destruct (kept_cell _ _ _ _ _ Hv Hc Hk) as (c & Ec).
      destruct Hc as [Hc1 Hc2]. rewrite Hp in Hc1.
      unfold val. rewrite (eval_data_ok h e V _ i j Hct) by (intros; apply Hload; assumption).
      rewrite (eval_data_ok h' e V _ i j Hct).
      + simpl. rewrite Hp. rewrite (load_live h' q l' _ c); [|assumption|congruence].
        simpl. rewrite Ec. reflexivity.
      + intros n Hn. destruct (Hop n Hn) as (Vn & _ & Hal).
        apply (load_operand h h' m n q l l'); auto.
    - exists h'. split; [exact E|]. split; [exact E1|]. split; [exact E2|]. intros i j Hk. eapply get_contents; [exact E3|].
      rewrite E4 by (apply in_zrange; eapply kept_index; eauto).
      rewrite (reads_cell _ _ _ _ _ _ Hv Hc Hold Hk). unfold val.
      rewrite (eval_data_ok h e V _ i j Hct) by (intros; apply Hload; assumption). reflexivity.
  Qed.

  (** *** the non-contiguous loop *)
  Definition region (e : expr A) (p : Z * Z) : Prop := fst p < erows A e /\ snd p < ecols A e.

  Lemma reduce_positions_iff s R C p : wf_st s -> R <= srows s -> C <= scols s ->
    In p (reduce_positions s R C) <->
    stored (sch s) (srows s) (scols s) p /\ fst p < R /\ snd p < C.
  Proof.
    intros Hw HR HC. destruct Hw as [(L1 & L2 & L3) L4]. destruct p as [i j]. unfold reduce_positions, stored.
    destruct (sch s) eqn:Ek; simpl is_row_major; cbv iota; rewrite in_flat_map;
      (try specialize (L3 (or_introl eq_refl))); (try specialize (L3 (or_intror eq_refl)));
      unfold scols in *; rewrite Ek in *; simpl fst; simpl snd.
    - split.
      + intros (x & Hx & Hy). apply in_map_iff in Hy. destruct Hy as (y & E & Hy). inversion E; subst.
        apply in_zrange in Hx. apply in_zrange in Hy. unfold slice_len in Hy. rewrite Ek in Hy. lia.
      + intros H. exists i. rewrite in_map_iff. split; [apply in_zrange; lia|]. exists j. split; [reflexivity|].
        apply in_zrange. unfold slice_len. rewrite Ek. lia.
    - split.
      + intros (x & Hx & Hy). apply in_map_iff in Hy. destruct Hy as (y & E & Hy). inversion E; subst.
        apply in_zrange in Hx. apply in_zrange2 in Hy. simpl in Hy. lia.
      + intros H. exists j. rewrite in_map_iff. split; [apply in_zrange; lia|]. exists i. split; [reflexivity|].
        apply in_zrange2. simpl. lia.
    - split.
      + intros (x & Hx & Hy). apply in_map_iff in Hy. destruct Hy as (y & E & Hy). inversion E; subst.
        apply in_zrange in Hx. apply in_zrange in Hy. unfold slice_len, pts_in_row in Hy. rewrite Ek in Hy. lia.
      + intros H. exists i. rewrite in_map_iff. split; [apply in_zrange; lia|]. exists j. split; [reflexivity|].
        apply in_zrange. unfold slice_len, pts_in_row. rewrite Ek. lia.
    - split.
      + intros (x & Hx & Hy). apply in_map_iff in Hy. destruct Hy as (y & E & Hy). inversion E; subst.
        apply in_zrange in Hx. apply in_zrange in Hy. unfold slice_len in Hy. rewrite Ek in Hy. lia.
      + intros H. exists i. rewrite in_map_iff. split; [apply in_zrange; lia|]. exists j. split; [reflexivity|].
        apply in_zrange. unfold slice_len. rewrite Ek. lia.
    - split.
      + intros (x & Hx & Hy). apply in_map_iff in Hy. destruct Hy as (y & E & Hy). inversion E; subst.
        apply in_zrange in Hx. apply in_zrange2 in Hy. simpl in Hy. lia.
      + intros H. exists j. rewrite in_map_iff. split; [apply in_zrange; lia|]. exists i. split; [reflexivity|].
        apply in_zrange2. simpl. lia.
  Qed.

  Lemma NoDup_reduce_positions s R C : NoDup (reduce_positions s R C).
  Proof.
    unfold reduce_positions. destruct (is_row_major (sch s)).
    - apply NoDup_pairs; [apply NoDup_zrange|]. intros; apply NoDup_zrange.
    - assert (E : flat_map (fun i => map (fun j => (j, i)) (zrange2 (first_row_of_col (sch s) i) R)) (zrange C)
              = map (fun p => (snd p, fst p))
                 (flat_map (fun i => map (fun j => (i, j)) (zrange2 (first_row_of_col (sch s) i) R)) (zrange C))).
      { induction (zrange C) as [|x xs IH]; [reflexivity|]. simpl. rewrite map_app, map_map, IH. reflexivity. }
      rewrite E. apply NoDup_map_inj.
      + intros [a b] [a' b'] _ _ H. simpl in H. congruence.
      + apply NoDup_pairs; [apply NoDup_zrange|]. intros; apply NoDup_zrange2.
  Qed.

  Lemma reduce_offset_index s i j : wf_st s -> stored (sch s) (srows s) (scols s) (i, j) ->
    reduce_offset s (i, j) = index s i j.
  Proof.
    intros Hw Hs. destruct (in_slice s i j Hw Hs) as (q & e & H1 & H2 & H3 & ->).
    unfold reduce_offset. destruct (sch s); simpl in *; inversion H3; subst; lia.
  Qed.

  Lemma reduce_copy_spec acc h m (e : expr A) (V : mat -> Z -> Z -> cell) old :
    valid h m -> operands_ok h (sch (st m)) m e -> eassert A e = true ->
    erows A e <= rows m -> ecols A e <= cols m ->
    (forall n, In n (leaves e) -> reads h n (V n)) -> reads h m old ->
    exists h', reduce_copy A add mul acc h m e = Ok h' /\ effect h (ptr m) h' m /\ length h' = length h /\
      reads h' m (fun i j => if (i <? erows A e) && (j <? ecols A e)
                             then assign_op A add acc (old i j) (meaning flip_add mul V e i j) else old i j).
  Proof.
    intros Hv Hop Hea Hr Hcl HV Hold.
    destruct (valid_contents _ _ Hv) as (l & Hc). unfold reduce_copy.
    apply Z.leb_le in Hr as Hr'. apply Z.leb_le in Hcl as Hcl'. rewrite Hr', Hcl'. cbn [andb].
    assert (Hnc : nelem m <= cap m) by apply Hv.
    pose proof (valid_wf _ _ Hv) as Wm.
    assert (Hpos : forall p, In p (reduce_positions (st m) (erows A e) (ecols A e)) <->
              kept m p /\ fst p < erows A e /\ snd p < ecols A e).
    { intros p. apply reduce_positions_iff; assumption. }
    assert (Hget : forall i j n, kept m (i, j) -> i < erows A e -> j < ecols A e -> In n (leaves e) ->
              get A h n i j = Ok (V n i j)).
    { intros i j n Hk Hi Hj Hn. apply (HV n Hn).
      destruct (Hop n Hn) as (Vn & Hs & _). destruct (leaves_dims e n Hea Hn) as (D1 & D2 & _).
      unfold kept, stored in *. rewrite Hs. destruct Hk as (K1 & K2 & K3).
      split; [lia|]. split; [lia|]. exact K3. }
    pose (val p := match eval_at A add mul h e (fst p) (snd p) with Ok c => c | _ => None end).
    destruct (inplace_loop (Z * Z) (fun h p => v <- eval_at A add mul h e (fst p) (snd p) ;;
                  old <- MatrixModel.load A h (ptr m) (reduce_offset (st m) p) ;;
                  MatrixModel.store A h (ptr m) (reduce_offset (st m) p) (assign_op A add acc old v))
                (reduce_offset (st m))
                (fun p => assign_op A add acc (match znth l (reduce_offset (st m) p) with Some c => c | None => None end) (val p))
                h m l (reduce_positions (st m) (erows A e) (ecols A e)))
      as (h' & l' & E & E1 & E2 & E3 & E4 & E5); auto.
    - intros [i j] Hx. apply Hpos in Hx. destruct Hx as (Hk & _).
      rewrite reduce_offset_index by assumption. pose proof (kept_index _ _ _ _ Hv Hk). lia.
    - apply NoDup_map_inj; [|apply NoDup_reduce_positions].
      intros [i j] [i' j'] Hx Hy. apply Hpos in Hx. apply Hpos in Hy. destruct Hx as (Hk & _), Hy as (Hk' & _).
      rewrite !reduce_offset_index by assumption. intros Eq.
      destruct (index_bij _ Wm) as (_ & Inj & _). destruct (Inj _ _ _ _ Hk Hk' Eq). congruence.
    - intros q h' l' [i j] Hp Hx Hq Hlen Hz Hfr. apply Hpos in Hx. simpl fst in *; simpl snd in *. destruct Hx as (Hk & Hi & Hj).
      rewrite reduce_offset_index in * by assumption.
      destruct (kept_cell _ _ _ _ _ Hv Hc Hk) as (c & Ec).
      destruct Hc as [Hc1 Hc2]. rewrite Hp in Hc1.
      unfold val. simpl fst; simpl snd.
      rewrite (eval_at_ok h e V) by (intros; apply Hget; assumption).
      rewrite (eval_at_ok h' e V).
      + simpl. rewrite Hp. rewrite (load_live h' q l' _ c); [|assumption|congruence].
        simpl. rewrite Ec. reflexivity.
      + intros n Hn. destruct (Hop n Hn) as (Vn & _ & Hal). unfold get.
        specialize (Hget i j n Hk Hi Hj Hn). unfold get in Hget.
        destruct (ptr n) as [d|] eqn:En; [|discriminate Hget].
        destruct (Nat.eq_dec d q) as [->|Hne].
        * assert (n = m) by (apply Hal; congruence). subst n.
          unfold MatrixModel.load in *. rewrite Hq, Hz. rewrite Hc1 in Hget. exact Hget.
        * unfold MatrixModel.load in *. rewrite Hfr by assumption. exact Hget.
    - exists h'. split; [exact E|]. split; [exact E1|]. split; [exact E2|]. intros i j Hk. eapply get_contents; [exact E3|].
      destruct ((i <? erows A e) && (j <? ecols A e)) eqn:Ereg.
      + apply andb_true_iff in Ereg. destruct Ereg as [R1 R2]. apply Z.ltb_lt in R1. apply Z.ltb_lt in R2.
        rewrite <- (reduce_offset_index (st m)) by assumption.
        rewrite (E4 (i, j)) by (apply Hpos; auto).
        rewrite reduce_offset_index by assumption.
        rewrite (reads_cell _ _ _ _ _ _ Hv Hc Hold Hk). unfold val. simpl fst; simpl snd.
        rewrite (eval_at_ok h e V) by (intros; apply Hget; assumption). reflexivity.
      + rewrite E5; [eapply reads_cell; eauto|].
        rewrite in_map_iff. intros ([i' j'] & Ex & Hin). apply Hpos in Hin. simpl in Hin.
        destruct Hin as (Hk' & Hi & Hj). rewrite reduce_offset_index in Ex by assumption.
        destruct (index_bij _ Wm) as (_ & Inj & _). destruct (Inj _ _ _ _ Hk' Hk Ex); subst.
        apply Z.ltb_lt in Hi. apply Z.ltb_lt in Hj. rewrite Hi, Hj in Ereg. discriminate.
  Qed.

  (** += *)
  Definition sum_of (e : expr A) : A -> A -> A := if contiguous A e then add else flip_add.

  Lemma add_assign_spec h m (e : expr A) (V : mat -> Z -> Z -> cell) old :
    valid h m -> operands_ok h (sch (st m)) m e -> eassert A e = true ->
    (if contiguous A e then rows m = erows A e /\ cols m = ecols A e
     else erows A e <= rows m /\ ecols A e <= cols m) ->
    (forall n, In n (leaves e) -> reads h n (V n)) -> reads h m old ->
    exists h', add_assign A add mul h m e = Ok h' /\ effect h (ptr m) h' m /\ length h' = length h /\
      reads h' m (fun i j => if (i <? erows A e) && (j <? ecols A e)
                             then lift2 A add (old i j) (meaning (sum_of e) mul V e i j) else old i j).
  Proof.
    intros Hv Hop Hea Hd HV Hold. unfold add_assign, sum_of. rewrite Hea.
    destruct (contiguous A e) eqn:Hct.
    - destruct Hd as [Hr Hcl]. rewrite Hr, Hcl, !Z.eqb_refl. cbn [andb].
      destruct (data_loop_spec true h m e V old) as (h' & E & E1 & E2 & E3); auto.
      exists h'. split; [exact E|]. split; [exact E1|]. split; [exact E2|].
      intros i j Hk. rewrite (E3 i j Hk). destruct Hk as (K1 & K2 & _). rewrite Hr in K1. rewrite Hcl in K2.
      destruct (Z.ltb_spec i (erows A e)); [|lia]. destruct (Z.ltb_spec j (ecols A e)); [|lia]. reflexivity.
    - destruct Hd as [Hr Hcl]. apply (reduce_copy_spec true h m e V old); auto.
  Qed.

  (** construction from an expression *)
  Lemma from_expr_spec h k (e : expr A) (V : mat -> Z -> Z -> cell) :
    (forall n, In n (leaves e) -> valid h n /\ sch (st n) = k) ->
    eassert A e = true -> legal_dims k (erows A e) (ecols A e) ->
    (match e with ESum _ _ => True | EScaled _ _ => contiguous A e = true | _ => False end) ->
    (forall n, In n (leaves e) -> reads h n (V n)) ->
    exists h' m, from_expr A add mul h k e = Ok (h', m) /\ effect h None h' m /\
      sch (st m) = k /\ rows m = erows A e /\ cols m = ecols A e /\ reads h' m (meaning (sum_of e) mul V e).
  Proof.
    intros Hop Hea Hl Hform HV. unfold from_expr. rewrite Hea, (legal_dims_ok _ _ _ Hl). cbn [andb].
    set (s := mkStorage k (erows A e) (ecols A e)).
    pose proof (num_elements_nonneg s (wf_mk _ _ _ Hl)) as Hn.
    destruct (alloc A h (num_elements s)) as [h1 p] eqn:E.
    apply alloc_nth in E. destruct E as (-> & E1 & E2 & E3).
    set (m := mkMat s (Some (length h)) (num_elements s)).
    assert (Vm : valid h1 m).
    { apply valid_mk; [assumption|subst s; lia|]. eexists. split; [exact E1|]. rewrite repeat_length. lia. }
    assert (Hptr : forall n q, In n (leaves e) -> ptr n = Some q -> (q < length h)%nat).
    { intros n q Hin Hp. destruct (Hop n Hin) as [(_ & _ & _ & Vp) _]. rewrite Hp in Vp.
      destruct Vp as (? & Vp & _). eapply nth_lt; eauto. }
    assert (Hop1 : operands_ok h1 (sch (st m)) m e).
    { intros n Hin. destruct (Hop n Hin) as (Vn & Hs). split; [|split; [exact Hs|]].
      - eapply valid_frame; [exact Vn|]. intros q Hq. apply E3. eapply Hptr; eauto.
      - intros Hnn Hp. destruct (ptr n) as [q|] eqn:En; [|congruence].
        pose proof (Hptr n q Hin En). simpl in Hp. inversion Hp. lia. }
    assert (HV1 : forall n, In n (leaves e) -> reads h1 n (V n)).
    { intros n Hin i j Hk. rewrite <- (HV n Hin i j Hk). apply get_frame. intros q Hq. apply E3. eapply Hptr; eauto. }
    assert (Hold : reads h1 m (fun _ _ => None)).
    { intros i j Hk. unfold get. simpl. eapply load_live; [exact E1|].
      pose proof (kept_index _ _ _ _ Vm Hk) as Hi. unfold nelem in Hi. simpl in Hi. fold s in Hi.
      unfold znth. destruct (Z.ltb_spec (index s i j) 0); [lia|].
      rewrite nth_error_repeat by lia. reflexivity. }
    assert (Hcl : cols m = ecols A e) by (apply scols_mk; assumption).
    assert (Hr : rows m = erows A e) by reflexivity.
    assert (Hgoal : exists h2, (if contiguous A e then data_loop A add mul false h1 m e else reduce_copy A add mul false h1 m e) = Ok h2
              /\ effect h1 (ptr m) h2 m /\ length h2 = length h1 /\ reads h2 m (meaning (sum_of e) mul V e)).
    { unfold sum_of. destruct (contiguous A e) eqn:Hct.
      - destruct (data_loop_spec false h1 m e V (fun _ _ => None)) as (h2 & G1 & G2 & G3 & G4); auto.
        exists h2. split; [exact G1|]. split; [exact G2|]. split; [exact G3|exact G4].
      - destruct (reduce_copy_spec false h1 m e V (fun _ _ => None)) as (h2 & G1 & G2 & G3 & G4); auto.
        { rewrite Hr; lia. } { rewrite Hcl; lia. }
        exists h2. split; [exact G1|]. split; [exact G2|]. split; [exact G3|].
        intros i j Hk. rewrite (G4 i j Hk). destruct Hk as (K1 & K2 & _). rewrite Hr in K1. rewrite Hcl in K2.
        destruct (Z.ltb_spec i (erows A e)); [|lia]. destruct (Z.ltb_spec j (ecols A e)); [|lia]. reflexivity. }
    destruct Hgoal as (h2 & G1 & (T1 & T2 & T3 & T4) & G3 & G4).
    exists h2, m. split.
    { destruct e; try contradiction.
      - rewrite Hform in G1. rewrite Hform. rewrite G1. reflexivity.
      - destruct (contiguous A (ESum e1 e2)); rewrite G1; reflexivity. }
    split; [|split; [reflexivity|split; [exact Hr|split; [exact Hcl|exact G4]]]].
    split; [exact T1|]. split; [|split].
    - intros q _ Hq. rewrite T2; [auto| |lia]. simpl. intros Hx; inversion Hx; lia.
    - right. exists (length h). auto.
    - intros q l Hq. destruct (T4 q l Hq) as [Hx|[Hx1 Hx2]]; [left; exact Hx|].
      right. split; [|discriminate]. simpl in Hx2. assert (q <> length h) by congruence. lia.
  Qed.
End Proofs.
