(** Refinement of StokesCoeffs programs to abstract coefficient sets. *)
From Coq Require Import ZArith List Bool Lia.
From Verif Require Import Base StorageModel StorageSpec StorageProofs MatrixModel MatrixSpec MatrixProofs MatrixProgProofs
  StokesModel StokesSpec StokesProofs StokesProofs2.
Import ListNotations.
Open Scope Z_scope.

Section Refine.
  Context {A : Type}.
  Variables add mul : A -> A -> A.
  Notation step := (step A add mul).

  Definition view (p : pstate A) (i : nat) (n m : Z) : res (cell A) :=
    x <- obj A p i ;; get A (heap A p) x n m.
  Lemma view_live p i a n m : live_at (objs A p) i a -> view p i n m = get A (heap A p) a n m.
  Proof. intros L. unfold view. rewrite (obj_live _ _ _ L). reflexivity. Qed.

  (** slot i of p reads as slot j of p' up to degree d *)
  Definition keeps (p : pstate A) (i : nat) (p' : pstate A) (j : nat) (d : Z) : Prop :=
    forall n m, 0 <= m <= n -> n <= d -> view p' j n m = view p i n m.
  Definition frame (p p' : pstate A) (touched : nat -> Prop) : Prop :=
    forall k r d, ~ touched k -> nth_error (sh p) k = Some (Some r) -> d < r -> keeps p k p' k d.

  Lemma keeps_get p i a p' j b d : live_at (objs A p) i a -> live_at (objs A p') j b -> 
    sch (st a) = LwTriCol -> d < rows a ->
    (forall n m, kept a (n, m) -> n <= d -> get A (heap A p') b n m = get A (heap A p) a n m) -> keeps p i p' j d.
  Proof.
    intros L L' T Hd H n m Hm Hn. rewrite (view_live _ _ _ _ _ L), (view_live _ _ _ _ _ L').
    apply H; [apply tri_kept; auto; lia|assumption].
  Qed.

  (** objects other than the one whose block may be touched *)
  Lemma effect_frame p i a h' m' objs' (T : nat -> Prop) : good p -> live_at (objs A p) i a ->
    effect (heap A p) (ptr a) h' m' -> T i ->
    (forall k c, ~ T k -> live_at (objs A p) k c -> live_at objs' k c) -> frame p (mkP A objs' h') T.
  Proof.
    intros G L E Ti Ho k r d Hk Hr Hd. destruct (sh_live _ _ _ Hr) as (c & Lc & <-).
    eapply keeps_get; [exact Lc|apply (Ho k c Hk Lc)|apply (proj2 G _ _ Lc)|assumption|].
    intros n m K _. apply (effect_others _ _ _ _ E); [apply (proj1 (proj1 G) _ _ Lc)| |assumption].
    destruct (ptr c) as [q|] eqn:Ec; [right|left; reflexivity]. intros Heq. 
    assert (k = i) by (eapply (proj2 (proj1 G)); eauto). subst. contradiction.
  Qed.

  Lemma effect_frame_new p h' m' objs' (T : nat -> Prop) : good p ->
    effect (heap A p) None h' m' ->
    (forall k c, ~ T k -> live_at (objs A p) k c -> live_at objs' k c) -> frame p (mkP A objs' h') T.
  Proof.
    intros G E Ho k r d Hk Hr Hd. destruct (sh_live _ _ _ Hr) as (c & Lc & <-).
    eapply keeps_get; [exact Lc|apply (Ho k c Hk Lc)|apply (proj2 G _ _ Lc)|assumption|].
    intros n m K _. apply (effect_others _ _ _ _ E); [apply (proj1 (proj1 G) _ _ Lc)| |assumption].
    destruct (ptr c) as [q|] eqn:Ec; [right; discriminate|left; reflexivity].
  Qed.

  Lemma same_heap_frame p objs' (T : nat -> Prop) : good p ->
    (forall k c, ~ T k -> live_at (objs A p) k c -> live_at objs' k c) -> frame p (mkP A objs' (heap A p)) T.
  Proof.
    intros G Ho k r d Hk Hr Hd. destruct (sh_live _ _ _ Hr) as (c & Lc & <-).
    eapply keeps_get; [exact Lc|apply (Ho k c Hk Lc)|apply (proj2 G _ _ Lc)|assumption|]. reflexivity.
  Qed.

  Lemma live_snoc (l : list (option mat)) y k c : live_at l k c -> live_at (l ++ [y]) k c.
  Proof. unfold live_at. intros H. rewrite nth_error_app1; [assumption|]. apply nth_error_Some. congruence. Qed.
  Lemma live_upd_ne (l : list (option mat)) y i k c : k <> i -> live_at l k c -> live_at (upd l i y) k c.
  Proof. unfold live_at. intros Hk H. rewrite nth_error_upd_ne; assumption. Qed.
  Lemma live_upd_eq (l : list (option mat)) y i c : live_at l i c -> live_at (upd l i (Some y)) i y.
  Proof. unfold live_at. intros H. apply nth_error_upd_eq, nth_error_Some. congruence. Qed.
  Lemma live_last (l : list (option mat)) y : live_at (l ++ [Some y]) (length l) y.
  Proof. unfold live_at. rewrite nth_error_app2, Nat.sub_diag by lia. reflexivity. Qed.
  Lemma sh_len p : length (sh p) = length (objs A p).
  Proof. unfold sh. apply map_length. Qed.

  Definition none (k : nat) : Prop := False.

  Lemma v_ctor p p' r : good p -> 0 <= r -> step p (OCtor A LwTriCol r r) = Ok p' ->
    good p' /\ sh p' = sh p ++ [Some r] /\ frame p p' none.
  Proof.
    intros G Hr E. destruct (step_ctor add mul p r G Hr) as (s' & E' & G' & S').
    assert (s' = p') by congruence. subst s'. split; [exact G'|]. split; [exact S'|].
    destruct (ctor_spec (heap A p) LwTriCol r r (legal_sq _ _ Hr)) as (h' & m & Ec & Ef & _).
    simpl in E. rewrite Ec in E. cbn [bind] in E. inversion E; subst.
    eapply effect_frame_new; [exact G|exact Ef|]. intros k c _ L. apply live_snoc, L.
  Qed.

  Lemma v_copy p p' i r : good p -> nth_error (sh p) i = Some (Some r) -> step p (OCopyCtor A i) = Ok p' ->
    good p' /\ sh p' = sh p ++ [Some r] /\ frame p p' none /\
    (forall d, d < r -> keeps p i p' (length (sh p)) d).
  Proof.
    intros G Hi E. destruct (step_copy add mul p i r G Hi) as (s' & E' & G' & S').
    assert (s' = p') by congruence. subst s'. split; [exact G'|]. split; [exact S'|].
    destruct (sh_live _ _ _ Hi) as (a & L & <-).
    destruct (copy_ctor_spec (heap A p) a (proj1 (proj1 G) _ _ L)) as (h' & m' & Ec & Ef & Es & _ & V).
    simpl in E. rewrite (obj_live _ _ _ L) in E. cbn [bind] in E. rewrite Ec in E. cbn [bind] in E. inversion E; subst.
    split.
    - eapply effect_frame_new; [exact G|exact Ef|]. intros k c _ Lk. apply live_snoc, Lk.
    - intros d Hd. rewrite sh_len. eapply keeps_get; [exact L|apply live_last|apply (proj2 G _ _ L)|assumption|].
      intros n m K _. apply V, K.
  Qed.

  Lemma v_move p p' i r : good p -> nth_error (sh p) i = Some (Some r) -> step p (OMoveCtor A i) = Ok p' ->
    good p' /\ sh p' = upd (sh p) i (Some 0) ++ [Some r] /\ frame p p' (eq i) /\
    (forall d, d < r -> keeps p i p' (length (sh p)) d).
  Proof.
    intros G Hi E. destruct (step_move add mul p i r G Hi) as (s' & E' & G' & S').
    assert (s' = p') by congruence. subst s'. split; [exact G'|]. split; [exact S'|].
    destruct (sh_live _ _ _ Hi) as (a & L & <-).
    destruct (move_ctor_thm (heap A p) a (proj1 (proj1 G) _ _ L)) as (m' & a' & Ec & -> & _).
    simpl in E. rewrite (obj_live _ _ _ L) in E. cbn [bind] in E. rewrite Ec in E. cbn [bind] in E. inversion E; subst.
    split.
    - apply same_heap_frame; [exact G|]. intros k c Hk Lk. apply live_snoc, live_upd_ne; [congruence|exact Lk].
    - intros d Hd. rewrite sh_len. eapply keeps_get; [exact L| |apply (proj2 G _ _ L)|assumption|reflexivity].
      cbn [objs]. rewrite <- (upd_length (objs A p) i (Some a')). apply live_last.
  Qed.

  Lemma v_assign p p' i j ri rj : good p -> i <> j -> nth_error (sh p) i = Some (Some ri) ->
    nth_error (sh p) j = Some (Some rj) -> step p (OCopyAssign A i j) = Ok p' ->
    good p' /\ sh p' = upd (sh p) i (Some rj) /\ frame p p' (eq i) /\ (forall d, d < rj -> keeps p j p' i d).
  Proof.
    intros G Hne Hi Hj E. destruct (step_assign add mul p i j ri rj G Hne Hi Hj) as (s' & E' & G' & S').
    assert (s' = p') by congruence. subst s'. split; [exact G'|]. split; [exact S'|].
    destruct (sh_live _ _ _ Hi) as (a & La & <-). destruct (sh_live _ _ _ Hj) as (b & Lb & <-).
    destruct (copy_assign_spec (heap A p) a b (proj1 (proj1 G) _ _ La) (proj1 (proj1 G) _ _ Lb)) as (h' & m' & Ec & Ef & Es & V).
    { rewrite (proj2 G _ _ La), (proj2 G _ _ Lb). reflexivity. }
    { intros Hn Heq. destruct (ptr a) as [q|] eqn:Ep; [|congruence]. apply Hne. eapply (proj2 (proj1 G)); eauto. }
    simpl in E. rewrite (obj_live _ _ _ La), (obj_live _ _ _ Lb) in E. cbn [bind] in E.
    rewrite (same_tri _ _ (proj2 G _ _ La) (proj2 G _ _ Lb)) in E. apply Nat.eqb_neq in Hne. rewrite Hne in E.
    rewrite Ec in E. cbn [bind] in E. inversion E; subst. split.
    - eapply effect_frame; [exact G|exact La|exact Ef|reflexivity|].
      intros k c Hk Lk. apply live_upd_ne; [congruence|exact Lk].
    - intros d Hd. eapply keeps_get; [exact Lb|eapply live_upd_eq; exact La|apply (proj2 G _ _ Lb)|assumption|].
      intros n m K _. apply V, K.
  Qed.

  Lemma v_move_assign p p' i j ri rj : good p -> i <> j -> nth_error (sh p) i = Some (Some ri) ->
    nth_error (sh p) j = Some (Some rj) -> step p (OMoveAssign A i j) = Ok p' ->
    good p' /\ sh p' = upd (upd (sh p) i (Some rj)) j (Some 0) /\ frame p p' (fun k => k = i \/ k = j) /\
    (forall d, d < rj -> keeps p j p' i d).
  Proof.
    intros G Hne Hi Hj E. destruct (step_move_assign add mul p i j ri rj G Hi Hj) as (s' & E' & G' & S').
    assert (s' = p') by congruence. subst s'. split; [exact G'|]. split; [exact S'|].
    destruct (sh_live _ _ _ Hi) as (a & La & <-). destruct (sh_live _ _ _ Hj) as (b & Lb & <-).
    destruct (move_assign_thm (heap A p) a b (proj1 (proj1 G) _ _ La) (proj1 (proj1 G) _ _ Lb)) as (m' & b' & Ec & -> & _).
    { rewrite (proj2 G _ _ La), (proj2 G _ _ Lb). reflexivity. }
    simpl in E. rewrite (obj_live _ _ _ La), (obj_live _ _ _ Lb) in E. cbn [bind] in E.
    rewrite (same_tri _ _ (proj2 G _ _ La) (proj2 G _ _ Lb)) in E. rewrite Ec in E. cbn [bind] in E.
    inversion E; subst. unfold put. cbn [objs heap]. split.
    - apply same_heap_frame; [exact G|]. intros k c Hk Lk. apply live_upd_ne; [tauto|]. apply live_upd_ne; [tauto|exact Lk].
    - intros d Hd. eapply keeps_get; [exact Lb| |apply (proj2 G _ _ Lb)|assumption|reflexivity].
      cbn [objs]. apply live_upd_ne; [assumption|]. eapply live_upd_eq; exact La.
  Qed.

  Lemma v_swap p p' i j ri rj : good p -> nth_error (sh p) i = Some (Some ri) ->
    nth_error (sh p) j = Some (Some rj) -> step p (OSwap A i j) = Ok p' ->
    good p' /\ sh p' = upd (upd (sh p) i (Some rj)) j (Some ri) /\ frame p p' (fun k => k = i \/ k = j) /\
    (forall d, d < rj -> keeps p j p' i d) /\ (forall d, d < ri -> keeps p i p' j d).
  Proof.
    intros G Hi Hj E. destruct (step_swap add mul p i j ri rj G Hi Hj) as (s' & E' & G' & S').
    assert (s' = p') by congruence. subst s'. split; [exact G'|]. split; [exact S'|].
    destruct (sh_live _ _ _ Hi) as (a & La & <-). destruct (sh_live _ _ _ Hj) as (b & Lb & <-).
    simpl in E. rewrite (obj_live _ _ _ La), (obj_live _ _ _ Lb) in E. cbn [bind] in E.
    rewrite (same_tri _ _ (proj2 G _ _ La) (proj2 G _ _ Lb)) in E.
    assert (E2 : Ok (put A (put A p i b) j a) = Ok p') by (rewrite <- E; unfold swap; destruct a, b; reflexivity).
    clear E. inversion E2; subst. unfold put. cbn [objs heap]. 
    assert (Lj : live_at (upd (upd (objs A p) i (Some b)) j (Some a)) j a).
    { unfold live_at. apply nth_error_upd_eq. rewrite upd_length. apply nth_error_Some. unfold live_at in Lb. congruence. }
    assert (Li : i <> j -> live_at (upd (upd (objs A p) i (Some b)) j (Some a)) i b).
    { intros Hne. apply live_upd_ne; [assumption|]. eapply live_upd_eq; exact La. }
    split; [|split].
    - apply same_heap_frame; [exact G|]. intros k c Hk Lk. apply live_upd_ne; [tauto|]. apply live_upd_ne; [tauto|exact Lk].
    - intros d Hd. destruct (Nat.eq_dec i j) as [->|Hne].
      + assert (a = b) by (unfold live_at in *; congruence). subst b.
        eapply keeps_get; [exact La|exact Lj|apply (proj2 G _ _ La)|assumption|reflexivity].
      + eapply keeps_get; [exact Lb|apply Li, Hne|apply (proj2 G _ _ Lb)|assumption|reflexivity].
    - intros d Hd. eapply keeps_get; [exact La|exact Lj|apply (proj2 G _ _ La)|assumption|reflexivity].
  Qed.

  Lemma v_resize p p' i r0 r : good p -> nth_error (sh p) i = Some (Some r0) -> 0 <= r ->
    step p (OResize A i r r) = Ok p' -> good p' /\ sh p' = upd (sh p) i (Some r) /\ frame p p' (eq i).
  Proof.
    intros G Hi Hr E. destruct (step_resize add mul p i r0 r G Hi Hr) as (s' & E' & G' & S').
    assert (s' = p') by congruence. subst s'. split; [exact G'|]. split; [exact S'|].
    destruct (sh_live _ _ _ Hi) as (a & La & <-).
    destruct (resize_spec (heap A p) a r r (proj1 (proj1 G) _ _ La) (legal_sq _ _ Hr)) as (h' & m' & Ec & Ef & _).
    simpl in E. rewrite (obj_live _ _ _ La) in E. cbn [bind] in E. rewrite Ec in E. cbn [bind] in E. inversion E; subst.
    eapply effect_frame; [exact G|exact La|exact Ef|reflexivity|].
    intros k c Hk Lk. apply live_upd_ne; [congruence|exact Lk].
  Qed.

  Lemma v_cresize p p' i r0 r : good p -> nth_error (sh p) i = Some (Some r0) -> 0 <= r ->
    step p (OCResize A i r r) = Ok p' -> good p' /\ sh p' = upd (sh p) i (Some r) /\ frame p p' (eq i) /\
    (forall d, d < r0 -> d < r -> keeps p i p' i d).
  Proof.
    intros G Hi Hr E. destruct (step_cresize add mul p i r0 r G Hi Hr) as (s' & E' & G' & S').
    assert (s' = p') by congruence. subst s'. split; [exact G'|]. split; [exact S'|].
    destruct (sh_live _ _ _ Hi) as (a & La & <-).
    destruct (cresize_spec (heap A p) a r r (proj1 (proj1 G) _ _ La) (legal_sq _ _ Hr)) as (h' & m' & Ec & Ef & Es & V).
    simpl in E. rewrite (obj_live _ _ _ La) in E. cbn [bind] in E. rewrite Ec in E. cbn [bind] in E. inversion E; subst.
    split.
    - eapply effect_frame; [exact G|exact La|exact Ef|reflexivity|].
      intros k c Hk Lk. apply live_upd_ne; [congruence|exact Lk].
    - intros d Hd Hd'. pose proof (proj2 G _ _ La) as T.
      eapply keeps_get; [exact La|eapply live_upd_eq; exact La|exact T|assumption|].
      intros n m K Hn. apply V; [exact K|]. apply tri_kept; [rewrite Es; exact T|].
      apply tri_kept in K; [|exact T]. unfold rows. rewrite Es. cbn [srows]. lia.
  Qed.

  Lemma v_destroy p p' i r : good p -> nth_error (sh p) i = Some (Some r) -> step p (ODestroy A i) = Ok p' ->
    good p' /\ sh p' = upd (sh p) i None /\ frame p p' (eq i).
  Proof.
    intros G Hi E. destruct (step_destroy add mul p i r G Hi) as (s' & E' & G' & S').
    assert (s' = p') by congruence. subst s'. split; [exact G'|]. split; [exact S'|].
    destruct (sh_live _ _ _ Hi) as (a & La & <-).
    destruct (free_opt_spec (heap A p) a (proj1 (proj1 G) _ _ La)) as (h' & Ec & _ & F & _).
    simpl in E. rewrite (obj_live _ _ _ La) in E. cbn [bind] in E. unfold dtor in E. rewrite Ec in E. cbn [bind] in E. inversion E; subst.
    intros k r' d Hk Hr Hd. destruct (sh_live _ _ _ Hr) as (c & Lc & <-).
    eapply keeps_get; [exact Lc|apply live_upd_ne; [congruence|exact Lc]|apply (proj2 G _ _ Lc)|assumption|].
    intros n m K _. apply get_frame. intros q Hq. apply F. intros Heq. apply Hk.
    eapply (proj2 (proj1 G)); eauto; congruence.
  Qed.

  Lemma v_inplace p i a h' m' : good p -> live_at (objs A p) i a -> effect (heap A p) (ptr a) h' m' ->
    frame p (mkP A (objs A p) h') (eq i).
  Proof.
    intros G L E. eapply effect_frame; [exact G|exact L|exact E|reflexivity|]. auto.
  Qed.

  Lemma v_fill p p' i r v : good p -> nth_error (sh p) i = Some (Some r) -> step p (OFill A i v) = Ok p' ->
    good p' /\ sh p' = sh p /\ frame p p' (eq i) /\
    (forall n m, 0 <= m <= n -> n < r -> view p' i n m = Ok (Some v)).
  Proof.
    intros G Hi E. destruct (step_fill add mul p i r v G Hi) as (s' & E' & G' & S').
    assert (s' = p') by congruence. subst s'. split; [exact G'|]. split; [unfold sh; rewrite S'; reflexivity|].
    destruct (sh_live _ _ _ Hi) as (a & La & <-). pose proof (proj2 G _ _ La) as T.
    destruct (fill_spec (heap A p) a v (proj1 (proj1 G) _ _ La)) as (h' & Ec & Ef & _ & V).
    simpl in E. rewrite (obj_live _ _ _ La) in E. cbn [bind] in E. rewrite Ec in E. cbn [bind] in E. inversion E; subst.
    split; [eapply v_inplace; eauto|]. intros n m Hm Hn. rewrite (view_live _ i a n m); [|exact La].
    apply V. apply tri_kept; auto.
  Qed.

  Lemma v_multiply p p' i r v : good p -> nth_error (sh p) i = Some (Some r) -> step p (OMultiply A i v) = Ok p' ->
    good p' /\ sh p' = sh p /\ frame p p' (eq i) /\
    (forall n m, 0 <= m <= n -> n < r -> view p' i n m = (c <- view p i n m ;; Ok (lift2 A mul c (Some v)))).
  Proof.
    intros G Hi E. destruct (sh_live _ _ _ Hi) as (a & La & <-). pose proof (proj2 G _ _ La) as T.
    pose proof (proj1 (proj1 G) _ _ La) as Va. destruct (reads_exists _ _ Va) as (f & F).
    destruct (step_multiply add mul p i a v f G La F) as (s' & E' & G' & S' & _).
    assert (s' = p') by congruence. subst s'. split; [exact G'|]. split; [unfold sh; rewrite S'; reflexivity|].
    destruct (multiply_spec mul (heap A p) a v f Va F) as (h' & Ec & Ef & _ & V).
    simpl in E. rewrite (obj_live _ _ _ La) in E. cbn [bind] in E. rewrite Ec in E. cbn [bind] in E. inversion E; subst.
    split; [eapply v_inplace; eauto|]. intros n m Hm Hn. rewrite (view_live _ i a n m); [|exact La].
    rewrite (view_live p i a n m La). cbn [heap].
    rewrite V, F by (apply tri_kept; auto). reflexivity.
  Qed.

  Lemma v_set p p' i r n k v : good p -> nth_error (sh p) i = Some (Some r) -> 0 <= k <= n -> n < r ->
    step p (OSet A i n k v) = Ok p' ->
    good p' /\ sh p' = sh p /\ frame p p' (eq i) /\
    (forall a b, 0 <= b <= a -> a < r -> view p' i a b = if (a =? n) && (b =? k) then Ok (Some v) else view p i a b).
  Proof.
    intros G Hi Hk Hn E. destruct (sh_live _ _ _ Hi) as (a & La & <-). pose proof (proj2 G _ _ La) as T.
    pose proof (proj1 (proj1 G) _ _ La) as Va. destruct (reads_exists _ _ Va) as (f & F).
    assert (K : kept a (n, k)) by (apply tri_kept; auto).
    destruct (step_set add mul p i a n k v f G La K F) as (s' & E' & G' & S' & _).
    assert (s' = p') by congruence. subst s'. split; [exact G'|]. split; [unfold sh; rewrite S'; reflexivity|].
    destruct (set_spec (heap A p) a n k v f Va K F) as (h' & Ec & Ef & _ & V).
    simpl in E. rewrite (obj_live _ _ _ La) in E. cbn [bind] in E. rewrite Ec in E. cbn [bind] in E. inversion E; subst.
    split; [eapply v_inplace; eauto|]. intros x y Hy Hx. rewrite (view_live _ i a x y); [|exact La].
    rewrite (view_live p i a x y La). cbn [heap].
    rewrite V, F by (apply tri_kept; auto). destruct ((x =? n) && (y =? k)); reflexivity.
  Qed.

  (** ** the refinement relation *)
  Definition slot (t : bool) (k : nat) : nat := if t then cslot k else sslot k.
  Lemma slot_inj t k t' k' : slot t k = slot t' k' -> t = t' /\ k = k'.
  Proof. unfold slot, cslot, sslot. destruct t, t'; intros; split; try reflexivity; lia. Qed.
  Lemma coef_view (s : sstate A) t k n m : coef s t k n m = view (ps A s) (slot t k) n m.
  Proof. destruct t; reflexivity. Qed.

  Definition vals (y : aset) (p : pstate A) (f : bool) (k : nat) : Prop :=
    forall t n m v, aval y t n m = Some v -> 0 <= m <= n -> n <= adeg y ->
      f = true /\ view p (slot t k) n m = Ok (Some v).
  Definition related (y : aset) (x : sc) (p : pstate A) (f : bool) (k : nat) : Prop :=
    adeg y = degree x /\ aord y = order x /\ vals y p f k.
  Definition R (a : list (option aset)) (u : list bool) (s : sstate A) : Prop :=
    sinv u s /\ length a = length (scs A s) /\
    (forall k x, alive s k x -> exists y, nth_error a k = Some (Some y) /\ related y x (ps A s) (flag u k) k) /\
    (forall k, nth_error (scs A s) k = Some None -> nth_error a k = Some None).

  Lemma frame_trans p p1 p2 (T1 T2 T : nat -> Prop) : frame p p1 T1 -> frame p1 p2 T2 ->
    (forall k r, ~ T k -> nth_error (sh p) k = Some (Some r) -> nth_error (sh p1) k = Some (Some r)) ->
    (forall k, ~ T k -> ~ T1 k) -> (forall k, ~ T k -> ~ T2 k) -> frame p p2 T.
  Proof.
    intros F1 F2 Hs H1 H2 k r d Hk Hr Hd n m Hm Hn.
    rewrite (F2 k r d (H2 k Hk) (Hs k r Hk Hr) Hd n m Hm Hn). apply (F1 k r d (H1 k Hk) Hr Hd n m Hm Hn).
  Qed.

  Lemma keeps_trans p i p1 j p2 k d : keeps p i p1 j d -> keeps p1 j p2 k d -> keeps p i p2 k d.
  Proof. intros H1 H2 n m Hm Hn. rewrite (H2 n m Hm Hn). apply H1; assumption. Qed.

  Lemma slot_row u (s : sstate A) k x : sinv u s -> alive s k x ->
    exists r, (forall t, nth_error (sh (ps A s)) (slot t k) = Some (Some r)) /\
      (flag u k = true -> 0 <= order x <= degree x /\ degree x < r).
  Proof.
    intros (G & _ & _ & H) L. destruct (H k x L) as (r & R1 & R2 & R3). exists r. split.
    - intros [|]; assumption.
    - intros Hf. specialize (R3 Hf). lia.
  Qed.

  (** an object that keeps its values *)
  Lemma related_keeps u s k x y p' k' f' : sinv u s -> alive s k x ->
    related y x (ps A s) (flag u k) k -> f' = flag u k ->
    (flag u k = true -> forall t, keeps (ps A s) (slot t k) p' (slot t k') (degree x)) ->
    related y x p' f' k'.
  Proof.
    intros I L (R1 & R2 & V) -> K. split; [exact R1|]. split; [exact R2|].
    intros t n m v Hv Hm Hn. destruct (V t n m v Hv Hm Hn) as [Hf Hw]. split; [exact Hf|].
    rewrite (K Hf t n m Hm ltac:(lia)). exact Hw.
  Qed.
  Lemma related_frame u s k x y p' (T : nat -> Prop) f' : sinv u s -> alive s k x ->
    related y x (ps A s) (flag u k) k -> f' = flag u k -> frame (ps A s) p' T -> (forall t, ~ T (slot t k)) ->
    related y x p' f' k.
  Proof.
    intros I L Hr Hf F HT. eapply (related_keeps u s); eauto. intros Hfl t.
    destruct (slot_row u s k x I L) as (r & Hs & Hd). specialize (Hd Hfl).
    eapply F; [apply HT|apply Hs|lia].
  Qed.

  Lemma mrun2 s o1 o2 p : mrun A add mul s [o1; o2] = Ok p ->
    exists p1, step (ps A s) o1 = Ok p1 /\ step p1 o2 = Ok p.
  Proof.
    unfold mrun. cbn [fold_res]. destruct (step (ps A s) o1) as [p1| | |]; cbn [bind]; try discriminate.
    destruct (step p1 o2) as [p2| | |] eqn:E; cbn [bind]; try discriminate. intros H. exists p1. split; congruence.
  Qed.
  Lemma mrun1 s o1 p : mrun A add mul s [o1] = Ok p -> step (ps A s) o1 = Ok p.
  Proof.
    unfold mrun. cbn [fold_res]. destruct (step (ps A s) o1) as [p1| | |]; cbn [bind]; congruence.
  Qed.

  Lemma aget_nth (a : list (option (@aset A))) k y : nth_error a k = Some (Some y) -> aget a k = Some y.
  Proof. intros H. unfold aget. apply nth_error_nth. assumption. Qed.

  Lemma scobj_ok s k x : scobj A s k = Ok x -> alive s k x.
  Proof. unfold scobj, alive. destruct (nth_error (scs A s) k) as [[z|]|]; congruence. Qed.

  Ltac bnd E x Ex := match type of E with (bind ?r _ = _) => destruct r as [x| | |] eqn:Ex; cbn [bind] in E; try discriminate E end.
  Ltac dec1 := match goal with
    | |- context [Nat.eqb ?a ?b] => destruct (Nat.eqb_spec a b); try lia
    | |- context [Nat.ltb ?a ?b] => destruct (Nat.ltb_spec a b); try lia
    | H : context [Nat.ltb ?a ?b] |- _ => destruct (Nat.ltb_spec a b); try lia
    | H : context [Nat.eqb ?a ?b] |- _ => destruct (Nat.eqb_spec a b); try lia
    end.
  Ltac lk := unfold slot, cslot, sslot in *;
    repeat (rewrite ?nth_error_upd, ?nth_error_snoc, ?upd_length, ?app_length in *; simpl length in * );
    repeat dec1; auto.
  Ltac flg := unfold flag; rewrite ?nth_snoc, ?nth_upd, ?upd_length; repeat dec1; try reflexivity.

  (** appending an object *)
  Lemma R_append a u s p' x y f : R a u s -> sinv (u ++ [f]) (mkS A (scs A s ++ [Some x]) p') ->
    frame (ps A s) p' none -> related y x p' f (length (scs A s)) ->
    R (a ++ [Some y]) (u ++ [f]) (mkS A (scs A s ++ [Some x]) p').
  Proof.
    intros (I & La & H & D) I' F Hn. pose proof I as (_ & _ & Lu & _). split; [exact I'|].
    cbn [scs ps]. rewrite !app_length. split; [simpl; lia|]. split.
    - intros k z Hk. unfold alive in Hk. cbn [scs] in Hk. rewrite nth_error_snoc in Hk.
      destruct (Nat.ltb_spec k (length (scs A s))); [|destruct (Nat.eqb_spec k (length (scs A s))); [|discriminate]].
      + destruct (H k z Hk) as (w & Hw & Rw). exists w. split; [rewrite nth_error_snoc; repeat dec1; assumption|].
        eapply (related_frame u s); eauto. flg.
      + inversion Hk; subst z. exists y. split; [rewrite nth_error_snoc; repeat dec1; reflexivity|]. subst k.
        replace (flag (u ++ [f]) (length (scs A s))) with f by flg. exact Hn.
    - intros k Hk. cbn [scs] in Hk. rewrite nth_error_snoc in Hk.
      destruct (Nat.ltb_spec k (length (scs A s))); [|destruct (Nat.eqb_spec k (length (scs A s))); discriminate].
      rewrite nth_error_snoc. repeat dec1. apply D, Hk.
  Qed.

  (** changing one object in place *)
  Lemma R_modify a u s p' k x x' y' f : R a u s -> alive s k x ->
    sinv (upd u k f) (mkS A (upd (scs A s) k (Some x')) p') ->
    frame (ps A s) p' (fun i => i = cslot k \/ i = sslot k) -> related y' x' p' f k ->
    R (upd a k (Some y')) (upd u k f) (mkS A (upd (scs A s) k (Some x')) p').
  Proof.
    intros (I & La & H & D) L I' F Hn. pose proof I as (_ & _ & Lu & _). pose proof (alive_lt s k x L) as Hlt.
    split; [exact I'|]. cbn [scs ps]. rewrite !upd_length. split; [lia|]. split.
    - intros i z Hi. unfold alive in Hi. cbn [scs] in Hi. rewrite nth_error_upd in Hi. repeat dec1.
      + subst i. inversion Hi; subst z. exists y'. split; [lk|]. replace (flag (upd u k f) k) with f by flg. exact Hn.
      + destruct (H i z Hi) as (w & Hw & Rw). exists w. split; [lk|].
        eapply (related_frame u s); eauto; [flg|]. intros t [E|E]; unfold slot, cslot, sslot in E; destruct t; lia.
    - intros i Hi. cbn [scs] in Hi. rewrite nth_error_upd in Hi. destruct (Nat.eqb_spec i k).
      { destruct (Nat.ltb k (length (scs A s))); discriminate. }
      rewrite nth_error_upd. repeat dec1. apply D, Hi.
  Qed.

  Lemma upd_same_list {X} (l : list X) i x : nth_error l i = Some x -> upd l i x = l.
  Proof. revert i; induction l; destruct i; simpl; intros; try discriminate; f_equal; auto; congruence. Qed.
  Lemma upd_flag u k : (k < length u)%nat -> upd u k (flag u k) = u.
  Proof. intros H. apply upd_same_list. unfold flag. apply nth_error_nth'. assumption. Qed.

  (** ... keeping dimensions and flag *)
  Lemma R_values a u s p' k x y' : R a u s -> alive s k x -> sinv u (mkS A (scs A s) p') ->
    frame (ps A s) p' (fun i => i = cslot k \/ i = sslot k) -> related y' x p' (flag u k) k ->
    R (upd a k (Some y')) u (mkS A (scs A s) p').
  Proof.
    intros HR L I' F Hn. pose proof HR as (I & La & H & D). pose proof I as (_ & _ & Lu & _).
    pose proof (alive_lt s k x L) as Hlt.
    assert (E1 : upd u k (flag u k) = u) by (apply upd_flag; lia).
    assert (E2 : upd (scs A s) k (Some x) = scs A s) by (apply upd_same_list; exact L).
    pose proof (R_modify a u s p' k x x y' (flag u k) HR L) as M. rewrite E1, E2 in M. apply M; assumption.
  Qed.

  Theorem refine_step a u s o s' b : R a u s -> aop_ok s u o -> sstep A add mul s o = Ok (s', b) ->
    R (astep add mul a o) (track u o) s'.
  Proof.
    intros HR [Hok Hok2] E. pose proof HR as (I & La & H & D). pose proof I as (G & Ls & Lu & Hrow).
    assert (I' : sinv (track u o) s').
    { pose proof (sstep_ok add mul u s o I Hok) as S. rewrite E in S. exact S. }
    assert (SR := fun k x (L : alive s k x) => slot_row u s k x I L).
    assert (Alt := alive_lt s).
    destruct o; unfold sstep in E; cbn [track astep] in *.
    - (* default *)
      bnd E p Ep. inversion E; subst s' b. destruct (mrun2 _ _ _ _ Ep) as (p1 & E1 & E2).
      destruct (v_ctor _ _ 0 G ltac:(lia) E1) as (G1 & S1 & F1). destruct (v_ctor _ _ 0 G1 ltac:(lia) E2) as (G2 & S2 & F2).
      apply R_append; auto.
      + eapply frame_trans; [exact F1|exact F2|rewrite S1|auto|auto]. intros k r _ Hk.
        assert (k < length (sh (ps A s)))%nat by (apply nth_error_Some; congruence). lk.
      + split; [reflexivity|]. split; [reflexivity|]. intros t n m v Hv. discriminate Hv.
    - (* ctor *)
      bnd E p Ep. inversion E; subst s' b. destruct (mrun2 _ _ _ _ Ep) as (p1 & E1 & E2). simpl in Hok.
      destruct (v_ctor _ _ (n + 1) G ltac:(lia) E1) as (G1 & S1 & F1).
      destruct (v_ctor _ _ (n + 1) G1 ltac:(lia) E2) as (G2 & S2 & F2).
      apply R_append; auto.
      + eapply frame_trans; [exact F1|exact F2|rewrite S1|auto|auto]. intros k r _ Hk.
        assert (k < length (sh (ps A s)))%nat by (apply nth_error_Some; congruence). lk.
      + split; [reflexivity|]. split; [reflexivity|]. intros t r c v Hv. discriminate Hv.
    - (* copy *)
      bnd E x Ex. apply scobj_ok in Ex. bnd E p Ep. inversion E; subst s' b.
      destruct (mrun2 _ _ _ _ Ep) as (p1 & E1 & E2). destruct (SR k x Ex) as (r & Hs & Hd).
      destruct (H k x Ex) as (y & Hy & Ry). pose proof (Alt _ _ Ex) as Hlt.
      destruct (v_copy _ _ _ r G (Hs true) E1) as (G1 & S1 & F1 & K1).
      assert (Hs1 : nth_error (sh p1) (slot false k) = Some (Some r)) by (specialize (Hs false); rewrite S1; lk).
      destruct (v_copy _ _ _ r G1 Hs1 E2) as (G2 & S2 & F2 & K2).
      rewrite (aget_nth _ _ _ Hy). apply R_append; auto.
      + eapply frame_trans; [exact F1|exact F2|rewrite S1|auto|auto]. intros i q _ Hk.
        assert (i < length (sh (ps A s)))%nat by (apply nth_error_Some; congruence). lk.
      + eapply (related_keeps u s); eauto. intros Hf t. specialize (Hd Hf). destruct t.
        * eapply keeps_trans; [apply (K1 (degree x)); lia|]. 
          replace (length (sh (ps A s))) with (slot true (length (scs A s))) by (unfold slot, cslot; lia).
          eapply (F2 _ r); [auto|rewrite S1; lk|lia].
        * eapply keeps_trans; [eapply (F1 _ r (degree x)); [auto|apply (Hs false)|lia]|].
          replace (slot false (length (scs A s))) with (length (sh p1)) by (rewrite S1; unfold slot, sslot; rewrite app_length; simpl; lia).
          apply K2. lia.
    - (* move *)
      bnd E x Ex. apply scobj_ok in Ex. bnd E p Ep. inversion E; subst s' b.
      destruct (mrun2 _ _ _ _ Ep) as (p1 & E1 & E2). destruct (SR k x Ex) as (r & Hs & Hd).
      destruct (H k x Ex) as (y & Hy & Ry). pose proof (Alt _ _ Ex) as Hlt.
      destruct (v_move _ _ _ r G (Hs true) E1) as (G1 & S1 & F1 & K1).
      assert (Hs1 : nth_error (sh p1) (slot false k) = Some (Some r)) by (specialize (Hs false); rewrite S1; lk).
      destruct (v_move _ _ _ r G1 Hs1 E2) as (G2 & S2 & F2 & K2).
      rewrite (aget_nth _ _ _ Hy). cbn [voided option_map].
      assert (F : frame (ps A s) p (fun i => i = cslot k \/ i = sslot k)).
      { eapply frame_trans; [exact F1|exact F2|rewrite S1| |]; try (cbv [slot]; intros; intuition congruence). intros i q Hi Hk.
        assert (i < length (sh (ps A s)))%nat by (apply nth_error_Some; congruence). lk; exfalso; apply Hi; left; unfold cslot; lia. }
      split; [exact I'|]. cbn [scs ps]. rewrite !app_length, !upd_length. split; [simpl; lia|]. split.
      + intros i z Hi. unfold alive in Hi. cbn [scs] in Hi. rewrite nth_error_snoc in Hi.
        destruct (Nat.ltb_spec i (length (scs A s))).
        * destruct (Nat.eq_dec i k) as [->|Hne].
          -- assert (z = x) by (unfold alive in Ex; congruence). subst z.
             eexists. split; [lk|]. destruct Ry as (Y1 & Y2 & _). split; [exact Y1|]. split; [exact Y2|].
             intros t n m v Hv. discriminate Hv.
          -- destruct (H i z Hi) as (w & Hw & Rw). exists w. split; [lk|].
             eapply (related_frame u s); eauto; [flg|]. intros t [Q|Q]; unfold slot, cslot, sslot in Q; destruct t; lia.
        * destruct (Nat.eqb_spec i (length (scs A s))); [|discriminate]. inversion Hi; subst z i.
          exists y. split; [lk|]. eapply (related_keeps u s); eauto; [flg|].
          intros Hf t. specialize (Hd Hf). destruct t.
          -- eapply keeps_trans; [apply (K1 (degree x)); lia|].
             replace (length (sh (ps A s))) with (slot true (length (scs A s))) by (unfold slot, cslot; lia).
             eapply (F2 _ r); [unfold slot, cslot, sslot; lia|rewrite S1; lk|lia].
          -- eapply keeps_trans; [eapply (F1 (slot false k) r (degree x)); [unfold slot, cslot, sslot; lia|apply (Hs false)|lia]|].
             replace (slot false (length (scs A s))) with (length (sh p1)).
             2:{ rewrite S1; unfold slot, sslot; rewrite app_length, upd_length; simpl; lia. }
             apply K2. lia.
      + intros i Hi. cbn [scs] in Hi. rewrite nth_error_snoc in Hi. repeat dec1; try discriminate.
        rewrite nth_error_snoc, nth_error_upd, upd_length. repeat dec1; auto. subst. unfold alive in Ex. congruence.
    - (* assign *)
      bnd E x Ex. bnd E y Ey. apply scobj_ok in Ex, Ey. destruct (H i x Ex) as (xa & Hxa & Rx). destruct (H j y Ey) as (ya & Hya & Ry).
      rewrite (aget_nth _ _ _ Hya). destruct (Nat.eqb_spec i j) as [->|Hne].
      { inversion E; subst s' b. rewrite upd_same_list by assumption. rewrite upd_flag by (pose proof (Alt _ _ Ex); lia). exact HR. }
      bnd E p Ep. inversion E; subst s' b. destruct (mrun2 _ _ _ _ Ep) as (p1 & E1 & E2).
      destruct (SR i x Ex) as (ri & Hsi & Hdi). destruct (SR j y Ey) as (rj & Hsj & Hdj).
      pose proof (Alt _ _ Ex) as Hlt. pose proof (Alt _ _ Ey) as Hlt'.
      destruct (v_assign _ _ (slot true i) (slot true j) ri rj G ltac:(unfold slot, cslot; lia) (Hsi true) (Hsj true) E1) as (G1 & S1 & F1 & K1).
      assert (Q1 : nth_error (sh p1) (slot false i) = Some (Some ri)) by (specialize (Hsi false); rewrite S1; lk).
      assert (Q2 : nth_error (sh p1) (slot false j) = Some (Some rj)) by (specialize (Hsj false); rewrite S1; lk).
      destruct (v_assign _ _ (slot false i) (slot false j) ri rj G1 ltac:(unfold slot, sslot; lia) Q1 Q2 E2) as (G2 & S2 & F2 & K2).
      eapply R_modify; eauto.
      + eapply frame_trans; [exact F1|exact F2|rewrite S1| |]; try (cbv [slot]; intros; intuition congruence). intros k q Hk Hq.
        lk; exfalso; apply Hk; left; unfold cslot; lia.
      + eapply (related_keeps u s); eauto. intros Hf t. specialize (Hdj Hf). destruct t.
        * eapply keeps_trans; [apply (K1 (degree y)); lia|].
          eapply (F2 (slot true i) rj); [unfold slot, cslot, sslot; lia|rewrite S1; specialize (Hsi true); assert (slot true i < length (sh (ps A s)))%nat by (apply nth_error_Some; congruence); lk|lia].
        * eapply keeps_trans; [eapply (F1 (slot false j) rj (degree y)); [unfold slot, cslot, sslot; lia|apply (Hsj false)|lia]|].
          apply K2. lia.
    - (* move assign *)
      bnd E x Ex. bnd E y Ey. apply scobj_ok in Ex, Ey. destruct (H i x Ex) as (xa & Hxa & Rx). destruct (H j y Ey) as (ya & Hya & Ry).
      destruct (Nat.eqb_spec i j) as [->|Hne].
      { inversion E; subst s' b. exact HR. }
      rewrite (aget_nth _ _ _ Hya). cbn [voided option_map].
      bnd E p Ep. inversion E; subst s' b. destruct (mrun2 _ _ _ _ Ep) as (p1 & E1 & E2).
      destruct (SR i x Ex) as (ri & Hsi & Hdi). destruct (SR j y Ey) as (rj & Hsj & Hdj).
      pose proof (Alt _ _ Ex) as Hlt. pose proof (Alt _ _ Ey) as Hlt'.
      assert (Hci : (slot true i < length (sh (ps A s)))%nat) by (unfold slot, cslot; lia).
      assert (Hcj : (slot true j < length (sh (ps A s)))%nat) by (unfold slot, cslot; lia).
      destruct (v_move_assign _ _ (slot true i) (slot true j) ri rj G ltac:(unfold slot, cslot; lia) (Hsi true) (Hsj true) E1) as (G1 & S1 & F1 & K1).
      assert (Q1 : nth_error (sh p1) (slot false i) = Some (Some ri)) by (specialize (Hsi false); rewrite S1; lk).
      assert (Q2 : nth_error (sh p1) (slot false j) = Some (Some rj)) by (specialize (Hsj false); rewrite S1; lk).
      destruct (v_move_assign _ _ (slot false i) (slot false j) ri rj G1 ltac:(unfold slot, sslot; lia) Q1 Q2 E2) as (G2 & S2 & F2 & K2).
      assert (F : frame (ps A s) p (fun k => exists t, k = slot t i \/ k = slot t j)).
      { eapply frame_trans; [exact F1|exact F2|rewrite S1| |].
        - intros k q Hk Hq. lk; exfalso; apply Hk; exists true; simpl; unfold cslot; lia.
        - intros k Hk Q. apply Hk. exists true. exact Q.
        - intros k Hk Q. apply Hk. exists false. exact Q. }
      split; [exact I'|]. cbn [scs ps]. rewrite !upd_length. split; [lia|]. split.
      + intros k z Hk. unfold alive in Hk. cbn [scs] in Hk. rewrite nth_error_upd in Hk. destruct (Nat.eqb_spec k i) as [->|Hki].
        * destruct (Nat.ltb_spec i (length (scs A s))); [|lia]. inversion Hk; subst z.
          exists ya. split; [lk|]. eapply (related_keeps u s); eauto; [flg|]. intros Hf t. specialize (Hdj Hf). destruct t.
          -- eapply keeps_trans; [apply (K1 (degree y)); lia|].
             eapply (F2 (slot true i) rj); [unfold slot, cslot, sslot; lia|rewrite S1; lk|lia].
          -- eapply keeps_trans; [eapply (F1 (slot false j) rj (degree y)); [unfold slot, cslot, sslot; lia|apply (Hsj false)|lia]|].
             apply K2. lia.
        * destruct (H k z Hk) as (w & Hw & Rw). destruct (Nat.eq_dec k j) as [->|Hkj].
          -- assert (z = y) by (unfold alive in Ey; congruence). subst z.
             eexists. split; [lk|]. destruct Ry as (Y1 & Y2 & _). split; [exact Y1|]. split; [exact Y2|].
             intros t n m v Hv. discriminate Hv.
          -- exists w. split; [lk|]. eapply (related_frame u s); eauto; [flg|].
             intros t (t' & [Q|Q]); apply slot_inj in Q; destruct Q; congruence.
      + intros k Hk. cbn [scs] in Hk. rewrite nth_error_upd in Hk. repeat dec1; try discriminate.
        rewrite nth_error_upd, upd_length. repeat dec1.
        * subst. unfold alive in Ey. congruence.
        * rewrite nth_error_upd. repeat dec1. apply D, Hk.
    - (* swap *)
      bnd E x Ex. bnd E y Ey. apply scobj_ok in Ex, Ey. destruct (H i x Ex) as (xa & Hxa & Rx). destruct (H j y Ey) as (ya & Hya & Ry).
      rewrite (aget_nth _ _ _ Hya), (aget_nth _ _ _ Hxa).
      bnd E p Ep. inversion E; subst s' b. destruct (mrun2 _ _ _ _ Ep) as (p1 & E1 & E2).
      destruct (SR i x Ex) as (ri & Hsi & Hdi). destruct (SR j y Ey) as (rj & Hsj & Hdj).
      pose proof (Alt _ _ Ex) as Hlt. pose proof (Alt _ _ Ey) as Hlt'.
      assert (Hci : (slot true i < length (sh (ps A s)))%nat) by (unfold slot, cslot; lia).
      assert (Hcj : (slot true j < length (sh (ps A s)))%nat) by (unfold slot, cslot; lia).
      destruct (v_swap _ _ _ _ ri rj G (Hsi true) (Hsj true) E1) as (G1 & S1 & F1 & K1 & K1').
      assert (Q1 : nth_error (sh p1) (slot false i) = Some (Some ri)) by (specialize (Hsi false); rewrite S1; lk).
      assert (Q2 : nth_error (sh p1) (slot false j) = Some (Some rj)) by (specialize (Hsj false); rewrite S1; lk).
      destruct (v_swap _ _ _ _ ri rj G1 Q1 Q2 E2) as (G2 & S2 & F2 & K2 & K2').
      assert (F : frame (ps A s) p (fun k => exists t, k = slot t i \/ k = slot t j)).
      { eapply frame_trans; [exact F1|exact F2|rewrite S1| |].
        - intros k q Hk Hq. lk; exfalso; apply Hk; exists true; simpl; unfold cslot; lia.
        - intros k Hk Q. apply Hk. exists true. exact Q.
        - intros k Hk Q. apply Hk. exists false. exact Q. }
      assert (Hij : i = j -> ri = rj) by (intros ->; specialize (Hsi true); specialize (Hsj true); congruence).
      assert (KI : flag u j = true -> forall t, keeps (ps A s) (slot t j) p (slot t i) (degree y)).
      { intros Hf t. specialize (Hdj Hf). destruct t.
        - eapply keeps_trans; [apply (K1 (degree y)); lia|].
          eapply (F2 (slot true i) rj); [unfold slot, cslot, sslot; lia|rewrite S1; lk; repeat f_equal; apply Hij; lia|lia].
        - eapply keeps_trans; [eapply (F1 (slot false j) rj (degree y)); [unfold slot, cslot, sslot; lia|apply (Hsj false)|lia]|].
          apply K2. lia. }
      assert (KJ : flag u i = true -> forall t, keeps (ps A s) (slot t i) p (slot t j) (degree x)).
      { intros Hf t. specialize (Hdi Hf). destruct t.
        - eapply keeps_trans; [apply (K1' (degree x)); lia|].
          eapply (F2 (slot true j) ri); [unfold slot, cslot, sslot; lia|rewrite S1; lk|lia].
        - eapply keeps_trans; [eapply (F1 (slot false i) ri (degree x)); [unfold slot, cslot, sslot; lia|apply (Hsi false)|lia]|].
          apply K2'. lia. }
      split; [exact I'|]. cbn [scs ps]. rewrite !upd_length. split; [lia|]. split.
      + intros k z Hk. unfold alive in Hk. cbn [scs] in Hk. rewrite nth_error_upd, upd_length in Hk. destruct (Nat.eqb_spec k j) as [->|Hkj].
        * destruct (Nat.ltb_spec j (length (scs A s))); [|lia]. inversion Hk; subst z.
          exists xa. split; [rewrite nth_error_upd, upd_length; repeat dec1; reflexivity|]. eapply (related_keeps u s); eauto. flg.
        * rewrite nth_error_upd in Hk. destruct (Nat.eqb_spec k i) as [->|Hki].
          -- destruct (Nat.ltb_spec i (length (scs A s))); [|lia]. inversion Hk; subst z.
             exists ya. split; [lk|]. eapply (related_keeps u s); eauto. flg.
          -- destruct (H k z Hk) as (w & Hw & Rw).
             exists w. split; [lk|]. eapply (related_frame u s); eauto; [flg|].
             intros t (t' & [Q|Q]); apply slot_inj in Q; destruct Q; congruence.
      + intros k Hk. cbn [scs] in Hk. rewrite nth_error_upd, upd_length in Hk. destruct (Nat.eqb_spec k j).
        { destruct (Nat.ltb j (length (scs A s))); discriminate. }
        rewrite nth_error_upd in Hk. destruct (Nat.eqb_spec k i).
        { destruct (Nat.ltb i (length (scs A s))); discriminate. }
        rewrite !nth_error_upd. repeat dec1. apply D, Hk.
    - (* resize *)
      bnd E x Ex. apply scobj_ok in Ex. bnd E p Ep. inversion E; subst s' b. simpl in Hok.
      destruct (mrun2 _ _ _ _ Ep) as (p1 & E1 & E2). destruct (SR k x Ex) as (r & Hs & Hd).
      destruct (H k x Ex) as (y & Hy & Ry). pose proof (Alt _ _ Ex) as Hlt.
      destruct (v_resize _ _ _ r (n + 1) G (Hs true) ltac:(lia) E1) as (G1 & S1 & F1).
      assert (Hs1 : nth_error (sh p1) (slot false k) = Some (Some r)) by (specialize (Hs false); rewrite S1; lk).
      destruct (v_resize _ _ _ r (n + 1) G1 Hs1 ltac:(lia) E2) as (G2 & S2 & F2).
      unfold amod. rewrite (aget_nth _ _ _ Hy). cbn [option_map]. eapply R_modify; eauto.
      + eapply frame_trans; [exact F1|exact F2|rewrite S1| |]; try (cbv [slot]; intros; intuition congruence). intros i q Hi Hq.
        lk; exfalso; apply Hi; left; unfold cslot; lia.
      + split; [reflexivity|]. split; [reflexivity|]. intros t i j v Hv. discriminate Hv.
    - (* cresize *)
      bnd E x Ex. apply scobj_ok in Ex. bnd E p Ep. inversion E; subst s' b. simpl in Hok.
      destruct (mrun2 _ _ _ _ Ep) as (p1 & E1 & E2). destruct (SR k x Ex) as (r & Hs & Hd).
      destruct (H k x Ex) as (y & Hy & Ry). pose proof (Alt _ _ Ex) as Hlt.
      assert (Hck : (slot true k < length (sh (ps A s)))%nat) by (unfold slot, cslot; lia).
      destruct (v_cresize _ _ _ r (n + 1) G (Hs true) ltac:(lia) E1) as (G1 & S1 & F1 & K1).
      assert (Hs1 : nth_error (sh p1) (slot false k) = Some (Some r)) by (specialize (Hs false); rewrite S1; lk).
      destruct (v_cresize _ _ _ r (n + 1) G1 Hs1 ltac:(lia) E2) as (G2 & S2 & F2 & K2).
      unfold amod. rewrite (aget_nth _ _ _ Hy). cbn [option_map]. eapply R_modify; eauto.
      + eapply frame_trans; [exact F1|exact F2|rewrite S1| |]; try (cbv [slot]; intros; intuition congruence). intros i q Hi Hq.
        lk; exfalso; apply Hi; left; unfold cslot; lia.
      + split; [reflexivity|]. split; [reflexivity|]. intros t i j v Hv Hj Hi. cbn [aval adeg] in *.
        destruct (Z.leb_spec i (adeg y)) as [Hle|]; [|discriminate]. split; [reflexivity|].
        destruct Ry as (Y1 & Y2 & Vy). destruct (Vy t i j v Hv Hj Hle) as [Hf Hv']. specialize (Hd Hf).
        rewrite <- Hv'. destruct t.
        * assert (K : keeps (ps A s) (slot true k) p (slot true k) i).
          { eapply keeps_trans; [apply (K1 i); lia|]. eapply (F2 (slot true k) (n + 1)); [unfold slot, cslot, sslot; lia|rewrite S1; lk|lia]. }
          apply K; lia.
        * assert (K : keeps (ps A s) (slot false k) p (slot false k) i).
          { eapply keeps_trans; [eapply (F1 (slot false k) r i); [unfold slot, cslot, sslot; lia|apply Hs|lia]|]. apply K2; lia. }
          apply K; lia.
    - (* shrink *)
      bnd E x Ex. apply scobj_ok in Ex. destruct (H k x Ex) as (y & Hy & Ry). pose proof (Alt _ _ Ex) as Hlt.
      unfold amod. rewrite (aget_nth _ _ _ Hy). cbn [option_map]. destruct Ry as (Y1 & Y2 & Vy). rewrite Y1, Y2.
      destruct ((m <=? n) && (n <=? degree x) && (m <=? order x)) eqn:Eb.
      + inversion E; subst s' b. apply andb_true_iff in Eb. destruct Eb as [Eb E3]. apply andb_true_iff in Eb. destruct Eb as [_ E2]. apply Z.leb_le in E2.
        assert (Eu : upd u k (flag u k) = u) by (apply upd_flag; lia).
        pose proof (R_modify a u s (ps A s) k x (mkSc n m) (mkA n m (aval y)) (flag u k) HR Ex) as M. rewrite Eu in M.
        apply M; auto.
        * apply (same_heap_frame (ps A s) (objs A (ps A s))); auto.
        * split; [reflexivity|]. split; [reflexivity|]. intros t i j v Hv Hj Hi. cbn [aval adeg] in *.
          apply Vy; auto. lia.
      + inversion E; subst s' b. rewrite upd_same_list by assumption. exact HR.
    - (* clear *)
      bnd E x Ex. apply scobj_ok in Ex. bnd E p Ep. inversion E; subst s' b.
      destruct (mrun2 _ _ _ _ Ep) as (p1 & E1 & E2). destruct (SR k x Ex) as (r & Hs & Hd). specialize (Hd Hok2).
      destruct (H k x Ex) as (y & Hy & Ry). pose proof (Alt _ _ Ex) as Hlt.
      destruct (v_fill _ _ _ r zero G (Hs true) E1) as (G1 & S1 & F1 & V1).
      assert (Hs1 : nth_error (sh p1) (slot false k) = Some (Some r)) by (rewrite S1; apply Hs).
      destruct (v_fill _ _ _ r zero G1 Hs1 E2) as (G2 & S2 & F2 & V2).
      unfold amod. rewrite (aget_nth _ _ _ Hy). cbn [option_map]. destruct Ry as (Y1 & Y2 & Vy). eapply R_values; eauto.
      + eapply frame_trans; [exact F1|exact F2|rewrite S1; auto| |]; cbv [slot]; intros; intuition congruence.
      + split; [exact Y1|]. split; [exact Y2|]. intros t i j v Hv Hj Hi. cbn [aval adeg] in *. inversion Hv; subst v.
        split; [exact Hok2|]. destruct t; [|apply V2; lia].
        assert (K : keeps p1 (slot true k) p (slot true k) i) by (eapply (F2 _ r); [unfold slot, cslot, sslot; lia|rewrite S1; apply Hs|lia]).
        rewrite K by lia. apply V1; lia.
    - (* scale *)
      bnd E x Ex. apply scobj_ok in Ex. specialize (Hok2 x Ex). apply Z.eqb_neq in Hok2. rewrite Hok2 in E.
      bnd E p Ep. inversion E; subst s' b.
      destruct (mrun2 _ _ _ _ Ep) as (p1 & E1 & E2). destruct (SR k x Ex) as (r & Hs & Hd).
      destruct (H k x Ex) as (y & Hy & Ry). pose proof (Alt _ _ Ex) as Hlt.
      destruct (v_multiply _ _ _ r f G (Hs true) E1) as (G1 & S1 & F1 & V1).
      assert (Hs1 : nth_error (sh p1) (slot false k) = Some (Some r)) by (rewrite S1; apply Hs).
      destruct (v_multiply _ _ _ r f G1 Hs1 E2) as (G2 & S2 & F2 & V2).
      unfold amod. rewrite (aget_nth _ _ _ Hy). cbn [option_map]. destruct Ry as (Y1 & Y2 & Vy). eapply R_values; eauto.
      + eapply frame_trans; [exact F1|exact F2|rewrite S1; auto| |]; cbv [slot]; intros; intuition congruence.
      + split; [exact Y1|]. split; [exact Y2|]. intros t i j v Hv Hj Hi. cbn [aval adeg] in *.
        destruct (aval y t i j) as [w|] eqn:Ew; [|discriminate]. inversion Hv; subst v.
        destruct (Vy t i j w Ew Hj Hi) as [Hf Hw]. specialize (Hd Hf). split; [exact Hf|]. destruct t.
        * assert (K : keeps p1 (slot true k) p (slot true k) i) by (eapply (F2 _ r); [unfold slot, cslot, sslot; lia|rewrite S1; apply Hs|lia]).
          rewrite K by lia. cbn [slot] in *. rewrite V1 by lia. rewrite Hw. reflexivity.
        * assert (K : keeps (ps A s) (slot false k) p1 (slot false k) i) by (eapply (F1 _ r); [unfold slot, cslot, sslot; lia|apply Hs|lia]).
          cbn [slot] in *. rewrite V2 by lia. rewrite K by lia. rewrite Hw. reflexivity.
    - (* set C *)
      bnd E x Ex. apply scobj_ok in Ex. bnd E p Ep. inversion E; subst s' b. apply mrun1 in Ep.
      destruct (SR k x Ex) as (r & Hs & Hd). destruct (H k x Ex) as (y & Hy & Ry). pose proof (Alt _ _ Ex) as Hlt.
      simpl in Hok. destruct Hok as (Hf & Hmn & Hdeg). specialize (Hdeg x Ex). specialize (Hd Hf).
      destruct (v_set _ _ _ r n m v G (Hs true) Hmn ltac:(lia) Ep) as (G1 & S1 & F1 & V1).
      unfold amod. rewrite (aget_nth _ _ _ Hy). cbn [option_map]. destruct Ry as (Y1 & Y2 & Vy). eapply R_values; eauto.
      + intros i q d Hi. apply F1. cbv [slot]. intuition congruence.
      + split; [exact Y1|]. split; [exact Y2|]. intros t i j w Hv Hj Hi. cbn [aval adeg] in *. split; [exact Hf|].
        destruct t; cbn [andb] in Hv.
        * cbn [slot]. rewrite V1 by lia. destruct ((i =? n) && (j =? m)); [congruence|]. apply (Vy true); auto.
        * assert (K : keeps (ps A s) (slot false k) p (slot false k) i) by (eapply (F1 _ r); [unfold slot, cslot, sslot; lia|apply Hs|lia]).
          rewrite K by lia. apply (Vy false); auto.
    - (* set S *)
      bnd E x Ex. apply scobj_ok in Ex. bnd E p Ep. inversion E; subst s' b. apply mrun1 in Ep.
      destruct (SR k x Ex) as (r & Hs & Hd). destruct (H k x Ex) as (y & Hy & Ry). pose proof (Alt _ _ Ex) as Hlt.
      simpl in Hok. destruct Hok as (Hf & Hmn & Hdeg). specialize (Hdeg x Ex). specialize (Hd Hf).
      destruct (v_set _ _ _ r n m v G (Hs false) Hmn ltac:(lia) Ep) as (G1 & S1 & F1 & V1).
      unfold amod. rewrite (aget_nth _ _ _ Hy). cbn [option_map]. destruct Ry as (Y1 & Y2 & Vy). eapply R_values; eauto.
      + intros i q d Hi. apply F1. cbv [slot]. intuition congruence.
      + split; [exact Y1|]. split; [exact Y2|]. intros t i j w Hv Hj Hi. cbn [aval adeg] in *. split; [exact Hf|].
        destruct t; cbn [andb negb] in Hv.
        * assert (K : keeps (ps A s) (slot true k) p (slot true k) i) by (eapply (F1 _ r); [unfold slot, cslot, sslot; lia|apply Hs|lia]).
          rewrite K by lia. apply (Vy true); auto.
        * cbn [slot]. rewrite V1 by lia. destruct ((i =? n) && (j =? m)); [congruence|]. apply (Vy false); auto.
    - (* += *)
      simpl in Hok. destruct Hok as (Hij & Fi & Fj).
      destruct (scobj A s i) as [x| | |] eqn:Ex; try discriminate E. destruct (scobj A s j) as [y| | |] eqn:Ey; try discriminate E.
      cbn [bind] in E. pose proof (scobj_ok _ _ _ Ex) as Lx. pose proof (scobj_ok _ _ _ Ey) as Ly.
      destruct (H i x Lx) as (xa & Hxa & X1 & X2 & Vx). destruct (H j y Ly) as (ya & Hya & Y1 & Y2 & Vy).
      rewrite (aget_nth _ _ _ Hya). unfold amod. rewrite (aget_nth _ _ _ Hxa). cbn [option_map]. rewrite X1, X2, Y1, Y2.
      destruct ((degree x <? degree y) || (order x <? order y)) eqn:Eb.
      + inversion E; subst s' b. assert (Eb' : (degree y <=? degree x) && (order y <=? order x) = false).
        { apply andb_false_iff. apply orb_true_iff in Eb. rewrite !Z.leb_gt. rewrite !Z.ltb_lt in Eb. exact Eb. }
        rewrite Eb'. rewrite upd_same_list by assumption. exact HR.
      + assert (Eb' : degree y <= degree x /\ order y <= order x).
        { apply orb_false_iff in Eb. rewrite !Z.ltb_ge in Eb. exact Eb. }
        destruct (sadd_spec add mul u s i j x y I Lx Ly Hij Fi Fj (proj1 Eb') (proj2 Eb')) as (s2 & E2 & Es & I2 & Eo & V & O).
        unfold sstep in E2. rewrite Ex, Ey in E2. cbn [bind] in E2. rewrite Eb in E2.
        assert (s2 = s') by congruence. subst s2. clear E E2.
        assert (Eb2 : (degree y <=? degree x) && (order y <=? order x) = true).
        { apply andb_true_iff. rewrite !Z.leb_le. exact Eb'. }
        rewrite Eb2. split; [exact I'|]. rewrite upd_length, Es. split; [lia|]. pose proof (Alt _ _ Lx) as Hlt. split.
        * intros k z Hk. unfold alive in Hk. rewrite Es in Hk. destruct (Nat.eq_dec k i) as [->|Hki].
          -- assert (z = x) by (unfold alive in Lx; congruence). subst z. eexists. split; [lk|].
             split; [reflexivity|]. split; [reflexivity|]. intros t n m v Hv Hm Hn. cbn [aval adeg] in *. split; [exact Fi|].
             rewrite <- coef_view. destruct (V n m Hm Hn) as [VC VS]. unfold added in VC, VS.
             assert (Ec : forall c, coef s t i n m = Ok c -> forall d, coef s t j n m = Ok d ->
               coef s' t i n m = if (n <=? degree y) && (m <=? order y) then Ok (lift2 A add c d) else Ok c).
             { intros c Hc d Hd. destruct t; simpl in *; [rewrite VC|rewrite VS]; destruct ((n <=? degree y) && (m <=? order y)); rewrite Hc, ?Hd; reflexivity. }
             assert (Ec' : (n <=? degree y) && (m <=? order y) = false -> coef s' t i n m = coef s t i n m).
             { intros Hb. destruct t; simpl in *; [rewrite VC|rewrite VS]; rewrite Hb; reflexivity. }
             destruct ((n <=? degree y) && (m <=? order y)) eqn:Er.
             ++ destruct (aval xa t n m) as [v1|] eqn:Ev1; [|discriminate]. destruct (aval ya t n m) as [w1|] eqn:Ew1; [|discriminate].
                inversion Hv; subst v. apply andb_true_iff in Er. destruct Er as [Er _]. apply Z.leb_le in Er.
                destruct (Vx t n m v1 Ev1 Hm ltac:(lia)) as [_ Hv1]. destruct (Vy t n m w1 Ew1 Hm ltac:(lia)) as [_ Hw1].
                rewrite <- coef_view in Hv1, Hw1. rewrite (Ec _ Hv1 _ Hw1). reflexivity.
             ++ rewrite Ec' by reflexivity. rewrite coef_view. apply Vx; auto; lia.
          -- destruct (H k z Hk) as (w & Hw & W1 & W2 & Vw). exists w. split; [lk|]. split; [exact W1|]. split; [exact W2|].
             intros t n m v Hv Hm Hn. destruct (Vw t n m v Hv Hm Hn) as [Hf Hv']. split; [exact Hf|].
             rewrite <- coef_view in *. destruct (O k z Hk Hf Hki n m Hm ltac:(lia)) as [OC OS].
             destruct t; simpl in *; [rewrite OC|rewrite OS]; assumption.
        * intros k Hk. rewrite ?Es in Hk. assert (k <> i) by (intros ->; unfold alive in Lx; congruence).
          rewrite nth_error_upd. repeat dec1. apply D, Hk.
    - (* destroy *)
      bnd E x Ex. apply scobj_ok in Ex. bnd E p Ep. inversion E; subst s' b.
      destruct (mrun2 _ _ _ _ Ep) as (p1 & E1 & E2). destruct (SR k x Ex) as (r & Hs & Hd). pose proof (Alt _ _ Ex) as Hlt.
      destruct (v_destroy _ _ _ r G (Hs false) E1) as (G1 & S1 & F1).
      assert (Hs1 : nth_error (sh p1) (slot true k) = Some (Some r)) by (specialize (Hs true); rewrite S1; lk).
      destruct (v_destroy _ _ _ r G1 Hs1 E2) as (G2 & S2 & F2).
      assert (F : frame (ps A s) p (fun i => i = cslot k \/ i = sslot k)).
      { eapply frame_trans; [exact F1|exact F2|rewrite S1| |]; try (cbv [slot]; intros; intuition congruence). intros i q Hi Hq.
        lk; exfalso; apply Hi; right; unfold sslot; lia. }
      split; [exact I'|]. cbn [scs ps]. rewrite !upd_length. split; [lia|]. split.
      + intros i z Hi. unfold alive in Hi. cbn [scs] in Hi. rewrite nth_error_upd in Hi. repeat dec1; try discriminate.
        destruct (H i z Hi) as (w & Hw & Rw). exists w. split; [lk|]. eapply (related_frame u s); eauto.
        intros t [Q|Q]; unfold slot, cslot, sslot in Q; destruct t; lia.
      + intros i Hi. cbn [scs] in Hi. rewrite nth_error_upd in Hi. rewrite nth_error_upd.
        destruct (Nat.eqb_spec i k); repeat dec1; auto.
  Qed.

  Theorem ahist_refines a u s : ahist add mul a u s -> R a u s.
  Proof.
    induction 1 as [|a u s o s' b H IH Ho E].
    - split; [apply sinit_inv|]. split; [reflexivity|]. split.
      + intros k x Hk. unfold alive in Hk. destruct k; discriminate.
      + intros k Hk. destruct k; discriminate.
    - eapply refine_step; eauto.
  Qed.

  Theorem refinement a u s k x : ahist add mul a u s -> alive s k x ->
    exists y, nth_error a k = Some (Some y) /\ adeg y = degree x /\ aord y = order x /\
      forall t n m v, aval y t n m = Some v -> 0 <= m <= n -> n <= degree x -> coef s t k n m = Ok (Some v).
  Proof.
    intros H L. apply ahist_refines in H. destruct H as (_ & _ & H & _). destruct (H k x L) as (y & Hy & Y1 & Y2 & V).
    exists y. repeat (split; [assumption|]). intros t n m v Hv Hm Hn. rewrite coef_view. apply V; auto. lia.
  Qed.
End Refine.
