(** Proofs about StokesCoeffs. *)
From Coq Require Import ZArith List Bool Lia.
From Verif Require Import Base StorageModel StorageSpec StorageProofs MatrixModel MatrixSpec MatrixProofs MatrixProgProofs
  StokesModel StokesSpec.
Import ListNotations.
Open Scope Z_scope.

Lemma map_upd {X Y} (f : X -> Y) l n x : map f (upd l n x) = upd (map f l) n (f x).
Proof. revert n; induction l; destruct n; simpl; congruence. Qed.

Section Proofs.
  Context {A : Type}.
  Variables add mul : A -> A -> A.
  Notation step := (step A add mul).

  (** ** shapes of matrix objects under the operations used by StokesCoeffs *)
  Definition sh (s : pstate A) : list (option Z) := map (option_map rows) (objs A s).
  Definition all_tri (s : pstate A) : Prop := forall i m, live_at (objs A s) i m -> sch (st m) = LwTriCol.

  Lemma sh_live s i r : nth_error (sh s) i = Some (Some r) ->
    exists m, live_at (objs A s) i m /\ rows m = r.
  Proof.
    unfold sh, live_at. rewrite nth_error_map. destruct (nth_error (objs A s) i) as [[m|]|]; simpl; intros E; try discriminate.
    exists m. split; [reflexivity|congruence].
  Qed.
  Lemma live_sh s i m : live_at (objs A s) i m -> nth_error (sh s) i = Some (Some (rows m)).
  Proof. unfold sh, live_at. intros H. rewrite nth_error_map, H. reflexivity. Qed.
  Lemma obj_live s i m : live_at (objs A s) i m -> obj A s i = Ok m.
  Proof. unfold obj, live_at. intros ->. reflexivity. Qed.

  Lemma legal_sq k r : 0 <= r -> legal_dims k r r.
  Proof. unfold legal_dims; repeat split; auto. Qed.

  Lemma same_tri a b : sch (st a) = LwTriCol -> sch (st b) = LwTriCol -> same_type a b = true.
  Proof. unfold same_type. intros -> ->. reflexivity. Qed.

  Definition good (s : pstate A) : Prop := consistent s /\ all_tri s.

  Lemma after s o s' : consistent s -> args_ok o -> position_ok s o -> step s o = Ok s' -> consistent s'.
  Proof. intros C Ha Hp E. pose proof (step_ok add mul s o C Ha Hp) as H. rewrite E in H. apply H. Qed.

  Lemma all_tri_app (s : pstate A) m h : all_tri s -> sch (st m) = LwTriCol -> all_tri (mkP A (objs A s ++ [Some m]) h).
  Proof.
    intros HT Hm i n H. unfold live_at in H. simpl in H.
    destruct (Nat.lt_ge_cases i (length (objs A s))).
    - rewrite nth_error_app1 in H by assumption. eapply HT; eauto.
    - rewrite nth_error_app2 in H by assumption. destruct (i - length (objs A s))%nat as [|[|]]; simpl in H; congruence.
  Qed.
  Lemma all_tri_upd (s : pstate A) i om h : all_tri s -> (forall m, om = Some m -> sch (st m) = LwTriCol) ->
    all_tri (mkP A (upd (objs A s) i om) h).
  Proof.
    intros HT Hm j n H. unfold live_at in H. simpl in H. rewrite nth_error_upd in H.
    destruct (Nat.eqb j i); [|eapply HT; eauto].
    destruct (Nat.ltb i (length (objs A s))); [|discriminate]. apply Hm. congruence.
  Qed.

  Lemma step_ctor s r : good s -> 0 <= r ->
    exists s', step s (OCtor A LwTriCol r r) = Ok s' /\ good s' /\ sh s' = sh s ++ [Some r].
  Proof.
    intros [C T] Hr.
    destruct (ctor_spec (heap A s) LwTriCol r r (legal_sq _ _ Hr)) as (h' & m & E & Ef & R1 & R2 & R3).
    eexists. split; [simpl; rewrite E; reflexivity|]. split; [split|].
    - eapply (after s (OCtor A LwTriCol r r)); [exact C|split; lia|exact I|simpl; rewrite E; reflexivity].
    - apply all_tri_app; assumption.
    - unfold sh. simpl. rewrite map_app. simpl. rewrite R1. reflexivity.
  Qed.

  Lemma step_copy s i r : good s -> nth_error (sh s) i = Some (Some r) ->
    exists s', step s (OCopyCtor A i) = Ok s' /\ good s' /\ sh s' = sh s ++ [Some r].
  Proof.
    intros [C T] Hi. destruct (sh_live _ _ _ Hi) as (m & L & <-).
    destruct (copy_ctor_spec (heap A s) m (proj1 C _ _ L)) as (h' & m' & E & Ef & Es & _).
    assert (St : step s (OCopyCtor A i) = Ok (mkP A (objs A s ++ [Some m']) h')).
    { simpl. rewrite (obj_live _ _ _ L). cbn [bind]. rewrite E. reflexivity. }
    eexists. split; [exact St|]. split; [split|].
    - eapply (after s (OCopyCtor A i)); [exact C|exact I|exact I|exact St].
    - apply all_tri_app; [assumption|]. rewrite Es. eapply T; eauto.
    - unfold sh. simpl. rewrite map_app. simpl. unfold rows. rewrite Es. reflexivity.
  Qed.

  Lemma step_move s i r : good s -> nth_error (sh s) i = Some (Some r) ->
    exists s', step s (OMoveCtor A i) = Ok s' /\ good s' /\ sh s' = upd (sh s) i (Some 0) ++ [Some r].
  Proof.
    intros [C T] Hi. destruct (sh_live _ _ _ Hi) as (m & L & <-).
    assert (St : exists a' m', step s (OMoveCtor A i) = Ok (mkP A (upd (objs A s) i (Some a') ++ [Some m']) (heap A s)) /\
               rows a' = 0 /\ sch (st a') = sch (st m) /\ rows m' = rows m /\ sch (st m') = sch (st m)).
    { simpl. rewrite (obj_live _ _ _ L). cbn [bind]. unfold move_ctor. rewrite set_dims_0. cbn [bind].
      eexists _, _. split; [reflexivity|]. repeat split. }
    destruct St as (a' & m' & St & R1 & R2 & R3 & R4).
    eexists. split; [exact St|]. split; [split|].
    - eapply (after s (OMoveCtor A i)); [exact C|exact I|exact I|exact St].
    - apply (all_tri_app (mkP A (upd (objs A s) i (Some a')) (heap A s))).
      + apply all_tri_upd; [assumption|]. intros x Hx. inversion Hx; subst. rewrite R2. eapply T; eauto.
      + rewrite R4. eapply T; eauto.
    - unfold sh. simpl. rewrite map_app, map_upd. simpl. rewrite R1, R3. reflexivity.
  Qed.

  Lemma step_assign s i j ri rj : good s -> i <> j -> nth_error (sh s) i = Some (Some ri) -> nth_error (sh s) j = Some (Some rj) ->
    exists s', step s (OCopyAssign A i j) = Ok s' /\ good s' /\ sh s' = upd (sh s) i (Some rj).
  Proof.
    intros [C T] Hne Hi Hj. destruct (sh_live _ _ _ Hi) as (a & La & <-). destruct (sh_live _ _ _ Hj) as (b & Lb & <-).
    destruct (copy_assign_spec (heap A s) a b (proj1 C _ _ La) (proj1 C _ _ Lb)) as (h' & m' & E & Ef & Es & _).
    { rewrite (T _ _ La), (T _ _ Lb). reflexivity. }
    { intros Hn Heq. destruct (ptr a) as [p|] eqn:Ep; [|congruence]. apply Hne. eapply (proj2 C); eauto. }
    assert (St : step s (OCopyAssign A i j) = Ok (mkP A (upd (objs A s) i (Some m')) h')).
    { simpl. rewrite (obj_live _ _ _ La), (obj_live _ _ _ Lb). cbn [bind].
      rewrite (same_tri _ _ (T _ _ La) (T _ _ Lb)). apply Nat.eqb_neq in Hne. rewrite Hne. rewrite E. reflexivity. }
    eexists. split; [exact St|]. split; [split|].
    - eapply (after s (OCopyAssign A i j)); [exact C|exact I|exact I|exact St].
    - apply all_tri_upd; [assumption|]. intros x Hx. inversion Hx; subst. rewrite Es. eapply T; eauto.
    - unfold sh. simpl. rewrite map_upd. simpl. unfold rows. rewrite Es. reflexivity.
  Qed.

  Lemma step_move_assign s i j ri rj : good s -> nth_error (sh s) i = Some (Some ri) -> nth_error (sh s) j = Some (Some rj) ->
    exists s', step s (OMoveAssign A i j) = Ok s' /\ good s' /\ sh s' = upd (upd (sh s) i (Some rj)) j (Some 0).
  Proof.
    intros [C T] Hi Hj. destruct (sh_live _ _ _ Hi) as (a & La & <-). destruct (sh_live _ _ _ Hj) as (b & Lb & <-).
    destruct (move_assign_thm (heap A s) a b (proj1 C _ _ La) (proj1 C _ _ Lb)) as (m & b' & E & -> & Vb & R1 & R2 & R3).
    { rewrite (T _ _ La), (T _ _ Lb). reflexivity. }
    assert (Hs : sch (st b') = sch (st b)).
    { unfold move_assign in E. destruct (set_dims (st a) (rows b) (cols b)); try discriminate E. cbn [bind] in E.
      rewrite set_dims_0 in E. cbn [bind] in E. inversion E; subst. reflexivity. }
    assert (St : step s (OMoveAssign A i j) = Ok (put A (put A s i b) j b')).
    { simpl. rewrite (obj_live _ _ _ La), (obj_live _ _ _ Lb). cbn [bind].
      rewrite (same_tri _ _ (T _ _ La) (T _ _ Lb)). rewrite E. reflexivity. }
    eexists. split; [exact St|]. split; [split|].
    - eapply (after s (OMoveAssign A i j)); [exact C|exact I|exact I|exact St].
    - unfold put. simpl. apply (all_tri_upd (mkP A (upd (objs A s) i (Some b)) (heap A s))).
      + apply all_tri_upd; [assumption|]. intros x Hx. inversion Hx; subst. eapply T; eauto.
      + intros x Hx. inversion Hx; subst. rewrite Hs. eapply T; eauto.
    - unfold sh. simpl. rewrite !map_upd. simpl. rewrite R1. reflexivity.
  Qed.

  Lemma step_swap s i j ri rj : good s -> nth_error (sh s) i = Some (Some ri) -> nth_error (sh s) j = Some (Some rj) ->
    exists s', step s (OSwap A i j) = Ok s' /\ good s' /\ sh s' = upd (upd (sh s) i (Some rj)) j (Some ri).
  Proof.
    intros [C T] Hi Hj. destruct (sh_live _ _ _ Hi) as (a & La & <-). destruct (sh_live _ _ _ Hj) as (b & Lb & <-).
    assert (St : step s (OSwap A i j) = Ok (put A (put A s i b) j a)).
    { simpl. rewrite (obj_live _ _ _ La), (obj_live _ _ _ Lb). cbn [bind].
      rewrite (same_tri _ _ (T _ _ La) (T _ _ Lb)). unfold swap. destruct a, b; reflexivity. }
    eexists. split; [exact St|]. split; [split|].
    - eapply (after s (OSwap A i j)); [exact C|exact I|exact I|exact St].
    - unfold put. simpl. apply (all_tri_upd (mkP A (upd (objs A s) i (Some b)) (heap A s))).
      + apply all_tri_upd; [assumption|]. intros x Hx. inversion Hx; subst. eapply T; eauto.
      + intros x Hx. inversion Hx; subst. eapply T; eauto.
    - unfold sh. simpl. rewrite !map_upd. simpl. reflexivity.
  Qed.

  Lemma step_resize s i r0 r : good s -> nth_error (sh s) i = Some (Some r0) -> 0 <= r ->
    exists s', step s (OResize A i r r) = Ok s' /\ good s' /\ sh s' = upd (sh s) i (Some r).
  Proof.
    intros [C T] Hi Hr. destruct (sh_live _ _ _ Hi) as (m & L & <-).
    destruct (resize_spec (heap A s) m r r (proj1 C _ _ L) (legal_sq _ _ Hr)) as (h' & m' & E & Ef & Es & _).
    assert (St : step s (OResize A i r r) = Ok (mkP A (upd (objs A s) i (Some m')) h')).
    { simpl. rewrite (obj_live _ _ _ L). cbn [bind]. rewrite E. reflexivity. }
    eexists. split; [exact St|]. split; [split|].
    - eapply (after s (OResize A i r r)); [exact C|split; lia|exact I|exact St].
    - apply all_tri_upd; [assumption|]. intros x Hx. inversion Hx; subst. rewrite Es. simpl. eapply T; eauto.
    - unfold sh. simpl. rewrite map_upd. simpl. unfold rows. rewrite Es. reflexivity.
  Qed.

  Lemma step_cresize s i r0 r : good s -> nth_error (sh s) i = Some (Some r0) -> 0 <= r ->
    exists s', step s (OCResize A i r r) = Ok s' /\ good s' /\ sh s' = upd (sh s) i (Some r).
  Proof.
    intros [C T] Hi Hr. destruct (sh_live _ _ _ Hi) as (m & L & <-).
    destruct (cresize_spec (heap A s) m r r (proj1 C _ _ L) (legal_sq _ _ Hr)) as (h' & m' & E & Ef & Es & _).
    assert (St : step s (OCResize A i r r) = Ok (mkP A (upd (objs A s) i (Some m')) h')).
    { simpl. rewrite (obj_live _ _ _ L). cbn [bind]. rewrite E. reflexivity. }
    eexists. split; [exact St|]. split; [split|].
    - eapply (after s (OCResize A i r r)); [exact C|split; lia|exact I|exact St].
    - apply all_tri_upd; [assumption|]. intros x Hx. inversion Hx; subst. rewrite Es. simpl. eapply T; eauto.
    - unfold sh. simpl. rewrite map_upd. simpl. unfold rows. rewrite Es. reflexivity.
  Qed.

  Lemma good_heap s h' : good s -> consistent (mkP A (objs A s) h') -> good (mkP A (objs A s) h').
  Proof. intros [C T] C'. split; [exact C'|]. intros i m L. apply (T i m L). Qed.

  Lemma step_fill s i r v : good s -> nth_error (sh s) i = Some (Some r) ->
    exists s', step s (OFill A i v) = Ok s' /\ good s' /\ objs A s' = objs A s.
  Proof.
    intros G Hi. destruct (sh_live _ _ _ Hi) as (m & L & <-).
    destruct (fill_spec (heap A s) m v (proj1 (proj1 G) _ _ L)) as (h' & E & Ef & _).
    assert (St : step s (OFill A i v) = Ok (mkP A (objs A s) h')).
    { simpl. rewrite (obj_live _ _ _ L). cbn [bind]. rewrite E. reflexivity. }
    eexists. split; [exact St|]. split; [|reflexivity].
    apply good_heap; [assumption|]. eapply (after s (OFill A i v)); [apply G|exact I|exact I|exact St].
  Qed.

  Lemma step_multiply s i m v f : good s -> live_at (objs A s) i m -> reads (heap A s) m f ->
    exists s', step s (OMultiply A i v) = Ok s' /\ good s' /\ objs A s' = objs A s /\
      reads (heap A s') m (fun i j => lift2 A mul (f i j) (Some v)) /\
      others_unchanged (heap A s) (ptr m) (heap A s').
  Proof.
    intros G L Hf.
    destruct (multiply_spec mul (heap A s) m v f (proj1 (proj1 G) _ _ L) Hf) as (h' & E & Ef & _ & Er).
    assert (St : step s (OMultiply A i v) = Ok (mkP A (objs A s) h')).
    { simpl. rewrite (obj_live _ _ _ L). cbn [bind]. rewrite E. reflexivity. }
    eexists. split; [exact St|]. split; [|split; [reflexivity|split; [exact Er|eapply effect_others; eauto]]].
    apply good_heap; [assumption|]. eapply (after s (OMultiply A i v)); [apply G|exact I|exact I|exact St].
  Qed.

  Lemma step_set s i m n k v f : good s -> live_at (objs A s) i m -> kept m (n, k) -> reads (heap A s) m f ->
    exists s', step s (OSet A i n k v) = Ok s' /\ good s' /\ objs A s' = objs A s /\
      reads (heap A s') m (fun a b => if (a =? n) && (b =? k) then Some v else f a b) /\
      others_unchanged (heap A s) (ptr m) (heap A s').
  Proof.
    intros G L Hk Hf.
    destruct (set_spec (heap A s) m n k v f (proj1 (proj1 G) _ _ L) Hk Hf) as (h' & E & Ef & _ & Er).
    assert (St : step s (OSet A i n k v) = Ok (mkP A (objs A s) h')).
    { simpl. rewrite (obj_live _ _ _ L). cbn [bind]. rewrite E. reflexivity. }
    eexists. split; [exact St|]. split; [|split; [reflexivity|split; [exact Er|eapply effect_others; eauto]]].
    apply good_heap; [assumption|]. eapply (after s (OSet A i n k v)); [apply G|exact I| |exact St].
    simpl. intros m' L'. unfold live_at in *. assert (m' = m) by congruence. subst. assumption.
  Qed.

  Lemma step_destroy s i r : good s -> nth_error (sh s) i = Some (Some r) ->
    exists s', step s (ODestroy A i) = Ok s' /\ good s' /\ sh s' = upd (sh s) i None.
  Proof.
    intros [C T] Hi. destruct (sh_live _ _ _ Hi) as (m & L & <-).
    destruct (free_opt_spec (heap A s) m (proj1 C _ _ L)) as (h' & E & _).
    assert (St : step s (ODestroy A i) = Ok (mkP A (upd (objs A s) i None) h')).
    { simpl. rewrite (obj_live _ _ _ L). cbn [bind]. unfold dtor. rewrite E. reflexivity. }
    eexists. split; [exact St|]. split; [split|].
    - eapply (after s (ODestroy A i)); [exact C|exact I|exact I|exact St].
    - apply all_tri_upd; [assumption|]. discriminate.
    - unfold sh. simpl. rewrite map_upd. reflexivity.
  Qed.

  (** ** the column loops of += *)
  Lemma in_add_positions deg ord x : In x (add_positions deg ord) <->
    0 <= fst x <= ord /\ 0 <= snd x <= deg - fst x.
  Proof.
    unfold add_positions. rewrite in_flat_map. split.
    - intros (m & Hm & Hn). apply in_map_iff in Hn. destruct Hn as (n & <- & Hn).
      apply in_zrange in Hm. apply in_zrange in Hn. simpl. lia.
    - intros (H1 & H2). exists (fst x). split; [apply in_zrange; lia|].
      apply in_map_iff. exists (snd x). split; [destruct x; reflexivity|]. apply in_zrange. lia.
  Qed.

  Lemma add_columns_spec (h : mem A) dst src deg ord old f :
    valid h dst -> valid h src -> sch (st dst) = LwTriCol -> sch (st src) = LwTriCol ->
    ptr dst <> ptr src -> 0 <= ord <= deg -> deg < rows dst -> deg < rows src ->
    reads h dst old -> reads h src f ->
    exists h', add_columns A add h dst src deg ord = Ok h' /\ effect h (ptr dst) h' dst /\
      reads h' dst (fun n m => if (n <=? deg) && (m <=? ord) then lift2 A add (old n m) (f n m) else old n m).
  Proof.
    intros Vd Vs Td Ts Hne Ho Hd Hs Hold Hf. unfold add_columns.
    assert (Hcols : cols dst = rows dst /\ cols src = rows src).
    { unfold cols, rows, scols. rewrite Td, Ts. auto. }
    destruct Hcols as [Cd Cs].
    assert (Kd : forall m n, 0 <= m <= ord -> 0 <= n <= deg - m -> kept dst (m + n, m) /\ index (st dst) (m + n) m = slice (st dst) m + n).
    { intros m n Hm Hn. split.
      - unfold kept, stored. rewrite Td. rewrite Cd. lia.
      - unfold index. rewrite Td. lia. }
    assert (Ks : forall m n, 0 <= m <= ord -> 0 <= n <= deg - m -> kept src (m + n, m) /\ index (st src) (m + n) m = slice (st src) m + n).
    { intros m n Hm Hn. split.
      - unfold kept, stored. rewrite Ts. rewrite Cs. lia.
      - unfold index. rewrite Ts. lia. }
    destruct (Kd 0 0) as [K0 _]; [lia|lia|]. destruct (Ks 0 0) as [K0' _]; [lia|lia|].
    pose proof (kept_index _ _ _ _ Vd K0). pose proof (kept_index _ _ _ _ Vs K0').
    destruct (valid_contents _ _ Vd) as (ld & Hcd). destruct (valid_contents _ _ Vs) as (ls & Hcs).
    assert (Hncd : nelem dst <= cap dst) by apply Vd.
    assert (Hncs : nelem src <= cap src) by apply Vs.
    destruct (add_positions deg ord) as [|p0 ps0] eqn:Eps.
    { assert (Hin : In (0, 0) (add_positions deg ord)) by (apply in_add_positions; simpl; lia).
      rewrite Eps in Hin. destruct Hin. }
    destruct (ptr dst) as [p|] eqn:Ep.
    2:{ exfalso. destruct Vd as (_ & _ & _ & Vp). rewrite Ep in Vp. lia. }
    destruct (ptr src) as [q|] eqn:Eq.
    2:{ exfalso. destruct Vs as (_ & _ & _ & Vp). rewrite Eq in Vp. lia. }
    destruct (Nat.eqb_spec p q) as [->|Hpq]; [congruence|].
    rewrite <- Eps. rewrite <- Ep, <- Eq.
    assert (Hload : forall m n, 0 <= m <= ord -> 0 <= n <= deg - m ->
               znth ls (slice (st src) m + n) = Some (f (m + n) m) /\ znth ld (slice (st dst) m + n) = Some (old (m + n) m)).
    { intros m n Hm Hn. destruct (Ks m n Hm Hn) as [K1 <-]. destruct (Kd m n Hm Hn) as [K2 <-].
      split; eapply reads_cell; eauto. }
    destruct (inplace_loop (Z * Z) (fun h x =>
          v <- load A h (ptr src) (slice (st src) (fst x) + snd x) ;;
          old <- load A h (ptr dst) (slice (st dst) (fst x) + snd x) ;;
          store A h (ptr dst) (slice (st dst) (fst x) + snd x) (lift2 A add old v))
        (fun x => slice (st dst) (fst x) + snd x)
        (fun x => lift2 A add (old (fst x + snd x) (fst x)) (f (fst x + snd x) (fst x)))
        h dst ld (add_positions deg ord)) as (h' & l' & E & E1 & E2 & E3 & E4 & E5); auto.
    - intros [m n] Hx. apply in_add_positions in Hx. simpl in *. destruct Hx as [Hm Hn].
      destruct (Kd m n Hm Hn) as [K <-]. pose proof (kept_index _ _ _ _ Vd K). lia.
    - apply NoDup_map_inj.
      + intros [m n] [m' n'] Hx Hy. apply in_add_positions in Hx. apply in_add_positions in Hy. simpl in *.
        destruct Hx as [Hm Hn], Hy as [Hm' Hn'].
        destruct (Kd m n Hm Hn) as [K <-]. destruct (Kd m' n' Hm' Hn') as [K' <-]. intros Ei.
        destruct (index_bij _ (valid_wf _ _ Vd)) as (_ & Inj & _). destruct (Inj _ _ _ _ K K' Ei).
        f_equal; lia.
      + apply NoDup_pairs; [apply NoDup_zrange|intros; apply NoDup_zrange].
    - intros d h1 l1 [m n] Hp Hx Hq Hlen Hz Hfr. apply in_add_positions in Hx. simpl in *. destruct Hx as [Hm Hn].
      destruct (Hload m n Hm Hn) as [L1 L2]. assert (d = p) by congruence. subst d.
      rewrite Eq. destruct Hcs as [Hcs1 Hcs2]. rewrite Eq in Hcs1.
      rewrite (load_live h1 q ls _ (f (m + n) m)); [|rewrite Hfr by auto; exact Hcs1|exact L1]. cbn [bind].
      rewrite Hp. rewrite (load_live h1 p l1 _ (old (m + n) m)); [|exact Hq|congruence]. reflexivity.
    - exists h'. split; [exact E|]. split; [exact E1|].
      intros n m Hk. eapply get_contents; [exact E3|].
      unfold kept, stored in Hk. rewrite Td in Hk. destruct Hk as (K1 & K2 & K3).
      destruct ((n <=? deg) && (m <=? ord)) eqn:Ereg.
      + apply andb_true_iff in Ereg. destruct Ereg as [R1 R2]. apply Z.leb_le in R1. apply Z.leb_le in R2.
        specialize (E4 (m, n - m)). simpl in E4. replace (m + (n - m)) with n in E4 by lia.
        replace (index (st dst) n m) with (slice (st dst) m + (n - m)) by (unfold index; rewrite Td; lia).
        apply E4. apply in_add_positions. simpl. lia.
      + rewrite E5.
        * eapply reads_cell; eauto. unfold kept, stored. rewrite Td. auto.
        * rewrite in_map_iff. intros ([m' n'] & Ex & Hin). apply in_add_positions in Hin. simpl in *.
          destruct Hin as [Hm Hn]. destruct (Kd m' n' Hm Hn) as [K Ki]. rewrite <- Ki in Ex.
          destruct (index_bij _ (valid_wf _ _ Vd)) as (_ & Inj & _).
          destruct (Inj (m' + n') m' n m K) as [J1 J2]; auto.
          { unfold kept, stored in *. rewrite Td. auto. }
          apply andb_false_iff in Ereg. rewrite !Z.leb_gt in Ereg. lia.
  Qed.

  (** ** the invariant of histories *)
  Definition sinv (u : list bool) (s : sstate A) : Prop :=
    good (ps A s) /\ length (sh (ps A s)) = (2 * length (scs A s))%nat /\ length u = length (scs A s) /\
    forall k x, alive s k x -> exists r,
      nth_error (sh (ps A s)) (2 * k) = Some (Some r) /\ nth_error (sh (ps A s)) (2 * k + 1) = Some (Some r) /\
      (flag u k = true -> 0 <= order x <= degree x /\ degree x + 1 <= r).

  Lemma nth_error_snoc {X} (l : list X) x i : nth_error (l ++ [x]) i =
    if Nat.ltb i (length l) then nth_error l i else if Nat.eqb i (length l) then Some x else None.
  Proof.
    destruct (Nat.ltb_spec i (length l)).
    - apply nth_error_app1; assumption.
    - rewrite nth_error_app2 by assumption. destruct (Nat.eqb_spec i (length l)).
      + subst. rewrite Nat.sub_diag. reflexivity.
      + destruct (i - length l)%nat as [|[|]] eqn:E; [lia|reflexivity|reflexivity].
  Qed.
  Lemma nth_upd {X} (l : list X) n x i d : nth i (upd l n x) d =
    if Nat.eqb i n then (if Nat.ltb n (length l) then x else d) else nth i l d.
  Proof.
    revert n i; induction l as [|a l IH]; intros n i; simpl.
    - destruct (Nat.eqb i n); destruct i; reflexivity.
    - destruct n, i; simpl; try reflexivity. rewrite IH. reflexivity.
  Qed.
  Lemma nth_snoc {X} (l : list X) x i d : nth i (l ++ [x]) d =
    if Nat.ltb i (length l) then nth i l d else if Nat.eqb i (length l) then x else d.
  Proof.
    destruct (Nat.ltb_spec i (length l)).
    - apply app_nth1; assumption.
    - rewrite app_nth2 by assumption. destruct (Nat.eqb_spec i (length l)).
      + subst. rewrite Nat.sub_diag. reflexivity.
      + destruct (i - length l)%nat as [|[|]] eqn:E; [lia|reflexivity|reflexivity].
  Qed.
  Lemma alive_lt (s : sstate A) k x : alive s k x -> (k < length (scs A s))%nat.
  Proof. intros H. apply nth_error_Some. unfold alive in H. congruence. Qed.

  Ltac dec1 := match goal with
    | |- context [Nat.eqb ?a ?b] => destruct (Nat.eqb_spec a b); try lia
    | |- context [Nat.ltb ?a ?b] => destruct (Nat.ltb_spec a b); try lia
    | H : context [Nat.ltb ?a ?b] |- _ => destruct (Nat.ltb_spec a b); try lia
    | H : context [Nat.eqb ?a ?b] |- _ => destruct (Nat.eqb_spec a b); try lia
    end.
  Ltac lk := unfold cslot, sslot in *;
    repeat (rewrite ?nth_error_upd, ?nth_error_snoc, ?upd_length, ?app_length in *; simpl length in * );
    repeat dec1; auto.

  Lemma scobj_alive s k : (exists x, scobj A s k = Ok x /\ alive s k x) \/ scobj A s k = Illegal.
  Proof. unfold scobj, alive. destruct (nth_error (scs A s) k) as [[x|]|]; eauto. Qed.


  (** ** element values under in-place changes *)
  Lemma inplace_good s i a h' : good s -> live_at (objs A s) i a -> effect (heap A s) (ptr a) h' a ->
    good (mkP A (objs A s) h') /\
    forall k c, k <> i -> live_at (objs A s) k c -> forall n m, kept c (n, m) -> get A h' c n m = get A (heap A s) c n m.
  Proof.
    intros G L E. split.
    - apply good_heap; [assumption|]. apply (inplace_ok s i a h' True (proj1 G) L E).
    - intros k c Hk Lk n m Hkept. apply (effect_others _ _ _ _ E); [apply (proj1 (proj1 G) _ _ Lk)| |assumption].
      destruct (ptr c) as [p|] eqn:Ec; [right|left; reflexivity]. intros Heq. apply Hk.
      eapply (proj2 (proj1 G)); eauto.
  Qed.

  Lemma tri_kept a n m : sch (st a) = LwTriCol -> (kept a (n, m) <-> 0 <= m <= n /\ n < rows a).
  Proof.
    intros T. unfold kept, stored, cols, scols. rewrite T. fold (rows a). lia.
  Qed.

  Lemma nonempty_ptr (h : mem A) a : valid h a -> sch (st a) = LwTriCol -> 0 < rows a -> ptr a <> None.
  Proof.
    intros V T Hr E. assert (K : kept a (0, 0)) by (apply tri_kept; [assumption|lia]).
    pose proof (kept_index _ _ _ _ V K). destruct V as (_ & _ & Hn & Hp). rewrite E in Hp. lia.
  Qed.

  Lemma add_slot s i j a b deg ord : good s -> i <> j -> live_at (objs A s) i a -> live_at (objs A s) j b ->
    0 <= ord <= deg -> deg < rows a -> deg < rows b ->
    exists h', add_columns A add (heap A s) a b deg ord = Ok h' /\ good (mkP A (objs A s) h') /\
      (forall n m, kept a (n, m) -> get A h' a n m =
         if (n <=? deg) && (m <=? ord)
         then x <- get A (heap A s) a n m ;; y <- get A (heap A s) b n m ;; Ok (lift2 A add x y)
         else get A (heap A s) a n m) /\
      (forall k c, k <> i -> live_at (objs A s) k c -> forall n m, kept c (n, m) ->
         get A h' c n m = get A (heap A s) c n m).
  Proof.
    intros G Hne La Lb Ho Ha Hb. pose proof (proj1 (proj1 G) _ _ La) as Va. pose proof (proj1 (proj1 G) _ _ Lb) as Vb.
    pose proof (proj2 G _ _ La) as Ta. pose proof (proj2 G _ _ Lb) as Tb.
    destruct (reads_exists _ _ Va) as (fa & Fa). destruct (reads_exists _ _ Vb) as (fb & Fb).
    assert (Hptr : ptr a <> ptr b).
    { intros Heq. destruct (ptr a) as [p|] eqn:Ep.
      - apply Hne. eapply (proj2 (proj1 G)); eauto.
      - apply (nonempty_ptr _ _ Va Ta); [lia|assumption]. }
    destruct (add_columns_spec (heap A s) a b deg ord fa fb Va Vb Ta Tb Hptr Ho Ha Hb Fa Fb) as (h' & E & Ef & R).
    destruct (inplace_good s i a h' G La Ef) as [G' O].
    exists h'. split; [exact E|]. split; [exact G'|]. split; [|exact O].
    intros n m K. rewrite (R n m K). destruct ((n <=? deg) && (m <=? ord)) eqn:Ec.
    - apply andb_true_iff in Ec. destruct Ec as [E1 E2]. apply Z.leb_le in E1, E2.
      rewrite (Fa n m K). cbn [bind]. rewrite (Fb n m); [reflexivity|].
      apply tri_kept; [assumption|]. apply tri_kept in K; [|assumption]. lia.
    - symmetry. apply Fa, K.
  Qed.

  Lemma mul_slot s i a v : good s -> live_at (objs A s) i a ->
    exists h', step s (OMultiply A i v) = Ok (mkP A (objs A s) h') /\ good (mkP A (objs A s) h') /\
      (forall n m, kept a (n, m) -> get A h' a n m = (x <- get A (heap A s) a n m ;; Ok (lift2 A mul x (Some v)))) /\
      (forall k c, k <> i -> live_at (objs A s) k c -> forall n m, kept c (n, m) ->
         get A h' c n m = get A (heap A s) c n m).
  Proof.
    intros G La. pose proof (proj1 (proj1 G) _ _ La) as Va. destruct (reads_exists _ _ Va) as (fa & Fa).
    destruct (multiply_spec mul (heap A s) a v fa Va Fa) as (h' & E & Ef & _ & R).
    destruct (inplace_good s i a h' G La Ef) as [G' O].
    exists h'. split; [simpl; rewrite (obj_live _ _ _ La); cbn [bind]; rewrite E; reflexivity|].
    split; [exact G'|]. split; [|exact O].
    intros n m K. rewrite (R n m K), (Fa n m K). reflexivity.
  Qed.

  (** the two slots of a live object *)
  Lemma slots u s k x : sinv u s -> alive s k x -> exists c t,
    live_at (objs A (ps A s)) (cslot k) c /\ live_at (objs A (ps A s)) (sslot k) t /\ rows t = rows c /\
    sch (st c) = LwTriCol /\ sch (st t) = LwTriCol /\
    (flag u k = true -> 0 <= order x <= degree x /\ degree x + 1 <= rows c).
  Proof.
    intros (G & _ & _ & H) L. destruct (H k x L) as (r & R1 & R2 & R3).
    destruct (sh_live _ _ _ R1) as (c & Lc & Hc). destruct (sh_live _ _ _ R2) as (t & Lt & Ht).
    exists c, t. rewrite Ht, Hc. repeat split; auto; try (apply (proj2 G _ _ Lc)); try apply (proj2 G _ _ Lt); apply R3; assumption.
  Qed.

  Lemma coefC_get s k c n m : live_at (objs A (ps A s)) (cslot k) c -> coefC s k n m = get A (heap A (ps A s)) c n m.
  Proof. intros L. unfold coefC. rewrite (obj_live _ _ _ L). reflexivity. Qed.
  Lemma coefS_get s k c n m : live_at (objs A (ps A s)) (sslot k) c -> coefS s k n m = get A (heap A (ps A s)) c n m.
  Proof. intros L. unfold coefS. rewrite (obj_live _ _ _ L). reflexivity. Qed.

  Definition added deg ord n m (a b : res (cell A)) : res (cell A) :=
    if (n <=? deg) && (m <=? ord) then x <- a ;; y <- b ;; Ok (lift2 A add x y) else a.

  Lemma sadd_spec u s i j x y : sinv u s -> alive s i x -> alive s j y -> i <> j ->
    flag u i = true -> flag u j = true -> degree y <= degree x -> order y <= order x ->
    exists s', sstep A add mul s (SAdd A i j) = Ok (s', true) /\ scs A s' = scs A s /\ sinv u s' /\
      objs A (ps A s') = objs A (ps A s) /\
      (forall n m, 0 <= m <= n -> n <= degree x ->
         coefC s' i n m = added (degree y) (order y) n m (coefC s i n m) (coefC s j n m) /\
         coefS s' i n m = added (degree y) (order y) n m (coefS s i n m) (coefS s j n m)) /\
      (forall k z, alive s k z -> flag u k = true -> k <> i -> forall n m, 0 <= m <= n -> n <= degree z ->
         coefC s' k n m = coefC s k n m /\ coefS s' k n m = coefS s k n m).
  Proof.
    intros I Lx Ly Hij Fi Fj Hd Ho. pose proof I as (G & Ls & Lu & H).
    destruct (slots u s i x I Lx) as (xc & xs & X1 & X2 & X3 & X4 & X5 & X6). specialize (X6 Fi).
    destruct (slots u s j y I Ly) as (yc & ys & Y1 & Y2 & Y3 & Y4 & Y5 & Y6). specialize (Y6 Fj).
    destruct (add_slot (ps A s) (cslot i) (cslot j) xc yc (degree y) (order y) G) as (h1 & E1 & G1 & V1 & O1);
      [unfold cslot; lia|exact X1|exact Y1|lia|lia|lia|].
    destruct (add_slot (mkP A (objs A (ps A s)) h1) (sslot i) (sslot j) xs ys (degree y) (order y) G1) as (h2 & E2 & G2 & V2 & O2);
      [unfold sslot; lia|exact X2|exact Y2|lia|lia|lia|].
    simpl in E2, G2, V2, O2.
    exists (mkS A (scs A s) (mkP A (objs A (ps A s)) h2)).
    assert (Hcs : forall a b, cslot a <> sslot b) by (unfold cslot, sslot; lia).
    assert (Hsc : forall a b, sslot a <> cslot b) by (unfold cslot, sslot; lia).
    split.
    { unfold sstep, scobj. unfold alive in Lx, Ly. rewrite Lx, Ly. cbn [bind].
      assert (B1 : (degree x <? degree y) = false) by (apply Z.ltb_ge; lia).
      assert (B2 : (order x <? order y) = false) by (apply Z.ltb_ge; lia).
      rewrite B1, B2. simpl orb. cbv iota.
      rewrite (obj_live _ _ _ X1), (obj_live _ _ _ Y1). cbn [bind]. rewrite E1. cbn [bind].
      rewrite (obj_live _ _ _ X2), (obj_live _ _ _ Y2). cbn [bind]. rewrite E2. reflexivity. }
    split; [reflexivity|]. split; [split; [exact G2|split; [exact Ls|split; [exact Lu|exact H]]]|]. split; [reflexivity|]. split.
    - intros n m Hm Hn. unfold added. split.
      + rewrite (coefC_get s i xc n m X1), (coefC_get s j yc n m Y1), (coefC_get (mkS A (scs A s) (mkP A (objs A (ps A s)) h2)) i xc n m X1).
        simpl. rewrite (O2 (cslot i) xc (Hcs _ _) X1); [|apply tri_kept; [assumption|lia]].
        apply V1. apply tri_kept; [assumption|lia].
      + rewrite (coefS_get s i xs n m X2), (coefS_get s j ys n m Y2), (coefS_get (mkS A (scs A s) (mkP A (objs A (ps A s)) h2)) i xs n m X2).
        simpl. rewrite V2 by (apply tri_kept; [assumption|lia]).
        destruct ((n <=? degree y) && (m <=? order y)) eqn:Eb.
        * apply andb_true_iff in Eb. destruct Eb as [B1 B2]. apply Z.leb_le in B1, B2.
          rewrite (O1 (sslot i) xs (Hsc _ _) X2) by (apply tri_kept; [assumption|lia]).
          rewrite (O1 (sslot j) ys (Hsc _ _) Y2) by (apply tri_kept; [assumption|lia]). reflexivity.
        * apply (O1 (sslot i) xs (Hsc _ _) X2). apply tri_kept; [assumption|lia].
    - intros k z Lz Fk Hk n m Hm Hn. destruct (slots u s k z I Lz) as (zc & zs & Z1 & Z2 & Z3 & Z4 & Z5 & Z6). specialize (Z6 Fk).
      assert (Kc : kept zc (n, m)) by (apply tri_kept; [assumption|lia]).
      assert (Ks : kept zs (n, m)) by (apply tri_kept; [assumption|lia]).
      rewrite (coefC_get s k zc n m Z1), (coefS_get s k zs n m Z2),
        (coefC_get (mkS A (scs A s) (mkP A (objs A (ps A s)) h2)) k zc n m Z1), (coefS_get (mkS A (scs A s) (mkP A (objs A (ps A s)) h2)) k zs n m Z2).
      simpl. split.
      + rewrite (O2 (cslot k) zc (Hcs _ _) Z1 _ _ Kc). apply (O1 (cslot k) zc); [unfold cslot; lia|exact Z1|exact Kc].
      + rewrite (O2 (sslot k) zs) with (3 := Ks); [|unfold sslot; lia|exact Z2].
        apply (O1 (sslot k) zs (Hsc _ _) Z2 _ _ Ks).
  Qed.

  Lemma sscale_spec u s k x f : sinv u s -> alive s k x -> flag u k = true -> degree x <> 0 ->
    exists s', sstep A add mul s (SScale A k f) = Ok (s', true) /\ scs A s' = scs A s /\ sinv u s' /\
      (forall n m, 0 <= m <= n -> n <= degree x ->
         coefC s' k n m = (c <- coefC s k n m ;; Ok (lift2 A mul c (Some f))) /\
         coefS s' k n m = (c <- coefS s k n m ;; Ok (lift2 A mul c (Some f)))) /\
      (forall i z, alive s i z -> flag u i = true -> i <> k -> forall n m, 0 <= m <= n -> n <= degree z ->
         coefC s' i n m = coefC s i n m /\ coefS s' i n m = coefS s i n m).
  Proof.
    intros I Lx Fk Hd. pose proof I as (G & Ls & Lu & H).
    destruct (slots u s k x I Lx) as (xc & xs & X1 & X2 & X3 & X4 & X5 & X6). specialize (X6 Fk).
    destruct (mul_slot (ps A s) (cslot k) xc f G X1) as (h1 & E1 & G1 & V1 & O1).
    destruct (mul_slot (mkP A (objs A (ps A s)) h1) (sslot k) xs f G1 X2) as (h2 & E2 & G2 & V2 & O2).
    simpl in G2, V2, O2.
    exists (mkS A (scs A s) (mkP A (objs A (ps A s)) h2)).
    assert (Hcs : forall a b, cslot a <> sslot b) by (unfold cslot, sslot; lia).
    assert (Hsc : forall a b, sslot a <> cslot b) by (unfold cslot, sslot; lia).
    split.
    { unfold sstep, scobj. unfold alive in Lx. rewrite Lx. cbn [bind].
      apply Z.eqb_neq in Hd. rewrite Hd. unfold mrun. cbn [fold_res]. rewrite E1. cbn [bind]. rewrite E2. reflexivity. }
    split; [reflexivity|]. split; [split; [exact G2|split; [exact Ls|split; [exact Lu|exact H]]]|]. split.
    - intros n m Hm Hn.
      assert (Kc : kept xc (n, m)) by (apply tri_kept; [assumption|lia]).
      assert (Ks : kept xs (n, m)) by (apply tri_kept; [assumption|lia]).
      rewrite (coefC_get s k xc n m X1), (coefS_get s k xs n m X2),
        (coefC_get (mkS A (scs A s) (mkP A (objs A (ps A s)) h2)) k xc n m X1), (coefS_get (mkS A (scs A s) (mkP A (objs A (ps A s)) h2)) k xs n m X2).
      simpl. split.
      + rewrite (O2 (cslot k) xc (Hcs _ _) X1 _ _ Kc). apply V1, Kc.
      + rewrite (V2 _ _ Ks). rewrite (O1 (sslot k) xs (Hsc _ _) X2 _ _ Ks). reflexivity.
    - intros i z Lz Fi Hi n m Hm Hn. destruct (slots u s i z I Lz) as (zc & zs & Z1 & Z2 & Z3 & Z4 & Z5 & Z6). specialize (Z6 Fi).
      assert (Kc : kept zc (n, m)) by (apply tri_kept; [assumption|lia]).
      assert (Ks : kept zs (n, m)) by (apply tri_kept; [assumption|lia]).
      rewrite (coefC_get s i zc n m Z1), (coefS_get s i zs n m Z2),
        (coefC_get (mkS A (scs A s) (mkP A (objs A (ps A s)) h2)) i zc n m Z1), (coefS_get (mkS A (scs A s) (mkP A (objs A (ps A s)) h2)) i zs n m Z2).
      simpl. split.
      + rewrite (O2 (cslot i) zc (Hcs _ _) Z1 _ _ Kc). apply (O1 (cslot i) zc); [unfold cslot; lia|exact Z1|exact Kc].
      + rewrite (O2 (sslot i) zs) with (3 := Ks); [|unfold sslot; lia|exact Z2].
        apply (O1 (sslot i) zs (Hsc _ _) Z2 _ _ Ks).
  Qed.

  Definition sok (u : list bool) (o : sop A) (r : res (sstate A * bool)) : Prop :=
    match r with Ok (s', _) => sinv (track u o) s' | Illegal => True | _ => False end.

  Ltac getobj k x L := match goal with |- context [scobj A ?s k] => destruct (scobj_alive s k) as [(x & -> & L)| -> ]; [cbn [bind]|exact I] end.

  Ltac fin := unfold flag in *; simpl; rewrite ?nth_snoc, ?nth_upd, ?upd_length, ?app_length; simpl length; repeat dec1.

  Theorem sstep_ok u s o : sinv u s -> sop_ok s u o -> sok u o (sstep A add mul s o).
  Proof.
    intros (G & Ls & Lu & H) Hok. pose proof (alive_lt s) as Alt.
    destruct o; simpl in Hok; unfold sstep.
    - (* default *)
      unfold mrun; cbn [fold_res].
      destruct (step_ctor (ps A s) 0 G ltac:(lia)) as (s1 & -> & G1 & S1). cbn [bind].
      destruct (step_ctor s1 0 G1 ltac:(lia)) as (s2 & -> & G2 & S2). cbn [bind].
      simpl. split; [exact G2|]. simpl. rewrite S2, S1, !app_length; simpl length.
      split; [lia|]. split; [lia|]. intros k x Hk. unfold alive in Hk; simpl in Hk.
      rewrite nth_error_snoc in Hk. repeat dec1; try discriminate.
      + destruct (H k x Hk) as (r & R1 & R2 & R3). exists r.
        split; [lk|]. split; [lk|]. fin; assumption.
      + exists 0. split; [lk; f_equal; lia|]. split; [lk|]. fin; discriminate.
    - (* ctor *)
      unfold mrun; cbn [fold_res].
      destruct (step_ctor (ps A s) (n + 1) G ltac:(lia)) as (s1 & -> & G1 & S1). cbn [bind].
      destruct (step_ctor s1 (n + 1) G1 ltac:(lia)) as (s2 & -> & G2 & S2). cbn [bind].
      simpl. split; [exact G2|]. simpl. rewrite S2, S1, !app_length; simpl length.
      split; [lia|]. split; [lia|]. intros k x Hk. unfold alive in Hk; simpl in Hk.
      rewrite nth_error_snoc in Hk. repeat dec1; try discriminate.
      + destruct (H k x Hk) as (r & R1 & R2 & R3). exists r.
        split; [lk|]. split; [lk|]. fin; assumption.
      + exists (n + 1). split; [lk; f_equal; lia|]. split; [lk|]. fin. intros _. inversion Hk; simpl.
        destruct (Z.ltb_spec 0 m); lia.
    - (* copy *)
      getobj k x L. destruct (H k x L) as (r & R1 & R2 & R3). unfold mrun; cbn [fold_res].
      destruct (step_copy (ps A s) (cslot k) r G R1) as (s1 & -> & G1 & S1). cbn [bind].
      destruct (step_copy s1 (sslot k) r G1) as (s2 & -> & G2 & S2). { pose proof (Alt _ _ L). rewrite S1; lk. } cbn [bind].
      simpl. split; [exact G2|]. simpl. rewrite S2, S1, !app_length; simpl length.
      split; [lia|]. split; [lia|]. intros k' x' Hk. unfold alive in Hk; simpl in Hk.
      rewrite nth_error_snoc in Hk. repeat dec1; try discriminate.
      + destruct (H k' x' Hk) as (r' & Q1 & Q2 & Q3). exists r'.
        split; [lk|]. split; [lk|]. fin; assumption.
      + exists r. split; [lk; f_equal; lia|]. split; [lk|]. fin; inversion Hk; subst; assumption.
    - (* move *)
      getobj k x L. destruct (H k x L) as (r & R1 & R2 & R3). unfold mrun; cbn [fold_res]. pose proof (Alt _ _ L) as Hlt.
      destruct (step_move (ps A s) (cslot k) r G R1) as (s1 & -> & G1 & S1). cbn [bind].
      destruct (step_move s1 (sslot k) r G1) as (s2 & -> & G2 & S2). { rewrite S1; lk. } cbn [bind].
      simpl. split; [exact G2|]. simpl.
      assert (Lsh : length (sh s2) = (length (sh (ps A s)) + 2)%nat).
      { rewrite S2, S1. rewrite ?app_length, ?upd_length, ?app_length, ?upd_length. simpl. lia. }
      rewrite Lsh, ?app_length, ?upd_length; simpl length.
      split; [lia|]. split; [lia|]. rewrite S2, S1. intros k' x' Hk. unfold alive in Hk; simpl in Hk.
      rewrite nth_error_snoc in Hk. repeat dec1; try discriminate.
      + destruct (H k' x' Hk) as (r' & Q1 & Q2 & Q3). destruct (Nat.eq_dec k' k) as [->|Hne].
        * exists 0. split; [lk|]. split; [lk|]. fin; discriminate.
        * exists r'. split; [lk|]. split; [lk|]. fin; assumption.
      + exists r. split; [lk; f_equal; lia|]. split; [lk|]. fin; inversion Hk; subst; assumption.
    - (* copy assignment *)
      getobj i x L. getobj j y L'. destruct (Nat.eqb_spec i j) as [->|Hne].
      { simpl. split; [exact G|]. rewrite upd_length. split; [lia|]. split; [lia|]. intros k z Hk.
        destruct (H k z Hk) as (r & R1 & R2 & R3). exists r. split; [assumption|]. split; [assumption|].
        pose proof (Alt _ _ Hk). fin; subst; assumption. }
      destruct (H i x L) as (r & R1 & R2 & R3). destruct (H j y L') as (q & Q1 & Q2 & Q3).
      pose proof (Alt _ _ L) as Hlt. pose proof (Alt _ _ L') as Hlt'. unfold mrun; cbn [fold_res].
      destruct (step_assign (ps A s) (cslot i) (cslot j) r q G) as (s1 & -> & G1 & S1); [unfold cslot; lia|exact R1|exact Q1|]. cbn [bind].
      destruct (step_assign s1 (sslot i) (sslot j) r q G1) as (s2 & -> & G2 & S2);
        [unfold sslot; lia|rewrite S1; lk|rewrite S1; lk|]. cbn [bind].
      simpl. split; [exact G2|]. simpl. rewrite S2, S1, !upd_length. split; [lia|]. split; [lia|].
      intros k z Hk. unfold alive in Hk; simpl in Hk. rewrite nth_error_upd in Hk. repeat dec1.
      + subst k. inversion Hk; subst z. exists q. split; [lk|]. split; [lk|]. fin; assumption.
      + destruct (H k z Hk) as (r' & T1 & T2 & T3). exists r'. split; [lk|]. split; [lk|]. fin; assumption.
    - (* move assignment *)
      getobj i x L. getobj j y L'. destruct (Nat.eqb_spec i j) as [->|Hne].
      { simpl. rewrite Nat.eqb_refl. split; [exact G|]. split; [lia|]. split; [lia|]. exact H. }
      destruct (H i x L) as (r & R1 & R2 & R3). destruct (H j y L') as (q & Q1 & Q2 & Q3).
      pose proof (Alt _ _ L) as Hlt. pose proof (Alt _ _ L') as Hlt'. unfold mrun; cbn [fold_res].
      destruct (step_move_assign (ps A s) (cslot i) (cslot j) r q G R1 Q1) as (s1 & -> & G1 & S1). cbn [bind].
      destruct (step_move_assign s1 (sslot i) (sslot j) r q G1) as (s2 & -> & G2 & S2);
        [rewrite S1; lk|rewrite S1; lk|]. cbn [bind].
      simpl. apply Nat.eqb_neq in Hne. rewrite Hne. apply Nat.eqb_neq in Hne.
      split; [exact G2|]. simpl. rewrite S2, S1, !upd_length. split; [lia|]. split; [lia|].
      intros k z Hk. unfold alive in Hk; simpl in Hk. rewrite nth_error_upd in Hk. repeat dec1.
      + subst k. inversion Hk; subst z. exists q. split; [lk|]. split; [lk|]. fin; assumption.
      + destruct (H k z Hk) as (r' & T1 & T2 & T3). destruct (Nat.eq_dec k j) as [->|Hkj].
        * exists 0. split; [lk|]. split; [lk|]. fin; discriminate.
        * exists r'. split; [lk|]. split; [lk|]. fin; assumption.
    - (* swap *)
      getobj i x L. getobj j y L'.
      destruct (H i x L) as (r & R1 & R2 & R3). destruct (H j y L') as (q & Q1 & Q2 & Q3).
      pose proof (Alt _ _ L) as Hlt. pose proof (Alt _ _ L') as Hlt'. unfold mrun; cbn [fold_res].
      destruct (step_swap (ps A s) (cslot i) (cslot j) r q G R1 Q1) as (s1 & -> & G1 & S1). cbn [bind].
      destruct (step_swap s1 (sslot i) (sslot j) r q G1) as (s2 & -> & G2 & S2);
        [rewrite S1; lk|rewrite S1; lk|]. cbn [bind].
      simpl. split; [exact G2|]. simpl. rewrite S2, S1, !upd_length. split; [lia|]. split; [lia|].
      intros k z Hk. unfold alive in Hk; simpl in Hk. rewrite nth_error_upd, upd_length in Hk.
      destruct (Nat.eqb_spec k j) as [->|Hkj].
      + destruct (Nat.ltb_spec j (length (scs A s))); [|lia]. inversion Hk; subst z.
        exists r. split; [lk|]. split; [lk|]. fin; assumption.
      + rewrite nth_error_upd in Hk. destruct (Nat.eqb_spec k i) as [->|Hki].
        * destruct (Nat.ltb_spec i (length (scs A s))); [|lia]. inversion Hk; subst z.
          exists q. split; [lk|]. split; [lk|]. fin; assumption.
        * destruct (H k z Hk) as (r' & T1 & T2 & T3). exists r'. split; [lk|]. split; [lk|]. fin; assumption.
    - (* resize *)
      getobj k x L. destruct (H k x L) as (r & R1 & R2 & R3). unfold mrun; cbn [fold_res]. pose proof (Alt _ _ L) as Hlt.
      destruct (step_resize (ps A s) (cslot k) r (n + 1) G R1 ltac:(lia)) as (s1 & -> & G1 & S1). cbn [bind].
      destruct (step_resize s1 (sslot k) r (n + 1) G1) as (s2 & -> & G2 & S2); [rewrite S1; lk|lia|]. cbn [bind].
      simpl. split; [exact G2|]. simpl. rewrite S2, S1, !upd_length. split; [lia|]. split; [lia|].
      intros k' z Hk. unfold alive in Hk; simpl in Hk. rewrite nth_error_upd in Hk. repeat dec1.
      + subst k'. inversion Hk; subst z. exists (n + 1). split; [lk|]. split; [lk|]. simpl. lia.
      + destruct (H k' z Hk) as (r' & T1 & T2 & T3). exists r'. split; [lk|]. split; [lk|]. fin; assumption.
    - (* cresize *)
      getobj k x L. destruct (H k x L) as (r & R1 & R2 & R3). unfold mrun; cbn [fold_res]. pose proof (Alt _ _ L) as Hlt.
      destruct (step_cresize (ps A s) (cslot k) r (n + 1) G R1 ltac:(lia)) as (s1 & -> & G1 & S1). cbn [bind].
      destruct (step_cresize s1 (sslot k) r (n + 1) G1) as (s2 & -> & G2 & S2); [rewrite S1; lk|lia|]. cbn [bind].
      simpl. split; [exact G2|]. simpl. rewrite S2, S1, !upd_length. split; [lia|]. split; [lia|].
      intros k' z Hk. unfold alive in Hk; simpl in Hk. rewrite nth_error_upd in Hk. repeat dec1.
      + subst k'. inversion Hk; subst z. exists (n + 1). split; [lk|]. split; [lk|]. simpl. lia.
      + destruct (H k' z Hk) as (r' & T1 & T2 & T3). exists r'. split; [lk|]. split; [lk|]. fin; assumption.
    - (* shrink *)
      getobj k x L. pose proof (Alt _ _ L) as Hlt.
      destruct ((m <=? n) && (n <=? degree x) && (m <=? order x)) eqn:E.
      + apply andb_true_iff in E. destruct E as [E E3]. apply andb_true_iff in E. destruct E as [E1 E2].
        apply Z.leb_le in E1, E2, E3. simpl. split; [exact G|]. simpl. rewrite upd_length. split; [lia|]. split; [lia|].
        intros k' z Hk. unfold alive in Hk; simpl in Hk. rewrite nth_error_upd in Hk. repeat dec1.
        * subst k'. inversion Hk; subst z. destruct (H k x L) as (r & R1 & R2 & R3).
          exists r. split; [assumption|]. split; [assumption|]. simpl. intros Hf. specialize (R3 Hf). lia.
        * destruct (H k' z Hk) as (r' & T1 & T2 & T3). exists r'. split; [exact T1|split; [exact T2|exact T3]].
      + split; [exact G|]. auto.
    - (* clear *)
      getobj k x L. destruct (H k x L) as (r & R1 & R2 & R3). unfold mrun; cbn [fold_res].
      destruct (step_fill (ps A s) (cslot k) r zero G R1) as (s1 & -> & G1 & S1). cbn [bind].
      destruct (step_fill s1 (sslot k) r zero G1) as (s2 & -> & G2 & S2); [unfold sh; rewrite S1; exact R2|]. cbn [bind].
      simpl. split; [exact G2|]. unfold sh; simpl. rewrite S2, S1. auto.
    - (* scale *)
      getobj k x L. destruct (Z.eqb_spec (degree x) 0); [split; [exact G|]; auto|].
      destruct (H k x L) as (r & R1 & R2 & R3). unfold mrun; cbn [fold_res].
      destruct (sh_live _ _ _ R1) as (mc & Lc & _). destruct (sh_live _ _ _ R2) as (ms & Lm & _).
      destruct (reads_exists _ _ (proj1 (proj1 G) _ _ Lc)) as (f1 & F1).
      destruct (step_multiply (ps A s) (cslot k) mc f _ G Lc F1) as (s1 & -> & G1 & S1 & _ & _). cbn [bind].
      rewrite <- S1 in Lm. destruct (reads_exists _ _ (proj1 (proj1 G1) _ _ Lm)) as (f2 & F2).
      destruct (step_multiply s1 (sslot k) ms f _ G1 Lm F2) as (s2 & -> & G2 & S2 & _ & _). cbn [bind].
      simpl. split; [exact G2|]. unfold sh; simpl. rewrite S2, S1. auto.
    - (* set C *)
      getobj k x L. destruct (H k x L) as (r & R1 & R2 & R3). unfold mrun; cbn [fold_res].
      destruct Hok as (Hf & Hnm & Hdeg). specialize (R3 Hf). specialize (Hdeg x L).
      destruct (sh_live _ _ _ R1) as (mc & Lc & <-).
      destruct (reads_exists _ _ (proj1 (proj1 G) _ _ Lc)) as (f1 & F1).
      destruct (step_set (ps A s) (cslot k) mc n m v f1 G Lc) with (2 := F1) as (s1 & -> & G1 & S1 & _ & _).
      { unfold kept, stored, cols, scols. pose proof (proj2 G _ _ Lc) as Ht. rewrite Ht. fold (rows mc). lia. }
      cbn [bind]. simpl. split; [exact G1|]. unfold sh; simpl. rewrite S1. auto.
    - (* set S *)
      getobj k x L. destruct (H k x L) as (r & R1 & R2 & R3). unfold mrun; cbn [fold_res].
      destruct Hok as (Hf & Hnm & Hdeg). specialize (R3 Hf). specialize (Hdeg x L).
      destruct (sh_live _ _ _ R2) as (mc & Lc & <-).
      destruct (reads_exists _ _ (proj1 (proj1 G) _ _ Lc)) as (f1 & F1).
      destruct (step_set (ps A s) (sslot k) mc n m v f1 G Lc) with (2 := F1) as (s1 & -> & G1 & S1 & _ & _).
      { unfold kept, stored, cols, scols. pose proof (proj2 G _ _ Lc) as Ht. rewrite Ht. fold (rows mc). lia. }
      cbn [bind]. simpl. split; [exact G1|]. unfold sh; simpl. rewrite S1. auto.
    - (* += *)
      destruct Hok as (Hij & Fi & Fj). destruct (scobj_alive s i) as [(x & Ex & L)|Ex]; rewrite Ex; [cbn [bind]|exact I].
      destruct (scobj_alive s j) as [(y & Ey & L')|Ey]; rewrite Ey; [cbn [bind]|exact I].
      destruct ((degree x <? degree y) || (order x <? order y)) eqn:E; [split; [exact G|]; auto|].
      apply orb_false_iff in E. destruct E as [E1 E2]. 
      destruct (sadd_spec u s i j x y) as (s' & Es & _ & I' & _); auto;
        [split; [exact G|auto]|apply Z.ltb_ge in E1; lia|apply Z.ltb_ge in E2; lia|].
      unfold sstep in Es. rewrite Ex, Ey in Es. cbn [bind] in Es. rewrite E1, E2 in Es. simpl orb in Es. cbv iota in Es.
      rewrite Es. exact I'.
    - (* destroy *)
      getobj k x L. destruct (H k x L) as (r & R1 & R2 & R3). unfold mrun; cbn [fold_res]. pose proof (Alt _ _ L) as Hlt.
      destruct (step_destroy (ps A s) (sslot k) r G R2) as (s1 & -> & G1 & S1). cbn [bind].
      destruct (step_destroy s1 (cslot k) r G1) as (s2 & -> & G2 & S2); [rewrite S1; lk|]. cbn [bind].
      simpl. split; [exact G2|]. simpl. rewrite S2, S1, !upd_length. split; [lia|]. split; [lia|].
      intros k' z Hk. unfold alive in Hk; simpl in Hk. rewrite nth_error_upd in Hk. repeat dec1; try discriminate.
      destruct (H k' z Hk) as (r' & T1 & T2 & T3). exists r'. split; [lk|]. split; [lk|]. assumption.
  Qed.
End Proofs.
