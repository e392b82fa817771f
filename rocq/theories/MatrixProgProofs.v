(** Sequences of operations on matrices: invariant, memory safety, leaks. *)
From Coq Require Import ZArith List Bool Lia.
From Verif Require Import Base StorageModel StorageSpec StorageProofs MatrixModel MatrixSpec MatrixProofs.
Import ListNotations.
Open Scope Z_scope.

Section Prog.
  Context {A : Type}.
  Variables add mul : A -> A -> A.
  Notation mem := (mem A).
  Notation cell := (cell A).

  Lemma reads_exists (h : mem) m : valid h m -> exists f, reads h m f.
  Proof.
    intros Hv. exists (fun i j => match get A h m i j with Ok c => c | _ => None end).
    intros i j Hk. destruct (valid_contents _ _ Hv) as (l & Hc).
    destruct (kept_cell _ _ _ _ _ Hv Hc Hk) as (c & Ec).
    rewrite (get_contents _ _ _ _ _ _ Hc Ec). reflexivity.
  Qed.

  Lemma live_lt (h : mem) m p : valid h m -> ptr m = Some p -> (p < length h)%nat.
  Proof. intros (_ & _ & _ & H) E. rewrite E in H. destruct H as (? & H & _). eapply nth_lt; eauto. Qed.

  Definition ok_step (s : pstate A) (guard : Prop) (r : res (pstate A)) : Prop :=
    match r with
    | Ok s' => consistent s' /\ (no_leak s -> guard -> no_leak s')
    | UB => False
    | _ => True
    end.

  (** replacing object i *)
  Lemma replace_ok s i m h' m' (guard : Prop) :
    consistent s -> live_at (objs A s) i m -> effect (heap A s) (ptr m) h' m' ->
    ok_step s guard (Ok (mkP A (upd (objs A s) i (Some m')) h')).
  Proof.
    intros [Cv Cd] Hi (E1 & E2 & E3 & E4).
    assert (Hil : (i < length (objs A s))%nat) by (eapply nth_lt; eauto).
    assert (Hother : forall j n, j <> i -> live_at (upd (objs A s) i (Some m')) j n -> live_at (objs A s) j n).
    { unfold live_at. intros j n Hne H. rewrite nth_error_upd_ne in H by assumption. exact H. }
    assert (Hself : forall n, live_at (upd (objs A s) i (Some m')) i n -> n = m').
    { unfold live_at. intros n H. rewrite nth_error_upd_eq in H by assumption. congruence. }
    assert (Hnp : forall j n p, j <> i -> live_at (objs A s) j n -> ptr n = Some p ->
               ptr m <> Some p /\ ptr m' <> Some p).
    { intros j n p Hne Hj Hp. split.
      - intros Hm. apply Hne. eapply Cd; eauto.
      - intros Hm. pose proof (live_lt _ _ _ (Cv _ _ Hj) Hp) as Hlt.
        destruct E3 as [E3|(p' & E3 & Hge)].
        + apply Hne. eapply Cd; eauto. congruence.
        + rewrite E3 in Hm. inversion Hm. lia. }
    split; [split|]; simpl.
    - intros j n Hj. destruct (Nat.eq_dec j i) as [->|Hne].
      + rewrite (Hself n Hj). assumption.
      + pose proof (Hother j n Hne Hj) as Hj'. eapply valid_frame; [eapply Cv; eauto|].
        intros q Hq. apply E2.
        * destruct (Hnp j n q Hne Hj' (eq_sym Hq)). congruence.
        * eapply live_lt; eauto.
    - intros a b n1 n2 p Ha Hb P1 P2.
      destruct (Nat.eq_dec a i) as [->|Ha'], (Nat.eq_dec b i) as [->|Hb']; auto.
      + rewrite (Hself _ Ha) in P1. exfalso.
        destruct (Hnp b n2 p Hb' (Hother _ _ Hb' Hb) P2). contradiction.
      + rewrite (Hself _ Hb) in P2. exfalso.
        destruct (Hnp a n1 p Ha' (Hother _ _ Ha' Ha) P1). contradiction.
      + eapply Cd; eauto.
    - intros NL _ q l Hq. simpl in *. destruct (E4 q l Hq) as [Hx|[Hx1 Hx2]].
      + exists i, m'. split; [apply nth_error_upd_eq; assumption|auto].
      + rewrite E2 in Hq by assumption. destruct (NL q l Hq) as (j & n & Hj & Hp).
        exists j, n. split; [|assumption]. unfold live_at. rewrite nth_error_upd_ne; [exact Hj|].
        intros ->. unfold live_at in *. assert (n = m) by congruence. subst. congruence.
  Qed.

  (** adding an object *)
  Lemma append_ok s h' m' (guard : Prop) :
    consistent s -> effect (heap A s) None h' m' ->
    ok_step s guard (Ok (mkP A (objs A s ++ [Some m']) h')).
  Proof.
    intros [Cv Cd] (E1 & E2 & E3 & E4).
    assert (Hold : forall j n, live_at (objs A s ++ [Some m']) j n -> live_at (objs A s) j n \/ (j = length (objs A s) /\ n = m')).
    { unfold live_at. intros j n H. pose proof (nth_lt _ _ _ H) as Hlt. rewrite app_length in Hlt. simpl in Hlt.
      destruct (Nat.eq_dec j (length (objs A s))) as [->|Hne].
      - right. rewrite nth_error_app2, Nat.sub_diag in H by lia. simpl in H. split; congruence.
      - left. rewrite nth_error_app1 in H by lia. exact H. }
    assert (Hnew : forall j n p, live_at (objs A s) j n -> ptr n = Some p -> ptr m' <> Some p).
    { intros j n p Hj Hp Hm. pose proof (live_lt _ _ _ (Cv _ _ Hj) Hp).
      destruct E3 as [E3|(p' & E3 & Hge)]; [congruence|]. rewrite E3 in Hm. inversion Hm. lia. }
    split; [split|]; simpl.
    - intros j n Hj. destruct (Hold j n Hj) as [Hj'|[-> ->]]; [|assumption].
      eapply valid_frame; [eapply Cv; eauto|]. intros q Hq. apply E2; [discriminate|].
      eapply live_lt; eauto.
    - intros a b n1 n2 p Ha Hb P1 P2.
      destruct (Hold _ _ Ha) as [Ha'|[-> ->]], (Hold _ _ Hb) as [Hb'|[-> ->]]; auto.
      + eapply Cd; eauto.
      + exfalso. eapply Hnew; eauto.
      + exfalso. eapply Hnew; eauto.
    - intros NL _ q l Hq. simpl in *. destruct (E4 q l Hq) as [Hx|[Hx1 Hx2]].
      + exists (length (objs A s)), m'. split; [|auto]. unfold live_at.
        rewrite nth_error_app2, Nat.sub_diag by lia. reflexivity.
      + rewrite E2 in Hq by assumption. destruct (NL q l Hq) as (j & n & Hj & Hp).
        exists j, n. split; [|assumption]. unfold live_at. rewrite nth_error_app1; [exact Hj|]. eapply nth_lt; eauto.
  Qed.

  Lemma obj_inv s i : (exists m, obj A s i = Ok m /\ live_at (objs A s) i m) \/ obj A s i = Illegal.
  Proof.
    unfold obj, live_at. destruct (nth_error (objs A s) i) as [[m|]|]; eauto.
  Qed.

  Lemma same_type_eq a b : same_type a b = true -> sch (st a) = sch (st b).
  Proof. unfold same_type, scheme_eqb. destruct (sch (st a)), (sch (st b)); congruence. Qed.

  Lemma legal_0 k : legal_dims k 0 0.
  Proof. unfold legal_dims. repeat split; try lia. Qed.

  Lemma set_dims_0 s0 : set_dims s0 0 0 = Ok (mkStorage (sch s0) 0 0).
  Proof. apply set_dims_legal. apply legal_0. Qed.

  Lemma num_elements_0 k : num_elements (mkStorage k 0 0) = 0.
  Proof. destruct k; reflexivity. Qed.

  Lemma valid_empty (h : mem) k : valid h (mkMat (mkStorage k 0 0) None 0).
  Proof. apply valid_mk; [apply legal_0|rewrite num_elements_0; lia|reflexivity]. Qed.

  (** valid depends on storage, pointer and capacity *)
  Lemma objs_upd_same s i m : live_at (objs A s) i m -> upd (objs A s) i (Some m) = objs A s.
  Proof. apply upd_same. Qed.

  Lemma inplace_ok s i m h' (guard : Prop) :
    consistent s -> live_at (objs A s) i m -> effect (heap A s) (ptr m) h' m ->
    ok_step s guard (Ok (mkP A (objs A s) h')).
  Proof.
    intros C L E. pose proof (replace_ok s i m h' m guard C L E) as R.
    rewrite (upd_same _ _ _ L) in R. exact R.
  Qed.

  (** exchanging pointers between objects without touching the heap *)
  Lemma permute_ok s objs' (guard : Prop) :
    consistent s ->
    (forall j n, live_at objs' j n -> valid (heap A s) n) ->
    (forall a b n1 n2 p, live_at objs' a n1 -> live_at objs' b n2 -> ptr n1 = Some p -> ptr n2 = Some p -> a = b) ->
    (guard -> forall j n p, live_at (objs A s) j n -> ptr n = Some p -> exists j' n', live_at objs' j' n' /\ ptr n' = Some p) ->
    ok_step s guard (Ok (mkP A objs' (heap A s))).
  Proof.
    intros C H1 H2 H3. split; [split; assumption|].
    intros NL G q l Hq. simpl in *. destruct (NL q l Hq) as (j & n & Hj & Hp). eapply H3; eauto.
  Qed.

  Lemma live_upd (os : list (option mat)) i m' j n : (i < length os)%nat ->
    live_at (upd os i (Some m')) j n <-> (j = i /\ n = m') \/ (j <> i /\ live_at os j n).
  Proof.
    unfold live_at. intros Hl. destruct (Nat.eq_dec j i) as [->|Hne].
    - rewrite nth_error_upd_eq by assumption. split; [intros E; left; split; congruence|].
      intros [[_ ->]|[H _]]; [reflexivity|contradiction].
    - rewrite nth_error_upd_ne by assumption. split; [auto|]. intros [[H _]|[_ H]]; [contradiction|assumption].
  Qed.

  Theorem step_ok s o : consistent s -> args_ok o -> position_ok s o ->
    ok_step s (move_target_empty s o) (step A add mul s o).
  Proof.
    intros C Ha Hpo. pose proof C as [Cv Cd].
    destruct o as [k r c|i|i|i j|i j|i j|i r c|i r c|i r c v|i v|i v|i j f|i j r c|i]; simpl step.
    - (* ctor *)
      destruct (dims_ok k r c) eqn:Ed.
      + destruct (ctor_spec (heap A s) k r c) as (h' & m & -> & E & _).
        { destruct Ha. apply dims_ok_legal; assumption. }
        simpl. apply append_ok; assumption.
      + unfold ctor. rewrite Ed. exact I.
    - (* copy ctor *)
      destruct (obj_inv s i) as [(m & -> & L)| ->]; [|exact I]. cbn [bind].
      destruct (copy_ctor_spec (heap A s) m (Cv _ _ L)) as (h' & m' & -> & E & _). cbn [bind].
      apply append_ok; assumption.
    - (* move ctor *)
      destruct (obj_inv s i) as [(m & -> & L)| ->]; [|exact I]. cbn [bind].
      unfold move_ctor. rewrite set_dims_0. cbn [bind].
      assert (Hil : (i < length (objs A s))%nat) by (eapply nth_lt; eauto).
      set (e := mkMat (mkStorage (sch (st m)) 0 0) None 0).
      assert (Hl : forall j n, live_at (upd (objs A s) i (Some e) ++ [Some {| st := st m; ptr := ptr m; cap := cap m |}]) j n ->
                (j = length (objs A s) /\ n = m) \/ (j = i /\ n = e) \/ (j <> i /\ live_at (objs A s) j n)).
      { intros j n H. unfold live_at in H. pose proof (nth_lt _ _ _ H) as Hlt. rewrite app_length, upd_length in Hlt. simpl in Hlt.
        destruct (Nat.eq_dec j (length (objs A s))) as [->|Hne].
        - left. rewrite nth_error_app2 in H by (rewrite upd_length; lia). rewrite upd_length, Nat.sub_diag in H. simpl in H.
          split; [reflexivity|]. destruct m; simpl in *; congruence.
        - right. rewrite nth_error_app1 in H by (rewrite upd_length; lia).
          apply (live_upd (objs A s) i e j n Hil). exact H. }
      apply permute_ok; auto.
      + intros j n Hj. destruct (Hl j n Hj) as [[_ ->]|[[_ ->]|[_ H]]]; [eapply Cv; eauto|apply valid_empty|eapply Cv; eauto].
      + intros a b n1 n2 p H1 H2 P1 P2.
        destruct (Hl _ _ H1) as [[-> ->]|[[-> ->]|[Na H1']]], (Hl _ _ H2) as [[-> ->]|[[-> ->]|[Nb H2']]];
          try discriminate; try reflexivity.
        * exfalso. apply Nb. eapply Cd; eauto.
        * exfalso. apply Na. eapply Cd; eauto.
        * eapply Cd; eauto.
      + intros _ j n p Hj Hp. destruct (Nat.eq_dec j i) as [->|Hne].
        * exists (length (objs A s)). eexists. split.
          -- unfold live_at. rewrite nth_error_app2 by (rewrite upd_length; lia). rewrite upd_length, Nat.sub_diag. reflexivity.
          -- simpl. unfold live_at in *. congruence.
        * exists j, n. split; [|assumption]. unfold live_at in *. pose proof (nth_lt _ _ _ Hj).
          rewrite nth_error_app1 by (rewrite upd_length; lia). rewrite nth_error_upd_ne; assumption.
    - (* copy assign *)
      destruct (obj_inv s i) as [(a & -> & La)| ->]; [|exact I]. cbn [bind].
      destruct (obj_inv s j) as [(b & -> & Lb)| ->]; [|exact I]. cbn [bind].
      destruct (same_type a b) eqn:Et; [|exact I].
      destruct (Nat.eqb_spec i j) as [->|Hne].
      + split; [assumption|auto].
      + destruct (copy_assign_spec (heap A s) a b (Cv _ _ La) (Cv _ _ Lb) (same_type_eq _ _ Et)) as (h' & m' & -> & E & _).
        { intros Hn Heq. destruct (ptr a) as [p|] eqn:Ep; [|congruence]. apply Hne. eapply Cd; eauto. }
        cbn [bind]. eapply replace_ok; eauto.
    - (* move assign *)
      destruct (obj_inv s i) as [(a & -> & La)| ->]; [|exact I]. cbn [bind].
      destruct (obj_inv s j) as [(b & -> & Lb)| ->]; [|exact I]. cbn [bind].
      destruct (same_type a b) eqn:Et; [|exact I]. apply same_type_eq in Et.
      unfold move_assign. pose proof (Cv _ _ Lb) as Vb.
      assert (Hst : mkStorage (sch (st a)) (rows b) (cols b) = st b).
      { rewrite Et. symmetry. apply st_eta. eapply valid_wf; eauto. }
      rewrite set_dims_legal by (rewrite Et; apply Vb). rewrite set_dims_0. cbn [bind]. rewrite Hst.
      replace {| st := st b; ptr := ptr b; cap := cap b |} with b by (destruct b; reflexivity).
      set (e := mkMat (mkStorage (sch (st b)) 0 0) None 0).
      unfold put. cbn [objs heap].
      assert (Hil : (i < length (objs A s))%nat) by (eapply nth_lt; eauto).
      assert (Hjl : (j < length (upd (objs A s) i (Some b)))%nat) by (rewrite upd_length; eapply nth_lt; eauto).
      assert (Hl : forall k n, live_at (upd (upd (objs A s) i (Some b)) j (Some e)) k n ->
                (k = j /\ n = e) \/ (k <> j /\ k = i /\ n = b) \/ (k <> j /\ k <> i /\ live_at (objs A s) k n)).
      { intros k n H. apply (live_upd _ _ _ _ _ Hjl) in H. destruct H as [H|[Hk H]]; [left; exact H|right].
        apply (live_upd _ _ _ _ _ Hil) in H. tauto. }
      apply permute_ok; auto.
      + intros k n Hk. destruct (Hl k n Hk) as [[_ ->]|[(_ & _ & ->)|(_ & _ & H)]]; [apply valid_empty|assumption|eapply Cv; eauto].
      + intros x y n1 n2 p H1 H2 P1 P2.
        destruct (Hl _ _ H1) as [[-> ->]|[(N1 & -> & ->)|(N1 & M1 & H1')]], (Hl _ _ H2) as [[-> ->]|[(N2 & -> & ->)|(N2 & M2 & H2')]];
          try discriminate; try reflexivity.
        * exfalso. apply N2. eapply Cd; eauto.
        * exfalso. apply N1. eapply Cd; eauto.
        * eapply Cd; eauto.
      + intros [Hne Hemp] k n p Hk Hp.
        assert (k <> i) by (intros ->; rewrite (Hemp n Hk) in Hp; discriminate).
        destruct (Nat.eq_dec k j) as [->|Hkj].
        * exists i, b. split.
          -- unfold live_at. rewrite nth_error_upd_ne by auto. apply nth_error_upd_eq. assumption.
          -- unfold live_at in *. congruence.
        * exists k, n. split; [|assumption]. unfold live_at in *. rewrite !nth_error_upd_ne by auto. assumption.
    - (* swap *)
      destruct (obj_inv s i) as [(a & -> & La)| ->]; [|exact I]. cbn [bind].
      destruct (obj_inv s j) as [(b & -> & Lb)| ->]; [|exact I]. cbn [bind].
      destruct (same_type a b) eqn:Et; [|exact I].
      unfold swap. unfold put. cbn [objs heap].
      replace {| st := st b; ptr := ptr b; cap := cap b |} with b by (destruct b; reflexivity).
      replace {| st := st a; ptr := ptr a; cap := cap a |} with a by (destruct a; reflexivity).
      assert (Hil : (i < length (objs A s))%nat) by (eapply nth_lt; eauto).
      assert (Hjl : (j < length (upd (objs A s) i (Some b)))%nat) by (rewrite upd_length; eapply nth_lt; eauto).
      assert (Hl : forall k n, live_at (upd (upd (objs A s) i (Some b)) j (Some a)) k n ->
                (k = j /\ n = a) \/ (k <> j /\ k = i /\ n = b) \/ (k <> j /\ k <> i /\ live_at (objs A s) k n)).
      { intros k n H. apply (live_upd _ _ _ _ _ Hjl) in H. destruct H as [H|[Hk H]]; [left; exact H|right].
        apply (live_upd _ _ _ _ _ Hil) in H. tauto. }
      apply permute_ok; auto.
      + intros k n Hk. destruct (Hl k n Hk) as [[_ ->]|[(_ & _ & ->)|(_ & _ & H)]]; eapply Cv; eauto.
      + intros x y n1 n2 p H1 H2 P1 P2.
        destruct (Hl _ _ H1) as [[-> ->]|[(N1 & -> & ->)|(N1 & M1 & H1')]], (Hl _ _ H2) as [[-> ->]|[(N2 & -> & ->)|(N2 & M2 & H2')]];
          try reflexivity.
        * assert (i = j) by (eapply Cd; eauto). congruence.
        * exfalso. apply M2. eapply Cd; eauto.
        * assert (i = j) by (eapply Cd; eauto). congruence.
        * exfalso. apply N2. eapply Cd; eauto.
        * exfalso. apply M1. eapply Cd; eauto.
        * exfalso. apply N1. eapply Cd; eauto.
        * eapply Cd; eauto.
      + intros _ k n p Hk Hp. destruct (Nat.eq_dec k i) as [->|Hki].
        * assert (n = a) by (unfold live_at in *; congruence). subst n.
          exists j, a. split; [|assumption]. unfold live_at. apply nth_error_upd_eq. assumption.
        * destruct (Nat.eq_dec k j) as [->|Hkj].
          -- assert (n = b) by (unfold live_at in *; congruence). subst n.
             exists i, b. split; [|assumption]. unfold live_at. rewrite nth_error_upd_ne by auto. apply nth_error_upd_eq. assumption.
          -- exists k, n. split; [|assumption]. unfold live_at in *. rewrite !nth_error_upd_ne by auto. assumption.
    - (* resize *)
      destruct (obj_inv s i) as [(m & -> & L)| ->]; [|exact I]. cbn [bind].
      destruct (dims_ok (sch (st m)) r c) eqn:Ed.
      + destruct (resize_spec (heap A s) m r c (Cv _ _ L)) as (h' & m' & -> & E & _).
        { destruct Ha. apply dims_ok_legal; assumption. }
        cbn [bind]. eapply replace_ok; eauto.
      + unfold resize. rewrite Ed. exact I.
    - (* cresize *)
      destruct (obj_inv s i) as [(m & -> & L)| ->]; [|exact I]. cbn [bind].
      destruct (dims_ok (sch (st m)) r c) eqn:Ed.
      + destruct (cresize_spec (heap A s) m r c (Cv _ _ L)) as (h' & m' & -> & E & _).
        { destruct Ha. apply dims_ok_legal; assumption. }
        cbn [bind]. eapply replace_ok; eauto.
      + unfold cresize. rewrite Ed.
        destruct ((r =? rows m) && (c =? cols m)) eqn:Es; [|exact I]. exfalso.
        apply andb_true_iff in Es. destruct Es as [Er Ec]. apply Z.eqb_eq in Er. apply Z.eqb_eq in Ec. subst.
        rewrite legal_dims_ok in Ed by apply (Cv _ _ L). discriminate.
    - (* set *)
      destruct (obj_inv s i) as [(m & -> & L)| ->]; [|exact I]. cbn [bind].
      destruct (reads_exists _ _ (Cv _ _ L)) as (f & Hf).
      destruct (set_spec (heap A s) m r c v f (Cv _ _ L) (Hpo m L) Hf) as (h' & -> & E & _).
      cbn [bind]. eapply inplace_ok; eauto.
    - (* fill *)
      destruct (obj_inv s i) as [(m & -> & L)| ->]; [|exact I]. cbn [bind].
      destruct (fill_spec (heap A s) m v (Cv _ _ L)) as (h' & -> & E & _).
      cbn [bind]. eapply inplace_ok; eauto.
    - (* multiply *)
      destruct (obj_inv s i) as [(m & -> & L)| ->]; [|exact I]. cbn [bind].
      destruct (reads_exists _ _ (Cv _ _ L)) as (f & Hf).
      destruct (multiply_spec mul (heap A s) m v f (Cv _ _ L) Hf) as (h' & -> & E & _).
      cbn [bind]. eapply inplace_ok; eauto.
    - (* += scaled *)
      destruct (obj_inv s i) as [(a & -> & La)| ->]; [|exact I]. cbn [bind].
      destruct (obj_inv s j) as [(b & -> & Lb)| ->]; [|exact I]. cbn [bind].
      destruct (same_type a b) eqn:Et; [|exact I]. apply same_type_eq in Et.
      destruct ((rows a =? rows b) && (cols a =? cols b)) eqn:Ed.
      + apply andb_true_iff in Ed. destruct Ed as [Er Ec]. apply Z.eqb_eq in Er. apply Z.eqb_eq in Ec.
        destruct (reads_exists _ _ (Cv _ _ La)) as (fa & Hfa).
        destruct (reads_exists _ _ (Cv _ _ Lb)) as (fb & Hfb).
        destruct (add_assign_spec add mul (heap A s) a (EScaled (EMat b) f) (fun _ => fb) fa) as (h' & -> & E & _).
        * eapply Cv; eauto.
        * intros n [<-|[]]. split; [eapply Cv; eauto|]. split; [auto|].
          intros Hn Hp. destruct (ptr b) as [p|] eqn:Ep; [|congruence].
          assert (i = j) by (eapply Cd; eauto; congruence). subst. unfold live_at in *. congruence.
        * reflexivity.
        * simpl. auto.
        * intros n [<-|[]]. assumption.
        * assumption.
        * cbn [bind]. apply (inplace_ok s i a); auto.
      + unfold add_assign. simpl. rewrite Ed. exact I.
    - (* += view *)
      destruct (obj_inv s i) as [(a & -> & La)| ->]; [|exact I]. cbn [bind].
      destruct (obj_inv s j) as [(b & -> & Lb)| ->]; [|exact I]. cbn [bind].
      destruct (same_type a b) eqn:Et; [|exact I]. apply same_type_eq in Et.
      destruct (eassert A (EView (EMat b) r c)) eqn:Ee.
      + destruct ((r <=? rows a) && (c <=? cols a)) eqn:Ed.
        * pose proof Ed as Ed'. apply andb_true_iff in Ed. destruct Ed as [Er Ec]. apply Z.leb_le in Er. apply Z.leb_le in Ec.
          destruct (reads_exists _ _ (Cv _ _ La)) as (fa & Hfa).
          destruct (reads_exists _ _ (Cv _ _ Lb)) as (fb & Hfb).
          destruct (add_assign_spec add mul (heap A s) a (EView (EMat b) r c) (fun _ => fb) fa) as (h' & -> & E & _).
          -- eapply Cv; eauto.
          -- intros n [<-|[]]. split; [eapply Cv; eauto|]. split; [auto|].
             intros Hn Hp. destruct (ptr b) as [p|] eqn:Ep; [|congruence].
             assert (i = j) by (eapply Cd; eauto; congruence). subst. unfold live_at in *. congruence.
          -- assumption.
          -- simpl. auto.
          -- intros n [<-|[]]. assumption.
          -- assumption.
          -- cbn [bind]. apply (inplace_ok s i a); auto.
        * unfold add_assign. rewrite Ee. unfold reduce_copy. simpl. rewrite Ed. exact I.
      + unfold add_assign. rewrite Ee. exact I.
    - (* destroy *)
      destruct (obj_inv s i) as [(m & -> & L)| ->]; [|exact I]. cbn [bind]. unfold dtor.
      destruct (free_opt_spec (heap A s) m (Cv _ _ L)) as (h' & -> & F1 & F2 & F3). cbn [bind].
      assert (Hil : (i < length (objs A s))%nat) by (eapply nth_lt; eauto).
      assert (Hl : forall j n, live_at (upd (objs A s) i None) j n -> j <> i /\ live_at (objs A s) j n).
      { unfold live_at. intros j n H. destruct (Nat.eq_dec j i) as [->|Hne].
        - rewrite nth_error_upd_eq in H by assumption. discriminate.
        - rewrite nth_error_upd_ne in H by assumption. auto. }
      split; [split|]; simpl.
      + intros j n Hj. destruct (Hl j n Hj) as [Hne Hj']. eapply valid_frame; [eapply Cv; eauto|].
        intros q Hq. apply F2. intros Hx. apply Hne. eapply Cd; eauto.
      + intros x y n1 n2 p H1 H2 P1 P2. destruct (Hl _ _ H1), (Hl _ _ H2). eapply Cd; eauto.
      + intros NL _ q l Hq. simpl in *.
        assert (Dec : Some q = ptr m \/ Some q <> ptr m).
        { destruct (ptr m) as [d|]; [|right; discriminate]. destruct (Nat.eq_dec q d); [left|right]; congruence. }
        destruct Dec as [Hx|Hx]; [rewrite (F3 q Hx) in Hq; discriminate|].
        rewrite F2 in Hq by assumption. destruct (NL q l Hq) as (j & n & Hj & Hp).
        exists j, n. split; [|assumption]. unfold live_at. rewrite nth_error_upd_ne; [exact Hj|].
        intros ->. unfold live_at in *. assert (n = m) by congruence. subst. congruence.
  Qed.

  Lemma init_ok : consistent (init A) /\ no_leak (init A).
  Proof.
    split; [split|]; unfold live_at, no_leak, init; simpl.
    - intros i m H; destruct i; discriminate.
    - intros i j m n p H; destruct i; discriminate.
    - intros p l H; destruct p; discriminate.
  Qed.

  Definition legal_step (s : pstate A) (o : op A) : Prop := args_ok o /\ position_ok s o.

  Lemma runs_consistent os s : runs add mul legal_step os s -> consistent s.
  Proof.
    induction 1 as [|os s o s' _ IH [Ha Hp] Hs]; [apply init_ok|].
    pose proof (step_ok s o IH Ha Hp) as H. rewrite Hs in H. apply H.
  Qed.

  Lemma no_ub os s o : runs add mul legal_step os s -> legal_step s o -> step A add mul s o <> UB.
  Proof.
    intros H [Ha Hp] E. pose proof (step_ok s o (runs_consistent os s H) Ha Hp) as R.
    rewrite E in R. exact R.
  Qed.

  Lemma runs_no_leak os s :
    runs add mul (fun s o => legal_step s o /\ move_target_empty s o) os s -> consistent s /\ no_leak s.
  Proof.
    induction 1 as [|os s o s' _ [IH1 IH2] [[Ha Hp] Hm] Hs]; [apply init_ok|].
    pose proof (step_ok s o IH1 Ha Hp) as H. rewrite Hs in H. destruct H; auto.
  Qed.

  Lemma all_destroyed_all_freed os s :
    runs add mul (fun s o => legal_step s o /\ move_target_empty s o) os s ->
    (forall i m, ~ live_at (objs A s) i m) ->
    forall p b, nth_error (heap A s) p = Some b -> b = Freed.
  Proof.
    intros H Hd p b Hb. destruct b as [l|]; [|reflexivity]. exfalso.
    destruct (proj2 (runs_no_leak os s H) p l Hb) as (i & m & Hi & _). eapply Hd; eauto.
  Qed.

  (** ** function-level statements *)
  Lemma effect_others (h h' : mem) p m' : effect h p h' m' -> others_unchanged h p h'.
  Proof.
    intros (_ & E2 & _) n Vn Hp.
    assert (F : forall q, Some q = ptr n -> nth_error h' q = nth_error h q).
    { intros q Hq. apply E2; [destruct Hp; congruence|]. eapply live_lt; eauto. }
    split; [eapply valid_frame; eauto|]. intros; apply get_frame; assumption.
  Qed.

  Lemma copy_ctor_thm (h : mem) src : valid h src ->
    exists h' m, copy_ctor A h src = Ok (h', m) /\ valid h' m /\
      sch (st m) = sch (st src) /\ rows m = rows src /\ cols m = cols src /\ ptr m <> ptr src /\
      (forall i j, kept src (i, j) -> get A h' m i j = get A h src i j) /\ others_unchanged h None h'.
  Proof.
    intros Hv. destruct (copy_ctor_spec h src Hv) as (h' & m & E & Ef & Es & Ep & Eg).
    exists h', m. split; [exact E|]. split; [apply Ef|]. unfold rows, cols. rewrite Es.
    split; [reflexivity|]. split; [reflexivity|]. split; [reflexivity|]. split.
    - intros Hx. rewrite Ep in Hx. pose proof (live_lt _ _ _ Hv (eq_sym Hx)). lia.
    - split; [exact Eg|]. eapply effect_others; eauto.
  Qed.

  Lemma copy_assign_thm (h : mem) dst src : valid h dst -> valid h src -> sch (st dst) = sch (st src) ->
    (ptr dst <> None -> ptr dst <> ptr src) ->
    exists h' m, copy_assign A h dst src = Ok (h', m) /\ valid h' m /\
      sch (st m) = sch (st src) /\ rows m = rows src /\ cols m = cols src /\
      (forall i j, kept src (i, j) -> get A h' m i j = get A h src i j) /\ others_unchanged h (ptr dst) h'.
  Proof.
    intros V1 V2 H1 H2. destruct (copy_assign_spec h dst src V1 V2 H1 H2) as (h' & m & E & Ef & Es & Eg).
    exists h', m. split; [exact E|]. split; [apply Ef|]. unfold rows, cols. rewrite Es.
    split; [reflexivity|]. split; [reflexivity|]. split; [reflexivity|].
    split; [exact Eg|]. eapply effect_others; eauto.
  Qed.

  Lemma resize_thm (h : mem) m r c : valid h m -> legal_dims (sch (st m)) r c ->
    exists h' m', resize A h m r c = Ok (h', m') /\ valid h' m' /\
      sch (st m') = sch (st m) /\ rows m' = r /\ cols m' = c /\ others_unchanged h (ptr m) h'.
  Proof.
    intros Hv Hl. destruct (resize_spec h m r c Hv Hl) as (h' & m' & E & Ef & Es & _).
    exists h', m'. split; [exact E|]. split; [apply Ef|]. unfold rows, cols. rewrite Es.
    split; [reflexivity|]. split; [reflexivity|]. split; [apply scols_mk; assumption|]. eapply effect_others; eauto.
  Qed.

  Lemma cresize_thm (h : mem) m r c : valid h m -> legal_dims (sch (st m)) r c ->
    exists h' m', cresize A h m r c = Ok (h', m') /\ valid h' m' /\
      sch (st m') = sch (st m) /\ rows m' = r /\ cols m' = c /\
      (forall i j, kept m (i, j) -> i < r -> j < c -> get A h' m' i j = get A h m i j) /\
      others_unchanged h (ptr m) h'.
  Proof.
    intros Hv Hl. destruct (cresize_spec h m r c Hv Hl) as (h' & m' & E & Ef & Es & Eg).
    exists h', m'. split; [exact E|]. split; [apply Ef|].
    assert (Hc : cols m' = c) by (unfold cols; rewrite Es; apply scols_mk; assumption).
    assert (Hr : rows m' = r) by (unfold rows; rewrite Es; reflexivity).
    assert (Hs : sch (st m') = sch (st m)) by (rewrite Es; reflexivity).
    split; [exact Hs|]. split; [exact Hr|]. split; [exact Hc|].
    split; [|eapply effect_others; eauto].
    intros i j Hk Hi Hj. apply Eg; [assumption|]. unfold kept in *. rewrite Hs, Hr, Hc.
    unfold stored in *. destruct Hk as (K1 & K2 & K3). repeat split; try lia. exact K3.
  Qed.

  Lemma move_ctor_thm (h : mem) src : valid h src ->
    exists m src', move_ctor src = Ok (m, src') /\ m = src /\ valid h src' /\
      rows src' = 0 /\ cols src' = 0 /\ ptr src' = None.
  Proof.
    intros Hv. unfold move_ctor. rewrite set_dims_0. cbn [bind].
    eexists _, _. split; [reflexivity|]. split; [destruct src; reflexivity|].
    split; [apply valid_empty|]. split; [reflexivity|]. split; [|reflexivity].
    apply scols_mk. apply legal_0.
  Qed.

  Lemma move_assign_thm (h : mem) dst src : valid h dst -> valid h src -> sch (st dst) = sch (st src) ->
    exists m src', move_assign dst src = Ok (m, src') /\ m = src /\ valid h src' /\
      rows src' = 0 /\ cols src' = 0 /\ ptr src' = None.
  Proof.
    intros Vd Vs Hs. unfold move_assign.
    assert (Hst : mkStorage (sch (st dst)) (rows src) (cols src) = st src).
    { rewrite Hs. symmetry. apply st_eta. eapply valid_wf; eauto. }
    rewrite set_dims_legal by (rewrite Hs; apply Vs). rewrite set_dims_0. cbn [bind]. rewrite Hst.
    eexists _, _. split; [reflexivity|]. split; [destruct src; reflexivity|].
    split; [apply valid_empty|]. split; [reflexivity|]. split; [|reflexivity].
    apply scols_mk. apply legal_0.
  Qed.

  Lemma add_assign_thm (h : mem) m (e : expr A) (V : mat -> Z -> Z -> cell) old :
    (forall x y, add x y = add y x) ->
    valid h m -> operands_ok h (sch (st m)) m e -> eassert A e = true ->
    (if contiguous A e then rows m = erows A e /\ cols m = ecols A e
     else erows A e <= rows m /\ ecols A e <= cols m) ->
    (forall n, In n (leaves e) -> reads h n (V n)) -> reads h m old ->
    exists h', add_assign A add mul h m e = Ok h' /\ valid h' m /\
      reads h' m (fun i j => if (i <? erows A e) && (j <? ecols A e)
                             then lift2 A add (old i j) (meaning add mul V e i j) else old i j) /\
      others_unchanged h (ptr m) h'.
  Proof.
    intros Hcomm Hv Hop Hea Hd HV Hold.
    destruct (add_assign_spec add mul h m e V old Hv Hop Hea Hd HV Hold) as (h' & E & Ef & _ & Er).
    exists h'. split; [exact E|]. split; [apply Ef|]. split; [|eapply effect_others; eauto].
    intros i j Hk. rewrite (Er i j Hk). unfold sum_of. destruct (contiguous A e); [reflexivity|].
    rewrite meaning_flip by assumption. reflexivity.
  Qed.

  Lemma from_expr_thm (h : mem) k (e : expr A) (V : mat -> Z -> Z -> cell) :
    (forall x y, add x y = add y x) ->
    (forall n, In n (leaves e) -> valid h n /\ sch (st n) = k) ->
    eassert A e = true -> legal_dims k (erows A e) (ecols A e) ->
    (match e with ESum _ _ => True | EScaled _ _ => contiguous A e = true | _ => False end) ->
    (forall n, In n (leaves e) -> reads h n (V n)) ->
    exists h' m, from_expr A add mul h k e = Ok (h', m) /\ valid h' m /\
      sch (st m) = k /\ rows m = erows A e /\ cols m = ecols A e /\ reads h' m (meaning add mul V e) /\
      others_unchanged h None h'.
  Proof.
    intros Hcomm Hop Hea Hl Hf HV.
    destruct (from_expr_spec add mul h k e V Hop Hea Hl Hf HV) as (h' & m & E & Ef & E1 & E2 & E3 & Er).
    exists h', m. split; [exact E|]. split; [apply Ef|]. split; [exact E1|]. split; [exact E2|]. split; [exact E3|].
    split; [|eapply effect_others; eauto].
    intros i j Hk. rewrite (Er i j Hk). unfold sum_of. destruct (contiguous A e); [reflexivity|].
    rewrite meaning_flip by assumption. reflexivity.
  Qed.

  Lemma multiply_thm (h : mem) m v f : valid h m -> reads h m f ->
    exists h', multiply A mul h m v = Ok h' /\ valid h' m /\
      reads h' m (fun i j => lift2 A mul (f i j) (Some v)) /\ others_unchanged h (ptr m) h'.
  Proof.
    intros Hv Hf. destruct (multiply_spec mul h m v f Hv Hf) as (h' & E & Ef & _ & Er).
    exists h'. split; [exact E|]. split; [apply Ef|]. split; [exact Er|]. eapply effect_others; eauto.
  Qed.

  Lemma fill_thm (h : mem) m v : valid h m ->
    exists h', fill_with A h m v = Ok h' /\ valid h' m /\ reads h' m (fun _ _ => Some v) /\
      others_unchanged h (ptr m) h'.
  Proof.
    intros Hv. destruct (fill_spec h m v Hv) as (h' & E & Ef & _ & Er).
    exists h'. split; [exact E|]. split; [apply Ef|]. split; [exact Er|]. eapply effect_others; eauto.
  Qed.

  Lemma set_thm (h : mem) m r c v f : valid h m -> kept m (r, c) -> reads h m f ->
    exists h', set A h m r c v = Ok h' /\ valid h' m /\
      reads h' m (fun i j => if (i =? r) && (j =? c) then Some v else f i j) /\ others_unchanged h (ptr m) h'.
  Proof.
    intros Hv Hk Hf. destruct (set_spec h m r c v f Hv Hk Hf) as (h' & E & Ef & _ & Er).
    exists h'. split; [exact E|]. split; [apply Ef|]. split; [exact Er|]. eapply effect_others; eauto.
  Qed.
End Prog.

(** moving into a matrix that owns memory loses that memory *)
Lemma move_assign_leak : exists os s p l,
  runs Z.add Z.mul (@legal_step Z) os s /\
  (forall i m, ~ live_at (objs Z s) i m) /\ nth_error (heap Z s) p = Some (Live l) /\ length l = 6%nat.
Proof.
  pose (prog := [OCtor Z RowWise 2 3; OCtor Z RowWise 1 1; OMoveAssign Z 0 1; ODestroy Z 0; ODestroy Z 1]).
  assert (R : forall os1 os2 s1, runs Z.add Z.mul (@legal_step Z) os1 s1 ->
     (forall o, In o os2 -> args_ok o /\ forall s, position_ok s o) ->
     forall s2, run Z Z.add Z.mul os2 s1 = Ok s2 -> runs Z.add Z.mul (@legal_step Z) (os1 ++ os2) s2).
  { intros os1 os2; revert os1. induction os2 as [|o os2 IH]; intros os1 s1 H1 Hl s2 E.
    - rewrite app_nil_r. inversion E; subst. assumption.
    - unfold run in E. simpl in E. destruct (step Z Z.add Z.mul s1 o) as [s1'| | |] eqn:Es; try discriminate.
      replace (os1 ++ o :: os2) with ((os1 ++ [o]) ++ os2) by (rewrite <- app_assoc; reflexivity).
      apply (IH (os1 ++ [o]) s1'); [|intros; apply Hl; right; assumption|exact E].
      eapply runs_snoc; eauto. destruct (Hl o (or_introl eq_refl)) as [Ha Hp]. split; auto. }
  destruct (run Z Z.add Z.mul prog (init Z)) as [s| | |] eqn:E; try (vm_compute in E; discriminate E).
  exists prog, s, 0%nat, (repeat None 6). split; [|split; [|split]].
  - apply (R [] prog (init Z)); [constructor| |exact E].
    intros o Ho. simpl in Ho. decompose [or] Ho; subst; simpl; try contradiction; split; try lia; auto.
  - vm_compute in E. inversion E; subst. unfold live_at. simpl. intros [|[|i]] m H; simpl in H; try discriminate. destruct i; discriminate.
  - vm_compute in E. inversion E; subst. reflexivity.
  - reflexivity.
Qed.

(** self move empties the matrix *)
Lemma self_move_empties : exists (s s' : pstate Z) m,
  run Z Z.add Z.mul [OCtor Z RowWise 2 3; OFill Z 0 7] (init Z) = Ok s /\
  step Z Z.add Z.mul s (OMoveAssign Z 0 0) = Ok s' /\
  live_at (objs Z s') 0 m /\ rows m = 0 /\ ~ no_leak s'.
Proof.
  eexists _, _, _. split; [vm_compute; reflexivity|]. split; [vm_compute; reflexivity|].
  split; [reflexivity|]. split; [reflexivity|].
  intros NL. destruct (NL 0%nat _ eq_refl) as (i & m & Hi & Hp).
  unfold live_at in Hi. destruct i as [|[|i]]; simpl in Hi; try discriminate.
  inversion Hi; subst. discriminate.
Qed.

(** += between different storage schemes: compiles through a scaled proxy, and
    combines elements by storage address rather than by position *)
Lemma mixed_scheme_wrong : exists (h h' : mem Z) (a b : mat),
  valid h a /\ valid h b /\ rows a = rows b /\ cols a = cols b /\ ptr a <> ptr b /\
  add_assign Z Z.add Z.mul h a (EScaled (EMat b) 1) = Ok h' /\
  get Z h a 0 1 = Ok (Some 0) /\ get Z h b 0 1 = Ok (Some 12) /\ get Z h' a 0 1 = Ok (Some 21).
Proof.
  exists [Live (repeat (Some 0) 4); Live [Some 11; Some 21; Some 12; Some 22]].
  eexists. exists (mkMat (mkStorage RowWise 2 2) (Some 0%nat) 4), (mkMat (mkStorage ColWise 2 2) (Some 1%nat) 4).
  split; [apply valid_mk; [unfold legal_dims; repeat split; try lia; intros [?|?]; discriminate|vm_compute; discriminate|eexists; split; reflexivity]|].
  split; [apply valid_mk; [unfold legal_dims; repeat split; try lia; intros [?|?]; discriminate|vm_compute; discriminate|eexists; split; reflexivity]|].
  repeat split; try discriminate; vm_compute; reflexivity.
Qed.

Lemma mixed_scheme_ub : exists (h : mem Z) (a b : mat),
  valid h a /\ valid h b /\ rows a = rows b /\ cols a = cols b /\ ptr a <> ptr b /\
  add_assign Z Z.add Z.mul h a (EScaled (EMat b) 1) = UB.
Proof.
  exists [Live (repeat (Some 0) 4); Live (repeat (Some 1) 3)].
  exists (mkMat (mkStorage RowWise 2 2) (Some 0%nat) 4), (mkMat (mkStorage LwTriCol 2 2) (Some 1%nat) 3).
  split; [apply valid_mk; [unfold legal_dims; repeat split; try lia; intros [?|?]; discriminate|vm_compute; discriminate|eexists; split; reflexivity]|].
  split; [apply valid_mk; [unfold legal_dims; repeat split; lia|vm_compute; discriminate|eexists; split; reflexivity]|].
  repeat split; try discriminate; vm_compute; reflexivity.
Qed.
