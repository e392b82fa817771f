(** Histories of StokesCoeffs objects; packed storage; counterexamples. *)
From Coq Require Import ZArith List Bool Lia.
From Verif Require Import Base StorageModel StorageSpec StorageProofs MatrixModel MatrixSpec MatrixProofs MatrixProgProofs
  StokesModel StokesSpec StokesProofs.
Import ListNotations.
Open Scope Z_scope.

Section Hist.
  Context {A : Type}.
  Variables add mul : A -> A -> A.

  Lemma sinit_inv : sinv [] (sinit A).
  Proof.
    split; [split|].
    - apply init_ok.
    - intros i m H. unfold live_at in H. simpl in H. destruct i; discriminate.
    - split; [reflexivity|]. split; [reflexivity|]. intros k x H. unfold alive in H. simpl in H. destruct k; discriminate.
  Qed.

  Lemma hist_inv u s : hist add mul u s -> sinv u s.
  Proof.
    induction 1 as [|u s o s' b H IH Ho E]; [apply sinit_inv|].
    pose proof (sstep_ok add mul u s o IH Ho) as S. rewrite E in S. exact S.
  Qed.

  Lemma stokes_no_ub u s o : hist add mul u s -> sop_ok s u o ->
    sstep A add mul s o <> UB /\ sstep A add mul s o <> Abort.
  Proof.
    intros H Ho. pose proof (sstep_ok add mul u s o (hist_inv u s H) Ho) as S.
    destruct (sstep A add mul s o); simpl in S; split; congruence || contradiction.
  Qed.

  Lemma get_ok (p : pstate A) i a n m : good p -> live_at (objs A p) i a -> kept a (n, m) ->
    exists c, get A (heap A p) a n m = Ok c.
  Proof.
    intros G L K. destruct (reads_exists _ _ (proj1 (proj1 G) _ _ L)) as (f & F). exists (f n m). apply F, K.
  Qed.

  Lemma stokes_accessible u s k x n m : hist add mul u s -> alive s k x -> flag u k = true ->
    0 <= order x <= degree x /\
    (0 <= m <= n -> n <= degree x -> (exists c, coefC s k n m = Ok c) /\ (exists c, coefS s k n m = Ok c)).
  Proof.
    intros H L F. apply hist_inv in H. destruct (slots u s k x H L) as (c & t & L1 & L2 & R & T1 & T2 & D).
    specialize (D F). split; [lia|]. intros Hm Hn. rewrite (coefC_get s k c n m L1), (coefS_get s k t n m L2).
    split; (eapply get_ok; [apply H|eassumption|]); apply tri_kept; auto; lia.
  Qed.

  Lemma stokes_add_thm u s i j x y : hist add mul u s -> alive s i x -> alive s j y -> i <> j ->
    flag u i = true -> flag u j = true -> degree y <= degree x -> order y <= order x ->
    exists s', sstep A add mul s (SAdd A i j) = Ok (s', true) /\ scs A s' = scs A s /\
      (forall n m, 0 <= m <= n -> n <= degree y -> m <= order y ->
         exists a b c d, coefC s i n m = Ok a /\ coefC s j n m = Ok b /\ coefC s' i n m = Ok (lift2 A add a b) /\
                         coefS s i n m = Ok c /\ coefS s j n m = Ok d /\ coefS s' i n m = Ok (lift2 A add c d)) /\
      (forall n m, 0 <= m <= n -> n <= degree x -> n > degree y \/ m > order y ->
         coefC s' i n m = coefC s i n m /\ coefS s' i n m = coefS s i n m) /\
      (forall k z, alive s k z -> flag u k = true -> k <> i -> forall n m, 0 <= m <= n -> n <= degree z ->
         coefC s' k n m = coefC s k n m /\ coefS s' k n m = coefS s k n m).
  Proof.
    intros H Lx Ly Hij Fi Fj Hd Ho.
    destruct (sadd_spec add mul u s i j x y (hist_inv u s H) Lx Ly Hij Fi Fj Hd Ho) as (s' & E & Es & _ & _ & V & O).
    exists s'. split; [exact E|]. split; [exact Es|]. split; [|split; [|exact O]].
    - intros n m Hm Hn Hmo.
      destruct (proj2 (stokes_accessible u s i x n m H Lx Fi) Hm ltac:(lia)) as ((a & Ea) & (c & Ec)).
      destruct (proj2 (stokes_accessible u s j y n m H Ly Fj) Hm ltac:(lia)) as ((b & Eb) & (d & Ed)).
      exists a, b, c, d. destruct (V n m Hm ltac:(lia)) as [V1 V2]. rewrite V1, V2. unfold added.
      apply Z.leb_le in Hn, Hmo. rewrite Hn, Hmo, Ea, Eb, Ec, Ed. simpl. auto 10.
    - intros n m Hm Hn Hout. destruct (V n m Hm Hn) as [V1 V2]. rewrite V1, V2. unfold added.
      assert (B : (n <=? degree y) && (m <=? order y) = false) by (apply andb_false_iff; rewrite !Z.leb_gt; lia).
      rewrite B. auto.
  Qed.

  Lemma stokes_add_refused s i j x y : alive s i x -> alive s j y ->
    degree x < degree y \/ order x < order y ->
    sstep A add mul s (SAdd A i j) = Ok (s, false).
  Proof.
    intros Lx Ly Hd. unfold sstep, scobj. unfold alive in *. rewrite Lx, Ly. cbn [bind].
    assert (B : (degree x <? degree y) || (order x <? order y) = true)
      by (apply orb_true_iff; rewrite !Z.ltb_lt; lia).
    rewrite B. reflexivity.
  Qed.

  Lemma stokes_scale_thm u s k x f : hist add mul u s -> alive s k x -> flag u k = true -> degree x <> 0 ->
    exists s', sstep A add mul s (SScale A k f) = Ok (s', true) /\ scs A s' = scs A s /\
      (forall n m, 0 <= m <= n -> n <= degree x ->
         exists a b, coefC s k n m = Ok a /\ coefC s' k n m = Ok (lift2 A mul a (Some f)) /\
                     coefS s k n m = Ok b /\ coefS s' k n m = Ok (lift2 A mul b (Some f))) /\
      (forall i z, alive s i z -> flag u i = true -> i <> k -> forall n m, 0 <= m <= n -> n <= degree z ->
         coefC s' i n m = coefC s i n m /\ coefS s' i n m = coefS s i n m).
  Proof.
    intros H Lx Fk Hd.
    destruct (sscale_spec add mul u s k x f (hist_inv u s H) Lx Fk Hd) as (s' & E & Es & _ & V & O).
    exists s'. split; [exact E|]. split; [exact Es|]. split; [|exact O].
    intros n m Hm Hn. destruct (proj2 (stokes_accessible u s k x n m H Lx Fk) Hm Hn) as ((a & Ea) & (b & Eb)).
    exists a, b. destruct (V n m Hm Hn) as [V1 V2]. rewrite V1, V2, Ea, Eb. simpl. auto.
  Qed.

  Lemma stokes_scale_compose u s k x a b : (forall p q r, mul (mul p q) r = mul p (mul q r)) ->
    hist add mul u s -> alive s k x -> flag u k = true -> degree x <> 0 ->
    exists s1 s2 s3, sstep A add mul s (SScale A k a) = Ok (s1, true) /\
      sstep A add mul s1 (SScale A k b) = Ok (s2, true) /\
      sstep A add mul s (SScale A k (mul a b)) = Ok (s3, true) /\
      forall n m, 0 <= m <= n -> n <= degree x ->
        coefC s2 k n m = coefC s3 k n m /\ coefS s2 k n m = coefS s3 k n m.
  Proof.
    intros Hass H Lx Fk Hd.
    destruct (sscale_spec add mul u s k x a (hist_inv u s H) Lx Fk Hd) as (s1 & E1 & Es1 & I1 & V1 & _).
    assert (L1 : alive s1 k x) by (unfold alive in *; rewrite Es1; exact Lx).
    destruct (sscale_spec add mul u s1 k x b I1 L1 Fk Hd) as (s2 & E2 & Es2 & I2 & V2 & _).
    destruct (sscale_spec add mul u s k x (mul a b) (hist_inv u s H) Lx Fk Hd) as (s3 & E3 & _ & _ & V3 & _).
    exists s1, s2, s3. repeat (split; [assumption|]). intros n m Hm Hn.
    destruct (V1 n m Hm Hn) as [A1 B1], (V2 n m Hm Hn) as [A2 B2], (V3 n m Hm Hn) as [A3 B3].
    rewrite A2, A1, A3, B2, B1, B3. split; [destruct (coefC s k n m) as [[v|]| | |]|destruct (coefS s k n m) as [[v|]| | |]];
      simpl; rewrite ?Hass; reflexivity.
  Qed.

  (** copies *)
  Lemma step_copy_vals s i a : good s -> live_at (objs A s) i a ->
    exists h' b, step A add mul s (OCopyCtor A i) = Ok (mkP A (objs A s ++ [Some b]) h') /\
      good (mkP A (objs A s ++ [Some b]) h') /\ st b = st a /\
      (forall n m, kept a (n, m) -> get A h' b n m = get A (heap A s) a n m) /\
      (forall k c, live_at (objs A s) k c -> forall n m, kept c (n, m) -> get A h' c n m = get A (heap A s) c n m).
  Proof.
    intros G L. pose proof (proj1 (proj1 G) _ _ L) as V.
    destruct (copy_ctor_spec (heap A s) a V) as (h' & b & E & Ef & Es & Ep & R).
    assert (St : step A add mul s (OCopyCtor A i) = Ok (mkP A (objs A s ++ [Some b]) h')).
    { simpl. rewrite (obj_live _ _ _ L). cbn [bind]. rewrite E. reflexivity. }
    destruct (step_copy add mul s i (rows a) G (live_sh _ _ _ L)) as (s' & St' & G' & _).
    assert (s' = mkP A (objs A s ++ [Some b]) h') by congruence. subst s'.
    exists h', b. split; [exact St|]. split; [exact G'|]. split; [exact Es|]. split.
    - intros n m K. apply R, K.
    - intros k c Lc n m K. apply (effect_others _ _ _ _ Ef); [apply (proj1 (proj1 G) _ _ Lc)| |exact K].
      destruct (ptr c); [right; congruence|left; reflexivity].
  Qed.

  Lemma stokes_copy_thm u s k x : hist add mul u s -> alive s k x -> flag u k = true ->
    exists s', sstep A add mul s (SCopy A k) = Ok (s', true) /\ alive s' (length (scs A s)) x /\
      (forall n m, 0 <= m <= n -> n <= degree x ->
         coefC s' (length (scs A s)) n m = coefC s k n m /\ coefS s' (length (scs A s)) n m = coefS s k n m) /\
      (forall i z, alive s i z -> flag u i = true -> alive s' i z /\ forall n m, 0 <= m <= n -> n <= degree z ->
         coefC s' i n m = coefC s i n m /\ coefS s' i n m = coefS s i n m).
  Proof.
    intros H Lx F. apply hist_inv in H. pose proof H as (G & Ls & Lu & _).
    assert (Lo : length (objs A (ps A s)) = (2 * length (scs A s))%nat) by (rewrite <- Ls; unfold sh; rewrite map_length; reflexivity).
    destruct (slots u s k x H Lx) as (c & t & L1 & L2 & R & T1 & T2 & D). specialize (D F).
    destruct (step_copy_vals (ps A s) (cslot k) c G L1) as (h1 & c' & E1 & G1 & S1 & V1 & O1).
    assert (App : forall (l : list (option mat)) y i z, live_at l i z -> live_at (l ++ [y]) i z).
    { intros l y i z Hl. unfold live_at in *. rewrite nth_error_app1; [assumption|]. apply nth_error_Some. congruence. }
    destruct (step_copy_vals _ (sslot k) t G1 (App _ _ _ _ L2)) as (h2 & t' & E2 & G2 & S2 & V2 & O2). cbn [objs heap] in G2, V2, O2, E2.
    set (s' := mkS A (scs A s ++ [Some x]) (mkP A ((objs A (ps A s) ++ [Some c']) ++ [Some t']) h2)).
    assert (Lc' : live_at (objs A (ps A s')) (cslot (length (scs A s))) c').
    { apply App. unfold live_at, cslot. rewrite nth_error_app2 by lia.
      replace (2 * length (scs A s) - length (objs A (ps A s)))%nat with O by lia. reflexivity. }
    assert (Lt' : live_at (objs A (ps A s')) (sslot (length (scs A s))) t').
    { unfold live_at, sslot, s'. cbn [objs ps].
      rewrite nth_error_app2 by (rewrite app_length; simpl; lia).
      match goal with |- nth_error _ ?i = _ => replace i with O by (rewrite app_length; simpl length; lia) end. reflexivity. }
    exists s'. split.
    { unfold sstep, scobj. unfold alive in Lx. rewrite Lx. cbn [bind]. unfold mrun. cbn [fold_res]. 
      rewrite E1. cbn [bind]. rewrite E2. reflexivity. }
    split. { unfold alive, s'. simpl. rewrite nth_error_app2 by lia. rewrite Nat.sub_diag. reflexivity. }
    assert (Kc : forall n m, 0 <= m <= n -> n <= degree x -> kept c (n, m)) by (intros; apply tri_kept; auto; lia).
    assert (Kt : forall n m, 0 <= m <= n -> n <= degree x -> kept t (n, m)) by (intros; apply tri_kept; auto; lia).
    split.
    - intros n m Hm Hn. rewrite (coefC_get s' _ c' n m Lc'), (coefS_get s' _ t' n m Lt'), (coefC_get s k c n m L1), (coefS_get s k t n m L2).
      simpl. split.
      + rewrite (O2 (cslot (length (scs A s))) c').
        * apply V1, Kc; assumption.
        * unfold live_at, cslot. rewrite nth_error_app2 by lia.
          replace (2 * length (scs A s) - length (objs A (ps A s)))%nat with O by lia. reflexivity.
        * unfold kept, rows, cols. rewrite S1. apply Kc; assumption.
      + rewrite V2 by (apply Kt; assumption). apply (O1 (sslot k) t L2), Kt; assumption.
    - intros i z Lz Fi. split.
      { unfold alive, s' in *. simpl. rewrite nth_error_app1; [assumption|]. apply nth_error_Some. congruence. }
      intros n m Hm Hn. destruct (slots u s i z H Lz) as (zc & zs & Z1 & Z2 & Z3 & Z4 & Z5 & Z6). specialize (Z6 Fi).
      assert (Kzc : kept zc (n, m)) by (apply tri_kept; [assumption|lia]).
      assert (Kzs : kept zs (n, m)) by (apply tri_kept; [assumption|lia]).
      rewrite (coefC_get s i zc n m Z1), (coefS_get s i zs n m Z2), (coefC_get s' i zc n m), (coefS_get s' i zs n m);
        [|unfold s'; simpl; apply App, App; assumption|unfold s'; simpl; apply App, App; assumption].
      simpl. split.
      + rewrite (O2 (cslot i) zc (App _ _ _ _ Z1) _ _ Kzc). apply (O1 _ _ Z1 _ _ Kzc).
      + rewrite (O2 (sslot i) zs (App _ _ _ _ Z2) _ _ Kzs). apply (O1 _ _ Z2 _ _ Kzs).
  Qed.

  (** ** packed storage *)
  Notation anm := (anm A).
  Lemma col_writes (g : Z -> cell A) c l (M : anm) i j :
    fold_left (fun M r => anm_set A M r c (g r)) l M i j =
    if (j =? c) && existsb (Z.eqb i) l then g i else M i j.
  Proof.
    revert M; induction l as [|r l IH]; intros M; simpl.
    - rewrite andb_false_r. reflexivity.
    - rewrite IH. unfold anm_set.
      destruct (Z.eqb_spec j c); simpl; [|rewrite andb_false_r; reflexivity].
      rewrite andb_true_r. destruct (existsb (Z.eqb i) l); [rewrite orb_true_r; reflexivity|].
      rewrite orb_false_r. destruct (Z.eqb_spec i r); [subst; reflexivity|reflexivity].
  Qed.
  Lemma row_writes (g : Z -> cell A) (c : Z) l (M : anm) i j :
    fold_left (fun M r => anm_set A M c (r + 1) (g r)) l M i j =
    if (i =? c) && existsb (Z.eqb (j - 1)) l then g (j - 1) else M i j.
  Proof.
    revert M; induction l as [|r l IH]; intros M; simpl.
    - rewrite andb_false_r. reflexivity.
    - rewrite IH. unfold anm_set.
      destruct (Z.eqb_spec i c); simpl; [|reflexivity].
      destruct (existsb (Z.eqb (j - 1)) l); [rewrite orb_true_r; reflexivity|].
      rewrite orb_false_r. destruct (Z.eqb_spec j (r + 1)), (Z.eqb_spec (j - 1) r); try lia; try reflexivity; f_equal; lia.
  Qed.
  Lemma existsb_range i n : existsb (Z.eqb i) (zrange n) = (0 <=? i) && (i <? n).
  Proof.
    apply eq_true_iff_eq. rewrite existsb_exists, andb_true_iff, Z.leb_le, Z.ltb_lt. split.
    - intros (x & Hx & E). apply Z.eqb_eq in E. subst. apply in_zrange in Hx. assumption.
    - intros H. exists i. split; [apply in_zrange; assumption|apply Z.eqb_refl].
  Qed.
  Lemma existsb_range2 i lo n : existsb (Z.eqb i) (zrange2 lo n) = (lo <=? i) && (i <? n).
  Proof.
    apply eq_true_iff_eq. rewrite existsb_exists, andb_true_iff, Z.leb_le, Z.ltb_lt. split.
    - intros (x & Hx & E). apply Z.eqb_eq in E. subst. apply in_zrange2 in Hx. assumption.
    - intros H. exists i. split; [apply in_zrange2; assumption|apply Z.eqb_refl].
  Qed.

  Lemma to_anm_value zero d (C S : Z -> Z -> cell A) r c : 0 <= r <= d -> 0 <= c <= d ->
    to_anm A zero d C S r c = if r <? c then S c (r + 1) else C r c.
  Proof.
    intros Hr Hc. unfold to_anm.
    assert (G : forall l M, In c l \/ M r c = (if r <? c then S c (r + 1) else C r c) ->
      fold_left (fun M c => fold_left (fun M r => anm_set A M r c (C r c)) (lower_rows c d)
         (fold_left (fun M r => anm_set A M r c (S c (r + 1))) (upper_rows c) M)) l M r c =
      (if r <? c then S c (r + 1) else C r c)).
    { induction l as [|c' l IH]; intros M HM; simpl; [destruct HM; [contradiction|assumption]|].
      apply IH. rewrite (col_writes (fun r => C r c')), (col_writes (fun r => S c' (r + 1))).
      unfold lower_rows, upper_rows. rewrite existsb_range, existsb_range2.
      destruct (Z.eqb_spec c c') as [<-|Hne]; simpl.
      - right. destruct (Z.leb_spec c r), (Z.ltb_spec r (d + 1)), (Z.leb_spec 0 r), (Z.ltb_spec r c); simpl; try lia; reflexivity.
      - destruct HM as [[HM|HM]|HM]; [congruence|left; assumption|right; assumption]. }
    apply G. left. apply in_zrange. lia.
  Qed.

  Lemma from_fst l (f : Z -> list Z) (g : Z -> list Z) (M : anm) (cs : anm * anm) :
    fst (fold_left (fun cs m => fold_left (fun (cs : anm * anm) l => (anm_set A (fst cs) l m (M l m), snd cs)) (f m)
           (fold_left (fun (cs : anm * anm) l => (fst cs, anm_set A (snd cs) m (l + 1) (M l m))) (g m) cs)) l cs)
    = fold_left (fun C m => fold_left (fun C l => anm_set A C l m (M l m)) (f m) C) l (fst cs).
  Proof.
    revert cs; induction l as [|m l IH]; intros cs; [reflexivity|]. cbn [fold_left]. rewrite IH. f_equal.
    assert (G1 : forall q cs, fst (fold_left (fun (cs : anm * anm) l => (fst cs, anm_set A (snd cs) m (l + 1) (M l m))) q cs) = fst cs).
    { induction q as [|y q IHq]; intros; [reflexivity|]. cbn [fold_left]. rewrite IHq. reflexivity. }
    assert (G2 : forall q cs, fst (fold_left (fun (cs : anm * anm) l => (anm_set A (fst cs) l m (M l m), snd cs)) q cs)
                  = fold_left (fun C l => anm_set A C l m (M l m)) q (fst cs)).
    { induction q as [|y q IHq]; intros; [reflexivity|]. cbn [fold_left]. rewrite IHq. reflexivity. }
    rewrite G2, G1. reflexivity.
  Qed.
  Lemma from_snd l (f : Z -> list Z) (g : Z -> list Z) (M : anm) (cs : anm * anm) :
    snd (fold_left (fun cs m => fold_left (fun (cs : anm * anm) l => (anm_set A (fst cs) l m (M l m), snd cs)) (f m)
           (fold_left (fun (cs : anm * anm) l => (fst cs, anm_set A (snd cs) m (l + 1) (M l m))) (g m) cs)) l cs)
    = fold_left (fun S m => fold_left (fun S l => anm_set A S m (l + 1) (M l m)) (g m) S) l (snd cs).
  Proof.
    revert cs; induction l as [|m l IH]; intros cs; [reflexivity|]. cbn [fold_left]. rewrite IH. f_equal.
    assert (G1 : forall q cs, snd (fold_left (fun (cs : anm * anm) l => (anm_set A (fst cs) l m (M l m), snd cs)) q cs) = snd cs).
    { induction q as [|y q IHq]; intros; [reflexivity|]. cbn [fold_left]. rewrite IHq. reflexivity. }
    assert (G2 : forall q cs, snd (fold_left (fun (cs : anm * anm) l => (fst cs, anm_set A (snd cs) m (l + 1) (M l m))) q cs)
                  = fold_left (fun S l => anm_set A S m (l + 1) (M l m)) q (snd cs)).
    { induction q as [|y q IHq]; intros; [reflexivity|]. cbn [fold_left]. rewrite IHq. reflexivity. }
    rewrite G1, G2. reflexivity.
  Qed.

  Lemma from_anm_C d (M : anm) n m : 0 <= m <= n -> n <= d -> fst (from_anm A d M) n m = M n m.
  Proof.
    intros Hm Hn. unfold from_anm. rewrite from_fst. cbn [fst].
    assert (G : forall l C, In m l \/ C n m = M n m ->
      fold_left (fun C m => fold_left (fun C l => anm_set A C l m (M l m)) (lower_rows m d) C) l C n m = M n m).
    { induction l as [|m' l IH]; intros C HC; simpl; [destruct HC; [contradiction|assumption]|].
      apply IH. rewrite (col_writes (fun l => M l m')). unfold lower_rows. rewrite existsb_range2.
      destruct (Z.eqb_spec m m') as [<-|Hne]; simpl.
      - right. destruct (Z.leb_spec m n), (Z.ltb_spec n (d + 1)); simpl; try lia; reflexivity.
      - destruct HC as [[HC|HC]|HC]; [congruence|left; assumption|right; assumption]. }
    apply G. left. apply in_zrange. lia.
  Qed.

  Lemma from_anm_S d (M : anm) n m : 0 <= m <= n -> n <= d ->
    snd (from_anm A d M) n m = if 1 <=? m then M (m - 1) n else None.
  Proof.
    intros Hm Hn. unfold from_anm. rewrite from_snd. cbn [snd].
    assert (G : forall l S, (In n l /\ S n 0 = None) \/ S n m = (if 1 <=? m then M (m - 1) n else None) ->
      fold_left (fun S m => fold_left (fun S l => anm_set A S m (l + 1) (M l m)) (upper_rows m) S) l S n m
      = if 1 <=? m then M (m - 1) n else None).
    { induction l as [|n' l IH]; intros S HS; simpl; [destruct HS as [[[] _]|]; assumption|].
      apply IH. unfold upper_rows. rewrite !(row_writes (fun l => M l n')), !existsb_range.
      destruct (Z.eqb_spec n n') as [<-|Hne]; simpl.
      - right. destruct (Z.leb_spec 0 (m - 1)), (Z.ltb_spec (m - 1) n), (Z.leb_spec 1 m); simpl; try lia; try reflexivity.
        destruct HS as [[_ HS]|HS]; [replace m with 0 by lia; assumption|].
        destruct (Z.leb_spec 1 m); [lia|assumption].
      - destruct HS as [[[HS|HS] H0]|HS]; [congruence|left; auto|right; assumption]. }
    apply G. left. split; [apply in_zrange; lia|reflexivity].
  Qed.

  Lemma to_from zero d (M : anm) r c : 0 <= r <= d -> 0 <= c <= d ->
    to_anm A zero d (fst (from_anm A d M)) (snd (from_anm A d M)) r c = M r c.
  Proof.
    intros Hr Hc. rewrite to_anm_value by assumption. destruct (Z.ltb_spec r c).
    - rewrite from_anm_S by lia. destruct (Z.leb_spec 1 (r + 1)); [|lia]. f_equal; lia.
    - apply from_anm_C; lia.
  Qed.

  Lemma from_to zero d (C S : Z -> Z -> cell A) n m : 0 <= m <= n -> n <= d ->
    fst (from_anm A d (to_anm A zero d C S)) n m = C n m /\
    (1 <= m -> snd (from_anm A d (to_anm A zero d C S)) n m = S n m).
  Proof.
    intros Hm Hn. split.
    - rewrite from_anm_C by assumption. rewrite to_anm_value by lia. destruct (Z.ltb_spec n m); [lia|reflexivity].
    - intros H1. rewrite from_anm_S by assumption. destruct (Z.leb_spec 1 m); [|lia].
      rewrite to_anm_value by lia. destruct (Z.ltb_spec (m - 1) n); [|lia]. f_equal; lia.
  Qed.
End Hist.
