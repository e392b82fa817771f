From Coq Require Import Reals ZArith List Bool Lia Lra.
From Verif Require Import Base Poly EopModel EopSpec.
Import ListNotations.
Open Scope R_scope.

Section Sums.
  Context {X : Type}.
  Definition prodl (f : X -> R) (l : list X) : R := fold_right (fun a p => f a * p) 1 l.
  Lemma prodl_app f a b : prodl f (a ++ b) = prodl f a * prodl f b.
  Proof. induction a; simpl; [ring|]. rewrite IHa. ring. Qed.
  Lemma prodl_nonzero f l : (forall a, In a l -> f a <> 0) -> prodl f l <> 0.
  Proof.
    induction l; simpl; intros H; [lra|]. apply Rmult_integral_contrapositive_currified; [apply H; auto|]. apply IHl; intros; apply H; auto.
  Qed.
  Lemma prodl_zero f l a : In a l -> f a = 0 -> prodl f l = 0.
  Proof. induction l; simpl; intros [] E; subst; [rewrite E; ring|]. rewrite IHl by assumption. ring. Qed.
  Lemma prodl_ext f g l : (forall a, In a l -> f a = g a) -> prodl f l = prodl g l.
  Proof. induction l; simpl; intros H; [reflexivity|]. rewrite H by auto. rewrite IHl; auto. Qed.

  Lemma fold_skip (f : X -> R) j l : forall s p, (j < s \/ s + length l <= j)%nat ->
    fold_left (fun p kr => if Nat.eqb j (fst kr) then p else p * f (snd kr)) (combine (seq s (length l)) l) p = p * prodl f l.
  Proof.
    induction l as [|r l IH]; intros s p H; simpl; [ring|]. simpl in H.
    destruct (Nat.eqb_spec j s); [lia|]. rewrite IH by lia. ring.
  Qed.
  Lemma combine_split (l1 : list X) r l2 s :
    combine (seq s (length (l1 ++ r :: l2))) (l1 ++ r :: l2) =
    combine (seq s (length l1)) l1 ++ ((s + length l1)%nat, r) :: combine (seq (S (s + length l1)) (length l2)) l2.
  Proof.
    revert s; induction l1 as [|a l1 IH]; intros s.
    - cbn. rewrite Nat.add_0_r. reflexivity.
    - cbn [app length seq combine]. rewrite IH. cbn [app]. rewrite Nat.add_succ_r. reflexivity.
  Qed.
  Lemma fold_product (f : X -> R) l1 r l2 :
    fold_left (fun p kr => if Nat.eqb (length l1) (fst kr) then p else p * f (snd kr))
      (combine (seq 0 (length (l1 ++ r :: l2))) (l1 ++ r :: l2)) 1 = prodl f (l1 ++ l2).
  Proof.
    rewrite combine_split, fold_left_app. cbn [fold_left fst snd]. rewrite fold_skip by lia.
    rewrite Nat.add_0_l, Nat.eqb_refl, fold_skip by lia. rewrite prodl_app. ring.
  Qed.
  Lemma fold_zero {Y} (g : Y -> R) l : (forall a, In a l -> g a = 0) -> forall s, fold_left (fun a b => a + g b) l s = s.
  Proof. induction l; intros H s; simpl; [reflexivity|]. rewrite IHl by (intros; apply H; right; assumption). rewrite H by (left; reflexivity). ring. Qed.
  Lemma in_combine_seq (l : list X) s j r : In (j, r) (combine (seq s (length l)) l) -> exists l1 l2, l = l1 ++ r :: l2 /\ (j = s + length l1)%nat.
  Proof.
    revert s; induction l as [|a l IH]; intros s; simpl; [tauto|]. intros [E|H].
    - injection E as -> ->. exists [], l. split; [reflexivity|simpl; lia].
    - destruct (IH _ H) as (l1 & l2 & -> & ->). exists (a :: l1), l2. split; [reflexivity|simpl; lia].
  Qed.
End Sums.

Section Eop.
  Context {T : Type}.
  Variable ltb : T -> T -> bool.
  Variable days : T -> R.
  Variable leap : T -> R.
  Hypothesis ltb_days : forall a b, ltb a b = true <-> days a < days b.
  Notation rec := (rec T). Notation rt := (rt T).
  Notation sorted := (sorted days). Notation cut := (cut days).
  Notation upper_bound := (upper_bound T ltb).
  Notation accumulate := (accumulate T days).
  Notation interpolates := (interpolates days).

  Lemma ltb_false a b : ltb a b = false <-> days b <= days a.
  Proof.
    destruct (ltb a b) eqn:E; split; intros H; try discriminate; try reflexivity.
    - apply ltb_days in E. lra.
    - apply Rnot_lt_le. intros L. apply ltb_days in L. congruence.
  Qed.

  (** ** order *)
  Lemma sorted_app a b : sorted (a ++ b) <-> sorted a /\ sorted b /\ Forall (fun r => Forall (fun q => days (rt r) < days (rt q)) b) a.
  Proof.
    induction a as [|r a IH]; simpl; [intuition constructor|].
    rewrite IH, Forall_app. split.
    - intros ((A1 & A2) & (B1 & B2 & B3)). repeat split; auto.
    - intros ((A1 & A2) & B & C). inversion C; subst. repeat split; auto.
  Qed.
  Lemma sorted_distinct l1 r l2 : sorted (l1 ++ r :: l2) -> forall q, In q (l1 ++ l2) -> days (rt q) <> days (rt r).
  Proof.
    intros S q Hq. apply sorted_app in S as (S1 & (S2 & S3) & F). apply in_app_or in Hq as [Hq|Hq].
    - rewrite Forall_forall in F. specialize (F _ Hq). inversion F; subst. lra.
    - rewrite Forall_forall in S2. specialize (S2 _ Hq). simpl in S2. lra.
  Qed.
  Lemma sorted_nodup l : sorted l -> NoDup (map (fun r => days (rt r)) l).
  Proof.
    induction l as [|r l IH]; simpl; intros H; constructor; destruct H as (F & S); [|apply IH, S].
    intros I. apply in_map_iff in I as (q & E & Hq). rewrite Forall_forall in F. specialize (F _ Hq). lra.
  Qed.
  Lemma sorted_firstn l n : sorted l -> sorted (firstn n l).
  Proof. intros S. rewrite <- (firstn_skipn n l) in S. apply sorted_app in S. tauto. Qed.
  Lemma sorted_skipn l n : sorted l -> sorted (skipn n l).
  Proof. intros S. rewrite <- (firstn_skipn n l) in S. apply sorted_app in S. tauto. Qed.

  Lemma cut_exists l t : sorted l -> exists before after, cut l t before after.
  Proof.
    induction l as [|r l IH]; intros S; [exists [], []; repeat split; constructor|].
    destruct S as (F & S). destruct (Rle_lt_dec (days (rt r)) (days t)) as [H|H].
    - destruct (IH S) as (b & a & -> & B & A). exists (r :: b), a. repeat split; [constructor; assumption|exact A].
    - exists [], (r :: l). repeat split; [constructor|]. constructor; [exact H|]. rewrite Forall_forall in *. intros q Hq. specialize (F _ Hq). simpl in F. lra.
  Qed.
  Lemma cut_upper l t b a : cut l t b a -> upper_bound l t = length b.
  Proof.
    intros (-> & B & A). induction B as [|r b Hr B IH]; simpl.
    - destruct a as [|r a]; simpl; [reflexivity|]. inversion A; subst. apply ltb_days in H1. rewrite H1. reflexivity.
    - apply ltb_false in Hr. rewrite Hr, IH. reflexivity.
  Qed.

  (** the cached position is never kept on an ordered series *)
  Lemma hunt_upper s t : sorted (mvec T s) -> ready s -> hunt T ltb s t = Ok (upper_bound (mvec T s) t).
  Proof.
    intros S (k & E & L). unfold hunt. rewrite E.
    destruct (negb (Nat.eqb k 0) && negb (Nat.eqb k (length (mvec T s)))) eqn:C; [|reflexivity].
    apply andb_true_iff in C as (C1 & C2). apply negb_true_iff, Nat.eqb_neq in C1, C2.
    destruct (nth_error (mvec T s) (k - 1)) as [a|] eqn:Ea; [|apply nth_error_None in Ea; lia].
    destruct (nth_error (mvec T s) k) as [b|] eqn:Eb; [|apply nth_error_None in Eb; lia].
    assert (AB : days (rt a) < days (rt b)).
    { apply nth_error_split in Ea as (l1 & l2 & E1 & L1). rewrite E1 in S, Eb. rewrite nth_error_app2 in Eb by lia.
      rewrite L1 in Eb. replace (k - (k - 1))%nat with 1%nat in Eb by lia. simpl in Eb.
      destruct l2 as [|b' l2]; [discriminate|]. injection Eb as ->. apply sorted_app in S as (_ & (F & _) & _). inversion F; subst. assumption. }
    destruct (ltb (rt a) t) eqn:L1; [reflexivity|]. destruct (ltb (rt b) t) eqn:L2; [|reflexivity].
    apply ltb_false in L1. apply ltb_days in L2. lra.
  Qed.

  (** ** number of points *)
  Lemma bad_iff it len n : bad it len n = true <-> (it < n \/ len - it < n)%Z.
  Proof. unfold bad. rewrite orb_true_iff, Z.ltb_lt, Z.leb_le. lia. Qed.
  Lemma shrink_min it len n : (0 <= it <= len)%Z -> shrink it len n = Z.min (Z.of_nat n) (Z.min it (len - it)).
  Proof.
    intros B. induction n as [|n IH]; [simpl; lia|]. cbn [shrink]. destruct (bad it len (Z.of_nat (S n))) eqn:E.
    - rewrite IH. apply bad_iff in E. lia.
    - assert (~ (it < Z.of_nat (S n) \/ len - it < Z.of_nat (S n))%Z) by (rewrite <- bad_iff; congruence). lia.
  Qed.
  Lemma points_min it len d : (0 <= it <= len)%Z -> (0 <= d)%Z -> points it len d = Z.min ((d + 1) / 2) (Z.min it (len - it)).
  Proof.
    intros B D. unfold points. rewrite Z.quot_div_nonneg by lia. assert (0 <= (d + 1) / 2)%Z by (apply Z.div_pos; lia).
    destruct (bad it len ((d + 1) / 2)) eqn:E.
    - apply bad_iff in E. rewrite shrink_min by exact B. rewrite Z2Nat.id by lia. lia.
    - assert (~ (it < (d + 1) / 2 \/ len - it < (d + 1) / 2)%Z) by (rewrite <- bad_iff; congruence). lia.
  Qed.

  Lemma nodes_nearest (b a : list rec) n : (n <= length b)%nat -> (n <= length a)%nat ->
    firstn (2 * n) (skipn (length b - n) (b ++ a)) = nearest b a n.
  Proof.
    intros B A. unfold nearest. rewrite skipn_app. replace (length b - n - length b)%nat with O by lia. cbn [skipn].
    rewrite firstn_app, skipn_length. replace (2 * n - (length b - (length b - n)))%nat with n by lia. f_equal.
    apply firstn_all2. rewrite skipn_length. lia.
  Qed.
  Lemma nearest_length (b a : list rec) n : (n <= length b)%nat -> (n <= length a)%nat -> length (nearest b a n) = (2 * n)%nat.
  Proof. intros B A. unfold nearest. rewrite app_length, skipn_length, firstn_length. lia. Qed.
  Lemma nearest_sorted b a n : sorted (b ++ a) -> (n <= length b)%nat -> (n <= length a)%nat -> sorted (nearest b a n).
  Proof. intros S B A. rewrite <- nodes_nearest by assumption. apply sorted_firstn, sorted_skipn, S. Qed.

  (** ** Lagrange *)
  Definition accx (l : list rec) (x : R) (v : rec -> R) : R :=
    fold_left (fun a jr => a + v (snd jr) *
      (product T (fun k => x - days (rt k)) l (fst jr) / product T (fun k => days (rt (snd jr)) - days (rt k)) l (fst jr)))
      (combine (seq 0 (length l)) l) 0.
  Lemma accumulate_accx l t v : accumulate l t v = accx l (days t) v.
  Proof. reflexivity. Qed.

  Lemma product_split f (l1 : list rec) r l2 : product T f (l1 ++ r :: l2) (length l1) = prodl f (l1 ++ l2).
  Proof. exact (fold_product f l1 r l2). Qed.
  Lemma prodl_poly (l : list rec) : ispoly (S (length l)) (fun x => prodl (fun k => x - days (rt k)) l).
  Proof.
    induction l as [|r l IH]; simpl; [apply ispoly_const|].
    apply (ispoly_ext (S (S (length l))) (fun x => prodl (fun k => x - days (rt k)) l * (x - days (rt r)))); [intros; ring|].
    apply ispoly_mul_linear, IH.
  Qed.
  Lemma accx_poly l v : ispoly (length l) (fun x => accx l x v).
  Proof.
    unfold accx. apply (ispoly_fold_sum (length l) (fun jr x => v (snd jr) *
      (product T (fun k => x - days (rt k)) l (fst jr) / product T (fun k => days (rt (snd jr)) - days (rt k)) l (fst jr)))
      (combine (seq 0 (length l)) l) (fun _ => 0)); [apply ispoly_zero|].
    intros (j, r) H. apply in_combine_seq in H as (l1 & l2 & E & J). simpl in J. subst j. cbn [fst snd].
    set (dom := product T (fun k => days (rt r) - days (rt k)) l (length l1)).
    apply (ispoly_ext _ (fun x => (v r / dom) * prodl (fun k => x - days (rt k)) (l1 ++ l2))).
    - intros x. rewrite E. rewrite product_split. unfold Rdiv. ring.
    - apply ispoly_scale. rewrite E, app_length. simpl. rewrite Nat.add_succ_r, <- app_length. apply prodl_poly.
  Qed.
  Lemma accx_node l v r : sorted l -> In r l -> accx l (days (rt r)) v = v r.
  Proof.
    intros S I. apply in_split in I as (l1 & l2 & E). unfold accx.
    assert (Z : forall jr, In jr (combine (seq 0 (length l)) l) -> fst jr <> length l1 ->
      v (snd jr) * (product T (fun k => days (rt r) - days (rt k)) l (fst jr) / product T (fun k => days (rt (snd jr)) - days (rt k)) l (fst jr)) = 0).
    { intros (j, q) H N. cbn [fst snd] in *. apply in_combine_seq in H as (m1 & m2 & E' & J). simpl in J. subst j.
      assert (product T (fun k => days (rt r) - days (rt k)) l (length m1) = 0).
      { rewrite E'. rewrite product_split. apply (prodl_zero _ _ r); [|ring].
        assert (In r (m1 ++ q :: m2)) by (rewrite <- E', E; apply in_elt).
        apply in_or_app. apply in_app_or in H as [H|[H|H]]; [left; exact H| |right; exact H]. exfalso.
        subst q. rewrite E in E'. apply N. clear - E' S E. subst l.
        destruct (Nat.lt_trichotomy (length m1) (length l1)) as [L|[L|L]]; [|exact L|].
        - assert (nth_error (l1 ++ r :: l2) (length m1) = Some r) by (rewrite E', nth_error_app2, Nat.sub_diag by lia; reflexivity).
          rewrite nth_error_app1 in H by lia. apply nth_error_In in H.
          exfalso. apply (sorted_distinct l1 r l2 S r); [apply in_or_app; left; exact H|reflexivity].
        - assert (nth_error (l1 ++ r :: l2) (length m1) = Some r) by (rewrite E', nth_error_app2, Nat.sub_diag by lia; reflexivity).
          rewrite nth_error_app2 in H by lia. destruct (length m1 - length l1)%nat eqn:D; [lia|]. simpl in H. apply nth_error_In in H.
          exfalso. apply (sorted_distinct l1 r l2 S r); [apply in_or_app; right; exact H|reflexivity]. }
      rewrite H. unfold Rdiv. ring. }
    rewrite E in Z |- *. rewrite combine_split in *. rewrite fold_left_app. cbn [fold_left fst snd].
    set (g := fun jr : nat * rec => v (snd jr) * (product T (fun k => days (rt r) - days (rt k)) (l1 ++ r :: l2) (fst jr) / product T (fun k => days (rt (snd jr)) - days (rt k)) (l1 ++ r :: l2) (fst jr))) in *.
    rewrite (fold_zero g (combine (seq 0 (length l1)) l1)).
    2:{ intros (j, q) H. apply Z; [apply in_or_app; left; exact H|]. cbn [fst]. apply in_combine_l, in_seq in H. lia. }
    rewrite (fold_zero g).
    2:{ intros (j, q) H. apply Z; [apply in_or_app; right; right; exact H|]. cbn [fst]. apply in_combine_l, in_seq in H. lia. }
    rewrite Nat.add_0_l. rewrite !product_split. field. apply prodl_nonzero.
    intros q Hq. rewrite E in S. pose proof (sorted_distinct _ _ _ S _ Hq). lra.
  Qed.
  Lemma accumulate_interpolates l t v : sorted l -> interpolates l v (days t) (accumulate l t v).
  Proof.
    intros S. rewrite accumulate_accx. split.
    - exists (fun x => accx l x v). split; [apply accx_poly|]. intros r H. apply accx_node; assumption.
    - intros f P H. apply (ispoly_unique (length l) (fun x => accx l x v) f (map (fun r => days (rt r)) l));
        [apply accx_poly|exact P|apply sorted_nodup, S|rewrite map_length; lia|].
      intros x I. apply in_map_iff in I as (r & <- & I). rewrite H by exact I. apply accx_node; assumption.
  Qed.
  Lemma linear_interpolates a b t v : sorted [a; b] -> interpolates [a; b] v (days t) (linear T days a b t v).
  Proof.
    intros S. destruct (accumulate_interpolates [a; b] t v S) as (A & B). split; [exact A|].
    intros f P H. rewrite <- (B f P H). destruct S as (F & _). inversion F; subst. unfold linear, EopModel.accumulate, factor, product. simpl. field. lra.
  Qed.

  (** ** the whole call *)
  Lemma interpolate_prior s t e d a : sorted (mvec T s) -> ready s -> (d <= 9)%Z -> cut (mvec T s) t [] a -> a <> [] ->
    exists r s', interpolate T ltb days leap s t e d = Ok (Prior, r, s') /\ nth_error (mvec T s) 0 = Some (hd r (mvec T s)) /\
      rt r = t /\ same_values r (hd r (mvec T s)) /\ mvec T s' = mvec T s /\ ready s'.
  Proof.
    intros S Rd D C N. pose proof (cut_upper _ _ _ _ C) as U. unfold interpolate, MAX_DEGREE.
    replace (9 <? d)%Z with false by (symmetry; apply Z.ltb_ge; lia). rewrite hunt_upper, U by assumption. cbn [bind length Nat.eqb].
    destruct C as (E & _ & _). simpl in E. rewrite E. destruct a as [|r a]; [congruence|]. cbn [nth_error].
    eexists _, _. split; [reflexivity|]. cbn. repeat split. exists O. cbn. split; [reflexivity|lia].
  Qed.
  Lemma interpolate_later s t e d b : sorted (mvec T s) -> ready s -> (d <= 9)%Z -> cut (mvec T s) t b [] -> b <> [] ->
    exists r s', interpolate T ltb days leap s t e d = Ok (Later, r, s') /\ rt r = t /\ same_values r (last (mvec T s) r) /\
      In (last (mvec T s) r) (mvec T s) /\ mvec T s' = mvec T s /\ ready s'.
  Proof.
    intros S Rd D C N. pose proof (cut_upper _ _ _ _ C) as U. unfold interpolate, MAX_DEGREE.
    replace (9 <? d)%Z with false by (symmetry; apply Z.ltb_ge; lia). rewrite hunt_upper, U by assumption. cbn [bind].
    destruct C as (E & _ & _). rewrite app_nil_r in E. rewrite E.
    destruct (exists_last N) as (b' & r & ->). rewrite app_length. cbn [length]. rewrite Nat.add_1_r. cbn [Nat.eqb]. rewrite Nat.eqb_refl.
    replace (nth_error (b' ++ [r]) (Datatypes.S (length b') - 1)) with (Some r).
    2:{ rewrite nth_error_app2 by lia. replace (Datatypes.S (length b') - 1 - length b')%nat with O by lia. reflexivity. }
    eexists _, _. split; [reflexivity|]. rewrite last_last. cbn. split; [reflexivity|]. split; [repeat split|]. split; [apply in_or_app; right; left; reflexivity|].
    split; [reflexivity|]. eexists. cbn. split; [reflexivity|]. rewrite app_length. cbn. lia.
  Qed.

  Lemma fill_interpolated nodes e t v : (forall f, interpolates nodes f (days t) (v f)) ->
    interpolated days nodes t (leap t) (fill T leap e t v) /\ rt (fill T leap e t v) = t /\ rdat T (fill T leap e t v) = rdat T e.
  Proof.
    intros H. split; [|split; reflexivity]. unfold interpolated, fill. cbn. repeat split; try apply H.
    intros f P Q. replace (v (fun r => dut T r - rdat T r) + leap t - leap t) with (v (fun r => dut T r - rdat T r)) by ring.
    apply H; assumption.
  Qed.

  Lemma interpolate_inside s t e d b a : sorted (mvec T s) -> ready s -> (1 <= d <= 9)%Z -> cut (mvec T s) t b a -> b <> [] -> a <> [] ->
    exists r s', let n := usable b a d in
      interpolate T ltb days leap s t e d =
        Ok (if Nat.eqb n 1 then Linear else if (2 * Z.of_nat n =? d + 1)%Z then Requested else Decreased, r, s') /\
      interpolated days (nearest b a n) t (leap t) r /\ rt r = t /\ rdat T r = rdat T e /\ (1 <= n)%nat /\
      length (nearest b a n) = (2 * n)%nat /\ mvec T s' = mvec T s /\ ready s'.
  Proof.
    intros S Rd D C Nb Na. pose proof (cut_upper _ _ _ _ C) as U. unfold interpolate, MAX_DEGREE.
    replace (9 <? d)%Z with false by (symmetry; apply Z.ltb_ge; lia). rewrite hunt_upper, U by assumption. cbn [bind].
    destruct C as (E & _ & _). rewrite E in *.
    assert (Lb : (0 < length b)%nat) by (destruct b; [congruence|simpl; lia]).
    assert (La : (0 < length a)%nat) by (destruct a; [congruence|simpl; lia]).
    assert (Hd : (1 <= (d + 1) / 2 <= 5)%Z) by (split; [apply Z.div_le_lower_bound; lia|apply Z.lt_succ_r, Z.div_lt_upper_bound; lia]).
    set (n := usable b a d).
    assert (Hn : n = Nat.min (Z.to_nat ((d + 1) / 2)) (Nat.min (length b) (length a))) by reflexivity.
    assert (L1 : (1 <= n)%nat) by lia. assert (n <= 5)%nat by lia.
    destruct (Nat.eqb_spec (length b) 0); [lia|]. rewrite app_length. destruct (Nat.eqb_spec (length b) (length b + length a)); [lia|].
    rewrite points_min by lia.
    replace (Z.min ((d + 1) / 2) (Z.min (Z.of_nat (length b)) (Z.of_nat (length b + length a) - Z.of_nat (length b)))) with (Z.of_nat n) by lia.
    destruct (Z.eqb_spec (Z.of_nat n) 1) as [E1|E1].
    - destruct (Nat.eqb_spec n 1); [|lia].
      destruct (exists_last Nb) as (b' & p & Eb). destruct a as [|q a]; [congruence|].
      replace (nth_error (b ++ q :: a) (length b - 1)) with (Some p).
      2:{ rewrite Eb, app_length. cbn [length]. rewrite <- app_assoc, nth_error_app2 by lia. replace (length b' + 1 - 1 - length b')%nat with O by lia. reflexivity. }
      rewrite nth_error_app2, Nat.sub_diag by lia. cbn [nth_error].
      assert (N2 : nearest b (q :: a) n = [p; q]).
      { rewrite e0. unfold nearest. cbn [firstn]. rewrite Eb, app_length. cbn [length]. replace (length b' + 1 - 1)%nat with (length b') by lia. rewrite skipn_app, skipn_all, Nat.sub_diag. reflexivity. }
      assert (S2 : sorted [p; q]) by (rewrite <- N2; apply nearest_sorted; [exact S|lia|cbn [length]; lia]).
      eexists _, _. split; [reflexivity|]. rewrite N2.
      destruct (fill_interpolated [p; q] e t (linear T days p q t)) as (F1 & F2 & F3); [intros; apply linear_interpolates, S2|].
      repeat (split; [solve [assumption|lia|reflexivity|rewrite e0; reflexivity]|]). eexists. cbn. split; [reflexivity|]. rewrite app_length. lia.
    - destruct (Nat.eqb_spec n 1); [lia|]. replace (Z.of_nat n <? 0)%Z with false by (symmetry; apply Z.ltb_ge; lia).
      replace (9 + 1 <? 2 * Z.of_nat n)%Z with false by (symmetry; apply Z.ltb_ge; lia). rewrite Nat2Z.id, nodes_nearest by lia.
      rewrite (Z.mul_comm (Z.of_nat n) 2). eexists _, _. split; [reflexivity|].
      destruct (fill_interpolated (nearest b a n) e t (accumulate (nearest b a n) t)) as (F1 & F2 & F3).
      { intros. apply accumulate_interpolates, nearest_sorted; [exact S|lia|lia]. }
      repeat (split; [solve [assumption|lia|reflexivity|apply nearest_length; lia]|]). eexists. cbn. split; [reflexivity|]. rewrite app_length. lia.
  Qed.

  (** result independent of the cached position *)
  Lemma interpolate_history s1 s2 t e d : mvec T s1 = mvec T s2 -> sorted (mvec T s1) -> ready s1 -> ready s2 ->
    interpolate T ltb days leap s1 t e d = interpolate T ltb days leap s2 t e d.
  Proof. intros E S R1 R2. unfold interpolate. rewrite !hunt_upper, E by (try rewrite <- E; assumption). reflexivity. Qed.
  Lemma approx_history s1 s2 t : mvec T s1 = mvec T s2 -> sorted (mvec T s1) -> ready s1 -> ready s2 ->
    approx_dut1 T ltb days leap s1 t = approx_dut1 T ltb days leap s2 t.
  Proof. intros E S R1 R2. unfold approx_dut1. rewrite !hunt_upper, E by (try rewrite <- E; assumption). reflexivity. Qed.

  Lemma hunt_le s t it : hunt T ltb s t = Ok it -> ready s -> (it <= length (mvec T s))%nat.
  Proof.
    intros H (k & E & L). unfold hunt in H. rewrite E in H.
    assert (U : (upper_bound (mvec T s) t <= length (mvec T s))%nat).
    { generalize (mvec T s). clear. intros l. induction l as [|r l IH]; simpl; [lia|]. destruct (ltb t (rt r)); lia. }
    destruct (negb (Nat.eqb k 0) && negb (Nat.eqb k (length (mvec T s)))); [|injection H as <-; exact U].
    destruct (nth_error (mvec T s) (k - 1)); [|discriminate]. destruct (nth_error (mvec T s) k); [|discriminate].
    destruct (negb _) in H; injection H as <-; [exact U|exact L].
  Qed.
  Lemma interpolate_ready s t e d st r s' : interpolate T ltb days leap s t e d = Ok (st, r, s') -> ready s -> ready s' /\ mvec T s' = mvec T s.
  Proof.
    intros H Rd. unfold interpolate in H. destruct (MAX_DEGREE <? d)%Z; [discriminate|].
    destruct (hunt T ltb s t) as [it| | |] eqn:Hi; cbn [bind] in H; try discriminate. pose proof (hunt_le _ _ _ Hi Rd).
    assert (X : s' = mkSer T (mvec T s) (Some it)).
    { repeat match type of H with
        | context[match ?c with _ => _ end] => destruct c eqn:?; try discriminate
        end; injection H as _ _ <-; reflexivity. }
    subst s'. split; [|reflexivity]. exists it. split; [reflexivity|assumption].
  Qed.
  Lemma approx_ready s t st r s' : approx_dut1 T ltb days leap s t = Ok (st, r, s') -> ready s -> ready s' /\ mvec T s' = mvec T s.
  Proof.
    intros H Rd. unfold approx_dut1 in H.
    destruct (hunt T ltb s t) as [it| | |] eqn:Hi; cbn [bind] in H; try discriminate. pose proof (hunt_le _ _ _ Hi Rd).
    assert (X : s' = mkSer T (mvec T s) (Some it)).
    { repeat match type of H with
        | context[match ?c with _ => _ end] => destruct c eqn:?; try discriminate
        end; injection H as _ _ <-; reflexivity. }
    subst s'. split; [|reflexivity]. exists it. split; [reflexivity|assumption].
  Qed.

  (** the two query functions agree on UT1 *)
  Lemma approx_agrees s t e s' st v : sorted (mvec T s) -> ready s -> approx_dut1 T ltb days leap s t = Ok (st, v, s') ->
    exists r, interpolate T ltb days leap s t e 1 = Ok (st, r, s') /\ dut T r = v.
  Proof.
    intros S Rd H. unfold approx_dut1 in H. unfold interpolate. cbn [Z.ltb Z.compare MAX_DEGREE].
    change (MAX_DEGREE <? 1)%Z with false. cbn iota. rewrite hunt_upper in * by assumption. cbn [bind] in *.
    pose proof (hunt_upper s t S Rd) as Hu. apply hunt_le in Hu; [|exact Rd].
    set (u := upper_bound (mvec T s) t) in *.
    destruct (Nat.eqb_spec u 0).
    - destruct (nth_error (mvec T s) 0); [|discriminate]. injection H as <- <- <-. eexists. split; reflexivity.
    - destruct (Nat.eqb_spec u (length (mvec T s))).
      + destruct (nth_error (mvec T s) (u - 1)); [|discriminate]. injection H as <- <- <-. eexists. split; reflexivity.
      + rewrite points_min by lia. replace (Z.min ((1 + 1) / 2) (Z.min (Z.of_nat u) (Z.of_nat (length (mvec T s)) - Z.of_nat u))) with 1%Z.
        2:{ change ((1 + 1) / 2)%Z with 1%Z. lia. }
        cbn [Z.eqb Pos.eqb]. destruct (nth_error (mvec T s) (u - 1)); [|discriminate]. destruct (nth_error (mvec T s) u); [|discriminate].
        injection H as <- <- <-. eexists. split; reflexivity.
  Qed.

  (** ** regularisation *)
  Variable zonal : T -> R * R.
  Lemma dereg_reg s : deregularize T zonal (regularize T zonal s) = s.
  Proof.
    destruct s as [l it]. unfold deregularize, regularize, regularize_impl. cbn. f_equal. rewrite map_map. rewrite <- (map_id l) at 2.
    apply map_ext. intros [a b c d f g h i j k]. cbn. destruct (zonal a) as (u, w) eqn:E. cbn. rewrite E. f_equal; ring.
  Qed.
  Lemma reg_dereg s : regularize T zonal (deregularize T zonal s) = s.
  Proof.
    destruct s as [l it]. unfold deregularize, regularize, regularize_impl. cbn. f_equal. rewrite map_map. rewrite <- (map_id l) at 2.
    apply map_ext. intros [a b c d f g h i j k]. cbn. destruct (zonal a) as (u, w) eqn:E. cbn. rewrite E. f_equal; ring.
  Qed.
End Eop.
