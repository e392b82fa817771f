From Coq Require Import ZArith List Bool Lia.
From Verif Require Import StorageModel StorageSpec.
Open Scope Z_scope.

(** * Tiling: consecutive slices of given lengths *)
Section Tile.
  Variables off len : Z -> Z.
  Variable n : Z.
  Hypothesis Hn : 0 <= n.
  Hypothesis H0 : off 0 = 0.
  Hypothesis Hstep : forall i, 0 <= i < n -> off (i + 1) = off i + len i /\ 0 <= len i.

  Lemma tile_mono : forall i j, 0 <= i <= j -> j <= n -> off i <= off j.
  Proof using Hn H0 Hstep.
    intros i j Hij Hj.
    replace j with (i + (j - i)) by lia.
    assert (Hd : 0 <= j - i) by lia.
    assert (Hb : j - i <= n - i) by lia.
    revert Hb. generalize (j - i), Hd. clear Hd.
    intros d Hd. pattern d.
    apply natlike_ind; [intros; rewrite Z.add_0_r; lia | | exact Hd].
    intros x Hx IH Hxn.
    destruct (Hstep (i + x)) as [E L]; [lia|].
    replace (i + Z.succ x) with (i + x + 1) by lia.
    rewrite E. specialize (IH ltac:(lia)). lia.
  Qed.

  Lemma tile_range : forall i e, 0 <= i < n -> 0 <= e < len i -> 0 <= off i + e < off n.
  Proof using Hn H0 Hstep.
    intros i e Hi He.
    destruct (Hstep i Hi) as [E L].
    pose proof (tile_mono 0 i). pose proof (tile_mono (i + 1) n).
    rewrite H0 in *. lia.
  Qed.

  Lemma tile_inj : forall i e i' e',
    0 <= i < n -> 0 <= e < len i -> 0 <= i' < n -> 0 <= e' < len i' ->
    off i + e = off i' + e' -> i = i' /\ e = e'.
  Proof using Hn H0 Hstep.
    intros i e i' e' Hi He Hi' He' Heq.
    destruct (Hstep i Hi) as [E L]. destruct (Hstep i' Hi') as [E' L'].
    destruct (Z.lt_trichotomy i i') as [Hlt | [Heq' | Hgt]].
    - pose proof (tile_mono (i + 1) i'). lia.
    - subst i'. lia.
    - pose proof (tile_mono (i' + 1) i). lia.
  Qed.

  Lemma tile_surj : forall a, 0 <= a < off n ->
    exists i e, 0 <= i < n /\ 0 <= e < len i /\ off i + e = a.
  Proof using Hn H0 Hstep.
    assert (H : forall m, 0 <= m -> m <= n -> forall a, 0 <= a < off m ->
      exists i e, 0 <= i < m /\ 0 <= e < len i /\ off i + e = a).
    { intros m Hm. pattern m.
      apply natlike_ind; [intros; rewrite H0 in *; lia | | exact Hm].
      intros x Hx IH Hxn a Ha.
      destruct (Hstep x) as [E L]; [lia|].
      replace (Z.succ x) with (x + 1) in Ha by lia.
      destruct (Z_lt_le_dec a (off x)) as [Hlt | Hge].
      - destruct (IH ltac:(lia) a ltac:(lia)) as (i & e & Hi & He & Heq).
        exists i, e. lia.
      - exists x, (a - off x). lia. }
    intros a Ha. apply (H n); lia.
  Qed.
End Tile.

(** * Each scheme is a tiling *)

Lemma sum_upto_S : forall f n, sum_upto f (S n) = sum_upto f n + f (Z.of_nat n).
Proof. reflexivity. Qed.

Lemma even_prod d : exists k, d * (d + 1) = 2 * k.
Proof.
  destruct (Z.Even_or_Odd d) as [[k ->] | [k ->]].
  - exists (k * (2 * k + 1)). ring.
  - exists ((2 * k + 1) * (k + 1)). ring.
Qed.

Lemma quot2 k : Z.quot (2 * k) 2 = k.
Proof. rewrite Z.mul_comm. apply Z.quot_mul. lia. Qed.

Lemma tri_size_double d : 2 * tri_size d = d * (d + 1).
Proof.
  unfold tri_size. destruct (even_prod d) as [k Hk]. rewrite Hk, quot2. reflexivity.
Qed.

Lemma quot_pred_double d : 2 * Z.quot (d * (d - 1)) 2 = d * (d - 1).
Proof.
  destruct (even_prod (d - 1)) as [k Hk].
  replace (d * (d - 1)) with (2 * k) by (rewrite <- Hk; ring).
  rewrite quot2. reflexivity.
Qed.

Lemma slice_0 s : slice s 0 = 0.
Proof. unfold slice. destruct (sch s); reflexivity. Qed.

Lemma slice_step s i : 0 <= i -> slice s (i + 1) = slice s i + slice_len s i.
Proof.
  intros Hi. unfold slice, slice_len. destruct (sch s).
  - pose proof (tri_size_double i). pose proof (tri_size_double (i + 1)). lia.
  - pose proof (quot_pred_double i). pose proof (quot_pred_double (i + 1)).
    replace (i + 1 - 1) with i in * by lia. nia.
  - replace (Z.to_nat (i + 1)) with (S (Z.to_nat i)) by lia.
    rewrite sum_upto_S, Z2Nat.id by lia. reflexivity.
  - ring.
  - ring.
Qed.

Lemma slice_len_nonneg k r c i :
  legal_dims k r c -> 0 <= i < num_slices (mkStorage k r c) ->
  0 <= slice_len (mkStorage k r c) i.
Proof.
  unfold legal_dims, num_slices, slice_len, pts_in_row; destruct k; simpl; lia.
Qed.

Lemma sum_upto_ext f g n :
  (forall i, 0 <= i < Z.of_nat n -> f i = g i) -> sum_upto f n = sum_upto g n.
Proof.
  induction n as [|n IH]; [reflexivity|]; intros H.
  cbn [sum_upto]. rewrite IH by (intros; apply H; lia).
  rewrite H by lia. reflexivity.
Qed.

Lemma sum_upto_succ n : sum_upto (fun i => i + 1) n = tri_size (Z.of_nat n).
Proof.
  induction n as [|n IH]; [reflexivity|].
  cbn [sum_upto]. rewrite IH.
  pose proof (tri_size_double (Z.of_nat n)).
  pose proof (tri_size_double (Z.of_nat (S n))). lia.
Qed.

Lemma slice_total k r c : legal_dims k r c ->
  slice (mkStorage k r c) (num_slices (mkStorage k r c)) = num_elements (mkStorage k r c).
Proof.
  intros (Hr & Hc & Hsq). unfold slice, num_slices, num_elements; destruct k; simpl.
  - reflexivity.
  - destruct (even_prod r) as [q Hq]. rewrite Hq, quot2.
    pose proof (quot_pred_double r). lia.
  - destruct (Z.eqb_spec r c) as [->|]; [|reflexivity].
    fold (tri_size c).
    rewrite (sum_upto_ext _ (fun i => i + 1)).
    + rewrite sum_upto_succ, Z2Nat.id by lia. reflexivity.
    + intros i Hi. unfold pts_in_row. simpl. lia.
  - reflexivity.
  - ring.
Qed.

(** position <-> (slice, element) *)
Lemma slice_position_stored k r c i e : legal_dims k r c ->
  0 <= i < num_slices (mkStorage k r c) ->
  0 <= e < slice_len (mkStorage k r c) i <->
  0 <= i < num_slices (mkStorage k r c) /\ stored k r c (slice_position k i e).
Proof.
  unfold legal_dims, num_slices, slice_len, stored, slice_position, pts_in_row.
  intros (Hr & Hc & Hsq).
  destruct k; cbn [sch srows scols_field];
    try (specialize (Hsq (or_introl eq_refl))); try (specialize (Hsq (or_intror eq_refl)));
    clear -Hr Hc Hsq; try subst c; lia.
Qed.

Lemma index_slice k r c i e : legal_dims k r c ->
  0 <= i < num_slices (mkStorage k r c) -> 0 <= e < slice_len (mkStorage k r c) i ->
  index (mkStorage k r c) (fst (slice_position k i e)) (snd (slice_position k i e))
  = slice (mkStorage k r c) i + e.
Proof.
  intros (Hr & Hc & Hsq) Hi He.
  unfold index, slice_position. destruct k; simpl fst; simpl snd; cbn [sch].
  - reflexivity.
  - lia.
  - unfold num_slices, slice_len, pts_in_row in *. simpl in *.
    destruct (Z.leb_spec e r); [reflexivity | lia].
  - unfold slice; simpl. lia.
  - unfold slice; simpl. lia.
Qed.

(** every stored position is an element of some slice *)
Lemma stored_in_slice k r c i j : legal_dims k r c -> stored k r c (i, j) ->
  exists q e, 0 <= q < num_slices (mkStorage k r c) /\
    0 <= e < slice_len (mkStorage k r c) q /\ slice_position k q e = (i, j).
Proof.
  unfold legal_dims, stored, num_slices, slice_len, slice_position, pts_in_row.
  intros (Hr & Hc & Hsq) (Hi & Hj & Hk). destruct k; cbn [sch srows scols_field];
    try (specialize (Hsq (or_introl eq_refl))); try (specialize (Hsq (or_intror eq_refl))).
  - exists i, j. repeat split; lia.
  - exists j, (i - j). repeat split; try lia. f_equal; lia.
  - exists i, j. repeat split; lia.
  - exists i, j. repeat split; lia.
  - exists j, i. repeat split; lia.
Qed.

Lemma slice_step_at k r c : legal_dims k r c ->
  forall i, 0 <= i < num_slices (mkStorage k r c) ->
   slice (mkStorage k r c) (i + 1) = slice (mkStorage k r c) i + slice_len (mkStorage k r c) i
   /\ 0 <= slice_len (mkStorage k r c) i.
Proof.
  intros Hl i Hi. split; [apply slice_step; lia | apply slice_len_nonneg; assumption].
Qed.

Lemma num_slices_nonneg k r c : legal_dims k r c -> 0 <= num_slices (mkStorage k r c).
Proof. unfold legal_dims, num_slices. destruct k; simpl; lia. Qed.

Theorem index_bijection k r c : legal_dims k r c ->
  bijection_onto (stored k r c) (index (mkStorage k r c)) (num_elements (mkStorage k r c)).
Proof.
  intros Hl.
  pose proof (num_slices_nonneg k r c Hl) as Hn.
  pose proof (slice_0 (mkStorage k r c)) as H0.
  pose proof (slice_step_at k r c Hl) as Hs.
  pose proof (slice_total k r c Hl) as Ht.
  assert (Hidx : forall i j q e, 0 <= q < num_slices (mkStorage k r c) ->
     0 <= e < slice_len (mkStorage k r c) q -> slice_position k q e = (i, j) ->
     index (mkStorage k r c) i j = slice (mkStorage k r c) q + e).
  { intros i j q e Hq He Hp.
    pose proof (index_slice k r c q e Hl Hq He) as H. rewrite Hp in H. exact H. }
  split; [|split].
  - intros i j Hst. destruct (stored_in_slice k r c i j Hl Hst) as (q & e & Hq & He & Hp).
    rewrite (Hidx i j q e Hq He Hp), <- Ht.
    apply (tile_range _ _ _ Hn H0 Hs); assumption.
  - intros i j i' j' Hst Hst' Heq.
    destruct (stored_in_slice k r c i j Hl Hst) as (q & e & Hq & He & Hp).
    destruct (stored_in_slice k r c i' j' Hl Hst') as (q' & e' & Hq' & He' & Hp').
    rewrite (Hidx i j q e Hq He Hp), (Hidx i' j' q' e' Hq' He' Hp') in Heq.
    destruct (tile_inj _ _ _ Hn H0 Hs q e q' e' Hq He Hq' He' Heq) as [-> ->].
    rewrite Hp in Hp'. inversion Hp'. auto.
  - intros a Ha. rewrite <- Ht in Ha.
    destruct (tile_surj _ _ _ Hn H0 Hs a Ha) as (q & e & Hq & He & Heq).
    exists (fst (slice_position k q e)), (snd (slice_position k q e)).
    split.
    + rewrite <- surjective_pairing. apply (slice_position_stored k r c q e Hl Hq). exact He.
    + rewrite (index_slice k r c q e Hl Hq He). exact Heq.
Qed.

(** slices tile the allocation *)
Theorem slices_tile k r c : legal_dims k r c ->
  slice (mkStorage k r c) 0 = 0 /\
  (forall i, 0 <= i < num_slices (mkStorage k r c) ->
     slice (mkStorage k r c) (i + 1) = slice (mkStorage k r c) i + slice_len (mkStorage k r c) i) /\
  slice (mkStorage k r c) (num_slices (mkStorage k r c)) = num_elements (mkStorage k r c) /\
  (forall i e, 0 <= i < num_slices (mkStorage k r c) ->
     (0 <= e < slice_len (mkStorage k r c) i <->
      0 <= e /\ stored k r c (slice_position k i e))) /\
  (forall i e, 0 <= i < num_slices (mkStorage k r c) -> 0 <= e < slice_len (mkStorage k r c) i ->
     index (mkStorage k r c) (fst (slice_position k i e)) (snd (slice_position k i e))
     = slice (mkStorage k r c) i + e).
Proof.
  intros Hl. split; [apply slice_0|]. split.
  { intros i Hi. apply slice_step. lia. }
  split; [apply slice_total; exact Hl|]. split.
  { intros i e Hi. rewrite (slice_position_stored k r c i e Hl Hi).
    split; [|tauto]. intros [_ Hst]. split; [|exact Hst].
    unfold stored, slice_position in Hst.
    destruct k; cbn in Hst; destruct Hst as (H1 & H2 & H3); try exact (proj1 H2);
      try exact (proj1 H1); lia. }
  intros i e Hi He. apply index_slice; assumption.
Qed.

Theorem first_row_first_col k r c i j : legal_dims k r c -> stored k r c (i, j) ->
  first_row_of_col k j <= i /\ first_col_of_row k i <= j /\
  (forall i', first_row_of_col k j <= i' < r -> stored k r c (i', j)).
Proof.
  unfold stored, first_row_of_col, first_col_of_row.
  intros _. destruct k; intros (H1 & H2 & H3);
    (split; [lia | split; [lia | intros i' Hi'; repeat split; lia]]).
Qed.

Theorem trapezoid_bijection r c : 0 <= r -> 0 <= c ->
  bijection_onto (fun p => 0 <= fst p < r /\ 0 <= snd p < c /\ snd p <= fst p)
    (index (mkStorage Trapezoid r c)) (num_elements (mkStorage Trapezoid r c)).
Proof.
  intros Hr Hc.
  destruct (index_bijection Trapezoid r c) as (H1 & H2 & H3).
  { split; [exact Hr|]. split; [exact Hc|]. intros [E|E]; discriminate E. }
  split; [|split].
  - intros i j H. apply H1. exact H.
  - intros i j i' j' H H'. apply H2; assumption.
  - exact H3.
Qed.

Theorem trapezoid_alias : exists r c i j i' j',
  0 <= i < r /\ 0 <= j < c /\ ~ stored Trapezoid r c (i, j) /\ stored Trapezoid r c (i', j') /\
  index (mkStorage Trapezoid r c) i j = index (mkStorage Trapezoid r c) i' j'.
Proof.
  exists 3, 3, 0, 2, 1, 1. unfold stored.
  split; [lia|]. split; [lia|]. split; [lia|]. split; [lia|]. reflexivity.
Qed.
