From Coq Require Import Reals ZArith List Bool Lia Lra.
From Verif Require Import Base FlModel FlProofs Poly EopModel EopSpec EopProofs FlAlfProofs FlGravProofs FlEopModel FlEopSpec.
Import ListNotations.
Open Scope R_scope.

(** ** products and quotients of values with errors of at most 50000 units *)
Lemma bd_prod k l A B x y v w : 0 <= k <= 50000 -> 0 <= l <= 50000 -> bd k A x v -> bd l B y w -> bd (k + l + 0.01) (A * B) (x * y) (v * w).
Proof.
  intros Kk L (H & J) (H' & J'). pose proof u_small as U. pose proof (Rabs_pos x) as X. pose proof (Rabs_pos y) as Y. split; [rewrite Rabs_mult; apply Rmult_le_compat; assumption|].
  replace (v * w - x * y) with ((v - x) * y + (x * (w - y) + (v - x) * (w - y))) by ring. eapply Rle_trans; [apply Rabs_triang|]. eapply Rle_trans; [apply Rplus_le_compat_l, Rabs_triang|]. rewrite !Rabs_mult.
  pose proof (Rabs_pos (v - x)) as V. pose proof (Rabs_pos (w - y)) as W.
  pose proof (Rmult_le_compat _ _ _ _ V Y J H') as P1. pose proof (Rmult_le_compat _ _ _ _ X W H J') as P2. pose proof (Rmult_le_compat _ _ _ _ V W J J') as P3.
  assert (KL : k * l * u <= 0.01). { apply Rle_trans with (50000 * 50000 * / 1000000000000000); [|lra]. repeat (apply Rmult_le_compat; try lra). apply Rmult_le_pos; lra. }
  assert (Q : 0 <= u * (A * B)) by (apply Rmult_le_pos; [lra|apply Rmult_le_pos; lra]). pose proof (Rmult_le_compat_r _ _ _ Q KL) as P4.
  replace ((k + l + 0.01) * u * (A * B)) with (k * u * A * B + A * (l * u * B) + 0.01 * (u * (A * B))) by ring. replace (k * u * A * (l * u * B)) with (k * l * u * (u * (A * B))) in P3 by ring. lra.
Qed.
Lemma bd_quot k l A x y v w : 0 <= k <= 50000 -> 0 <= l <= 50000 -> y <> 0 -> bd k A x v -> bd l (Rabs y) y w -> bd (k + l + 0.01) (A / Rabs y) (x / y) (v / w).
Proof.
  intros Kk L Ny (H & J) (_ & J'). pose proof u_small as U. pose proof (Rabs_pos x) as X. pose proof (Rabs_pos_lt y Ny) as Y. pose proof (Rinv_0_lt_compat _ Y) as IY.
  assert (LU : 0 <= l * u <= / 10000000000). { split; [apply Rmult_le_pos; lra|]. apply Rle_trans with (50000 * / 1000000000000000); [apply Rmult_le_compat; lra|lra]. }
  assert (KU : 0 <= k * u <= / 10000000000). { split; [apply Rmult_le_pos; lra|]. apply Rle_trans with (50000 * / 1000000000000000); [apply Rmult_le_compat; lra|lra]. }
  assert (W : (1 - l * u) * Rabs y <= Rabs w). { pose proof (Rabs_triang (w - y) (- w)) as Q. replace (w - y + - w) with (- y) in Q by ring. rewrite !Rabs_Ropp in Q. lra. }
  assert (W0 : 0 < (1 - l * u) * Rabs y) by (apply Rmult_lt_0_compat; lra). assert (Nw : w <> 0) by (intros ->; rewrite Rabs_R0 in W; lra). pose proof (Rabs_pos_lt w Nw) as PW.
  assert (IW : / Rabs w <= / Rabs y * (1 + 1.000001 * (l * u))). { apply Rle_trans with (/ ((1 - l * u) * Rabs y)); [apply Rinv_le_contravar; lra|]. rewrite Rinv_mult, Rmult_comm. apply Rmult_le_compat_l; [lra|]. apply Rmult_le_reg_l with (1 - l * u); [lra|]. rewrite Rinv_r by lra. nra. }
  split; [unfold Rdiv; rewrite Rabs_mult, Rabs_inv; apply Rmult_le_compat_r; lra|].
  replace (v / w - x / y) with ((v - x) * / w + x * (y - w) * (/ w * / y)) by (field; auto). eapply Rle_trans; [apply Rabs_triang|]. rewrite !Rabs_mult, !Rabs_inv. rewrite (Rabs_minus_sym y w).
  pose proof (Rabs_pos (v - x)) as V. pose proof (Rabs_pos (w - y)) as D. pose proof (Rinv_0_lt_compat _ PW) as JW. assert (A0 : 0 <= A) by lra.
  set (lu := l * u) in *. set (ku := k * u) in *. set (iy := / Rabs y) in *. set (iw := / Rabs w) in *.
  assert (P1 : Rabs (v - x) * iw <= ku * A * (iy * (1 + 1.000001 * lu))) by (apply Rmult_le_compat; lra).
  assert (P2 : Rabs x * Rabs (w - y) * (iw * iy) <= A * (lu * Rabs y) * (iy * (1 + 1.000001 * lu) * iy)). { apply Rmult_le_compat; [apply Rmult_le_pos; lra|apply Rmult_le_pos; lra|apply Rmult_le_compat; lra|apply Rmult_le_compat_r; lra]. }
  assert (YI : Rabs y * iy = 1) by (unfold iy; apply Rinv_r; lra). replace (A * (lu * Rabs y) * (iy * (1 + 1.000001 * lu) * iy)) with (A * iy * (lu * (1 + 1.000001 * lu)) * (Rabs y * iy)) in P2 by ring. rewrite YI, Rmult_1_r in P2.
  replace (ku * A * (iy * (1 + 1.000001 * lu))) with (A * iy * (ku * (1 + 1.000001 * lu))) in P1 by ring.
  replace ((k + l + 0.01) * u * (A / Rabs y)) with (A * iy * (ku + lu + 0.01 * u)) by (unfold ku, lu, iy, Rdiv; ring).
  assert (SL : 1.000001 * (ku * lu) + 1.000001 * (lu * lu) <= 0.01 * u).
  { assert (E1 : ku * lu <= u * / 200000). { unfold ku, lu. replace (k * u * (l * u)) with (u * (k * l * u)) by ring. apply Rmult_le_compat_l; [lra|]. apply Rle_trans with (50000 * 50000 * / 1000000000000000); [|lra]. repeat (apply Rmult_le_compat; try lra). apply Rmult_le_pos; lra. }
    assert (E2 : lu * lu <= u * / 200000). { unfold lu. replace (l * u * (l * u)) with (u * (l * l * u)) by ring. apply Rmult_le_compat_l; [lra|]. apply Rle_trans with (50000 * 50000 * / 1000000000000000); [|lra]. repeat (apply Rmult_le_compat; try lra). apply Rmult_le_pos; lra. }
    lra. }
  assert (AI : 0 <= A * iy) by (apply Rmult_le_pos; lra). pose proof (Rmult_le_compat_l _ _ _ AI SL) as P3. lra.
Qed.

(** ** products without one factor *)
Section Skip.
  Context {A : Type}.
  Fixpoint skip (f : A -> R) (j i : nat) (l : list A) : R :=
    match l with [] => 1 | r :: l' => (if Nat.eqb j i then 1 else f r) * skip f j (S i) l' end.
  Lemma skip_fold (f : A -> R) j l : forall i p, fold_left (fun p (kr : nat * A) => if Nat.eqb j (fst kr) then p else p * f (snd kr)) (combine (seq i (length l)) l) p = p * skip f j i l.
  Proof. induction l as [|r l IH]; intros i p; [cbn; ring|]. cbn [length seq combine fold_left fst snd skip]. rewrite IH. destruct (Nat.eqb j i); ring. Qed.
  Lemma skip_abs (f : A -> R) j l : forall i, Rabs (skip f j i l) = skip (fun r => Rabs (f r)) j i l.
  Proof. induction l as [|r l IH]; intros i; cbn [skip]; [apply Rabs_pos_eq; lra|]. rewrite Rabs_mult, IH. destruct (Nat.eqb j i); [rewrite Rabs_pos_eq by lra|]; reflexivity. Qed.
End Skip.
Section Nodes.
  Variables (T : Type) (days : T -> R) (c g : R).
  Hypothesis Hc : 0 <= c <= 1000.
  Hypothesis Hg : / 2 ^ 40 <= g.
  Notation day r := (days (rt T r)).
  Notation rec := (rec T).
  Lemma g_low : (/ 2) ^ 40 <= g. Proof. rewrite pow_inv. exact Hg. Qed.
  (** one product *)
  Lemma product_bd (diff : rec -> R -> Prop) (f M : rec -> R) j l : forall i p v k P x n a,
    (forall r d, In r l -> (exists z, j <> z /\ nth_error l (z - i) = Some r /\ (i <= z)%nat) -> diff r d -> bd c (M r) (f r) d) ->
    (forall r, In r l -> (exists z, j <> z /\ nth_error l (z - i) = Some r /\ (i <= z)%nat) -> g <= M r) ->
    bd k P x p -> 0 <= k <= INR n * (c + 1.02) -> (/ 2) ^ a <= P -> (n + length l <= 10)%nat -> (a + 40 * length l <= 400)%nat -> product_run T diff j i l p v ->
    bd (k + INR (length l) * (c + 1.02)) (P * skip M j i l) (x * skip f j i l) v /\ (/ 2) ^ (a + 40 * length l) <= P * skip M j i l.
  Proof.
    pose proof g_low as GL. induction l as [|r l IH]; intros i p v k P x n a HD HM B Hk HP Hn Ha; cbn [product_run skip length].
    - intros ->. rewrite !Rmult_1_r. cbn [INR]. rewrite Rmult_0_l, Rplus_0_r. replace (a + 40 * 0)%nat with a by lia. split; assumption.
    - cbn [length] in Hn, Ha. assert (LE : INR n * (c + 1.02) <= 11000). { assert (INR n <= 10) by (replace 10 with (INR 10) by (cbn; lra); apply le_INR; lia). apply Rle_trans with (10 * 1001.02); [|lra]. apply Rmult_le_compat; try lra. apply pos_INR. }
      assert (HD' : forall q d, In q l -> (exists z, j <> z /\ nth_error l (z - S i) = Some q /\ (S i <= z)%nat) -> diff q d -> bd c (M q) (f q) d).
      { intros q d I (z & Z1 & Z2 & Z3). apply HD; [right; exact I|]. exists z. split; [exact Z1|]. split; [|lia]. replace (z - i)%nat with (S (z - S i)) by lia. exact Z2. }
      assert (HM' : forall q, In q l -> (exists z, j <> z /\ nth_error l (z - S i) = Some q /\ (S i <= z)%nat) -> g <= M q).
      { intros q I (z & Z1 & Z2 & Z3). apply HM; [right; exact I|]. exists z. split; [exact Z1|]. split; [|lia]. replace (z - i)%nat with (S (z - S i)) by lia. exact Z2. }
      destruct (Nat.eqb_spec j i) as [-> |N]; intros R.
      + rewrite !Rmult_1_l. destruct (IH (S i) p v k P x n a HD' HM' B Hk HP ltac:(lia) ltac:(lia) R) as (E & F). split.
        * eapply bd_le; [|exact E]. rewrite S_INR. nra.
        * eapply Rle_trans; [|exact F]. apply half_pow. lia.
      + destruct R as (d & q & D & NQ & R). assert (X : exists z, j <> z /\ nth_error (r :: l) (z - i) = Some r /\ (i <= z)%nat) by (exists i; rewrite Nat.sub_diag; auto).
        pose proof (HD r d (or_introl eq_refl) X D) as BD. pose proof (HM r (or_introl eq_refl) X) as GM. pose proof (bd_prod k c P (M r) x (f r) p d ltac:(lra) ltac:(lra) B BD) as BP.
        assert (LP : (/ 2) ^ (a + 40) <= P * M r). { rewrite pow_add. pose proof (half_pos a). pose proof (half_pos 40). apply Rmult_le_compat; lra. }
        pose proof (bd_near _ _ _ _ q (a + 40) BP ltac:(lra) ltac:(lia) LP NQ) as BN.
        destruct (IH (S i) q v (k + c + 0.01 + 1.01) (P * M r) (x * f r) (S n) (a + 40)%nat HD' HM' BN) as (E & F); try assumption; [rewrite S_INR; lra|lia|lia|].
        rewrite <- !Rmult_assoc. split.
        * eapply bd_le; [|exact E]. rewrite S_INR. lra.
        * eapply Rle_trans; [|exact F]. apply half_pow. lia.
  Qed.
  Lemma diff_bd a b d : diff_run T days c g a b d -> bd c (Rmax (Rabs (days a - days b)) g) (days a - days b) d.
  Proof. intros H. split; [apply Rmax_l|exact H]. Qed.
  (** ** the factor of one node *)
  Section One.
    Variables (nodes : list rec) (t : T).
    Hypothesis HS : sorted days nodes.
    Hypothesis HP : spaced days g nodes t.
    Hypothesis HL : (length nodes <= 10)%nat.
    Lemma sorted_nth l : sorted days l -> forall i j a b, nth_error l i = Some a -> nth_error l j = Some b -> (i < j)%nat -> day a < day b.
    Proof.
      induction l as [|r l IH]; intros SS i j a b; [destruct i; discriminate|]. destruct SS as (S1 & S2). destruct i as [|i]; destruct j as [|j]; cbn [nth_error]; intros E1 E2 L; try lia.
      - injection E1 as <-. apply nth_error_In in E2. rewrite Forall_forall in S1. apply S1, E2.
      - apply (IH S2 i j); [assumption|assumption|lia].
    Qed.
    Lemma apart i j a b : nth_error nodes i = Some a -> nth_error nodes j = Some b -> i <> j -> day a <> day b.
    Proof. intros A B N. destruct (lt_dec i j); [pose proof (sorted_nth _ HS _ _ _ _ A B l); lra|pose proof (sorted_nth _ HS _ _ _ _ B A ltac:(lia)); lra]. Qed.
    Lemma skip_pos (M : rec -> R) j l : forall i, (forall z r, j <> z -> (i <= z)%nat -> nth_error l (z - i) = Some r -> 0 < M r) -> 0 < skip M j i l.
    Proof.
      induction l as [|r l IH]; intros i H; cbn [skip]; [lra|]. apply Rmult_lt_0_compat.
      - destruct (Nat.eqb_spec j i); [lra|]. apply (H i); [assumption|lia|]. rewrite Nat.sub_diag. reflexivity.
      - apply IH. intros z q N L E. apply (H z q N); [lia|]. replace (z - i)%nat with (S (z - S i)) by lia. exact E.
    Qed.
    Lemma factor_bd j r f : nth_error nodes j = Some r -> factor_run T days c g nodes t j r f ->
      bd (20 * c + 21.42) (skip (fun q => Rmax (Rabs (days t - day q)) g) j 0 nodes / skip (fun q => Rabs (day r - day q)) j 0 nodes) (factor T days nodes t j r) f /\
      (/ 2) ^ 600 <= skip (fun q => Rmax (Rabs (days t - day q)) g) j 0 nodes / skip (fun q => Rabs (day r - day q)) j 0 nodes.
    Proof.
      intros J (n & d & N & D & F). pose proof g_low as GL. destruct HP as (P1 & P2). pose proof (half_pos 40) as HP40.
      assert (Z1 : bd 0 1 1 1). { split; [rewrite Rabs_pos_eq; lra|]. rewrite Rminus_diag_eq, Rabs_R0 by reflexivity. lra. }
      assert (LN : (40 * length nodes <= 400)%nat) by lia. assert (IL : INR (length nodes) <= 10) by (replace 10 with (INR 10) by (cbn; lra); apply le_INR; exact HL). assert (IC : INR (length nodes) * (c + 1.02) <= 10 * (c + 1.02)) by (apply Rmult_le_compat_r; lra). pose proof (Rmult_le_pos _ _ (pos_INR (length nodes)) (ltac:(lra) : 0 <= c + 1.02)) as IC0.
      destruct (product_bd (fun k => diff_run T days c g t (rt T k)) (fun k => days t - day k) (fun q => Rmax (Rabs (days t - day q)) g) j nodes 0 1 n 0 1 1 0 0) as (BN & LB); try assumption; try (cbn [INR pow]; lra); try lia.
      { intros q e _ _ H. apply diff_bd, H. }
      { intros q _ _. apply Rmax_r. }
      assert (GAP : forall q, In q nodes -> (exists z, j <> z /\ nth_error nodes (z - 0) = Some q /\ (0 <= z)%nat) -> g <= Rabs (day r - day q) <= 2 ^ 20).
      { intros q I (z & Z & E & _). rewrite Nat.sub_0_r in E. apply P1; [exact (nth_error_In _ _ J)|exact I|]. exact (apart _ _ _ _ J E Z). }
      destruct (product_bd (fun k => diff_run T days c g (rt T r) (rt T k)) (fun k => day r - day k) (fun q => Rabs (day r - day q)) j nodes 0 1 d 0 1 1 0 0) as (BD & LD); try assumption; try (cbn [INR pow]; lra); try lia.
      { intros q e I X H. apply diff_bd in H. rewrite Rmax_left in H by (apply GAP; assumption). exact H. }
      { intros q I X. apply GAP; assumption. }
      rewrite !Rmult_1_l, !Rplus_0_l in *. set (sn := skip (fun q => Rmax (Rabs (days t - day q)) g) j 0 nodes) in *. set (sd := skip (fun q => Rabs (day r - day q)) j 0 nodes) in *.
      assert (EF : factor T days nodes t j r = skip (fun k => days t - day k) j 0 nodes / skip (fun k => day r - day k) j 0 nodes) by (unfold factor, product; rewrite (skip_fold (fun k => days t - day k)), (skip_fold (fun k => day r - day k)), !Rmult_1_l; reflexivity).
      rewrite EF. set (xd := skip (fun k => day r - day k) j 0 nodes) in *. assert (ED : Rabs xd = sd) by (unfold xd, sd; apply skip_abs). pose proof (half_pos (0 + 40 * length nodes)) as HPn. assert (SD : 0 < sd) by lra. assert (NX : xd <> 0) by (intros E; rewrite E, Rabs_R0 in ED; lra).
      rewrite <- ED in *. assert (KR : 0 <= INR (length nodes) * (c + 1.02) <= 50000) by lra. pose proof (bd_quot _ _ sn _ xd n d KR KR NX BN BD) as BQ.
      assert (UP : Rabs xd <= 2 ^ 200).
      { rewrite ED. unfold sd. clear - P1 J HL HS. assert (U : forall l i, (forall z q, j <> z -> (i <= z)%nat -> nth_error l (z - i) = Some q -> Rabs (day r - day q) <= 2 ^ 20) -> 0 <= skip (fun q => Rabs (day r - day q)) j i l <= (2 ^ 20) ^ length l).
        { induction l as [|q l IH]; intros i H; [cbn; lra|]. cbn [skip length]. rewrite <- tech_pow_Rmult. destruct (IH (S i)) as (A & B). { intros z q' N L E. apply (H z q' N); [lia|]. replace (z - i)%nat with (S (z - S i)) by lia. exact E. }
          assert (X : 0 <= (if (j =? i)%nat then 1 else Rabs (day r - day q)) <= 2 ^ 20). { destruct (Nat.eqb_spec j i); [split; [lra|apply pow_R1_Rle; lra]|]. split; [apply Rabs_pos|]. apply (H i); [assumption|lia|rewrite Nat.sub_diag; reflexivity]. }
          split; [apply Rmult_le_pos; lra|apply Rmult_le_compat; lra]. }
        destruct (U nodes 0%nat) as (_ & B). { intros z q N _ E. rewrite Nat.sub_0_r in E. apply P1; [exact (nth_error_In _ _ J)|exact (nth_error_In _ _ E)|exact (apart _ _ _ _ J E N)]. }
        eapply Rle_trans; [exact B|]. rewrite <- pow_mult. apply Rle_pow; [lra|lia]. }
      assert (LQ : (/ 2) ^ 600 <= sn / Rabs xd). { replace 600%nat with (400 + 200)%nat by reflexivity. rewrite pow_add. unfold Rdiv. pose proof (half_pos 400). pose proof (half_pos 200). apply Rmult_le_compat; try lra; [eapply Rle_trans; [|exact LB]; apply half_pow; lia|]. rewrite pow_inv. apply Rinv_le_contravar; [lra|exact UP]. }
      split; [|exact LQ]. eapply bd_le; [|exact (bd_near _ _ _ _ f 600 BQ ltac:(lra) ltac:(lia) LQ F)]. lra.
    Qed.
    Lemma weight_skip_from l : forall i j r, (forall z q, (i <= z)%nat -> nth_error l (z - i) = Some q -> (day q = day r <-> j = z)) ->
      skip (fun q => Rmax (Rabs (days t - day q)) g) j i l / skip (fun q => Rabs (day r - day q)) j i l = weight days g l t r /\ 0 < skip (fun q => Rabs (day r - day q)) j i l.
    Proof.
      induction l as [|q l IH]; intros i j r H; [cbn; split; lra|]. cbn [skip]. unfold weight. cbn [fold_right]. fold (weight days g l t r).
      destruct (IH (S i) j r) as (E & P). { intros z q' L N. apply H; [lia|]. replace (z - i)%nat with (S (z - S i)) by lia. exact N. }
      pose proof (H i q (le_n i) ltac:(rewrite Nat.sub_diag; reflexivity)) as Q. rewrite <- E. destruct (Nat.eqb_spec j i) as [-> |N].
      - destruct (Req_EM_T (day q) (day r)) as [_|X]; [|exfalso; apply X, Q; reflexivity]. split; [field; lra|lra].
      - destruct (Req_EM_T (day q) (day r)) as [X|X]; [exfalso; apply N, Q, X|]. assert (A : 0 < Rabs (day r - day q)) by (apply Rabs_pos_lt; intros Y; apply X; lra). split; [field; split; lra|apply Rmult_lt_0_compat; assumption].
    Qed.
    Lemma weight_skip j r : nth_error nodes j = Some r -> skip (fun q => Rmax (Rabs (days t - day q)) g) j 0 nodes / skip (fun q => Rabs (day r - day q)) j 0 nodes = weight days g nodes t r.
    Proof.
      intros J. apply weight_skip_from. intros z q _ E. rewrite Nat.sub_0_r in E. split.
      - intros X. destruct (Nat.eq_dec j z) as [|N]; [assumption|]. exfalso. exact (apart _ _ _ _ E J ltac:(auto) X).
      - intros <-. rewrite J in E. injection E as ->. reflexivity.
    Qed.
    (** ** the sum *)
    Section Quantity.
      Variables (yr : rec -> R -> Prop) (y : rec -> R).
      Hypothesis HY : forall r q, yr r q -> bd 1.01 (Rabs (y r) + / 2 ^ 199) (y r) q.
      Notation mag r := ((Rabs (y r) + / 2 ^ 199) * weight days g nodes t r).
      Lemma term_bd j r q f w : nth_error nodes j = Some r -> yr r q -> factor_run T days c g nodes t j r f -> near (q * f) w ->
        bd (20 * c + 23.45) (mag r) (y r * factor T days nodes t j r) w /\ (/ 2) ^ 800 <= mag r.
      Proof.
        intros J Y F N. destruct (factor_bd j r f J F) as (BF & LF). rewrite (weight_skip j r J) in *. pose proof (bd_prod 1.01 (20 * c + 21.42) _ _ _ _ _ _ ltac:(lra) ltac:(lra) (HY r q Y) BF) as BP.
        assert (L : (/ 2) ^ 800 <= mag r). { replace 800%nat with (200 + 600)%nat by reflexivity. rewrite pow_add. pose proof (half_pos 200). pose proof (half_pos 600). apply Rmult_le_compat; try lra. pose proof (Rabs_pos (y r)). rewrite <- pow_inv. pose proof (half_pow 199 200 ltac:(lia)). lra. }
        split; [|exact L]. eapply bd_le; [|exact (bd_near _ _ _ _ w 800 BP ltac:(lra) ltac:(lia) L N)]. lra.
      Qed.
      Lemma sums_bd l : forall i s v k X x n, (forall z r, nth_error l z = Some r -> nth_error nodes (i + z) = Some r) -> (n + length l <= 10)%nat ->
        bd k X x s -> 0 <= k <= 20 * c + 23.45 + 1.01 * INR n -> 0 <= X -> sums_run T days c g nodes t yr i l s v ->
        bd (20 * c + 23.45 + 1.01 * INR (n + length l)) (X + fold_right (fun r s => mag r + s) 0 l) (fold_left (fun a (jr : nat * rec) => a + y (snd jr) * factor T days nodes t (fst jr) (snd jr)) (combine (seq i (length l)) l) x) v.
      Proof.
        induction l as [|r l IH]; intros i s v k X x n HN Hn B Hk HX; cbn [sums_run length seq combine fold_left fold_right fst snd].
        - intros ->. rewrite Rplus_0_r. eapply bd_le; [|exact B]. rewrite Nat.add_0_r. lra.
        - intros (q & f & w & s' & Y & F & W & S' & R). cbn [length] in Hn. pose proof (HN 0%nat r eq_refl) as J. rewrite Nat.add_0_r in J. destruct (term_bd i r q f w J Y F W) as (BT & LT).
          pose proof (bd_add _ _ _ _ _ _ _ _ B BT) as BA. pose proof (pos_INR n) as Pn. assert (In10 : INR n <= 10) by (replace 10 with (INR 10) by (cbn; lra); apply le_INR; lia). pose proof (half_pos 800) as H8.
          assert (KM : 0 <= Rmax k (20 * c + 23.45) <= 20 * c + 23.45 + 1.01 * INR n). { split; [eapply Rle_trans; [|apply Rmax_l]; lra|apply Rmax_lub; lra]. }
          pose proof (bd_near _ _ _ _ s' 800 BA ltac:(lra) ltac:(lia) ltac:(lra) S') as BN.
          replace (n + S (length l))%nat with (S n + length l)%nat by lia. rewrite <- Rplus_assoc. apply (IH (S i) s' v (Rmax k (20 * c + 23.45) + 1.01)); try assumption; [|lia|rewrite S_INR; lra|lra].
          intros z q' E. replace (S i + z)%nat with (i + S z)%nat by lia. apply HN. exact E.
      Qed.
      Lemma accumulate_bd v : accumulate_run T days c g nodes t yr v -> bd (20 * c + 34) (condition days g nodes t y) (accumulate T days nodes t y) v.
      Proof.
        intros R. assert (Z0 : bd 0 0 0 0). { split; [rewrite Rabs_R0; lra|]. rewrite Rminus_0_r, Rabs_R0. lra. }
        pose proof (sums_bd nodes 0 0 v 0 0 0 0 (fun z r E => E) HL Z0 ltac:(cbn [INR]; lra) ltac:(lra) R) as B. rewrite Rplus_0_l in B. eapply bd_le; [|exact B].
        assert (INR (length nodes) <= 10) by (replace 10 with (INR 10) by (cbn; lra); apply le_INR; exact HL). cbn [Nat.add]. lra.
      Qed.
    End Quantity.
  End One.
End Nodes.
