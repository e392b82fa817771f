From Coq Require Import Reals ZArith List Bool Lia Lra.
From Verif Require Import Base StorageModel StorageSpec StorageProofs MatrixModel MatrixSpec MatrixProofs TideModel TideSpec TideProofs TideProofs2 TideProofs3 PoleModel PoleProofs AlfModel AlfSpec AlfMath.
Import ListNotations.
Open Scope Z_scope.

(** ** integer factors *)
Lemma int32_ok z : -2147483648 <= z <= 2147483647 -> int32 z = Ok z.
Proof. intros H. unfold int32. rewrite (proj2 (Z.leb_le _ _)), (proj2 (Z.leb_le _ _)) by lia. reflexivity. Qed.
Lemma int32_ub z : 2147483647 < z -> int32 z = UB.
Proof. intros H. unfold int32. replace (z <=? 2147483647) with false by (symmetry; apply Z.leb_gt; lia). rewrite andb_false_r. reflexivity. Qed.
Definition av (n m : Z) : R := sqrt (IZR ((2 * n - 1) * (2 * n + 1)) / IZR ((n - m) * (n + m))).
Definition bv (n m : Z) : R := sqrt (IZR ((2 * n + 1) * (n + m - 1) * (n - m - 1)) / IZR ((n - m) * (n + m) * (2 * n - 3))).
Definition fv (n m : Z) : R := sqrt (IZR ((n * n - m * m) * (2 * n + 1)) / IZR (2 * n - 1)).
Ltac ints := repeat (rewrite int32_ok; [cbn [bind]|]).
Lemma anm_ok n m : 0 <= m < n -> n <= 20000 -> anm n m = Ok (av n m).
Proof. intros Hm Hn. unfold anm, imul, iadd, isub. ints; try lia; try nia. reflexivity. Qed.
Lemma bnm_ok n m : 0 <= m -> m + 2 <= n -> n <= 1024 -> bnm n m = Ok (bv n m).
Proof.
  intros Hm Hn Hb. unfold bnm, imul, iadd, isub.
  assert (B1 : 0 <= (n + m - 1) * (n - m - 1) <= (n - 1) * (n - 1)) by nia. assert (B2 : (n - 1) * (n - 1) <= 1023 * 1023) by nia.
  assert (B3 : 0 <= (2 * n + 1) * (n + m - 1) * (n - m - 1) <= 2049 * (1023 * 1023)) by (rewrite <- Z.mul_assoc; nia).
  assert (C1 : 0 <= (n - m) * (n + m) <= n * n) by nia. assert (C2 : n * n <= 1024 * 1024) by nia.
  assert (C3 : 0 <= (n - m) * (n + m) * (2 * n - 3) <= 1024 * 1024 * 2045) by nia.
  assert (D : 0 <= (2 * n + 1) * (n + m - 1) <= 2049 * 2047) by nia.
  ints; try lia. reflexivity.
Qed.
Lemma fnm_ok n m : 0 <= m < n -> n <= 1023 \/ n = m + 1 /\ n <= 20000 -> fnm n m = Ok (fv n m).
Proof.
  intros Hm Hn. unfold fnm, imul, iadd, isub.
  assert (A : 0 <= n * n <= 20000 * 20000 /\ 0 <= m * m <= 20000 * 20000) by nia.
  assert (B : 0 <= (n * n - m * m) * (2 * n + 1) <= 2147483647).
  { destruct Hn as [Hn|(-> & Hn)].
    - assert (0 <= n * n - m * m <= 1023 * 1023) by nia. nia.
    - replace ((m + 1) * (m + 1) - m * m) with (2 * m + 1) by ring. nia. }
  ints; try lia. reflexivity.
Qed.
(** the first degrees without a value *)
Lemma bnm_overflow n : 1025 <= n <= 20000 -> bnm n 0 = UB.
Proof.
  intros Hn. unfold bnm, imul, iadd, isub. do 7 (rewrite int32_ok; [cbn [bind]|try lia; nia]). rewrite int32_ub; [reflexivity|]. replace (n + 0 - 1) with (n - 1) by lia. replace (n - 0 - 1) with (n - 1) by lia.
  assert (1024 * 1024 <= (n - 1) * (n - 1)) by nia. assert (2051 * (1024 * 1024) <= (2 * n + 1) * ((n - 1) * (n - 1))) by nia. rewrite <- Z.mul_assoc. lia.
Qed.
Lemma fnm_overflow n : 1024 <= n <= 20000 -> fnm n 0 = UB.
Proof.
  intros Hn. unfold fnm, imul, iadd, isub. do 5 (rewrite int32_ok; [cbn [bind]|try lia; nia]). rewrite int32_ub; [reflexivity|].
  assert (1024 * 1024 <= n * n) by nia. assert (2049 * (1024 * 1024) <= (n * n) * (2 * n + 1)) by nia. lia.
Qed.

(** ** the recursions with integer indices *)
Section Values.
Variable th : R.
Definition Pb (n m : Z) : R := Pbar (Z.to_nat n) (Z.to_nat m) th.
Definition Dc (n m : Z) : R := if n =? m then (IZR m * (sin th / cos th) * Pb m m)%R else (1 / cos th * (IZR n * sin th * Pb n m - fv n m * Pb (n - 1) m))%R.
Lemma INR_Z n z : Z.of_nat n = z -> INR n = IZR z. Proof. intros <-. apply INR_IZR_INZ. Qed.
Lemma sqrt_args a b c d : a = c -> b = d -> sqrt (a / b) = sqrt (c / d). Proof. intros -> ->. reflexivity. Qed.
Lemma Pb_first m : 0 <= m -> Pb (m + 1) m = (av (m + 1) m * sin th * Pb m m)%R.
Proof.
  intros Hm. unfold Pb, av. replace (Z.to_nat (m + 1)) with (S (Z.to_nat m)) by lia. rewrite Pbar_column_first. f_equal. f_equal. rewrite !mult_IZR. apply sqrt_args; f_equal; apply INR_Z; lia.
Qed.
Lemma Pb_next n m : 0 <= m -> m + 2 <= n -> Pb n m = (av n m * sin th * Pb (n - 1) m - bv n m * Pb (n - 2) m)%R.
Proof.
  intros Hm Hn. unfold Pb, av, bv. set (k := Z.to_nat (n - 2)). replace (Z.to_nat n) with (S (S k)) by lia. replace (Z.to_nat (n - 1)) with (S k) by lia. rewrite Pbar_column by lia.
  f_equal; f_equal; [f_equal|]; rewrite !mult_IZR; apply sqrt_args; repeat f_equal; apply INR_Z; lia.
Qed.
Lemma Pb_diagonal m : 0 < m -> Pb (m + 1) (m + 1) = (cos th * sqrt ((2 * IZR m + 3) / (2 * IZR m + 2)) * Pb m m)%R.
Proof.
  intros Hm. unfold Pb. replace (Z.to_nat (m + 1)) with (S (Z.to_nat m)) by lia. rewrite Pbar_diagonal by lia. f_equal. f_equal.
  apply sqrt_args; [rewrite (INR_Z _ (2 * m + 3)) by lia|rewrite (INR_Z _ (2 * m + 2)) by lia]; rewrite plus_IZR, mult_IZR; reflexivity.
Qed.
Lemma Dc_derivative n m : 0 <= m <= n -> cos th <> 0%R -> derivable_pt_lim (Pbar (Z.to_nat n) (Z.to_nat m)) th (- Dc n m)%R.
Proof.
  intros Hm C. unfold Dc. destruct (Z.eqb_spec n m) as [->|Ne].
  - pose proof (Pbar_derivative_diagonal (Z.to_nat m) th C) as D. rewrite (INR_Z _ m) in D by lia. exact D.
  - set (k := Z.to_nat (n - 1)). replace (Z.to_nat n) with (S k) by lia. pose proof (Pbar_derivative k (Z.to_nat m) th ltac:(lia) C) as D. rewrite (INR_Z (S k) n) in D by lia.
    replace (1 / cos th)%R with (/ cos th)%R by (unfold Rdiv; ring). unfold Pb. replace (Z.to_nat n) with (S k) by lia. fold k. unfold fv.
    replace (IZR ((n * n - m * m) * (2 * n + 1)) / IZR (2 * n - 1))%R with (INR (S k - Z.to_nat m) * INR (S k + Z.to_nat m) * INR (2 * k + 3) / INR (2 * k + 1))%R; [exact D|].
    rewrite (INR_Z _ (n - m)), (INR_Z (S k + _) (n + m)), (INR_Z _ (2 * n + 1)), (INR_Z _ (2 * n - 1)) by lia. rewrite <- !mult_IZR. f_equal. f_equal. ring.
Qed.

(** ** the columns *)
Lemma colget_get h P d m k : sized h d P -> colget h P m k = get R h P (m + k) m.
Proof. intros (_ & E & _). unfold colget, get, index. rewrite E. f_equal. lia. Qed.
Lemma colput_put (h0 : mem R) h P d m k c : sized h0 d P -> colput h P m k c = put h P (m + k) m c.
Proof. intros (_ & E & _). unfold colput, put, index. rewrite E. f_equal. lia. Qed.
Definition wr (f : Z -> Z -> cell R) (i j : Z) (c : cell R) : Z -> Z -> cell R := fun n k => if (n =? i) && (k =? j) then c else f n k.
Lemma colput_ok h d P f m k c : sized h d P -> shows h d P f -> 0 <= m -> 0 <= k -> m + k <= d ->
  exists h', colput h P m k c = Ok h' /\ sized h' d P /\ framed h P h' /\ shows h' d P (wr f (m + k) m c).
Proof. intros S F Hm Hk Hd. rewrite (colput_put h h P d) by exact S. apply (put_ok h d P (m + k) m c f); auto; lia. Qed.

(** both matrices; [e] is the degree of the second *)
Definition two (h : mem R) (d : Z) (P : mat) (f : Z -> Z -> cell R) (e : Z) (dP : option mat) (g : Z -> Z -> cell R) : Prop :=
  sized h d P /\ shows h d P f /\
  match dP with None => True | Some q => sized h e q /\ shows h e q g /\ apart q P /\ apart P q end.
Definition elsewhere (h : mem R) (P : mat) (dP : option mat) (h' : mem R) : Prop :=
  forall x, valid h x -> apart x P -> match dP with None => True | Some q => apart x q end ->
    valid h' x /\ forall i j, kept x (i, j) -> get R h' x i j = get R h x i j.
Lemma elsewhere_refl h P dP : elsewhere h P dP h. Proof. intros x V _ _. auto. Qed.
Lemma elsewhere_trans h1 h2 h3 P dP : elsewhere h1 P dP h2 -> elsewhere h2 P dP h3 -> elsewhere h1 P dP h3.
Proof. intros A B x V P1 P2. destruct (A x V P1 P2) as (V2 & G2). destruct (B x V2 P1 P2) as (V3 & G3). split; auto. intros i j K. rewrite G3, G2; auto. Qed.
Lemma two_P h d P f e dP g m k c : two h d P f e dP g -> 0 <= m -> 0 <= k -> m + k <= d ->
  exists h', colput h P m k c = Ok h' /\ two h' d P (wr f (m + k) m c) e dP g /\ elsewhere h P dP h'.
Proof.
  intros (S & F & T) Hm Hk Hd. destruct (colput_ok h d P f m k c S F Hm Hk Hd) as (h' & E & S' & Fr & F'). exists h'. split; [exact E|]. split.
  - refine (conj S' (conj F' _)). destruct dP as [q|]; [|exact I]. destruct T as (Sq & Gq & A1 & A2). refine (conj _ (conj _ (conj A1 A2))); [eapply framed_sized|eapply framed_shows]; eauto.
  - intros x V A _. apply Fr; auto.
Qed.
Lemma two_dP h d P f e q g m k c : two h d P f e (Some q) g -> 0 <= m -> 0 <= k -> m + k <= e ->
  exists h', colput h q m k c = Ok h' /\ two h' d P f e (Some q) (wr g (m + k) m c) /\ elsewhere h P (Some q) h'.
Proof.
  intros (S & F & Sq & Gq & A1 & A2) Hm Hk Hd. destruct (colput_ok h e q g m k c Sq Gq Hm Hk Hd) as (h' & E & S' & Fr & F'). exists h'. split; [exact E|]. split.
  - refine (conj _ (conj _ (conj S' (conj F' (conj A1 A2))))); [eapply framed_sized|eapply framed_shows]; eauto.
  - intros x V _ A. apply Fr; auto.
Qed.
Lemma two_ext h d P f f' e dP g g' : (forall n k, 0 <= k <= n -> n <= d -> f n k = f' n k) -> (forall n k, 0 <= k <= n -> n <= e -> g n k = g' n k) ->
  two h d P f e dP g -> two h d P f' e dP g'.
Proof. intros E1 E2 (S & F & T). refine (conj S (conj (shows_ext h d P f f' E1 F) _)). destruct dP as [q|]; [|exact I]. destruct T as (Sq & Gq & A). refine (conj Sq (conj (shows_ext h e q g g' E2 Gq) A)). Qed.
Lemma two_get h d P f e dP g m k : two h d P f e dP g -> 0 <= m -> 0 <= k -> m + k <= d -> colget h P m k = Ok (f (m + k) m).
Proof. intros (S & F & _) Hm Hk Hd. rewrite (colget_get h P d) by exact S. apply F; lia. Qed.

Notation u := (cos th). Notation t := (sin th).
(** limits of the degree: overflow *)
Definition degree_ok (dP : option mat) (md : Z) : Prop := match dP with None => md <= 1024 | Some _ => md <= 1023 end.
Definition hasd (dP : option mat) : bool := match dP with None => false | Some _ => true end.
(** column m is filled below row N *)
Definition fillP (m N : Z) (f : Z -> Z -> cell R) : Z -> Z -> cell R := fun n k => if (k =? m) && (m <? n) && (n <=? N) then Some (Pb n k) else f n k.
Definition fillD (m N : Z) (g : Z -> Z -> cell R) : Z -> Z -> cell R := fun n k => if (k =? m) && (m <=? n) && (n <=? N) then Some (Dc n k) else g n k.
Ltac bools := repeat match goal with
  | |- context [?a =? ?b] => destruct (Z.eqb_spec a b)
  | |- context [?a <? ?b] => destruct (Z.ltb_spec a b)
  | |- context [?a <=? ?b] => destruct (Z.leb_spec a b)
  end; cbn [andb orb]; try reflexivity; try lia; try (subst; congruence).

Lemma derivative_term_ok h d P f e q g m n x y : two h d P f e (Some q) g -> 0 <= m < n -> n <= d -> n <= e -> (n <= 1023 \/ n = m + 1 /\ n <= 20000) ->
  f n m = Some x -> f (n - 1) m = Some y ->
  exists h', derivative_term u t P q h m n = Ok h' /\ two h' d P f e (Some q) (wr g n m (Some (1 / u * (IZR n * t * x - fv n m * y))%R)) /\ elsewhere h P (Some q) h'.
Proof.
  intros T Hm Hd He Hn X Y. unfold derivative_term. rewrite (two_get h d P f e (Some q) g m (n - m) T) by lia. cbn [bind]. rewrite fnm_ok by auto. cbn [bind].
  rewrite (two_get h d P f e (Some q) g m (n - m - 1) T) by lia. cbn [bind]. replace (m + (n - m)) with n by lia. replace (m + (n - m - 1)) with (n - 1) by lia. rewrite X, Y.
  destruct (two_dP h d P f e q g m (n - m) (Some (1 / u * (IZR n * t * x - fv n m * y))%R) T) as (h' & E & T' & F); try lia. replace (m + (n - m)) with n in T' by lia. exists h'. auto.
Qed.

Lemma term_ok h d P f e dP g m n : two h d P (fillP m (n - 1) f) e dP (fillD m (n - 1) g) -> f m m = Some (Pb m m) ->
  0 <= m -> m + 2 <= n -> n <= d -> (hasd dP = true -> n <= e) -> degree_ok dP n ->
  exists h', term u t P dP m h n = Ok h' /\ two h' d P (fillP m n f) e dP (fillD m n g) /\ elsewhere h P dP h'.
Proof.
  intros T F0 Hm Hn Hd He Hk. assert (N24 : n <= 1024) by (destruct dP; cbn in Hk; lia).
  unfold term. rewrite anm_ok by lia. cbn [bind]. rewrite (two_get h d P _ e dP _ m (n - m - 1) T) by lia. cbn [bind]. rewrite bnm_ok by lia. cbn [bind].
  rewrite (two_get h d P _ e dP _ m (n - m - 2) T) by lia. cbn [bind]. replace (m + (n - m - 1)) with (n - 1) by lia. replace (m + (n - m - 2)) with (n - 2) by lia.
  assert (V1 : fillP m (n - 1) f (n - 1) m = Some (Pb (n - 1) m)) by (unfold fillP; bools).
  assert (V2 : fillP m (n - 1) f (n - 2) m = Some (Pb (n - 2) m)) by (unfold fillP; bools; replace (n - 2) with m by lia; exact F0).
  rewrite V1, V2. cbn [timesR minusR lift2]. rewrite <- (Pb_next n m) by lia.
  destruct (two_P h d P _ e dP _ m (n - m) (Some (Pb n m)) T) as (h1 & E1 & T1 & L1); try lia. replace (m + (n - m)) with n in T1 by lia. rewrite E1. cbn [bind].
  assert (T2 : two h1 d P (fillP m n f) e dP (fillD m (n - 1) g)). { eapply two_ext; [| |exact T1]; [|auto]. intros i k Hk1 Hi. unfold wr, fillP. bools. }
  destruct dP as [q|]; cbn [with_dP].
  - specialize (He eq_refl). cbn [degree_ok] in Hk. assert (W1 : fillP m n f n m = Some (Pb n m)) by (unfold fillP; bools). assert (W2 : fillP m n f (n - 1) m = Some (Pb (n - 1) m)) by (unfold fillP; bools).
    destruct (derivative_term_ok h1 d P (fillP m n f) e q (fillD m (n - 1) g) m n (Pb n m) (Pb (n - 1) m) T2 ltac:(lia) Hd He ltac:(lia) W1 W2) as (h2 & E2 & T3 & L2).
    exists h2. split; [exact E2|]. split; [|eapply elsewhere_trans; eauto]. eapply two_ext; [| |exact T3]; [auto|]. intros i k Hk1 Hi. unfold wr, fillD. bools. subst. unfold Dc. bools.
  - exists h1. split; [reflexivity|]. split; [|exact L1]. exact T2.
Qed.
Lemma terms_ok d P e dP m f g : f m m = Some (Pb m m) -> 0 <= m -> forall c h, two h d P (fillP m (m + 1) f) e dP (fillD m (m + 1) g) ->
  m + 1 + Z.of_nat c <= d -> (hasd dP = true -> m + 1 + Z.of_nat c <= e) -> (c <> O -> degree_ok dP (m + 1 + Z.of_nat c)) ->
  exists h', fold_res (term u t P dP m) (map (fun k => m + 2 + k) (zrange (Z.of_nat c))) h = Ok h' /\
    two h' d P (fillP m (m + 1 + Z.of_nat c) f) e dP (fillD m (m + 1 + Z.of_nat c) g) /\ elsewhere h P dP h'.
Proof.
  intros F0 Hm. induction c as [|c IH]; intros h T Hd He Hk.
  - exists h. split; [reflexivity|]. change (Z.of_nat 0) with 0. rewrite Z.add_0_r. split; [exact T|apply elsewhere_refl].
  - destruct (IH h T) as (h1 & E1 & T1 & L1); [lia|intros Q; specialize (He Q); lia|intros _; specialize (Hk ltac:(discriminate)); destruct dP; cbn [degree_ok] in *; lia|].
    replace (Z.of_nat (S c)) with (Z.of_nat c + 1) by lia. rewrite seq_snoc by lia. rewrite map_app, fold_res_app, E1. cbn [bind map fold_res].
    destruct (term_ok h1 d P f e dP g m (m + 2 + Z.of_nat c)) as (h2 & E2 & T2 & L2).
    + replace (m + 2 + Z.of_nat c - 1) with (m + 1 + Z.of_nat c) by lia. exact T1.
    + exact F0.
    + exact Hm.
    + lia.
    + lia.
    + intros Q. specialize (He Q). lia.
    + specialize (Hk ltac:(discriminate)). destruct dP; cbn [degree_ok] in *; lia.
    + rewrite E2. cbn [bind]. exists h2. split; [reflexivity|]. replace (m + 1 + (Z.of_nat c + 1)) with (m + 2 + Z.of_nat c) by lia. split; [exact T2|eapply elsewhere_trans; eauto].
Qed.
Lemma zrange_neg n : n <= 0 -> zrange n = []. Proof. intros H. unfold zrange. replace (Z.to_nat n) with O by lia. reflexivity. Qed.
(** a column down to degree md, at least to degree m + 1 *)
Lemma column_ok h d P f e dP g md m : two h d P f e dP g -> f m m = Some (Pb m m) -> 0 <= m <= md -> Z.max md (m + 1) <= d -> (hasd dP = true -> Z.max md (m + 1) <= e) -> degree_ok dP md ->
  exists h', column u t P dP md h m = Ok h' /\ two h' d P (fillP m (Z.max md (m + 1)) f) e dP (fillD m (Z.max md (m + 1)) g) /\ elsewhere h P dP h'.
Proof.
  intros T F0 Hm Hd He Hk. assert (N24 : m <= 1024) by (destruct dP; cbn in Hk; lia). unfold column.
  assert (S0 : exists h0, with_dP dP h (fun q => x <- colget h P m 0;; colput h q m 0 (timesR (IZR m * (t / u)) x)) = Ok h0 /\ two h0 d P f e dP (fillD m m g) /\ elsewhere h P dP h0).
  { destruct dP as [q|]; cbn [with_dP].
    - rewrite (two_get h d P f e (Some q) g m 0 T) by lia. cbn [bind]. rewrite Z.add_0_r, F0. cbn [timesR lift2]. specialize (He eq_refl).
      destruct (two_dP h d P f e q g m 0 (Some (IZR m * (t / u) * Pb m m)%R) T) as (h' & E & T' & L); try lia. exists h'. split; [exact E|]. split; [|exact L].
      eapply two_ext; [| |exact T']; [auto|]. intros i k Hk1 Hi. unfold wr, fillD. bools. subst. unfold Dc. rewrite Z.add_0_r. bools.
    - exists h. split; [reflexivity|]. split; [exact T|apply elsewhere_refl]. }
  destruct S0 as (h0 & -> & T0 & L0). cbn [bind]. rewrite anm_ok by lia. cbn [bind]. rewrite (two_get h0 d P f e dP _ m 0 T0) by lia. cbn [bind]. rewrite Z.add_0_r, F0. cbn [timesR lift2]. rewrite <- Pb_first by lia.
  destruct (two_P h0 d P f e dP _ m 1 (Some (Pb (m + 1) m)) T0) as (h1 & E1 & T1 & L1); try lia. rewrite E1. cbn [bind].
  assert (T1' : two h1 d P (fillP m (m + 1) f) e dP (fillD m m g)). { eapply two_ext; [| |exact T1]; [|auto]. intros i k Hk1 Hi. unfold wr, fillP. bools. }
  assert (S2 : exists h2, with_dP dP h1 (fun q => derivative_term u t P q h1 m (m + 1)) = Ok h2 /\ two h2 d P (fillP m (m + 1) f) e dP (fillD m (m + 1) g) /\ elsewhere h1 P dP h2).
  { destruct dP as [q|]; cbn [with_dP].
    - specialize (He eq_refl). assert (W1 : fillP m (m + 1) f (m + 1) m = Some (Pb (m + 1) m)) by (unfold fillP; bools).
      assert (W2 : fillP m (m + 1) f (m + 1 - 1) m = Some (Pb m m)) by (unfold fillP; replace (m + 1 - 1) with m by lia; bools; exact F0).
      destruct (derivative_term_ok h1 d P (fillP m (m + 1) f) e q (fillD m m g) m (m + 1) (Pb (m + 1) m) (Pb m m) T1' ltac:(lia) ltac:(lia) ltac:(lia) ltac:(lia) W1 W2) as (h2 & E2 & T2 & L2).
      exists h2. split; [exact E2|]. split; [|exact L2]. eapply two_ext; [| |exact T2]; [auto|]. intros i k Hk1 Hi. unfold wr, fillD. bools. subst. unfold Dc. bools. replace (m + 1 - 1) with m by lia. reflexivity.
    - exists h1. split; [reflexivity|]. split; [exact T1'|apply elsewhere_refl]. }
  destruct S2 as (h2 & -> & T2 & L2). cbn [bind]. unfold zrange2. destruct (Z_le_gt_dec md (m + 1)) as [Hs|Hs].
  - rewrite zrange_neg by lia. cbn [map fold_res]. exists h2. split; [reflexivity|]. rewrite Z.max_r by lia. split; [exact T2|]. eapply elsewhere_trans; [exact L0|]. eapply elsewhere_trans; eauto.
  - destruct (terms_ok d P e dP m f g F0 ltac:(lia) (Z.to_nat (md - m - 1)) h2 T2) as (h3 & E3 & T3 & L3); [lia|intros Q; specialize (He Q); lia|intros _; replace (m + 1 + Z.of_nat (Z.to_nat (md - m - 1))) with md by lia; exact Hk|].
    replace (Z.of_nat (Z.to_nat (md - m - 1))) with (md + 1 - (m + 2)) in E3 by lia. rewrite E3. exists h3. split; [reflexivity|]. replace (m + 1 + Z.of_nat (Z.to_nat (md - m - 1))) with (Z.max md (m + 1)) in T3 by lia. split; [exact T3|].
    eapply elsewhere_trans; [exact L0|]. eapply elsewhere_trans; [exact L1|]. eapply elsewhere_trans; eauto.
Qed.

(** ** the loop over the columns *)
Definition stateP (md m : Z) (f : Z -> Z -> cell R) : Z -> Z -> cell R :=
  fun n k => if ((k <? m) && (n <=? md)) || ((n =? k) && (k <=? Z.max m 1)) then Some (Pb n k) else f n k.
Definition stateD (md m : Z) (g : Z -> Z -> cell R) : Z -> Z -> cell R :=
  fun n k => if (k <? m) && (n <=? md) then Some (Dc n k) else g n k.
Lemma Pb_00 : Pb 0 0 = 1%R. Proof. apply Pbar_00. Qed.
Lemma Pb_11 : Pb 1 1 = (sqrt 3 * u)%R. Proof. apply Pbar_11. Qed.
Lemma step_ok h d P f e dP g md m : two h d P (stateP md m f) e dP (stateD md m g) -> 0 <= m < md -> md <= d -> (hasd dP = true -> md <= e) -> degree_ok dP md ->
  exists h', column_step u t P dP md h m = Ok h' /\ two h' d P (stateP md (m + 1) f) e dP (stateD md (m + 1) g) /\ elsewhere h P dP h'.
Proof.
  intros T Hm Hd He Hk. unfold column_step.
  destruct (column_ok h d P _ e dP _ md m T) as (h1 & E1 & T1 & L1); [unfold stateP; bools|lia|lia|intros Q; specialize (He Q); lia|exact Hk|]. rewrite E1. cbn [bind]. rewrite Z.max_l in T1 by lia.
  destruct (Z.ltb_spec 0 m).
  - rewrite (two_get h1 d P _ e dP _ m 0 T1) by lia. cbn [bind]. rewrite Z.add_0_r. assert (V : fillP m md (stateP md m f) m m = Some (Pb m m)) by (unfold fillP, stateP; bools). rewrite V. cbn [timesR lift2]. rewrite <- Pb_diagonal by lia.
    destruct (two_P h1 d P _ e dP _ (m + 1) 0 (Some (Pb (m + 1) (m + 1))) T1) as (h2 & E2 & T2 & L2); try lia. rewrite E2. exists h2. split; [reflexivity|]. split; [|eapply elsewhere_trans; eauto].
    eapply two_ext; [| |exact T2]; intros i k Hk1 Hi; unfold wr, fillP, fillD, stateP, stateD; rewrite ?Z.add_0_r; bools.
  - replace m with 0 in * by lia. exists h1. split; [reflexivity|]. split; [|exact L1]. eapply two_ext; [| |exact T1]; intros i k Hk1 Hi; unfold fillP, fillD, stateP, stateD; bools.
Qed.
Lemma loop_ok h d P f e dP g md c : two h d P (stateP md 0 f) e dP (stateD md 0 g) -> Z.of_nat c <= md -> md <= d -> (hasd dP = true -> md <= e) -> degree_ok dP md ->
  exists h', fold_res (column_step u t P dP md) (zrange (Z.of_nat c)) h = Ok h' /\ two h' d P (stateP md (Z.of_nat c) f) e dP (stateD md (Z.of_nat c) g) /\ elsewhere h P dP h'.
Proof.
  intros T Hc Hd He Hk. induction c as [|c IH].
  - exists h. split; [reflexivity|]. split; [exact T|apply elsewhere_refl].
  - destruct IH as (h1 & E1 & T1 & L1); [lia|]. replace (Z.of_nat (S c)) with (Z.of_nat c + 1) by lia. rewrite seq_snoc by lia. rewrite fold_res_app, E1. cbn [bind fold_res].
    destruct (step_ok h1 d P f e dP g md (Z.of_nat c) T1) as (h2 & E2 & T2 & L2); auto; [lia|]. rewrite E2. cbn [bind]. exists h2. split; [reflexivity|]. split; [exact T2|eapply elsewhere_trans; eauto].
Qed.
(** the first two terms *)
Lemma start_ok h d P f e dP g md : two h d P f e dP g -> 1 <= d ->
  exists h0 h1, put h P 0 0 (Some 1%R) = Ok h0 /\ put h0 P 1 1 (Some (sqrt 3 * u)%R) = Ok h1 /\ two h1 d P (stateP md 0 f) e dP (stateD md 0 g) /\ elsewhere h P dP h1.
Proof.
  intros T Hd. pose proof T as (S & _). destruct (two_P h d P f e dP g 0 0 (Some 1%R) T) as (h0 & E0 & T0 & L0); try lia. rewrite (colput_put h h P d) in E0 by exact S.
  destruct (two_P h0 d P _ e dP g 1 0 (Some (sqrt 3 * u)%R) T0) as (h1 & E1 & T1 & L1); try lia. rewrite (colput_put h h0 P d) in E1 by exact S. exists h0, h1. split; [exact E0|]. split; [exact E1|]. split; [|eapply elsewhere_trans; eauto].
  eapply two_ext; [| |exact T1]; intros i k Hk1 Hi; unfold wr, stateP, stateD; change (1 + 0) with 1; change (0 + 0) with 0; bools; subst; rewrite ?Pb_00, ?Pb_11; auto.
Qed.
(** both overloads *)
Lemma alf_ok h d P f e dP g md mo : two h d P f e dP g -> 0 <= mo <= md -> Z.max md (mo + 1) <= d -> (hasd dP = true -> Z.max md (mo + 1) <= e) -> degree_ok dP md ->
  exists h', alf dP h th md mo P = Ok h' /\ two h' d P (fillP mo (Z.max md (mo + 1)) (stateP md mo f)) e dP (fillD mo (Z.max md (mo + 1)) (stateD md mo g)) /\ elsewhere h P dP h'.
Proof.
  intros T Hm Hd He Hk. unfold alf. replace (md <? mo) with false by (symmetry; apply Z.ltb_ge; lia). cbv zeta.
  destruct (start_ok h d P f e dP g md T ltac:(lia)) as (h0 & h1 & E0 & E1 & T1 & L1). rewrite E0. cbn [bind]. rewrite E1. cbn [bind].
  destruct (loop_ok h1 d P f e dP g md (Z.to_nat mo) T1) as (h2 & E2 & T2 & L2); [lia|lia|intros Q; specialize (He Q); lia|exact Hk|]. rewrite Z2Nat.id in * by lia. rewrite E2. cbn [bind].
  destruct (column_ok h2 d P _ e dP _ md mo T2) as (h3 & E3 & T3 & L3); auto.
  - unfold stateP; bools.
  - rewrite E3. exists h3. split; [reflexivity|]. split; [exact T3|]. eapply elsewhere_trans; [exact L1|]. eapply elsewhere_trans; eauto.
Qed.
(** exactly as large as documented, order = degree *)
Lemma colput_past h P d m k c : sized h d P -> cap P = nelem P -> nelem P <= slice (st P) m + k -> colput h P m k c = UB.
Proof.
  intros (V & _) C H. destruct (valid_contents _ _ V) as (l & Hp & Hl). unfold colput, store. destruct (ptr P) as [q|]; [|reflexivity]. rewrite Hp. replace (znth l (slice (st P) m + k)) with (@None (cell R)); [reflexivity|]. symmetry.
  unfold znth. destruct (_ <? 0) eqn:E; [reflexivity|]. apply Z.ltb_ge in E. apply nth_error_None. lia.
Qed.
Lemma last_slice (h : mem R) P d : sized h d P -> nelem P = slice (st P) d + 1.
Proof.
  intros (_ & E & Hr & _). unfold nelem, num_elements, slice, rows in *. rewrite E, Hr. pose proof (quot_pred_double (d + 1 + 1)) as Q1. pose proof (quot_pred_double d) as Q2.
  replace (d + 1 + 1 - 1) with (d + 1) in Q1 by lia. replace ((d + 1) * (d + 1 + 1)) with ((d + 1 + 1) * (d + 1)) by ring. nia.
Qed.
Lemma exact_ub h P f e dP g md : two h md P f e dP g -> cap P = nelem P -> 0 <= md -> (hasd dP = true -> md <= e) -> degree_ok dP md -> alf dP h th md md P = UB.
Proof.
  intros T C Hm He Hk. pose proof T as (S & _). assert (N24 : md <= 1024) by (destruct dP; cbn in Hk; lia). unfold alf. replace (md <? md) with false by (symmetry; apply Z.ltb_ge; lia). cbv zeta. pose proof (last_slice h P md S) as L.
  destruct (Z.eq_dec md 0) as [->|Hz].
  - destruct (two_P h 0 P f e dP g 0 0 (Some 1%R) T) as (h0 & E0 & (S0 & _) & _); try lia. rewrite (colput_put h h P 0) in E0 by exact S. cbn [Z.add] in E0. rewrite E0. cbn [bind].
    change (put h0 P 1 1) with (put h0 P (1 + 0) 1). rewrite <- (colput_put h h0 P 0) by exact S. rewrite (colput_past h0 P 0); [reflexivity|exact S0|exact C|]. rewrite L. destruct S as (_ & E & Hr & _). unfold slice, rows in *. rewrite E, Hr. cbn. lia.
  - destruct (start_ok h md P f e dP g md T ltac:(lia)) as (h0 & h1 & E0 & E1 & T1 & _). rewrite E0. cbn [bind]. rewrite E1. cbn [bind].
    destruct (loop_ok h1 md P f e dP g md (Z.to_nat md) T1) as (h2 & E2 & T2 & _); [lia|lia|exact He|exact Hk|]. rewrite Z2Nat.id in * by lia. rewrite E2. cbn [bind].
    assert (F0 : stateP md md f md md = Some (Pb md md)) by (unfold stateP; bools). set (f2 := stateP md md f) in *. set (g2 := stateD md md g) in *. unfold column.
    assert (S3 : exists h3, with_dP dP h2 (fun q => x <- colget h2 P md 0;; colput h2 q md 0 (timesR (IZR md * (t / u)) x)) = Ok h3 /\ exists g3, two h3 md P f2 e dP g3).
    { destruct dP as [q|]; cbn [with_dP]; [|exists h2; eauto]. rewrite (two_get h2 md P f2 e (Some q) g2 md 0 T2) by lia. cbn [bind]. specialize (He eq_refl).
      destruct (two_dP h2 md P f2 e q g2 md 0 (timesR (IZR md * (t / u)) (f2 (md + 0) md)) T2) as (h' & E & T' & _); try lia. exists h'. split; [exact E|]. eauto. }
    destruct S3 as (h3 & -> & g3 & T3). cbn [bind]. rewrite anm_ok by lia. cbn [bind]. rewrite (two_get h3 md P f2 e dP g3 md 0 T3) by lia. cbn [bind].
    rewrite (colput_past h3 P md); [reflexivity|apply T3|exact C|]. lia.
Qed.
(** degrees beyond the range of int *)
Lemma fold_res_ub {X S} (F : S -> X -> res S) l1 x l2 s s1 : fold_res F l1 s = Ok s1 -> F s1 x = UB -> fold_res F (l1 ++ x :: l2) s = UB.
Proof. intros E1 E2. rewrite fold_res_app, E1. cbn [bind fold_res]. rewrite E2. reflexivity. Qed.
Lemma zrange_split a b : 0 <= a < b -> exists r, zrange b = zrange a ++ a :: r.
Proof.
  intros H. unfold zrange. replace (Z.to_nat b) with (Z.to_nat a + S (Z.to_nat b - Z.to_nat a - 1))%nat by lia. rewrite seq_app, map_app. cbn [Nat.add seq map]. rewrite Z2Nat.id by lia. eauto.
Qed.
Lemma term_overflow h d P f g n : two h d P f 0 None g -> 1025 <= n <= 20000 -> n <= d -> term u t P None 0 h n = UB.
Proof.
  intros T Hn Hd. unfold term. rewrite anm_ok by lia. cbn [bind]. rewrite (two_get h d P f 0 None g 0 (n - 0 - 1) T) by lia. cbn [bind]. rewrite bnm_overflow by lia. reflexivity.
Qed.
Lemma column_overflow h d P f g md : two h d P f 0 None g -> f 0 0 = Some (Pb 0 0) -> 1025 <= md <= d -> column u t P None md h 0 = UB.
Proof.
  intros T F0 Hd. unfold column. cbn [with_dP bind]. rewrite anm_ok by lia. cbn [bind]. rewrite (two_get h d P f 0 None g 0 0 T) by lia. cbn [bind]. rewrite Z.add_0_r, F0. cbn [timesR lift2]. rewrite <- Pb_first by lia.
  destruct (two_P h d P f 0 None g 0 1 (Some (Pb (0 + 1) 0)) T) as (h1 & E1 & T1 & _); try lia. rewrite E1. cbn [bind].
  assert (T2 : two h1 d P (fillP 0 (0 + 1) f) 0 None (fillD 0 (0 + 1) g)) by (destruct T1 as (S1 & V1 & _); refine (conj S1 (conj _ I)); eapply shows_ext; [|exact V1]; intros i k Hk Hi; unfold wr, fillP; bools).
  destruct (terms_ok d P 0 None 0 f g F0 ltac:(lia) 1023%nat h1 T2) as (h2 & E2 & T3 & _); [lia|discriminate|cbn [degree_ok]; lia|].
  unfold zrange2. destruct (zrange_split 1023 (md + 1 - (0 + 2)) ltac:(lia)) as (r & ->). rewrite map_app. cbn [map]. eapply fold_res_ub; [exact E2|]. eapply term_overflow; [exact T3|lia|lia].
Qed.
Lemma alf_overflow h d P f md mo : sized h d P -> shows h d P f -> 0 <= mo <= md -> 1025 <= md <= d -> alf None h th md mo P = UB.
Proof.
  intros S F Hm Hd. unfold alf. replace (md <? mo) with false by (symmetry; apply Z.ltb_ge; lia). cbv zeta.
  destruct (start_ok h d P f 0 None f md (conj S (conj F I)) ltac:(lia)) as (h0 & h1 & E0 & E1 & T1 & _). rewrite E0. cbn [bind]. rewrite E1. cbn [bind].
  assert (F0 : stateP md 0 f 0 0 = Some (Pb 0 0)) by reflexivity. pose proof (column_overflow h1 d P _ _ md T1 F0 Hd) as Ub.
  destruct (Z.eq_dec mo 0) as [->|Hz]; [exact Ub|]. destruct (zrange_split 0 mo ltac:(lia)) as (r & ->). cbn [zrange map app seq Z.to_nat fold_res]. unfold column_step at 1. rewrite Ub. reflexivity.
Qed.
Lemma column_overflow_d h d P f e q g md N : two h d P f e (Some q) g -> f 0 0 = Some (Pb 0 0) -> N = 1023 -> 1024 <= md <= d -> md <= e -> column u t P (Some q) md h 0 = UB.
Proof.
  intros T F0 HN Hd He.
  destruct (column_ok h d P f e (Some q) g N 0 T F0) as (h2 & E2 & T2 & _); [lia|lia|intros _; lia|cbn; lia|]. unfold column in E2 |- *.
  destruct (with_dP (Some q) h _) as [k0| | |]; [|discriminate E2..]. cbn [bind] in E2 |- *. destruct (anm (0 + 1) 0) as [k1| | |]; [|discriminate E2..]. cbn [bind] in E2 |- *. destruct (colget k0 P 0 0) as [k2| | |]; [|discriminate E2..]. cbn [bind] in E2 |- *.
  destruct (colput k0 P 0 1 _) as [k3| | |]; [|discriminate E2..]. cbn [bind] in E2 |- *. destruct (with_dP (Some q) k3 _) as [k4| | |]; [|discriminate E2..]. cbn [bind] in E2 |- *.
  unfold zrange2 in E2 |- *. destruct (zrange_split (N - 1) (md + 1 - (0 + 2)) ltac:(lia)) as (r & ->). rewrite map_app. cbn [map]. replace (N + 1 - (0 + 2)) with (N - 1) in E2 by lia. eapply fold_res_ub; [exact E2|].
  replace (0 + 2 + (N - 1)) with (N + 1) by lia. unfold term. rewrite anm_ok by lia. cbn [bind]. rewrite (two_get h2 d P _ e _ _ 0 (N + 1 - 0 - 1) T2) by lia. cbn [bind]. rewrite bnm_ok by lia. cbn [bind].
  rewrite (two_get h2 d P _ e _ _ 0 (N + 1 - 0 - 2) T2) by lia. cbn [bind].
  match goal with |- context [colput h2 P 0 _ ?c] => destruct (two_P h2 d P _ e _ _ 0 (N + 1 - 0) c T2) as (h3 & E3 & T3 & _); [lia|lia|lia|] end. rewrite E3. cbn [bind with_dP]. unfold derivative_term.
  rewrite (two_get h3 d P _ e _ _ 0 (N + 1 - 0) T3) by lia. cbn [bind]. rewrite fnm_overflow by lia. reflexivity.
Qed.
Lemma alf_overflow_d h d P f e q g md mo : two h d P f e (Some q) g -> 0 <= mo <= md -> 1024 <= md <= d -> md <= e -> alf (Some q) h th md mo P = UB.
Proof.
  intros T Hm Hd He. unfold alf. replace (md <? mo) with false by (symmetry; apply Z.ltb_ge; lia). cbv zeta.
  destruct (start_ok h d P f e (Some q) g md T ltac:(lia)) as (h0 & h1 & E0 & E1 & T1 & _). rewrite E0. cbn [bind]. rewrite E1. cbn [bind].
  assert (F0 : stateP md 0 f 0 0 = Some (Pb 0 0)) by reflexivity. pose proof (column_overflow_d h1 d P _ e q _ md 1023 T1 F0 eq_refl Hd He) as Ub.
  destruct (Z.eq_dec mo 0) as [->|Hz]; [exact Ub|]. destruct (zrange_split 0 mo ltac:(lia)) as (r & ->). cbn [zrange map app seq Z.to_nat fold_res]. unfold column_step at 1. rewrite Ub. reflexivity.
Qed.
Lemma alf_assert h P dP md mo : md < mo -> alf dP h th md mo P = Abort.
Proof. intros H. unfold alf. rewrite (proj2 (Z.ltb_lt _ _)) by lia. reflexivity. Qed.
End Values.

(** ** summary in terms of the specification *)
Definition written (md mo n k : Z) : bool := ((n <=? md) && (k <=? mo)) || ((n =? 1) && (k =? 1)) || ((n =? mo + 1) && (k =? mo)).
Definition result_P (th : R) (md mo : Z) (f : Z -> Z -> cell R) (n k : Z) : cell R := if written md mo n k then Some (Pbar (Z.to_nat n) (Z.to_nat k) th) else f n k.
Lemma functions_ok h th d P f md mo : sized h d P -> shows h d P f -> 0 <= mo <= md -> Z.max md (mo + 1) <= d -> md <= 1024 ->
  exists h', legendre_functions h th md mo P = Ok h' /\ sized h' d P /\ shows h' d P (result_P th md mo f) /\ framed h P h'.
Proof.
  intros S F Hm Hd Hk. destruct (alf_ok th h d P f 0 None f md mo (conj S (conj F I)) Hm Hd) as (h' & E & (S' & F' & _) & L); [discriminate|exact Hk|]. exists h'. split; [exact E|]. split; [exact S'|]. split.
  - eapply shows_ext; [|exact F']. intros n k Hn Hi. unfold fillP, stateP, result_P, written, Pb.
    repeat match goal with |- context [?a =? ?b] => destruct (Z.eqb_spec a b) | |- context [?a <? ?b] => destruct (Z.ltb_spec a b) | |- context [?a <=? ?b] => destruct (Z.leb_spec a b) end; cbn [andb orb]; try reflexivity; exfalso; lia.
  - intros x V A. apply L; auto.
Qed.
Definition result_D (md mo : Z) (D : Z -> Z -> R) (g : Z -> Z -> cell R) (n k : Z) : cell R :=
  if ((n <=? md) && (k <=? mo)) || ((n =? mo + 1) && (k =? mo)) then Some (D n k) else g n k.
Lemma derivatives_ok h th d P f e q g md mo : sized h d P -> shows h d P f -> sized h e q -> shows h e q g -> apart q P -> apart P q ->
  0 <= mo <= md -> Z.max md (mo + 1) <= d -> Z.max md (mo + 1) <= e -> md <= 1023 -> cos th <> 0%R ->
  exists h' D, legendre_derivatives h th md mo P q = Ok h' /\ sized h' d P /\ shows h' d P (result_P th md mo f) /\ sized h' e q /\ shows h' e q (result_D md mo D g) /\
    (forall n k, 0 <= k <= n -> derivable_pt_lim (Pbar (Z.to_nat n) (Z.to_nat k)) th (- D n k)%R) /\
    forall x, valid h x -> apart x P -> apart x q -> valid h' x /\ forall i j, kept x (i, j) -> get R h' x i j = get R h x i j.
Proof.
  intros S F Sq G A1 A2 Hm Hd He Hk C. destruct (alf_ok th h d P f e (Some q) g md mo (conj S (conj F (conj Sq (conj G (conj A1 A2))))) Hm Hd) as (h' & E & (S' & F' & Sq' & G' & _) & L); [auto|exact Hk|]. exists h', (Dc th).
  split; [exact E|]. split; [exact S'|]. split; [|split; [exact Sq'|split; [|split]]].
  - eapply shows_ext; [|exact F']. intros n k Hn Hi. unfold fillP, stateP, result_P, written, Pb.
    repeat match goal with |- context [?a =? ?b] => destruct (Z.eqb_spec a b) | |- context [?a <? ?b] => destruct (Z.ltb_spec a b) | |- context [?a <=? ?b] => destruct (Z.leb_spec a b) end; cbn [andb orb]; try reflexivity; exfalso; lia.
  - eapply shows_ext; [|exact G']. intros n k Hn Hi. unfold fillD, stateD, result_D.
    repeat match goal with |- context [?a =? ?b] => destruct (Z.eqb_spec a b) | |- context [?a <? ?b] => destruct (Z.ltb_spec a b) | |- context [?a <=? ?b] => destruct (Z.leb_spec a b) end; cbn [andb orb]; try reflexivity; exfalso; lia.
  - intros n k Hn. apply Dc_derivative; auto.
  - intros x V B1 B2. apply L; auto.
Qed.
(** with respect to the colatitude *)
Lemma colatitude n m th v : derivable_pt_lim (Pbar n m) th (- v)%R -> derivable_pt_lim (fun c => Pbar n m (PI / 2 - c)%R) (PI / 2 - th)%R v.
Proof.
  intros D. replace v with (- v * (0 - 1))%R by ring. apply (derivable_pt_lim_comp (fun c => PI / 2 - c)%R (Pbar n m)).
  - apply (derivable_pt_lim_minus (fun _ => PI / 2)%R (fun c => c)); [apply derivable_pt_lim_const|apply derivable_pt_lim_id].
  - replace (PI / 2 - (PI / 2 - th))%R with th by ring. exact D.
Qed.
Lemma Pbar_10 th : Pbar 1 0 th = (sqrt 3 * sin th)%R.
Proof. unfold Pbar, norm. rewrite legendre_next, legendre_00. cbn. replace (1 * (1 + 1 + 1) * 1 / 1)%R with 3%R by field. ring. Qed.
Lemma Pbar_20 th : Pbar 2 0 th = (sqrt 5 * (3 * sin th ^ 2 - 1) / 2)%R.
Proof.
  unfold Pbar, norm. pose proof (three_terms 0 0 (sin th) ltac:(lia)) as T. rewrite legendre_next, legendre_00 in T. cbn in T.
  replace (legendre 2 0 (sin th)) with ((3 * sin th ^ 2 - 1) / 2)%R by (cbn; lra). cbn [Nat.eqb Nat.mul Nat.add Nat.sub fact INR pow]. replace (1 * (1 + 1 + 1 + 1 + 1) * (1 + 1) / (1 + 1))%R with 5%R by field. field.
Qed.
Lemma Pbar_21 th : Pbar 2 1 th = (sqrt 15 * sin th * cos th)%R.
Proof.
  rewrite (Pbar_column_first 1), Pbar_11. cbn [Nat.mul Nat.add Nat.sub INR]. rewrite <- !Rmult_assoc. rewrite (Rmult_comm (sqrt _ * sin th)), <- Rmult_assoc, <- sqrt_mult by (try lra; apply Rlt_le, Rdiv_lt_0_compat; lra).
  replace (3 * ((1 + 1 + 1) * (1 + 1 + 1 + 1 + 1) / (1 * (1 + 1 + 1))))%R with 15%R by field. ring.
Qed.
