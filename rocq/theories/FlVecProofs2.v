From Coq Require Import Reals ZArith Bool Lia Lra.
From Verif Require Import Vec FlModel FlProofs FlAlfProofs FlCunModel FlCunProofs7 FlGravProofs FlEopProofs FlVecModel FlVecProofs.
Open Scope R_scope.

(** ** components of a vector of length up to L, with errors relative to the component (or to a thousandth of L) *)
Definition fine (n m : nat) (k : Z) (L : R) (e : fx) : Prop := Rabs (exact e) <= L /\ acc (n + 10) (S m) k (Rabs (exact e) + L / 1000) e.
Definition vfine (n m : nat) (k : Z) (L : R) (a : fv) : Prop :=
  dot (vexact a) (vexact a) <= L * L /\ (/ 2) ^ n <= L <= 2 ^ m /\ fine n m k L (f1 a) /\ fine n m k L (f2 a) /\ fine n m k L (f3 a).
Lemma half_1000 n L : (/ 2) ^ n <= L -> (/ 2) ^ (n + 10) <= L / 1000.
Proof. intros H. rewrite pow_add. assert (E : (/ 2) ^ 10 = / 1024) by (cbn [pow]; field). rewrite E. pose proof (half_pos n). lra. Qed.
Lemma fine_range n m L x : (/ 2) ^ n <= L <= 2 ^ m -> Rabs x <= L -> (/ 2) ^ (n + 10) <= Rabs x + L / 1000 <= 2 ^ S m.
Proof. intros (A & B) H. pose proof (half_1000 n L A). pose proof (Rabs_pos x). pose proof (half_pos n). rewrite <- tech_pow_Rmult. lra. Qed.
Lemma dot_comp x y z L : 0 <= L -> x * x + y * y + z * z <= L * L -> Rabs x <= L /\ Rabs y <= L /\ Rabs z <= L.
Proof.
  intros P H. assert (S : forall t, t * t <= L * L -> Rabs t <= L). { intros t T. apply Rnot_lt_le. intros C. pose proof (Rabs_pos t). assert (E : Rabs t * Rabs t = t * t) by (rewrite <- Rabs_mult; apply Rabs_pos_eq; nra). nra. }
  repeat split; apply S; nra.
Qed.
Lemma vfine_val n m L a : dot a a <= L * L -> (/ 2) ^ n <= L <= 2 ^ m -> vfine n m 0 L (fval a).
Proof.
  intros D R. pose proof (half_pos n) as P. destruct (dot_comp _ _ _ L ltac:(lra) D) as (X & Y & Z). destruct a as [x y z]. cbn [p1 p2 p3] in *. split; [exact D|]. split; [exact R|].
  assert (S : forall t, Rabs t <= L -> fine n m 0 L (Val t)) by (intros t T; split; [exact T|]; cbn [exact]; apply acc_val; [lra|apply fine_range; assumption]). (split; [|split]); apply S; assumption.
Qed.
(** a difference of doubles *)
Lemma vfine_sub n m L a b : (n <=? 900)%nat = true -> dot (vminus a b) (vminus a b) <= L * L -> (/ 2) ^ n <= L <= 2 ^ m -> vfine n m 101 L (fmap2 Mi (fval a) (fval b)).
Proof.
  intros N D R. apply Nat.leb_le in N. pose proof (half_pos n) as P. destruct (dot_comp _ _ _ L ltac:(lra) D) as (X & Y & Z). split; [exact D|]. split; [exact R|].
  assert (S : forall s t, Rabs (s - t) <= L -> fine n m 101 L (Mi (Val s) (Val t))).
  { intros s t T. split; [exact T|]. pose proof (fine_range n m L _ R T) as FR. split; [exact FR|]. cbn [exact]. intros v (x & y & -> & -> & Nr). apply (bd_round (n + 10) 0 _ _ (s - t)); [apply FR|unfold fits; replace (n + 10 <=? 1000)%nat with true by (symmetry; apply Nat.leb_le; lia); reflexivity| |exact Nr].
    split; [lra|]. replace (s - t - (s - t)) with 0 by ring. rewrite Rabs_R0. apply Req_le. field. }
  (split; [|split]); apply S; assumption.
Qed.
(** scaled by a literal *)
Lemma vfine_scale n m n' m' k L a c : (/ 2) ^ n' <= c <= 2 ^ m' -> (n + n' <=? 900)%nat && (0 <=? k)%Z && (k <=? 300)%Z = true -> vfine n m k L a -> vfine (n + n') (m + m') (k + 203) (c * L) (fscale (Cst c) a).
Proof.
  intros C F (D & R & X & Y & Z). apply andb_true_iff in F as (F & K2). apply andb_true_iff in F as (N & K1). apply Nat.leb_le in N. apply Z.leb_le in K1, K2. pose proof (half_pos n') as P'. pose proof (half_pos n) as P.
  assert (R' : (/ 2) ^ (n + n') <= c * L <= 2 ^ (m + m')). { rewrite !pow_add, (Rmult_comm c L). split; apply Rmult_le_compat; lra. }
  split; [|split; [exact R'|]].
  - unfold dot, vexact in *. cbn [f1 f2 f3 fscale exact p1 p2 p3] in *. replace (c * L * (c * L)) with (c * c * (L * L)) by ring. eapply Rle_trans; [|apply Rmult_le_compat_l; [nra|exact D]]. apply Req_le. ring.
  - assert (S : forall e, fine n m k L e -> fine (n + n') (m + m') (k + 203) (c * L) (Ti (Cst c) e)).
    { intros e (E & A). split; [cbn [exact]; rewrite Rabs_mult, (Rabs_pos_eq c) by lra; apply Rmult_le_compat_l; lra|]. cbn [exact].
      replace (Rabs (c * exact e) + c * L / 1000) with (c * (Rabs (exact e) + L / 1000)) by (rewrite Rabs_mult, (Rabs_pos_eq c) by lra; field).
      assert (T : acc (n' + (n + 10)) (m' + S m) (101 + k + 102) (c * (Rabs (exact e) + L / 1000)) (Ti (Cst c) e)).
      { apply acc_ti; [|exact A|]. - apply acc_cst; [rewrite Rabs_pos_eq; lra|exact C|apply Nat.leb_le; lia]. - unfold fits. rewrite !andb_true_iff, !Z.leb_le, !Nat.leb_le. lia. }
      replace (n + n' + 10)%nat with (n' + (n + 10))%nat by lia. replace (S (m + m')) with (m' + S m)%nat by lia. replace (k + 203)%Z with (101 + k + 102)%Z by lia. exact T. }
    (split; [|split]); apply S; assumption.
Qed.
Lemma vfine_neg n m k L a : vfine n m k L a -> vfine n m k L (fneg a).
Proof.
  intros (D & R & X & Y & Z). split; [|split; [exact R|]]. - unfold dot, vexact in *. cbn [f1 f2 f3 fneg exact p1 p2 p3] in *. eapply Rle_trans; [|exact D]. apply Req_le. ring.
  - assert (S : forall e, fine n m k L e -> fine n m k L (Ng e)) by (intros e (E & A); split; cbn [exact]; rewrite Rabs_Ropp; [exact E|apply acc_ng, A]). (split; [|split]); apply S; assumption.
Qed.

(** ** inner products *)
Lemma cauchy x y z a b c L M : 0 <= L -> 0 <= M -> x * x + y * y + z * z <= L * L -> a * a + b * b + c * c <= M * M -> Rabs x * Rabs a + Rabs y * Rabs b + Rabs z * Rabs c <= L * M.
Proof.
  intros PL PM H J. assert (Sq : forall t, Rabs t * Rabs t = t * t) by (intros t; rewrite <- Rabs_mult; apply Rabs_pos_eq; nra). pose proof (Sq x). pose proof (Sq y). pose proof (Sq z). pose proof (Sq a). pose proof (Sq b). pose proof (Sq c).
  pose proof (Rabs_pos x). pose proof (Rabs_pos y). pose proof (Rabs_pos z). pose proof (Rabs_pos a). pose proof (Rabs_pos b). pose proof (Rabs_pos c).
  set (X := Rabs x) in *. set (Y := Rabs y) in *. set (Z := Rabs z) in *. set (A := Rabs a) in *. set (B := Rabs b) in *. set (C := Rabs c) in *. set (S := X * A + Y * B + Z * C).
  assert (Q : S * S <= (L * L) * (M * M)). { apply Rle_trans with ((X * X + Y * Y + Z * Z) * (A * A + B * B + C * C)).
    - unfold S. assert (0 <= (X * B - Y * A) * (X * B - Y * A) + (X * C - Z * A) * (X * C - Z * A) + (Y * C - Z * B) * (Y * C - Z * B)) by (repeat apply Rplus_le_le_0_compat; apply Rle_0_sqr). nra.
    - apply Rmult_le_compat; nra. }
  apply Rnot_lt_le. intros N. assert (0 <= L * M) by (apply Rmult_le_pos; lra). assert (L * M * (L * M) < S * S) by (apply Rmult_le_0_lt_compat; lra). nra.
Qed.
Section Products.
  Variables (n m n' m' : nat) (k l : Z) (L M : R) (a b : fv).
  Hypothesis Ha : vfine n m k L a.
  Hypothesis Hb : vfine n' m' l M b.
  Hypothesis F : ((n + n' <=? 900)%nat && (0 <=? k)%Z && (k <=? 500)%Z && (0 <=? l)%Z && (l <=? 500)%Z)%bool = true.
  Lemma F_spec : (n + n' <= 900)%nat /\ (0 <= k <= 500)%Z /\ (0 <= l <= 500)%Z.
  Proof. rewrite !andb_true_iff, Nat.leb_le, !Z.leb_le in F. lia. Qed.
  Lemma LM_pos : 0 < L /\ 0 < M. Proof. destruct Ha as (_ & (A & _) & _), Hb as (_ & (B & _) & _). pose proof (half_pos n). pose proof (half_pos n'). lra. Qed.
  Lemma LM_range : (/ 2) ^ (n + n') <= L * M <= 2 ^ (m + m').
  Proof. destruct Ha as (_ & A & _), Hb as (_ & B & _). pose proof (half_pos n). pose proof (half_pos n'). rewrite !pow_add. split; apply Rmult_le_compat; lra. Qed.
  Lemma prod_fine s t : fine n m k L s -> fine n' m' l M t -> acc (n + n' + 20) (m + m' + 2) (k + l + 102) ((Rabs (exact s) + L / 1000) * (Rabs (exact t) + M / 1000)) (Ti s t).
  Proof.
    intros (_ & Hs) (_ & Ht). destruct F_spec as (N & K & K'). replace (n + n' + 20)%nat with (n + 10 + (n' + 10))%nat by lia. replace (m + m' + 2)%nat with (S m + S m')%nat by lia. apply acc_ti; [exact Hs|exact Ht|]. unfold fits. rewrite !andb_true_iff, !Z.leb_le, !Nat.leb_le. lia.
  Qed.
  (** the sum of the sizes *)
  Lemma sizes x y z c d e : Rabs x <= L -> Rabs y <= L -> Rabs z <= L -> Rabs c <= M -> Rabs d <= M -> Rabs e <= M -> Rabs x * Rabs c + Rabs y * Rabs d + Rabs z * Rabs e <= L * M ->
    (Rabs x + L / 1000) * (Rabs c + M / 1000) + (Rabs y + L / 1000) * (Rabs d + M / 1000) + (Rabs z + L / 1000) * (Rabs e + M / 1000) <= 1.007 * (L * M).
  Proof. intros. destruct LM_pos as (PL & PM). assert (0 < L * M) by (apply Rmult_lt_0_compat; assumption). assert (Rabs x * M + Rabs y * M + Rabs z * M <= 3 * (L * M)) by nra. assert (L * Rabs c + L * Rabs d + L * Rabs e <= 3 * (L * M)) by nra. lra. Qed.
  (** relative to L M instead of a slightly larger size *)
  Lemma bd_shrink q x v : (0 <= q <= 2000)%Z -> bd (IZR q / 100) (1.007 * (L * M)) x v -> Rabs x <= L * M -> bd (IZR (q + 15) / 100) (L * M) x v.
  Proof.
    intros Q (_ & J) H. split; [exact H|]. eapply Rle_trans; [exact J|]. destruct LM_pos as (PL & PM). assert (0 < L * M) by (apply Rmult_lt_0_compat; assumption). pose proof u_pos. destruct Q as (Q1 & Q2). apply IZR_le in Q1, Q2. rewrite plus_IZR.
    replace (IZR q / 100 * u * (1.007 * (L * M))) with (IZR q / 100 * 1.007 * (u * (L * M))) by ring. replace ((IZR q + 15) / 100 * u * (L * M)) with ((IZR q + 15) / 100 * (u * (L * M))) by ring. apply Rmult_le_compat_r; [apply Rmult_le_pos; lra|]. lra.
  Qed.
  Lemma acc_dot : acc (n + n') (m + m') (k + l + 320) (L * M) (fdot a b).
  Proof.
    pose proof LM_range as SR. split; [exact SR|]. destruct LM_pos as (PL & PM). destruct F_spec as (N & K & K'). destruct Ha as (Da & Ra & A1 & A2 & A3), Hb as (Db & Rb & B1 & B2 & B3). intros v (x & y & z & R1 & R2 & R3 & d & S3).
    pose proof (proj2 (prod_fine _ _ A1 B1) x R1) as Q1. pose proof (proj2 (prod_fine _ _ A2 B2) y R2) as Q2. pose proof (proj2 (prod_fine _ _ A3 B3) z R3) as Q3. destruct (prod_fine _ _ A1 B1) as (L1 & _), (prod_fine _ _ A2 B2) as (L2 & _), (prod_fine _ _ A3 B3) as (L3 & _).
    pose proof (proj1 A1) as E1. pose proof (proj1 A2) as E2. pose proof (proj1 A3) as E3. pose proof (proj1 B1) as E4. pose proof (proj1 B2) as E5. pose proof (proj1 B3) as E6. unfold dot, vexact in Da, Db. cbn [p1 p2 p3] in Da, Db.
    pose proof (cauchy _ _ _ _ _ _ L M ltac:(lra) ltac:(lra) Da Db) as CS. pose proof (sizes _ _ _ _ _ _ E1 E2 E3 E4 E5 E6 CS) as SZ. cbn [exact] in *.
    set (m1 := (Rabs (exact (f1 a)) + L / 1000) * (Rabs (exact (f1 b)) + M / 1000)) in *. set (m2 := (Rabs (exact (f2 a)) + L / 1000) * (Rabs (exact (f2 b)) + M / 1000)) in *. set (m3 := (Rabs (exact (f3 a)) + L / 1000) * (Rabs (exact (f3 b)) + M / 1000)) in *.
    set (e1 := exact (f1 a) * exact (f1 b)) in *. set (e2 := exact (f2 a) * exact (f2 b)) in *. set (e3 := exact (f3 a) * exact (f3 b)) in *. set (q := (k + l + 102)%Z) in *. change (exact (fdot a b)) with (e1 + e2 + e3).
    pose proof (half_pos (n + n' + 20)) as HP. assert (Fq : forall j, (0 <= j <= 3000)%Z -> fits (n + n' + 20) j = true) by (intros j J; unfold fits; rewrite !andb_true_iff, !Z.leb_le, !Nat.leb_le; lia).
    assert (Add : forall i X Y s t s' t', (0 <= i)%Z -> bd (IZR i / 100) X s t -> bd (IZR i / 100) Y s' t' -> bd (IZR i / 100) (X + Y) (s + s') (t + t')). { intros i X Y s t s' t' I G1 G2. replace (IZR i / 100) with (Rmax (IZR i / 100) (IZR i / 100)) by (apply Rmax_left; lra). apply bd_add; assumption. }
    assert (Up : forall X s t, bd (IZR q / 100) X s t -> bd (IZR (q + 101) / 100) X s t) by (intros X s t; apply bd_le; rewrite plus_IZR; lra).
    replace (k + l + 320)%Z with (q + 101 + 101 + 15 + 1)%Z by (unfold q; lia). apply bd_le with (IZR (q + 101 + 101 + 15) / 100); [rewrite (plus_IZR _ 1); lra|]. apply bd_shrink; [unfold q; lia| |].
    - destruct S3 as [(Y1 & Y2)|(Y1 & Y2)].
      + apply bd_weak with (m1 + m2 + m3); [assert (0 <= IZR (q + 101 + 101)) by (apply (IZR_le 0); unfold q; lia); lra|lra|]. apply (bd_round (n + n' + 20)) with (d + z); [lra|apply Fq; unfold q; lia| |exact Y2]. apply Add; [unfold q; lia| |apply Up, Q3]. apply (bd_round (n + n' + 20)) with (x + y); [lra|apply Fq; unfold q; lia| |exact Y1]. apply Add; [unfold q; lia|exact Q1|exact Q2].
      + apply bd_weak with (m1 + (m2 + m3)); [assert (0 <= IZR (q + 101 + 101)) by (apply (IZR_le 0); unfold q; lia); lra|lra|]. rewrite (Rplus_assoc e1 e2 e3). apply (bd_round (n + n' + 20)) with (x + d); [lra|apply Fq; unfold q; lia| |exact Y2]. apply Add; [unfold q; lia|apply Up, Q1|]. apply (bd_round (n + n' + 20)) with (y + z); [lra|apply Fq; unfold q; lia| |exact Y1]. apply Add; [unfold q; lia|exact Q2|exact Q3].
    - eapply Rle_trans; [|exact CS]. unfold e1, e2, e3. eapply Rle_trans; [apply Rabs_triang|]. rewrite <- !Rabs_mult. pose proof (Rabs_triang (exact (f1 a) * exact (f1 b)) (exact (f2 a) * exact (f2 b))). lra.
  Qed.
  (** one component of a vector product *)
  Lemma acc_minor s t c d : fine n m k L s -> fine n m k L t -> fine n' m' l M c -> fine n' m' l M d -> Rabs (exact s) * Rabs (exact c) + Rabs (exact t) * Rabs (exact d) <= L * M ->
    acc (n + n') (m + m') (k + l + 219) (L * M) (Mi (Ti s c) (Ti t d)).
  Proof.
    intros A1 A2 B1 B2 CS. pose proof LM_range as SR. split; [exact SR|]. destruct LM_pos as (PL & PM). destruct F_spec as (N & K & K'). intros v (x & y & R1 & R2 & Y1).
    pose proof (proj2 (prod_fine _ _ A1 B1) x R1) as Q1. pose proof (proj2 (prod_fine _ _ A2 B2) y R2) as Q2. destruct (prod_fine _ _ A1 B1) as (L1 & _), (prod_fine _ _ A2 B2) as (L2 & _).
    pose proof (proj1 A1) as E1. pose proof (proj1 A2) as E2. pose proof (proj1 B1) as E4. pose proof (proj1 B2) as E5.
    assert (Z0 : Rabs 0 <= L) by (rewrite Rabs_R0; lra). assert (Z1 : Rabs 0 <= M) by (rewrite Rabs_R0; lra). pose proof (sizes _ _ 0 _ _ 0 E1 E2 Z0 E4 E5 Z1 ltac:(rewrite !Rabs_R0; lra)) as SZ. cbn [exact] in *.
    assert (SZ' : 0 <= (Rabs 0 + L / 1000) * (Rabs 0 + M / 1000)) by (rewrite !Rabs_R0; apply Rmult_le_pos; lra).
    set (m1 := (Rabs (exact s) + L / 1000) * (Rabs (exact c) + M / 1000)) in *. set (m2 := (Rabs (exact t) + L / 1000) * (Rabs (exact d) + M / 1000)) in *. set (q := (k + l + 102)%Z) in *.
    pose proof (half_pos (n + n' + 20)) as HP. replace (k + l + 219)%Z with (q + 101 + 15 + 1)%Z by (unfold q; lia). apply bd_le with (IZR (q + 101 + 15) / 100); [rewrite (plus_IZR _ 1); lra|]. apply bd_shrink; [unfold q; lia| |].
    - apply bd_weak with (m1 + m2); [assert (0 <= IZR (q + 101)) by (apply (IZR_le 0); unfold q; lia); lra|lra|]. apply (bd_round (n + n' + 20)) with (x - y); [lra|unfold fits; rewrite !andb_true_iff, !Z.leb_le, !Nat.leb_le; unfold q; lia| |exact Y1].
      replace (IZR q / 100) with (Rmax (IZR q / 100) (IZR q / 100)) by (apply Rmax_left; lra). apply bd_sub; [exact Q1|exact Q2].
    - eapply Rle_trans; [|exact CS]. unfold Rminus. eapply Rle_trans; [apply Rabs_triang|]. rewrite Rabs_Ropp, !Rabs_mult. lra.
  Qed.
  Lemma acc_cross : acc (n + n') (m + m') (k + l + 219) (L * M) (f1 (fcross a b)) /\ acc (n + n') (m + m') (k + l + 219) (L * M) (f2 (fcross a b)) /\ acc (n + n') (m + m') (k + l + 219) (L * M) (f3 (fcross a b)).
  Proof.
    destruct Ha as (Da & Ra & A1 & A2 & A3), Hb as (Db & Rb & B1 & B2 & B3). destruct LM_pos as (PL & PM). unfold dot, vexact in Da, Db. cbn [p1 p2 p3] in Da, Db.
    assert (C : forall x y z c d e, x * x + y * y + z * z <= L * L -> c * c + d * d + e * e <= M * M -> Rabs x * Rabs d + Rabs y * Rabs c <= L * M).
    { intros x y z c d e X C. pose proof (cauchy x y z d c e L M ltac:(lra) ltac:(lra) X ltac:(lra)) as H. pose proof (Rmult_le_pos _ _ (Rabs_pos z) (Rabs_pos e)). lra. }
    cbn [fcross f1 f2 f3]. split; [|split]; apply acc_minor; try assumption.
    - apply (C _ _ (exact (f1 a)) _ _ (exact (f1 b))); lra.
    - apply (C _ _ (exact (f2 a)) _ _ (exact (f2 b))); lra.
    - apply (C _ _ (exact (f3 a)) _ _ (exact (f3 b))); lra.
  Qed.
End Products.

(** ** the length *)
Lemma acc_norm n m k L a : vfine n m k L a -> dot (vexact a) (vexact a) = L * L -> (n + n <=? 900)%nat && (0 <=? k)%Z && (k <=? 500)%Z = true -> exact (fdot a a) = L * L /\ exact (fnorm a) = L /\ acc n m (k + 262) L (fnorm a).
Proof.
  intros H D F. assert (E : exact (fdot a a) = L * L) by (rewrite <- D; reflexivity). pose proof H as (_ & R & _). pose proof (half_pos n) as P. assert (EL : exact (fnorm a) = L) by (cbn [fnorm exact] in *; unfold fnorm; change (exact (Rt (fdot a a))) with (sqrt (exact (fdot a a))); rewrite E; apply sqrt_square; lra).
  split; [exact E|]. split; [exact EL|]. split; [exact R|]. intros v (x & Rx & Nr). rewrite EL. apply andb_true_iff in F as (F & K2). apply andb_true_iff in F as (N & K1).
  assert (Q : acc (n + n) (m + m) (k + k + 320) (L * L) (fdot a a)) by (apply acc_dot with (1 := H) (2 := H); rewrite N, K1, K2; reflexivity). pose proof (proj2 Q x Rx) as B. rewrite E in B. apply Z.leb_le in K1, K2. apply Nat.leb_le in N. pose proof (IZR_le _ _ K1). pose proof (IZR_le _ _ K2).
  apply bd_root in B; [|rewrite !plus_IZR; lra|lra]. replace (k + 262)%Z with (k + 161 + 101)%Z by lia. apply (bd_round n) with (sqrt x); [apply R|unfold fits; rewrite !andb_true_iff, !Z.leb_le, !Nat.leb_le; lia| |exact Nr].
  apply bd_le with (2 := B). rewrite !plus_IZR. lra.
Qed.
Lemma acc_square n m k L a : vfine n m k L a -> (n + n <=? 900)%nat && (0 <=? k)%Z && (k <=? 500)%Z = true -> acc (n + n) (m + m) (k + k + 320) (L * L) (fdot a a).
Proof. intros H F. apply acc_dot with (1 := H) (2 := H). apply andb_true_iff in F as (F & K2). apply andb_true_iff in F as (N & K1). rewrite N, K1, K2. reflexivity. Qed.
