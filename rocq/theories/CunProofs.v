From Coq Require Import Reals ZArith List Bool Lia Lra.
From Verif Require Import Base StorageModel StorageSpec StorageProofs MatrixModel MatrixSpec MatrixProofs TideSpec TideProofs PoleModel PoleProofs PoleProofs2 AlfSpec AlfMath AlfModel AlfProofs CunSpec CunMath CunMath2 CunModel.
Import ListNotations.
Open Scope Z_scope.

(** ** addresses *)
(** element (i, j) of a matrix of degree d, seen from element (d+1, j): the first of the next column *)
Definition reach (d i j : Z) : Prop := 0 <= j <= i /\ (i <= d \/ i = d + 1 /\ j < d).
Definition at_i (d i j : Z) : Z := if i <=? d then i else j + 1.
Definition at_j (d i j : Z) : Z := if i <=? d then j else j + 1.
Lemma index_next (h : mem R) d A j : sized h d A -> index (st A) (d + 1) j = index (st A) (j + 1) (j + 1).
Proof.
  intros (_ & E & Hr & _). unfold index, slice. rewrite E. unfold rows in Hr. rewrite Hr.
  replace ((j + 1) * (j + 1 - 1)) with (j * (j - 1) + j * 2) by ring. rewrite (Z.quot_add (j * (j - 1)) j 2); [lia|lia|].
  nia.
Qed.
Lemma at_index (h : mem R) d A i j : sized h d A -> reach d i j -> index (st A) i j = index (st A) (at_i d i j) (at_j d i j).
Proof.
  intros S (Hj & [H|(-> & H)]); unfold at_i, at_j.
  - destruct (Z.leb_spec i d); [reflexivity|lia].
  - destruct (Z.leb_spec (d + 1) d); [lia|]. apply (index_next h d A j S).
Qed.
Lemma at_range d i j : reach d i j -> 0 <= at_j d i j <= at_i d i j /\ at_i d i j <= d.
Proof. intros (Hj & H). unfold at_i, at_j. destruct (Z.leb_spec i d); lia. Qed.
Lemma getv_reach (h : mem R) d A f i j v : sized h d A -> shows h d A f -> reach d i j -> f (at_i d i j) (at_j d i j) = Some v -> getv h A i j = Ok v.
Proof.
  intros S F H E. unfold getv, get. rewrite (at_index h d A i j S H). pose proof (at_range d i j H) as Q. fold (get R h A (at_i d i j) (at_j d i j)). rewrite F by lia. cbn [bind]. rewrite E. reflexivity.
Qed.

(** the two matrices *)
Definition duo (h : mem R) (d : Z) (M : mat) f (e : Z) (W : mat) g : Prop := two h d M f e (Some W) g.
Lemma putv_M h d M f e W g i j v : duo h d M f e W g -> reach d i j ->
  exists h', putv h M i j v = Ok h' /\ duo h' d M (wr f (at_i d i j) (at_j d i j) (Some v)) e W g /\ elsewhere h M (Some W) h'.
Proof.
  intros T H. pose proof (at_range d i j H) as Q. pose proof (two_P h d M f e (Some W) g (at_j d i j) (at_i d i j - at_j d i j) (Some v) T ltac:(lia) ltac:(lia) ltac:(lia)) as (h' & E & T' & L).
  exists h'. replace (at_j d i j + (at_i d i j - at_j d i j)) with (at_i d i j) in T' by lia. refine (conj _ (conj T' L)).
  rewrite <- E. rewrite (colput_put h h M d) by apply T. unfold putv, put. rewrite (at_index h d M i j (proj1 T) H). do 2 f_equal. lia.
Qed.
Lemma putv_W h d M f e W g i j v : duo h d M f e W g -> reach e i j ->
  exists h', putv h W i j v = Ok h' /\ duo h' d M f e W (wr g (at_i e i j) (at_j e i j) (Some v)) /\ elsewhere h M (Some W) h'.
Proof.
  intros T H. pose proof (at_range e i j H) as Q. pose proof (two_dP h d M f e W g (at_j e i j) (at_i e i j - at_j e i j) (Some v) T ltac:(lia) ltac:(lia) ltac:(lia)) as (h' & E & T' & L).
  exists h'. replace (at_j e i j + (at_i e i j - at_j e i j)) with (at_i e i j) in T' by lia. refine (conj _ (conj T' L)).
  destruct T as (_ & _ & SW & _). rewrite <- E. rewrite (colput_put h h W e) by exact SW. unfold putv, put. rewrite (at_index h e W i j SW H). do 2 f_equal. lia.
Qed.
Lemma getv_M h d M f e W g i j v : duo h d M f e W g -> reach d i j -> f (at_i d i j) (at_j d i j) = Some v -> getv h M i j = Ok v.
Proof. intros (S & F & _). apply getv_reach; assumption. Qed.
Lemma getv_W h d M f e W g i j v : duo h d M f e W g -> reach e i j -> g (at_i e i j) (at_j e i j) = Some v -> getv h W i j = Ok v.
Proof. intros (_ & _ & S & F & _). apply getv_reach; assumption. Qed.
Lemma at_inside d i j : i <= d -> at_i d i j = i /\ at_j d i j = j.
Proof. intros H. unfold at_i, at_j. destruct (Z.leb_spec i d); [auto|lia]. Qed.
Lemma past_index (h : mem R) A d : sized h d A -> index (st A) (d + 1) d = nelem A.
Proof. intros S. rewrite (last_slice h A d S). destruct S as (_ & E & _). unfold index. rewrite E. lia. Qed.
Lemma putv_past (h : mem R) A d v : sized h d A -> cap A = nelem A -> putv h A (d + 1) d v = UB.
Proof.
  intros S C. pose proof (past_index h A d S) as Q. pose proof S as (_ & E & _). pose proof (colput_past h A d d 1 (Some v) S C) as U. unfold putv, put, colput in *. unfold index in *. rewrite E in *. replace (d + 1 - d) with 1 in * by lia. apply U. lia.
Qed.
Lemma getv_past (h : mem R) A d j : sized h d A -> cap A = nelem A -> j = d \/ j = d + 1 -> getv h A (d + 1) j = UB.
Proof.
  intros S C J. assert (Q : index (st A) (d + 1) j = nelem A) by (destruct J as [-> | ->]; [|rewrite <- (index_next h d A d S)]; apply (past_index h A d S)).
  destruct S as (V & _). destruct (valid_contents _ _ V) as (l & Hp & Hl). unfold getv, get, load. rewrite Q. destruct (ptr A) as [q|]; [|reflexivity]. rewrite Hp. replace (znth l (nelem A)) with (@None (cell R)); [reflexivity|]. symmetry.
  unfold znth. destruct (_ <? 0) eqn:E; [reflexivity|]. apply Z.ltb_ge in E. apply nth_error_None. lia.
Qed.

(** ** the table *)
Lemma f1_next n m : 0 <= m < n -> n < 201 -> f1 n m = Ok (An (Z.to_nat (n - 1)) (Z.to_nat m)).
Proof.
  intros Hm Hn. unfold f1, table_size. destruct (Z.leb_spec 0 m); [|lia]. destruct (Z.leb_spec m n); [|lia]. destruct (Z.ltb_spec n 201); [|lia]. cbn [andb]. destruct (Z.eqb_spec n m); [lia|]. f_equal. unfold An. f_equal.
  rewrite (INR_Z (2 * Z.to_nat (n - 1) + 1) (2 * n - 1)) by lia. rewrite (INR_Z (2 * Z.to_nat (n - 1) + 3) (2 * n + 1)) by lia. rewrite (INR_Z (S (Z.to_nat (n - 1)) - Z.to_nat m) (n - m)) by lia. rewrite (INR_Z (S (Z.to_nat (n - 1)) + Z.to_nat m) (n + m)) by lia.
  rewrite minus_IZR, plus_IZR, !mult_IZR. pose proof (IZR_lt 0 (n - m) ltac:(lia)). pose proof (IZR_lt 0 (n + m) ltac:(lia)). field. lra.
Qed.
Lemma f2_next n m : 0 <= m -> m + 2 <= n -> n < 201 -> f2 n m = Ok (- Bn (Z.to_nat (n - 2)) (Z.to_nat m))%R.
Proof.
  intros Hm Hn Hl. unfold f2, table_size. destruct (Z.leb_spec 0 m); [|lia]. destruct (Z.leb_spec m n); [|lia]. destruct (Z.ltb_spec n 201); [|lia]. cbn [andb]. destruct (Z.eqb_spec n m); [lia|]. do 2 f_equal. unfold Bn. f_equal.
  rewrite (INR_Z (2 * Z.to_nat (n - 2) + 5) (2 * n + 1)) by lia. rewrite (INR_Z (Z.to_nat (n - 2) + Z.to_nat m + 1) (n + m - 1)) by lia. rewrite (INR_Z (S (Z.to_nat (n - 2)) - Z.to_nat m) (n - m - 1)) by lia.
  rewrite (INR_Z (S (S (Z.to_nat (n - 2))) - Z.to_nat m) (n - m)) by lia. rewrite (INR_Z (S (S (Z.to_nat (n - 2))) + Z.to_nat m) (n + m)) by lia. rewrite (INR_Z (2 * Z.to_nat (n - 2) + 1) (2 * n - 3)) by lia.
  rewrite mult_IZR. replace (2 * IZR n - 3)%R with (IZR (2 * n - 3)) by (rewrite minus_IZR, mult_IZR; reflexivity). replace (2 * IZR n + 1)%R with (IZR (2 * n + 1)) by (rewrite plus_IZR, mult_IZR; reflexivity).
  pose proof (IZR_lt 0 (n - m) ltac:(lia)). pose proof (IZR_lt 0 (n + m) ltac:(lia)). pose proof (IZR_lt 0 (2 * n - 3) ltac:(lia)). field. lra.
Qed.
Lemma f1_diagonal m : 1 <= m < 201 -> f1 m m = Ok (Dn (Z.to_nat (m - 1))).
Proof.
  intros H. unfold f1, table_size. destruct (Z.leb_spec 0 m); [|lia]. destruct (Z.leb_spec m m); [|lia]. destruct (Z.ltb_spec m 201); [|lia]. cbn [andb]. rewrite Z.eqb_refl. destruct (Z.eqb_spec m 0); [lia|]. f_equal. unfold Dn.
  destruct (Z.eqb_spec m 1) as [-> |]; [reflexivity|]. destruct (Nat.eqb_spec (Z.to_nat (m - 1)) 0); [lia|]. f_equal.
  rewrite (INR_Z (2 * Z.to_nat (m - 1) + 3) (2 * m + 1)) by lia. rewrite (INR_Z (2 * Z.to_nat (m - 1) + 2) (2 * m)) by lia. rewrite plus_IZR, mult_IZR. reflexivity.
Qed.

(** ** the recursion *)
Section Values.
  Variables sx sy sz : R.
  Hypothesis P : (0 < sx * sx + sy * sy + sz * sz)%R.
  Let nrm := rad sx sy sz.
  Let rr := (1 / nrm * (1 / nrm))%R.
  Definition VZ (n k : Z) : R := Vn (Z.to_nat n) (Z.to_nat k) sx sy sz.
  Definition WZ (n k : Z) : R := Wn (Z.to_nat n) (Z.to_nat k) sx sy sz.
  Lemma VZ_next n m : 0 <= m -> m + 2 <= n -> VZ n m = (An (Z.to_nat (n - 1)) (Z.to_nat m) * (sz * rr) * VZ (n - 1) m + - Bn (Z.to_nat (n - 2)) (Z.to_nat m) * rr * VZ (n - 2) m)%R.
  Proof.
    intros Hm Hn. unfold VZ. pose proof (Vn_next sx sy sz P (Z.to_nat (n - 2)) (Z.to_nat m) ltac:(lia)) as E. fold nrm rr in E. replace (S (S (Z.to_nat (n - 2)))) with (Z.to_nat n) in E by lia. replace (S (Z.to_nat (n - 2))) with (Z.to_nat (n - 1)) in E by lia. rewrite E. ring.
  Qed.
  Lemma WZ_next n m : 0 <= m -> m + 2 <= n -> WZ n m = (An (Z.to_nat (n - 1)) (Z.to_nat m) * (sz * rr) * WZ (n - 1) m + - Bn (Z.to_nat (n - 2)) (Z.to_nat m) * rr * WZ (n - 2) m)%R.
  Proof.
    intros Hm Hn. unfold WZ. pose proof (Wn_next sx sy sz P (Z.to_nat (n - 2)) (Z.to_nat m) ltac:(lia)) as E. fold nrm rr in E. replace (S (S (Z.to_nat (n - 2)))) with (Z.to_nat n) in E by lia. replace (S (Z.to_nat (n - 2))) with (Z.to_nat (n - 1)) in E by lia. rewrite E. ring.
  Qed.
  Lemma VZ_first m : 0 <= m -> VZ (m + 1) m = (An (Z.to_nat m) (Z.to_nat m) * (sz * rr) * VZ m m)%R.
  Proof. intros H. unfold VZ. replace (Z.to_nat (m + 1)) with (S (Z.to_nat m)) by lia. apply (Vn_first sx sy sz P). Qed.
  Lemma WZ_first m : 0 <= m -> WZ (m + 1) m = (An (Z.to_nat m) (Z.to_nat m) * (sz * rr) * WZ m m)%R.
  Proof. intros H. unfold WZ. replace (Z.to_nat (m + 1)) with (S (Z.to_nat m)) by lia. apply (Wn_first sx sy sz P). Qed.
  Lemma VZ_diagonal m : 1 <= m -> VZ m m = (Dn (Z.to_nat (m - 1)) * (sx * rr * VZ (m - 1) (m - 1) - sy * rr * WZ (m - 1) (m - 1)))%R.
  Proof. intros H. unfold VZ, WZ. replace (Z.to_nat m) with (S (Z.to_nat (m - 1))) by lia. apply (Vn_diagonal sx sy sz P). Qed.
  Lemma WZ_diagonal m : 1 <= m -> WZ m m = (Dn (Z.to_nat (m - 1)) * (sy * rr * VZ (m - 1) (m - 1) + sx * rr * WZ (m - 1) (m - 1)))%R.
  Proof. intros H. unfold VZ, WZ. replace (Z.to_nat m) with (S (Z.to_nat (m - 1))) by lia. apply (Wn_diagonal sx sy sz P). Qed.

  (** column m filled down to row N *)
  Definition cf (N d m : Z) (V : Z -> Z -> R) (f : Z -> Z -> cell R) : Z -> Z -> cell R :=
    fun n k => if (k =? m) && (m <=? n) && (n <=? Z.min N d) then Some (V n k) else if (d <? N) && (n =? m + 1) && (k =? m + 1) then Some (V N m) else f n k.
  Lemma cf_step N d m V f n k : 0 <= m < d -> m < N -> m <= N - 1 -> N - 1 <= d -> 0 <= k <= n -> n <= d ->
    wr (cf (N - 1) d m V f) (at_i d N m) (at_j d N m) (Some (V N m)) n k = cf N d m V f n k.
  Proof.
    intros Hm H1 H2 H3 Hk Hn. unfold wr, cf, at_i, at_j.
    destruct (Z.leb_spec N d).
    - destruct (Z.ltb_spec d (N - 1)); [lia|]. destruct (Z.ltb_spec d N); [lia|]. cbn [andb]. destruct (Z.eqb_spec k m) as [-> |]; [|rewrite andb_false_r; reflexivity]. rewrite andb_true_r. cbn [andb].
      destruct (Z.eqb_spec n N) as [-> |]; [destruct (Z.leb_spec m N); [|lia]; destruct (Z.leb_spec N (Z.min N d)); [reflexivity|lia]|].
      destruct (Z.leb_spec n (Z.min (N - 1) d)), (Z.leb_spec n (Z.min N d)); try reflexivity; lia.
    - destruct (Z.ltb_spec d (N - 1)); [lia|]. destruct (Z.ltb_spec d N); [|lia]. cbn [andb]. replace (Z.min (N - 1) d) with (Z.min N d) by lia.
      destruct (Z.eqb_spec n (m + 1)) as [-> |]; cbn [andb]; [|reflexivity]. destruct (Z.eqb_spec k (m + 1)) as [-> |]; [|reflexivity]. destruct (Z.eqb_spec (m + 1) m); [lia|]. reflexivity.
  Qed.
  Lemma cf_read N d m V f n : 0 <= m -> m <= n -> n <= N -> n <= d -> cf N d m V f (at_i d n m) (at_j d n m) = Some (V n m).
  Proof.
    intros Hm H1 H2 H3. destruct (at_inside d n m H3) as (-> & ->). unfold cf. rewrite Z.eqb_refl. destruct (Z.leb_spec m n); [|lia]. destruct (Z.leb_spec n (Z.min N d)); [reflexivity|lia].
  Qed.

  Variables (M W : mat) (d e : Z).
  Notation adv := (advance (sz * rr) rr).
  (** one element of M, resp. of W *)
  Lemma advance_M h f g m N : duo h d M (cf (N - 1) d m VZ f) e W g -> 0 <= m < d -> m + 2 <= N -> N - 1 <= d -> N < 201 ->
    exists h', adv M m h N = Ok h' /\ duo h' d M (cf N d m VZ f) e W g /\ elsewhere h M (Some W) h'.
  Proof.
    intros T Hm HN Hd HL. unfold advance. rewrite (f1_next N m) by lia. cbn [bind].
    rewrite (getv_M h d M _ e W g (N - 1) m (VZ (N - 1) m) T) by (first [unfold reach; lia|apply cf_read; lia]). cbn [bind]. rewrite (f2_next N m) by lia. cbn [bind].
    rewrite (getv_M h d M _ e W g (N - 2) m (VZ (N - 2) m) T) by (first [unfold reach; lia|apply cf_read; lia]). cbn [bind]. rewrite <- VZ_next by lia.
    destruct (putv_M h d M _ e W g N m (VZ N m) T) as (h' & E & T' & L); [unfold reach; lia|]. exists h'. refine (conj E (conj _ L)).
    eapply two_ext; [| |exact T']; [|reflexivity]. intros n k Hk Hn. apply cf_step; lia.
  Qed.
  Lemma advance_W h f g m N : duo h d M f e W (cf (N - 1) e m WZ g) -> 0 <= m < e -> m + 2 <= N -> N - 1 <= e -> N < 201 ->
    exists h', adv W m h N = Ok h' /\ duo h' d M f e W (cf N e m WZ g) /\ elsewhere h M (Some W) h'.
  Proof.
    intros T Hm HN Hd HL. unfold advance. rewrite (f1_next N m) by lia. cbn [bind].
    rewrite (getv_W h d M f e W _ (N - 1) m (WZ (N - 1) m) T) by (first [unfold reach; lia|apply cf_read; lia]). cbn [bind]. rewrite (f2_next N m) by lia. cbn [bind].
    rewrite (getv_W h d M f e W _ (N - 2) m (WZ (N - 2) m) T) by (first [unfold reach; lia|apply cf_read; lia]). cbn [bind]. rewrite <- WZ_next by lia.
    destruct (putv_W h d M f e W _ N m (WZ N m) T) as (h' & E & T' & L); [unfold reach; lia|]. exists h'. refine (conj E (conj _ L)).
    eapply two_ext; [| |exact T']; [reflexivity|]. intros n k Hk Hn. apply cf_step; lia.
  Qed.
  Lemma zrange2_snoc lo c : zrange2 lo (lo + Z.of_nat (S c)) = zrange2 lo (lo + Z.of_nat c) ++ [lo + Z.of_nat c].
  Proof.
    unfold zrange2. replace (lo + Z.of_nat (S c) - lo) with (Z.of_nat c + 1) by lia. replace (lo + Z.of_nat c - lo) with (Z.of_nat c) by lia. rewrite seq_snoc by lia. rewrite map_app. reflexivity.
  Qed.
  (** rows m+2 .. N *)
  Lemma rows_ok f g m : 0 <= m < d -> m < e -> forall c h, duo h d M (cf (m + 1) d m VZ f) e W (cf (m + 1) e m WZ g) -> m + 1 + Z.of_nat c <= d + 1 -> m + 1 + Z.of_nat c <= e + 1 -> m + 1 + Z.of_nat c < 201 ->
    exists h', fold_res (fun h n => h' <- adv M m h n ;; adv W m h' n) (zrange2 (m + 2) (m + 2 + Z.of_nat c)) h = Ok h' /\
      duo h' d M (cf (m + 1 + Z.of_nat c) d m VZ f) e W (cf (m + 1 + Z.of_nat c) e m WZ g) /\ elsewhere h M (Some W) h'.
  Proof.
    intros Hm He. induction c as [|c IH]; intros h T H1 H2 H3.
    - rewrite Nat2Z.inj_0, !Z.add_0_r. unfold zrange2. rewrite Z.sub_diag. exists h. refine (conj eq_refl (conj T (elsewhere_refl _ _ _))).
    - destruct (IH h T ltac:(lia) ltac:(lia) ltac:(lia)) as (h1 & E1 & T1 & L1). rewrite zrange2_snoc, fold_res_app, E1. cbn [bind fold_res].
      replace (m + 1 + Z.of_nat c) with (m + 2 + Z.of_nat c - 1) in T1 by lia.
      destruct (advance_M h1 f _ m (m + 2 + Z.of_nat c) T1 ltac:(lia) ltac:(lia) ltac:(lia) ltac:(lia)) as (h2 & E2 & T2 & L2). rewrite E2. cbn [bind].
      destruct (advance_W h2 _ g m (m + 2 + Z.of_nat c) T2 ltac:(lia) ltac:(lia) ltac:(lia) ltac:(lia)) as (h3 & E3 & T3 & L3). rewrite E3. cbn [bind].
      exists h3. split; [reflexivity|]. replace (m + 1 + Z.of_nat (S c)) with (m + 2 + Z.of_nat c) by lia. split; [exact T3|]. eapply elsewhere_trans; [exact L1|]. eapply elsewhere_trans; [exact L2|exact L3].
  Qed.
  Lemma rows0_ok f g : 0 < d -> forall c h, duo h d M (cf 1 d 0 VZ f) e W g -> 1 + Z.of_nat c <= d + 1 -> 1 + Z.of_nat c < 201 ->
    exists h', fold_res (adv M 0) (zrange2 2 (2 + Z.of_nat c)) h = Ok h' /\ duo h' d M (cf (1 + Z.of_nat c) d 0 VZ f) e W g /\ elsewhere h M (Some W) h'.
  Proof.
    intros Hd. induction c as [|c IH]; intros h T H1 H3.
    - rewrite Nat2Z.inj_0, !Z.add_0_r. unfold zrange2. rewrite Z.sub_diag. exists h. refine (conj eq_refl (conj T (elsewhere_refl _ _ _))).
    - destruct (IH h T ltac:(lia) ltac:(lia)) as (h1 & E1 & T1 & L1). rewrite zrange2_snoc, fold_res_app, E1. cbn [bind fold_res].
      replace (1 + Z.of_nat c) with (2 + Z.of_nat c - 1) in T1 by lia.
      destruct (advance_M h1 f _ 0 (2 + Z.of_nat c) T1 ltac:(lia) ltac:(lia) ltac:(lia) ltac:(lia)) as (h2 & E2 & T2 & L2). rewrite E2. cbn [bind].
      exists h2. split; [reflexivity|]. replace (1 + Z.of_nat (S c)) with (2 + Z.of_nat c) by lia. split; [exact T2|]. eapply elsewhere_trans; [exact L1|exact L2].
  Qed.

  (** columns 0 .. m filled *)
  Variable N : Z. (* degree + 2 *)
  Definition colst (d : Z) (V : Z -> Z -> R) (m : Z) : Z -> Z -> cell R :=
    fun n k => if (k <=? m) && (n <=? Z.min N d) then Some (V n k) else if (d <? N) && (n =? m + 1) && (k =? m + 1) then Some (V N m) else Some 0%R.
  Notation diag := (diagonal M W (sx * rr) (sy * rr)).
  Lemma diagonal_ok h m f g : duo h d M f e W g -> f (m - 1) (m - 1) = Some (VZ (m - 1) (m - 1)) -> g (m - 1) (m - 1) = Some (WZ (m - 1) (m - 1)) -> 1 <= m < 201 -> m <= d -> m <= e ->
    exists h', diag h m = Ok h' /\ duo h' d M (wr f m m (Some (VZ m m))) e W (wr g m m (Some (WZ m m))) /\ elsewhere h M (Some W) h'.
  Proof.
    intros T F G H Hd He. unfold diagonal. rewrite f1_diagonal by lia. cbn [bind].
    rewrite (getv_M h d M f e W g (m - 1) (m - 1) (VZ (m - 1) (m - 1)) T) by (first [unfold reach; lia|destruct (at_inside d (m - 1) (m - 1) ltac:(lia)) as (-> & ->); exact F]). cbn [bind].
    rewrite (getv_W h d M f e W g (m - 1) (m - 1) (WZ (m - 1) (m - 1)) T) by (first [unfold reach; lia|destruct (at_inside e (m - 1) (m - 1) ltac:(lia)) as (-> & ->); exact G]). cbn [bind].
    rewrite <- VZ_diagonal by lia. destruct (putv_M h d M f e W g m m (VZ m m) T) as (h1 & E1 & T1 & L1); [unfold reach; lia|]. rewrite E1. cbn [bind]. destruct (at_inside d m m Hd) as (A1 & A2). rewrite A1, A2 in T1.
    rewrite (getv_M h1 d M _ e W g (m - 1) (m - 1) (VZ (m - 1) (m - 1)) T1).
    2: unfold reach; lia.
    2: { destruct (at_inside d (m - 1) (m - 1) ltac:(lia)) as (-> & ->). unfold wr. destruct (Z.eqb_spec (m - 1) m); [lia|]. exact F. }
    cbn [bind]. rewrite (getv_W h1 d M _ e W g (m - 1) (m - 1) (WZ (m - 1) (m - 1)) T1) by (first [unfold reach; lia|destruct (at_inside e (m - 1) (m - 1) ltac:(lia)) as (-> & ->); exact G]). cbn [bind].
    rewrite <- WZ_diagonal by lia. destruct (putv_W h1 d M _ e W g m m (WZ m m) T1) as (h2 & E2 & T2 & L2); [unfold reach; lia|]. rewrite E2. destruct (at_inside e m m He) as (B1 & B2). rewrite B1, B2 in T2.
    exists h2. refine (conj eq_refl (conj T2 _)). eapply elsewhere_trans; eassumption.
  Qed.
  (** a new column on top of the previous ones *)
  Lemma cf_colst D V m f n k : 0 <= m < D -> m + 1 <= N -> N <= D + 1 \/ N <= D -> 0 <= k <= n -> n <= D ->
    (forall n k, 0 <= k <= n -> n <= D -> (n = m /\ k = m -> False) -> (n = m + 1 /\ k = m -> False) -> f n k = colst D V (m - 1) n k) -> cf N D m V f n k = colst D V m n k.
  Proof.
    intros Hm HN HD Hk Hn F. unfold cf.
    destruct (Z.eqb_spec k m) as [-> |]; cbn [andb].
    - destruct (Z.leb_spec m n); [|lia]. cbn [andb]. unfold colst. rewrite Z.leb_refl. cbn [andb]. destruct (Z.leb_spec n (Z.min N D)); [reflexivity|].
      destruct (Z.eqb_spec m (m + 1)); [lia|]. rewrite !andb_false_r. rewrite F by lia. unfold colst. destruct (Z.leb_spec m (m - 1)); [lia|]. cbn [andb]. destruct (Z.eqb_spec n (m - 1 + 1)); [lia|]. rewrite andb_false_r. reflexivity.
    - unfold colst. destruct (Z.ltb_spec D N); cbn [andb].
      + destruct (Z.eqb_spec n (m + 1)) as [-> |]; cbn [andb].
        * destruct (Z.eqb_spec k (m + 1)) as [-> |]; [destruct (Z.leb_spec (m + 1) m); [lia|]; reflexivity|]. rewrite F by lia. unfold colst. destruct (Z.leb_spec k m), (Z.leb_spec k (m - 1)); try lia; cbn [andb]. destruct (Z.leb_spec (m + 1) (Z.min N D)); [reflexivity|lia].
        * rewrite F by lia. unfold colst. destruct (Z.leb_spec k m), (Z.leb_spec k (m - 1)); try lia; cbn [andb].
          -- destruct (Z.leb_spec n (Z.min N D)); [reflexivity|]. destruct (Z.eqb_spec k (m - 1 + 1)); [lia|]. rewrite andb_false_r. reflexivity.
          -- destruct (Z.eqb_spec k (m - 1 + 1)); [lia|]. rewrite andb_false_r. reflexivity.
      + rewrite F by lia. unfold colst. destruct (Z.leb_spec k m), (Z.leb_spec k (m - 1)); try lia; cbn [andb]; [|destruct (Z.ltb_spec D N); [lia|]; reflexivity].
        destruct (Z.leb_spec n (Z.min N D)); [reflexivity|]. destruct (Z.ltb_spec D N); [lia|]. reflexivity.
  Qed.
  Lemma colst_diagonal D V m : 0 <= m -> m <= D -> m <= N -> colst D V m m m = Some (V m m).
  Proof. intros. unfold colst. rewrite Z.leb_refl. destruct (Z.leb_spec m (Z.min N D)); [reflexivity|lia]. Qed.
  Lemma column_ok h m : duo h d M (colst d VZ (m - 1)) e W (colst e WZ (m - 1)) -> 1 <= m -> m + 1 <= N -> m + 1 <= d -> m + 1 <= e -> N <= d + 1 -> N <= e + 1 -> N < 201 ->
    exists h', order_column M W (sx * rr) (sy * rr) (sz * rr) rr (N - 2) h m = Ok h' /\ duo h' d M (colst d VZ m) e W (colst e WZ m) /\ elsewhere h M (Some W) h'.
  Proof.
    intros T Hm HN Hd He HNd HNe HL. unfold order_column.
    destruct (diagonal_ok h m _ _ T) as (h1 & E1 & T1 & L1); try (apply colst_diagonal; lia); try lia. rewrite E1. cbn [bind].
    rewrite (f1_next (m + 1) m) by lia. cbn [bind]. replace (m + 1 - 1) with m by lia.
    rewrite (getv_M h1 d M _ e W _ m m (VZ m m) T1). 2: unfold reach; lia. 2: { destruct (at_inside d m m ltac:(lia)) as (-> & ->). unfold wr. rewrite Z.eqb_refl. reflexivity. }
    cbn [bind]. rewrite <- VZ_first by lia. destruct (putv_M h1 d M _ e W _ (m + 1) m (VZ (m + 1) m) T1) as (h2 & E2 & T2 & L2); [unfold reach; lia|]. rewrite E2. cbn [bind]. destruct (at_inside d (m + 1) m ltac:(lia)) as (A1 & A2). rewrite A1, A2 in T2.
    rewrite (getv_W h2 d M _ e W _ m m (WZ m m) T2). 2: unfold reach; lia. 2: { destruct (at_inside e m m ltac:(lia)) as (-> & ->). unfold wr. rewrite Z.eqb_refl. reflexivity. }
    cbn [bind]. rewrite <- WZ_first by lia. destruct (putv_W h2 d M _ e W _ (m + 1) m (WZ (m + 1) m) T2) as (h3 & E3 & T3 & L3); [unfold reach; lia|]. rewrite E3. cbn [bind]. destruct (at_inside e (m + 1) m ltac:(lia)) as (B1 & B2). rewrite B1, B2 in T3.
    assert (X : forall D V f n k, m + 1 <= D -> 0 <= k <= n -> n <= D -> wr (wr f m m (Some (V m m))) (m + 1) m (Some (V (m + 1) m)) n k = cf (m + 1) D m V f n k).
    { intros D V f n k HD Hk Hn. unfold wr, cf. destruct (Z.ltb_spec D (m + 1)); [lia|]. cbn [andb]. destruct (Z.eqb_spec k m) as [-> |]; [|rewrite !andb_false_r; reflexivity]. rewrite !andb_true_r. cbn [andb]. destruct (Z.leb_spec m n); [|lia]. cbn [andb].
      destruct (Z.eqb_spec n (m + 1)) as [-> |]; [destruct (Z.leb_spec (m + 1) (Z.min (m + 1) D)); [reflexivity|lia]|]. destruct (Z.eqb_spec n m) as [-> |]; [destruct (Z.leb_spec m (Z.min (m + 1) D)); [reflexivity|lia]|]. destruct (Z.leb_spec n (Z.min (m + 1) D)); [lia|reflexivity]. }
    assert (T4 : duo h3 d M (cf (m + 1) d m VZ (colst d VZ (m - 1))) e W (cf (m + 1) e m WZ (colst e WZ (m - 1)))) by (eapply two_ext; [| |exact T3]; intros; apply X; lia).
    destruct (rows_ok _ _ m ltac:(lia) ltac:(lia) (Z.to_nat (N - m - 1)) h3 T4 ltac:(lia) ltac:(lia) ltac:(lia)) as (h4 & E4 & T5 & L4).
    replace (m + 2 + Z.of_nat (Z.to_nat (N - m - 1))) with (N - 2 + 3) in E4 by lia. rewrite E4. exists h4. split; [reflexivity|]. replace (m + 1 + Z.of_nat (Z.to_nat (N - m - 1))) with N in T5 by lia. split.
    - eapply two_ext; [| |exact T5]; intros n k Hk Hn; apply cf_colst; auto; lia.
    - eapply elsewhere_trans; [exact L1|]. eapply elsewhere_trans; [exact L2|]. eapply elsewhere_trans; [exact L3|exact L4].
  Qed.
  Lemma columns_ok : 2 <= N -> N <= d + 1 -> N <= e + 1 -> N < 201 -> forall c h, duo h d M (colst d VZ 0) e W (colst e WZ 0) -> Z.of_nat c + 1 <= N -> Z.of_nat c + 1 <= d -> Z.of_nat c + 1 <= e ->
    exists h', fold_res (order_column M W (sx * rr) (sy * rr) (sz * rr) rr (N - 2)) (zrange2 1 (1 + Z.of_nat c)) h = Ok h' /\ duo h' d M (colst d VZ (Z.of_nat c)) e W (colst e WZ (Z.of_nat c)) /\ elsewhere h M (Some W) h'.
  Proof.
    intros HN Hd He HL. induction c as [|c IH]; intros h T H1 H2 H3.
    - exists h. refine (conj eq_refl (conj T (elsewhere_refl _ _ _))).
    - destruct (IH h T ltac:(lia) ltac:(lia) ltac:(lia)) as (h1 & E1 & T1 & L1). rewrite zrange2_snoc, fold_res_app, E1. cbn [bind fold_res].
      replace (Z.of_nat c) with (1 + Z.of_nat c - 1) in T1 by lia. destruct (column_ok h1 (1 + Z.of_nat c) T1) as (h2 & E2 & T2 & L2); try lia. rewrite E2. cbn [bind]. exists h2. split; [reflexivity|].
      replace (Z.of_nat (S c)) with (1 + Z.of_nat c) by lia. split; [exact T2|]. eapply elsewhere_trans; eassumption.
  Qed.
  Lemma VZ_00 : VZ 0 0 = (1 / nrm)%R. Proof. apply (Vn_00 sx sy sz P). Qed.
  Lemma WZ_0 n : WZ n 0 = 0%R. Proof. apply Wn_0. Qed.
  Lemma An_0 : An 0 0 = sqrt 3. Proof. unfold An. cbn. f_equal. field. Qed.
  Lemma first_ok h f g : duo h d M f e W g -> (forall n k, 0 <= k <= n -> n <= d -> f n k = Some 0%R) -> (forall n k, 0 <= k <= n -> n <= e -> g n k = Some 0%R) -> 2 <= N -> N <= d + 1 -> N <= e + 1 -> N < 201 ->
    exists h', (h1 <- putv h M 0 0 (1 / nrm) ;; u <- getv h1 M 0 0 ;; h2 <- putv h1 M 1 0 (sqrt 3 * (sz * rr) * u) ;; fold_res (adv M 0) (zrange2 2 (N - 2 + 3)) h2) = Ok h' /\
      duo h' d M (colst d VZ 0) e W (colst e WZ 0) /\ elsewhere h M (Some W) h'.
  Proof.
    intros T F G HN Hd He HL. rewrite <- VZ_00. destruct (putv_M h d M f e W g 0 0 (VZ 0 0) T) as (h1 & E1 & T1 & L1); [unfold reach; lia|]. rewrite E1. cbn [bind]. destruct (at_inside d 0 0 ltac:(lia)) as (A1 & A2). rewrite A1, A2 in T1.
    rewrite (getv_M h1 d M _ e W g 0 0 (VZ 0 0) T1); [|unfold reach; lia|rewrite A1, A2; reflexivity]. cbn [bind].
    replace (sqrt 3 * (sz * rr) * VZ 0 0)%R with (VZ 1 0) by (pose proof (VZ_first 0 ltac:(lia)) as Q; cbn [Z.add] in Q; rewrite Q; change (Z.to_nat 0) with O; rewrite An_0; ring).
    destruct (putv_M h1 d M _ e W g 1 0 (VZ 1 0) T1) as (h2 & E2 & T2 & L2); [unfold reach; lia|]. rewrite E2. cbn [bind]. destruct (at_inside d 1 0 ltac:(lia)) as (B1 & B2). rewrite B1, B2 in T2.
    assert (T3 : duo h2 d M (cf 1 d 0 VZ (fun _ _ => Some 0%R)) e W g).
    { eapply two_ext; [| |exact T2]; [|reflexivity]. intros n k Hk Hn. unfold wr, cf. rewrite (F n k) by lia. destruct (Z.ltb_spec d 1); [lia|]. cbn [andb]. destruct (Z.eqb_spec k 0) as [-> |]; [|rewrite !andb_false_r; reflexivity]. rewrite !andb_true_r. cbn [andb]. destruct (Z.leb_spec 0 n); [|lia]. cbn [andb].
      destruct (Z.eqb_spec n 1) as [-> |]; [destruct (Z.leb_spec 1 (Z.min 1 d)); [reflexivity|lia]|]. destruct (Z.eqb_spec n 0) as [-> |]; [destruct (Z.leb_spec 0 (Z.min 1 d)); [reflexivity|lia]|]. destruct (Z.leb_spec n (Z.min 1 d)); [lia|reflexivity]. }
    destruct (rows0_ok _ g ltac:(lia) (Z.to_nat (N - 1)) h2 T3 ltac:(lia) ltac:(lia)) as (h3 & E3 & T4 & L3). replace (2 + Z.of_nat (Z.to_nat (N - 1))) with (N - 2 + 3) in E3 by lia. rewrite E3. exists h3. split; [reflexivity|].
    replace (1 + Z.of_nat (Z.to_nat (N - 1))) with N in T4 by lia. split.
    - eapply two_ext; [| |exact T4]; intros n k Hk Hn.
      + apply (cf_colst d VZ 0 (fun _ _ => Some 0%R) n k); auto; try lia. intros n' k' Hk' Hn' X1 X2. unfold colst. destruct (Z.leb_spec k' (0 - 1)); [lia|]. cbn [andb]. destruct (Z.eqb_spec n' (0 - 1 + 1)) as [-> |]; [exfalso; apply X1; lia|]. rewrite andb_false_r. reflexivity.
      + rewrite (G n k) by lia. unfold colst. destruct (Z.leb_spec k 0); cbn [andb].
        * assert (k = 0) by lia. subst k. rewrite WZ_0. destruct (n <=? _); [reflexivity|]. rewrite andb_false_r. reflexivity.
        * rewrite WZ_0. destruct ((e <? N) && _ && _); reflexivity.
    - eapply elsewhere_trans; [exact L1|]. eapply elsewhere_trans; [exact L2|exact L3].
  Qed.
  (** what the matrices hold afterwards *)
  Definition fin (d : Z) (V : Z -> Z -> R) (order n k : Z) : R :=
    if (k <=? order + 1) && (n <=? Z.min N d) || (n =? order + 2) && (k =? order + 2) then V n k else 0%R.
  Lemma basis_ok h f g order : duo h d M f e W g -> (forall n k, 0 <= k <= n -> n <= d -> f n k = Some 0%R) -> (forall n k, 0 <= k <= n -> n <= e -> g n k = Some 0%R) ->
    0 <= order -> order + 2 <= N -> order + 2 <= d -> order + 2 <= e -> N <= d + 1 -> N <= e + 1 -> N < 201 ->
    exists h', basis M W (sx * rr) (sy * rr) (sz * rr) rr (N - 2) order nrm h = Ok h' /\ duo h' d M (fun n k => Some (fin d VZ order n k)) e W (fun n k => Some (fin e WZ order n k)) /\ elsewhere h M (Some W) h'.
  Proof.
    intros T F G HO HN Hd He HNd HNe HL. destruct (first_ok h f g T F G ltac:(lia) HNd HNe HL) as (h1 & E1 & T1 & L1).
    unfold basis. destruct (putv h M 0 0 (1 / nrm)) as [a| | |]; try discriminate E1. cbn [bind] in *. destruct (getv a M 0 0) as [b| | |]; try discriminate E1. cbn [bind] in *. destruct (putv a M 1 0 _) as [c| | |]; try discriminate E1. cbn [bind] in *. rewrite E1. cbn [bind].
    destruct (columns_ok ltac:(lia) HNd HNe HL (Z.to_nat (order + 1)) h1 T1 ltac:(lia) ltac:(lia) ltac:(lia)) as (h2 & E2 & T2 & L2). replace (1 + Z.of_nat (Z.to_nat (order + 1))) with (order + 2) in E2 by lia. rewrite E2. cbn [bind].
    replace (Z.of_nat (Z.to_nat (order + 1))) with (order + 1) in T2 by lia.
    destruct (diagonal_ok h2 (order + 2) _ _ T2) as (h3 & E3 & T3 & L3); try lia; try (replace (order + 2 - 1) with (order + 1) by lia; apply colst_diagonal; lia). rewrite E3. exists h3. split; [reflexivity|]. split.
    - assert (X : forall D V n k, wr (colst D V (order + 1)) (order + 2) (order + 2) (Some (V (order + 2) (order + 2))) n k = Some (fin D V order n k)).
      { intros D V n k. unfold wr, colst, fin. replace (order + 1 + 1) with (order + 2) by lia. destruct (Z.eqb_spec n (order + 2)) as [-> |]; cbn [andb].
        - destruct (Z.eqb_spec k (order + 2)) as [-> |]; [rewrite orb_true_r; reflexivity|]. rewrite orb_false_r, !andb_false_r. destruct ((k <=? order + 1) && _); reflexivity.
        - rewrite orb_false_r, !andb_false_r. cbn [andb]. destruct ((k <=? order + 1) && _); reflexivity. }
      eapply two_ext; [| |exact T3]; intros; apply X.
    - eapply elsewhere_trans; [exact L1|]. eapply elsewhere_trans; [exact L2|exact L3].
  Qed.
End Values.
