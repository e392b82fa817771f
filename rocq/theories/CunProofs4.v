From Coq Require Import Reals ZArith List Bool Lia Lra.
From Verif Require Import Base StorageModel MatrixModel MatrixSpec TideSpec TideProofs TideProofs2 TideProofs3 PoleModel PoleProofs PoleProofs2 AlfSpec AlfMath AlfProofs CunSpec CunMath CunMath2 CunModel CunReady CunProofs CunProofs2 CunProofs3.
Import ListNotations.
Open Scope Z_scope.

Lemma framed_elsewhere_W h M W h' : framed h W h' -> elsewhere h M (Some W) h'.
Proof. intros F x V _ A. apply F; auto. Qed.
Lemma framed_elsewhere_M h M W h' : framed h M h' -> elsewhere h M (Some W) h'.
Proof. intros F x V A _. apply F; auto. Qed.
Lemma elsewhere_sized (h : mem R) M W h' d x : elsewhere h M (Some W) h' -> apart x M -> apart x W -> sized h d x -> sized h' d x.
Proof. intros F A B (V & E & Hr & C). szd. apply (F x V A B). Qed.
Lemma elsewhere_shows (h : mem R) M W h' d x f : elsewhere h M (Some W) h' -> apart x M -> apart x W -> sized h d x -> shows h d x f -> shows h' d x f.
Proof. intros F A B (V & E & Hr & C) S n k Hk Hn. rewrite (proj2 (F x V A B)); [apply S; auto|]. apply (kept_lw x d); auto. Qed.

(** what the sums see *)
Definition okf (f : Z -> Z -> R) : Z -> Z -> res R := fun i j => Ok (f i j).
Definition seen (N d order : Z) (V : Z -> Z -> R) (i j : Z) : R := fin N d V order (at_i d i j) (at_j d i j).
Definition accP (C S M W : Z -> Z -> R) (p : Z * Z) : vec3 :=
  match (if snd p =? 0 then acc_term0 (okf C) (okf M) (okf W) (fst p) else acc_term (okf C) (okf S) (okf M) (okf W) (fst p) (snd p)) with Ok v => v | _ => V3 0 0 0 end.
Definition gradP (C S M W : Z -> Z -> R) (p : Z * Z) : sym3 :=
  match (if snd p =? 0 then grad_term0 (okf C) (okf M) (okf W) (fst p) else if snd p =? 1 then grad_term1 (okf C) (okf S) (okf M) (okf W) (fst p) else grad_term (okf C) (okf S) (okf M) (okf W) (fst p) (snd p)) with Ok v => v | _ => Sy 0 0 0 0 0 0 end.
Definition vsum (f : Z * Z -> vec3) (l : list (Z * Z)) : vec3 := V3 (rs (fun p => vx (f p)) l) (rs (fun p => vy (f p)) l) (rs (fun p => vz (f p)) l).
Definition ssum (f : Z * Z -> sym3) (l : list (Z * Z)) : sym3 :=
  Sy (rs (fun p => gxx (f p)) l) (rs (fun p => gxy (f p)) l) (rs (fun p => gxz (f p)) l) (rs (fun p => gyy (f p)) l) (rs (fun p => gyz (f p)) l) (rs (fun p => gzz (f p)) l).
Lemma one_term_pure C S M W s p : one_term (okf C) (okf S) (okf M) (okf W) s p = Ok (vadd (fst s) (accP C S M W p), sadd (snd s) (gradP C S M W p)).
Proof. destruct p as (n, m). unfold one_term, accP, gradP. cbn [fst snd]. destruct (m =? 0), (m =? 1); reflexivity. Qed.
Lemma vadd_assoc a b c : vadd (vadd a b) c = vadd a (vadd b c). Proof. unfold vadd. cbn [vx vy vz]. f_equal; ring. Qed.
Lemma sadd_assoc a b c : sadd (sadd a b) c = sadd a (sadd b c). Proof. unfold sadd. cbn [gxx gxy gxz gyy gyz gzz]. f_equal; ring. Qed.
Lemma fold_terms C S M W (F : vec3 * sym3 -> Z * Z -> res (vec3 * sym3)) l : (forall s p, In p l -> F s p = one_term (okf C) (okf S) (okf M) (okf W) s p) -> forall s,
  fold_res F l s = Ok (vadd (fst s) (vsum (accP C S M W) l), sadd (snd s) (ssum (gradP C S M W) l)).
Proof.
  induction l as [|p l IH]; intros H s.
  - cbn [fold_res vsum ssum rs]. destruct s as ((a, b, c), (u, v, w, x, y, z)). unfold vadd, sadd, vsum, ssum. cbn [fst snd vx vy vz gxx gxy gxz gyy gyz gzz rs]. rewrite !Rplus_0_r. reflexivity.
  - cbn [fold_res]. rewrite H by (left; reflexivity). rewrite one_term_pure. cbn [bind]. rewrite IH by (intros; apply H; right; assumption). cbn [fst snd]. rewrite vadd_assoc, sadd_assoc. reflexivity.
Qed.
Lemma in_zdown k hi lo : In k (zdown hi lo) -> lo <= k <= hi.
Proof. intros I. unfold zdown in I. apply in_map_iff in I. destruct I as (j & <- & J). apply in_zrange in J. lia. Qed.
Lemma in_positions degree order n m : In (n, m) (positions degree order) -> 0 <= m <= n /\ n <= degree /\ m <= Z.max order 1.
Proof.
  unfold positions. rewrite !in_app_iff, in_flat_map. intros [(k & K & I) | [I|I]].
  - apply in_map_iff in I. destruct I as (j & E & J). inversion E; subst. apply in_zdown in K, J. lia.
  - apply in_map_iff in I. destruct I as (j & E & J). inversion E; subst. apply in_zdown in J. lia.
  - apply in_map_iff in I. destruct I as (j & E & J). inversion E; subst. apply in_zdown in J. lia.
Qed.
Lemma one_term_ext (C S M W C' S' M' W' : Z -> Z -> res R) s n m :
  C n m = C' n m -> S n m = S' n m -> 0 <= m ->
  (forall i j, (i = n + 1 /\ m - 1 <= j <= m + 1 \/ i = n + 2 /\ m - 2 <= j <= m + 2) -> 0 <= j -> M i j = M' i j /\ W i j = W' i j) ->
  one_term C S M W s (n, m) = one_term C' S' M' W' s (n, m).
Proof.
  intros EC ES Hm E. assert (EM : forall i j, (i = n + 1 /\ m - 1 <= j <= m + 1 \/ i = n + 2 /\ m - 2 <= j <= m + 2) -> 0 <= j -> M i j = M' i j) by (intros; apply E; assumption). assert (EW : forall i j, (i = n + 1 /\ m - 1 <= j <= m + 1 \/ i = n + 2 /\ m - 2 <= j <= m + 2) -> 0 <= j -> W i j = W' i j) by (intros; apply E; assumption). clear E.
  unfold one_term. destruct (Z.eqb_spec m 0) as [-> |]; [|destruct (Z.eqb_spec m 1) as [-> |]]; unfold acc_term0, acc_term, grad_term0, grad_term1, grad_term; cbv zeta; rewrite ?EC, ?ES; repeat (rewrite EM by lia); repeat (rewrite EW by lia); reflexivity.
Qed.

Section Impl.
  Variables (cs : stokes) (r : vec3) (degree order : Z) (Re GM : R) (M W : mat) (d e : Z) (C S : Z -> Z -> R).
  Let sx := (vx r / Re)%R. Let sy := (vy r / Re)%R. Let sz := (vz r / Re)%R.
  Hypothesis A : away sx sy sz.
  Hypothesis HO : 0 <= order <= degree.
  Hypothesis HD : degree <= 198.
  Let N := degree + 2.
  Definition MS := seen N d order (VZ sx sy sz).
  Definition WS := seen N e order (WZ sx sy sz).

  Lemma zeroed h : ready h cs M W d e C S -> exists h1 h2, fill_with R h W 0%R = Ok h1 /\ fill_with R h1 M 0%R = Ok h2 /\ duo h2 d M (fun _ _ => Some 0%R) e W (fun _ _ => Some 0%R) /\ elsewhere h M (Some W) h2.
  Proof.
    intros (SC & FC & SS & FS & SM & SW & AMW & AWM & A1 & A2 & A3 & A4).
    destruct (fill_ok h e W 0%R SW) as (h1 & E1 & SW1 & FW1 & L1). pose proof (framed_sized _ _ _ _ _ L1 AMW SM) as SM1.
    destruct (fill_ok h1 d M 0%R SM1) as (h2 & E2 & SM2 & FM2 & L2). pose proof (framed_sized _ _ _ _ _ L2 AWM SW1) as SW2. pose proof (framed_shows _ _ _ _ _ _ L2 AWM SW1 FW1) as FW2.
    exists h1, h2. split; [exact E1|]. split; [exact E2|]. split; [exact (conj SM2 (conj FM2 (conj SW2 (conj FW2 (conj AWM AMW)))))|].
    eapply elsewhere_trans; [apply framed_elsewhere_W; exact L1|apply framed_elsewhere_M; exact L2].
  Qed.
  Lemma impl_ok h : ready h cs M W d e C S -> degree <= gdeg cs -> roomy d degree order -> roomy e degree order ->
    exists h', cunningham_impl cs r degree order Re GM M W h = Ok (h', (vscale (GM / (2 * Re * Re)) (vsum (accP C S MS WS) (positions degree order)), sscale (GM / (4 * Re * Re * Re)) (ssum (gradP C S MS WS) (positions degree order)))) /\
      duo h' d M (fun n k => Some (fin N d (VZ sx sy sz) order n k)) e W (fun n k => Some (fin N e (WZ sx sy sz) order n k)) /\ elsewhere h M (Some W) h'.
  Proof.
    intros Rd HG Rm Rw. unfold cunningham_impl, table_size. destruct (Z.ltb_spec (201 - 3) degree); [lia|].
    destruct (zeroed h Rd) as (h1 & h2 & E1 & E2 & T2 & L2). rewrite E1. cbn [bind]. rewrite E2. cbn [bind]. cbv zeta.
    fold sx sy sz. change (sqrt (sx * sx + sy * sy + sz * sz)) with (rad sx sy sz). unfold roomy in *.
    destruct (basis_ok sx sy sz A M W d e N h2 _ _ order T2) as (h3 & E3 & T3 & L3); try (intros; reflexivity); try (unfold N; lia).
    unfold N in E3. replace (degree + 2 - 2) with degree in E3 by lia. rewrite E3. cbn [bind]. pose proof (elsewhere_trans _ _ _ _ _ L2 L3) as L.
    destruct Rd as (SC & FC & SS & FS & SM & SW & AMW & AWM & A1 & A2 & A3 & A4).
    pose proof (elsewhere_sized h M W h3 _ _ L A1 A2 SC) as SC3. pose proof (elsewhere_shows h M W h3 _ _ _ L A1 A2 SC FC) as FC3. pose proof (elsewhere_sized h M W h3 _ _ L A3 A4 SS) as SS3. pose proof (elsewhere_shows h M W h3 _ _ _ L A3 A4 SS FS) as FS3.
    rewrite (fold_terms C S MS WS).
    - cbn [bind fst snd zero_sum]. exists h3. split; [|split; [exact T3|exact L]]. do 3 f_equal.
      + unfold vsum, vadd, vscale, zero_sum. cbn [fst snd vx vy vz]. f_equal; ring.
      + unfold ssum, sadd, sscale, zero_sum. cbn [fst snd gxx gxy gxz gyy gyz gzz]. f_equal; ring.
    - intros s (n, m) I. apply in_positions in I. apply one_term_ext; try lia.
      + unfold getv. rewrite FC3 by lia. reflexivity.
      + unfold getv. rewrite FS3 by lia. reflexivity.
      + intros i j Hi Hj. split; unfold okf, MS, WS, seen.
        * eapply (getv_M h3 d M _ e W _ i j); [exact T3|unfold reach; lia|reflexivity].
        * eapply (getv_W h3 d M _ e W _ i j); [exact T3|unfold reach; lia|reflexivity].
  Qed.
  (** ** the acceleration *)
  Lemma seen_V dd V i j : i <= dd -> i <= N -> j <= order + 1 -> seen N dd order V i j = V i j.
  Proof. intros H1 H2 H3. unfold seen. destruct (at_inside dd i j H1) as (-> & ->). unfold fin. destruct (Z.leb_spec j (order + 1)); [|lia]. destruct (Z.leb_spec i (Z.min N dd)); [reflexivity|lia]. Qed.
  Lemma acc_terms n m : 1 <= order \/ degree = 0 -> degree + 1 <= d -> degree + 1 <= e -> In (n, m) (positions degree order) -> accP C S MS WS (n, m) = acc_of sx sy sz (C n m) (S n m) (Z.to_nat n) (Z.to_nat m).
  Proof.
    intros H Hd He I. apply in_positions in I. unfold accP. cbn [fst snd].
    assert (RM : forall lo hi, hi <= order + 1 -> reads (okf MS) (fun n k => Vn n k sx sy sz) (n + 1) lo hi) by (intros lo hi Hh k Hk; unfold okf, MS; rewrite seen_V by (unfold N; lia); unfold VZ; rewrite Nat2Z.id; reflexivity).
    assert (RW : forall lo hi, hi <= order + 1 -> reads (okf WS) (fun n k => Wn n k sx sy sz) (n + 1) lo hi) by (intros lo hi Hh k Hk; unfold okf, WS; rewrite seen_V by (unfold N; lia); unfold WZ; rewrite Nat2Z.id; reflexivity).
    destruct (Z.eqb_spec m 0) as [-> |].
    - pose proof (acc_term0_ok sx sy sz (okf C) (okf MS) (okf WS) (Z.to_nat n) (C n 0) (S n 0)) as Q. cbv zeta in Q. rewrite Z2Nat.id in Q by lia. rewrite Q; [reflexivity|reflexivity|apply RM; lia|apply RW; lia].
    - pose proof (acc_term_ok sx sy sz (okf C) (okf S) (okf MS) (okf WS) (Z.to_nat n) (Z.to_nat (m - 1)) (C n m) (S n m)) as Q. cbv zeta in Q. replace (Datatypes.S (Z.to_nat (m - 1))) with (Z.to_nat m) in Q by lia. rewrite !Z2Nat.id in Q by lia. rewrite Q; [reflexivity|lia|reflexivity|reflexivity|apply RM; lia|apply RW; lia].
  Qed.
  Lemma grad_terms n m : order = degree -> degree + 2 <= d -> degree + 2 <= e -> In (n, m) (positions degree order) -> gradP C S MS WS (n, m) = grad_of sx sy sz (C n m) (S n m) (Z.to_nat n) (Z.to_nat m).
  Proof.
    intros H Hd He I. apply in_positions in I. unfold gradP. cbn [fst snd].
    assert (F : forall dd V i j, i <= dd -> i <= N -> j <= order + 2 -> j <= i -> seen N dd order V i j = V i j).
    { intros dd V i j X1 X2 X3 X4. destruct (Z.eq_dec j (order + 2)) as [-> |]; [|apply seen_V; lia]. unfold seen. destruct (at_inside dd i (order + 2) X1) as (-> & ->). unfold fin. rewrite Z.eqb_refl. destruct (Z.eqb_spec i (order + 2)); [|unfold N in *; lia]. rewrite orb_true_r. reflexivity. }
    assert (RM : forall lo hi, hi <= order + 2 -> hi <= n + 2 -> reads (okf MS) (fun n k => Vn n k sx sy sz) (n + 2) lo hi) by (intros lo hi Hh Hi k Hk; unfold okf, MS; rewrite F by (unfold N; lia); unfold VZ; rewrite Nat2Z.id; reflexivity).
    assert (RW : forall lo hi, hi <= order + 2 -> hi <= n + 2 -> reads (okf WS) (fun n k => Wn n k sx sy sz) (n + 2) lo hi) by (intros lo hi Hh Hi k Hk; unfold okf, WS; rewrite F by (unfold N; lia); unfold WZ; rewrite Nat2Z.id; reflexivity).
    destruct (Z.eqb_spec m 0) as [-> |].
    - pose proof (grad_term0_ok sx sy sz (okf C) (okf MS) (okf WS) (Z.to_nat n) (C n 0) (S n 0)) as Q. cbv zeta in Q. rewrite Z2Nat.id in Q by lia. rewrite Q; [reflexivity|reflexivity|apply RM; lia|apply RW; lia].
    - destruct (Z.eqb_spec m 1) as [-> |].
      + pose proof (grad_term1_ok sx sy sz (okf C) (okf S) (okf MS) (okf WS) (Z.to_nat n) (C n 1) (S n 1) ltac:(lia)) as Q. cbv zeta in Q. rewrite Z2Nat.id in Q by lia. rewrite Q; [reflexivity|reflexivity|reflexivity|apply RM; lia|apply RW; lia].
      + pose proof (grad_term_ok sx sy sz (okf C) (okf S) (okf MS) (okf WS) (Z.to_nat n) (Z.to_nat (m - 2)) (C n m) (S n m)) as Q. cbv zeta in Q. replace (Datatypes.S (Datatypes.S (Z.to_nat (m - 2)))) with (Z.to_nat m) in Q by lia. rewrite !Z2Nat.id in Q by lia. rewrite Q; [reflexivity|lia|reflexivity|reflexivity|apply RM; lia|apply RW; lia].
  Qed.
End Impl.

(** ** the sums are derivatives of the potential *)
Section Result.
  Variables (cs : stokes) (r : vec3) (D O : nat) (Re GM : R) (M W : mat) (d e : Z) (C S : Z -> Z -> R).
  Hypothesis HRe : Re <> 0%R.
  Hypothesis A : away (vx r) (vy r) (vz r).
  Let degree := Z.of_nat D. Let order := Z.of_nat O.
  Let sx := (vx r / Re)%R. Let sy := (vy r / Re)%R. Let sz := (vz r / Re)%R.
  Notation ms := (MS r degree order Re d).
  Notation wsn := (WS r degree order Re e).
  Notation U := (geopotential GM Re D O (natf C) (natf S)).
  Lemma sum_as (F : Z * Z -> R) (G : nat -> nat -> R) : 1 <= order \/ degree = 0 ->
    (forall n m, In (Z.of_nat n, Z.of_nat m) (positions degree order) -> F (Z.of_nat n, Z.of_nat m) = G n m) ->
    rs F (positions degree order) = upto_sum (fun n => upto_sum (fun m => G n m) (min n O)) D.
  Proof.
    intros H E. unfold degree, order in *. transitivity (rs (fun p => G (Z.to_nat (fst p)) (Z.to_nat (snd p))) (positions (Z.of_nat D) (Z.of_nat O))).
    - apply rs_ext. intros (n, m) I. pose proof (in_positions _ _ _ _ I) as B. cbn [fst snd]. specialize (E (Z.to_nat n) (Z.to_nat m)). rewrite !Z2Nat.id in E by lia. apply E, I.
    - rewrite positions_sum. cbn [fst snd]. apply upto_ext. intros n Hn. replace (min n (max O 1)) with (min n O) by lia. apply upto_ext. intros m _. rewrite !Nat2Z.id. reflexivity.
  Qed.
  Lemma acc_sum : 1 <= order \/ degree = 0 -> (O <= D)%nat -> degree <= 198 -> degree + 1 <= d -> degree + 1 <= e ->
    vsum (accP C S ms wsn) (positions degree order) =
    V3 (2 * evn (dc dxn (field_c (natf C) (natf S) D O)) sx sy sz) (2 * evn (dc dyn (field_c (natf C) (natf S) D O)) sx sy sz) (2 * evn (dc dzn (field_c (natf C) (natf S) D O)) sx sy sz).
  Proof.
    intros H1 H2 H3 H4 H5. unfold vsum. rewrite !field_d1, <- !upto_scal.
    assert (X : forall (g : vec3 -> R) (dd : kind * nat * nat -> comb), (forall c s n m, g (acc_of sx sy sz c s n m) = (2 * d1 sx sy sz dd c s n m)%R) ->
      rs (fun p => g (accP C S ms wsn p)) (positions degree order) = upto_sum (fun k => 2 * upto_sum (fun m => d1 sx sy sz dd (natf C k m) (natf S k m) k m) (min k O))%R D).
    { intros g dd Hg. rewrite (sum_as _ (fun n m => 2 * d1 sx sy sz dd (natf C n m) (natf S n m) n m)%R H1).
      - apply upto_ext. intros n _. apply upto_scal.
      - intros n m I. rewrite (acc_terms r degree order Re d e C S) by (assumption || (unfold degree, order in *; lia)). rewrite Hg. rewrite !Nat2Z.id. reflexivity. }
    f_equal; apply X; intros; reflexivity.
  Qed.
  Lemma grad_sum : O = D -> degree <= 198 -> degree + 2 <= d -> degree + 2 <= e ->
    ssum (gradP C S ms wsn) (positions degree order) =
    Sy (4 * evn (dc dxn (dc dxn (field_c (natf C) (natf S) D O))) sx sy sz) (4 * evn (dc dyn (dc dxn (field_c (natf C) (natf S) D O))) sx sy sz) (4 * evn (dc dzn (dc dxn (field_c (natf C) (natf S) D O))) sx sy sz)
       (4 * evn (dc dyn (dc dyn (field_c (natf C) (natf S) D O))) sx sy sz) (4 * evn (dc dzn (dc dyn (field_c (natf C) (natf S) D O))) sx sy sz) (4 * evn (dc dzn (dc dzn (field_c (natf C) (natf S) D O))) sx sy sz).
  Proof.
    intros H2 H3 H4 H5. unfold ssum. rewrite !field_d2, <- !upto_scal. assert (H1 : 1 <= order \/ degree = 0) by (unfold order, degree; lia).
    assert (X : forall (g : sym3 -> R) (dd dd' : kind * nat * nat -> comb), (forall c s n m, g (grad_of sx sy sz c s n m) = (4 * d2 sx sy sz dd dd' c s n m)%R) ->
      rs (fun p => g (gradP C S ms wsn p)) (positions degree order) = upto_sum (fun k => 4 * upto_sum (fun m => d2 sx sy sz dd dd' (natf C k m) (natf S k m) k m) (min k O))%R D).
    { intros g dd dd' Hg. rewrite (sum_as _ (fun n m => 4 * d2 sx sy sz dd dd' (natf C n m) (natf S n m) n m)%R H1).
      - apply upto_ext. intros n _. apply upto_scal.
      - intros n m I. rewrite (grad_terms r degree order Re d e C S) by (assumption || (unfold degree, order in *; lia)). rewrite Hg. rewrite !Nat2Z.id. reflexivity. }
    f_equal; apply X; intros; reflexivity.
  Qed.
  Lemma field_sym x y z : let c := field_c (natf C) (natf S) D O in
    evn (dc dxn (dc dyn c)) x y z = evn (dc dyn (dc dxn c)) x y z /\ evn (dc dxn (dc dzn c)) x y z = evn (dc dzn (dc dxn c)) x y z /\ evn (dc dyn (dc dzn c)) x y z = evn (dc dzn (dc dyn c)) x y z.
  Proof.
    cbv zeta. rewrite !field_d2. split; [|split]; apply upto_ext; intros n Hn; apply upto_ext; intros m Hm; apply d2_sym; lia.
  Qed.
End Result.
