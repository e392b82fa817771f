From Coq Require Import Reals ZArith List Bool Lia Lra.
From Verif Require Import Base StorageModel StorageSpec StorageProofs MatrixModel MatrixSpec MatrixProofs TideSpec TideProofs TideProofs2 TideProofs3 PoleModel PoleProofs PoleProofs2 AlfSpec AlfMath AlfProofs CunSpec CunMath CunMath2 CunModel CunReady CunProofs CunProofs2 CunProofs3 CunProofs4.
Import ListNotations.
Open Scope Z_scope.

(** ** scratch space of the documented size *)
Lemma positions_first degree order : 1 <= degree -> order <= degree -> exists l, positions degree order = (degree, Z.max order 1) :: l.
Proof.
  intros H1 H2. unfold positions. destruct (Z.leb_spec order 1).
  - rewrite (zdown_nil order 2) by lia. cbn [flat_map app]. rewrite zdown_cons by lia. cbn [map app]. rewrite Z.max_r by lia. eauto.
  - rewrite (zdown_cons order 2) by lia. cbn [flat_map]. rewrite (zdown_cons degree order) by lia. cbn [map app]. rewrite Z.max_l by lia. eauto.
Qed.
Section Past.
  Variables (cs : stokes) (r : vec3) (degree order : Z) (Re GM : R) (M W : mat) (e : Z) (C S : Z -> Z -> R).
  Let sx := (vx r / Re)%R. Let sy := (vy r / Re)%R. Let sz := (vz r / Re)%R.
  Let d := degree + 1.
  Hypothesis A : away sx sy sz.
  Hypothesis HO : 0 <= order <= degree.
  Hypothesis HD : degree <= 198.
  Hypothesis HC : cap M = nelem M.
  Hypothesis HE : degree + 1 <= e.
  (** order = degree: M(degree+2, degree+1) is written *)
  Lemma write_past h : ready h cs M W d e C S -> order = degree -> cunningham_impl cs r degree order Re GM M W h = UB.
  Proof.
    intros Rd Ho. unfold cunningham_impl, table_size. destruct (Z.ltb_spec (201 - 3) degree); [lia|].
    destruct (zeroed cs M W d e C S h Rd) as (h1 & h2 & E1 & E2 & T2 & L2). rewrite E1. cbn [bind]. rewrite E2. cbn [bind]. cbv zeta.
    fold sx sy sz. change (sqrt (sx * sx + sy * sy + sz * sz)) with (rad sx sy sz).
    assert (B : basis M W (sx * (1 / rad sx sy sz * (1 / rad sx sy sz))) (sy * (1 / rad sx sy sz * (1 / rad sx sy sz))) (sz * (1 / rad sx sy sz * (1 / rad sx sy sz))) (1 / rad sx sy sz * (1 / rad sx sy sz)) degree order (rad sx sy sz) h2 = UB).
    2: { rewrite B. reflexivity. }
    set (N := degree + 2). replace degree with (N - 2) at 1 by (unfold N; lia).
    destruct (first_ok sx sy sz A M W d e N h2 _ _ T2) as (h3 & E3 & T3 & _); try (intros; reflexivity); try (unfold N, d; lia).
    unfold basis. destruct (putv h2 M 0 0 _) as [a| | |]; try discriminate E3. cbn [bind] in *. destruct (getv a M 0 0) as [b| | |]; try discriminate E3. cbn [bind] in *. destruct (putv a M 1 0 _) as [c| | |]; try discriminate E3. cbn [bind] in *. rewrite E3. cbn [bind]. clear E3.
    destruct (columns_ok sx sy sz A M W d e N) with (c := Z.to_nat degree) (h := h3) as (h4 & E4 & T4 & _); try exact T3; try (unfold N, d; lia).
    replace (order + 2) with (1 + Z.of_nat (Datatypes.S (Z.to_nat degree))) at 1 by lia. rewrite zrange2_snoc, fold_res_app, E4. cbn [bind fold_res]. rewrite Z2Nat.id in T4 |- * by lia.
    unfold order_column. destruct (diagonal_ok sx sy sz A M W d e h4 (1 + degree) _ _ T4) as (h5 & E5 & T5 & _); try (unfold d; lia); try (replace (1 + degree - 1) with degree by lia; apply colst_diagonal; unfold N, d; lia).
    rewrite E5. cbn [bind]. rewrite f1_next by lia. cbn [bind]. rewrite (getv_M h5 d M _ e W _ (1 + degree) (1 + degree) (VZ sx sy sz (1 + degree) (1 + degree)) T5); [|unfold reach, d; lia|].
    2: { destruct (at_inside d (1 + degree) (1 + degree) ltac:(unfold d; lia)) as (-> & ->). unfold wr. rewrite Z.eqb_refl. reflexivity. }
    cbn [bind]. replace (1 + degree) with d by (unfold d; lia). rewrite putv_past; [reflexivity|exact (proj1 T5)|exact HC].
  Qed.
  (** order + 1 = degree, or a small degree: the sums read behind the last element *)
  Lemma read_past h : ready h cs M W d e C S -> degree <= gdeg cs -> order < degree <= Z.max order 1 + 1 -> cunningham_impl cs r degree order Re GM M W h = UB.
  Proof.
    intros Rd HG Ho. unfold cunningham_impl, table_size. destruct (Z.ltb_spec (201 - 3) degree); [lia|].
    destruct (zeroed cs M W d e C S h Rd) as (h1 & h2 & E1 & E2 & T2 & L2). rewrite E1. cbn [bind]. rewrite E2. cbn [bind]. cbv zeta.
    fold sx sy sz. change (sqrt (sx * sx + sy * sy + sz * sz)) with (rad sx sy sz).
    destruct (basis_ok sx sy sz A M W d e (degree + 2) h2 _ _ order T2) as (h3 & E3 & T3 & L3); try (intros; reflexivity); try (unfold d; lia).
    replace (degree + 2 - 2) with degree in E3 by lia. rewrite E3. cbn [bind]. pose proof (elsewhere_trans _ _ _ _ _ L2 L3) as L.
    destruct Rd as (SC & FC & SS & FS & SM & SW & AMW & AWM & A1 & A2 & A3 & A4).
    pose proof (elsewhere_shows h M W h3 _ _ _ L A1 A2 SC FC) as FC3. pose proof (elsewhere_shows h M W h3 _ _ _ L A3 A4 SS FS) as FS3.
    destruct (positions_first degree order) as (l & ->); try lia. cbn [fold_res]. set (m := Z.max order 1) in *.
    assert (Q : one_term (getv h3 (gC cs)) (getv h3 (gS cs)) (getv h3 M) (getv h3 W) zero_sum (degree, m) = UB); [|rewrite Q; reflexivity].
    assert (RC : getv h3 (gC cs) degree m = Ok (C degree m)) by (unfold getv; rewrite FC3 by lia; reflexivity). assert (RS : getv h3 (gS cs) degree m = Ok (S degree m)) by (unfold getv; rewrite FS3 by lia; reflexivity).
    assert (RM : forall i j, reach d i j -> exists v, getv h3 M i j = Ok v) by (intros i j Hr; eexists; apply (getv_M h3 d M _ e W _ i j _ T3 Hr); reflexivity).
    assert (RW : forall i j, reach e i j -> exists v, getv h3 W i j = Ok v) by (intros i j Hr; eexists; apply (getv_W h3 d M _ e W _ i j _ T3 Hr); reflexivity).
    unfold one_term. destruct (Z.eqb_spec m 0); [lia|].
    assert (QA : exists v, acc_term (getv h3 (gC cs)) (getv h3 (gS cs)) (getv h3 M) (getv h3 W) degree m = Ok v).
    { unfold acc_term. cbv zeta. do 6 (match goal with |- context [bind (getv h3 M ?i ?j) _] => destruct (RM i j) as (? & ->); [unfold reach, d; lia|] | |- context [bind (getv h3 W ?i ?j) _] => destruct (RW i j) as (? & ->); [unfold reach; lia|] end; cbn [bind]). rewrite RC, RS. cbn [bind]. eauto. }
    destruct QA as (v & ->). cbn [bind].
    assert (RP : forall j, j = d \/ j = d + 1 -> getv h3 M (degree + 2) j = UB) by (intros j Hj; replace (degree + 2) with (d + 1) by (unfold d; lia); apply getv_past; [exact (proj1 T3)|exact HC|exact Hj]).
    destruct (Z.eqb_spec m 1) as [M1|M1].
    - rewrite M1 in *. assert (degree = 1 \/ degree = 2) as [D1|D1] by lia.
      + assert (G : grad_term1 (getv h3 (gC cs)) (getv h3 (gS cs)) (getv h3 M) (getv h3 W) degree = UB); [|rewrite G; reflexivity]. unfold grad_term1. cbv zeta.
        do 4 (match goal with |- context [bind (getv h3 M ?i ?j) _] => destruct (RM i j) as (? & ->); [unfold reach, d; lia|] | |- context [bind (getv h3 W ?i ?j) _] => destruct (RW i j) as (? & ->); [unfold reach; lia|] end; cbn [bind]). rewrite RP by (unfold d; lia). reflexivity.
      + assert (G : grad_term1 (getv h3 (gC cs)) (getv h3 (gS cs)) (getv h3 M) (getv h3 W) degree = UB); [|rewrite G; reflexivity]. unfold grad_term1. cbv zeta.
        do 6 (match goal with |- context [bind (getv h3 M ?i ?j) _] => destruct (RM i j) as (? & ->); [unfold reach, d; lia|] | |- context [bind (getv h3 W ?i ?j) _] => destruct (RW i j) as (? & ->); [unfold reach; lia|] end; cbn [bind]). rewrite RP by (unfold d; lia). reflexivity.
    - assert (G : grad_term (getv h3 (gC cs)) (getv h3 (gS cs)) (getv h3 M) (getv h3 W) degree m = UB); [|rewrite G; reflexivity]. unfold grad_term. cbv zeta.
      do 8 (match goal with |- context [bind (getv h3 M ?i ?j) _] => destruct (RM i j) as (? & ->); [unfold reach, d; lia|] | |- context [bind (getv h3 W ?i ?j) _] => destruct (RW i j) as (? & ->); [unfold reach; lia|] end; cbn [bind]). rewrite RP by (unfold d; lia). reflexivity.
  Qed.
  Lemma past h : ready h cs M W d e C S -> degree <= gdeg cs -> degree <= Z.max order 1 + 1 -> degree = order \/ order < degree -> cunningham_impl cs r degree order Re GM M W h = UB.
  Proof. intros Rd HG H [H1|H1]; [apply write_past|apply read_past]; auto; lia. Qed.
End Past.

(** ** the wrapper *)
Lemma fresh (h : mem R) n : 0 <= n -> exists h' m, ctor R h LwTriCol (n + 1) (n + 1) = Ok (h', m) /\ sized h' n m /\ cap m = nelem m /\ ptr m = Some (length h) /\
  (forall q, (q < length h)%nat -> nth_error h' q = nth_error h q) /\ length h' = S (length h) /\ (forall x, valid h x -> valid h' x /\ apart x m /\ apart m x /\ forall i j, kept x (i, j) -> get R h' x i j = get R h x i j).
Proof.
  intros H. destruct (ctor_spec h LwTriCol (n + 1) (n + 1) (legal_lw n H)) as (h' & m & E & F & R1 & C1 & K1). exists h', m. split; [exact E|].
  assert (Z0 : sized h' n m) by (szd; apply F). split; [exact Z0|]. unfold ctor in E. rewrite (legal_dims_ok _ _ _ (legal_lw n H)) in E.
  assert (P0 : 0 < num_elements (mkStorage LwTriCol (n + 1) (n + 1))) by (unfold num_elements; cbn [sch srows]; rewrite Z.quot_div_nonneg by nia; apply Z.div_str_pos; nia).
  destruct (Z.ltb_spec 0 (num_elements (mkStorage LwTriCol (n + 1) (n + 1)))); [|lia]. destruct (alloc R h _) as (h0, p) eqn:EA. destruct (alloc_nth _ _ _ _ EA) as (-> & B & B' & B''). inversion E; subst.
  split; [reflexivity|]. split; [reflexivity|]. split; [exact B''|]. split; [exact B'|]. intros x V. destruct (fresh_frame h h' _ x F V) as (V' & A1 & A2 & G). auto.
Qed.

Lemma fresh_coefficients (h h' : mem R) cs C S : (forall x, valid h x -> valid h' x /\ forall i j, kept x (i, j) -> get R h' x i j = get R h x i j) -> coefficients h cs C S -> coefficients h' cs C S.
Proof.
  intros G (SC & FC & SS & FS). assert (X : forall x f, sized h (gdeg cs) x -> shows h (gdeg cs) x f -> sized h' (gdeg cs) x /\ shows h' (gdeg cs) x f).
  { intros x f (V & E & Hr & Hc) F. split; [szd; apply G, V|]. intros n k Hk Hn. rewrite (proj2 (G x V)); [apply F; auto|]. apply (kept_lw x (gdeg cs)); auto. }
  destruct (X _ _ SC FC) as (X1 & X2), (X _ _ SS FS) as (X3 & X4). exact (conj X1 (conj X2 (conj X3 X4))).
Qed.
(** both matrices allocated here *)
Lemma two_fresh (h : mem R) cs C S n : 0 <= n -> coefficients h cs C S ->
  exists h1 w h2 m, ctor R h LwTriCol (n + 1) (n + 1) = Ok (h1, w) /\ ctor R h1 LwTriCol (n + 1) (n + 1) = Ok (h2, m) /\ ready h2 cs m w n n C S /\ cap m = nelem m /\ cap w = nelem w /\
    ptr w = Some (length h) /\ ptr m = Some (Datatypes.S (length h)) /\ length h2 = Datatypes.S (Datatypes.S (length h)) /\ (forall x, valid h x -> valid h2 x /\ apart x m /\ apart x w /\ forall i j, kept x (i, j) -> get R h2 x i j = get R h x i j).
Proof.
  intros H K. destruct (fresh h n H) as (h1 & w & E1 & Z1 & C1 & P1 & Q1 & N1 & G1). destruct (fresh h1 n H) as (h2 & m & E2 & Z2 & C2 & P2 & Q2 & N2 & G2).
  exists h1, w, h2, m. split; [exact E1|]. split; [exact E2|]. destruct (G2 w (proj1 Z1)) as (Vw & Aw & Am & _).
  assert (G : forall x, valid h x -> valid h2 x /\ apart x m /\ apart x w /\ forall i j, kept x (i, j) -> get R h2 x i j = get R h x i j).
  { intros x V. destruct (G1 x V) as (V1 & B1 & _ & R1). destruct (G2 x V1) as (V2 & B2 & _ & R2). repeat (split; [assumption|]). intros i j Hk. rewrite R2, R1 by assumption. reflexivity. }
  split; [|split; [exact C2|split; [exact C1|split; [exact P1|split; [rewrite P2, N1; reflexivity|split; [rewrite N2, N1; reflexivity|exact G]]]]]].
  destruct (fresh_coefficients h h2 cs C S) as (SC & FC & SS & FS); [intros x V; destruct (G x V) as (? & _ & _ & ?); auto|exact K|].
  destruct (G _ (proj1 (proj1 K))) as (_ & D1 & D2 & _). destruct K as (_ & _ & (KS & _) & _). destruct (G _ KS) as (_ & D3 & D4 & _).
  destruct Z1 as (_ & Z1). refine (conj SC (conj FC (conj SS (conj FS (conj Z2 (conj (conj Vw Z1) _)))))). repeat apply conj; assumption.
Qed.
Section Wrapper.
  Variables (cs : stokes) (r : vec3) (md mo : Z) (Re GM : R).
  Let degree := used (gdeg cs) md. Let order := used (gord cs) mo.
  Let Re' := usedR (gRe cs) Re. Let GM' := usedR (gGM cs) GM.
  Hypothesis HO : 0 <= order <= degree.
  Hypothesis HG : degree <= gdeg cs.
  Hypothesis HGo : order <= gord cs.
  Lemma wrapper_open W M h : cunningham cs r md mo Re GM W M h =
    (' (h1, w) <- scratch h W (degree + 2) ;; ' (h2, m) <- scratch h1 M (degree + 2) ;;
     if (srows (st w) <? degree + 2) || (scols (st w) <? degree + 2) || (srows (st m) <? degree + 2) || (scols (st m) <? degree + 2) then Ok (h2, None) else
     ' (h3, s) <- cunningham_impl cs r degree order Re' GM' m w h2 ;; h4 <- discard h3 W w ;; h5 <- discard h4 M m ;; Ok (h5, Some s)).
  Proof.
    unfold cunningham. fold (used (gdeg cs) md) (used (gord cs) mo). fold degree order. cbv zeta. destruct (Z.ltb_spec degree order); [lia|]. destruct (Z.ltb_spec (gdeg cs) degree); [lia|]. destruct (Z.ltb_spec (gord cs) order); [lia|]. reflexivity.
  Qed.
  Lemma rows_enough (h : mem R) m d : sized h d m -> degree + 1 <= d -> (srows (st m) <? degree + 2) = false /\ (scols (st m) <? degree + 2) = false.
  Proof. intros (_ & E & R1 & C1) H. unfold rows, cols in *. split; apply Z.ltb_ge; lia. Qed.
  Lemma allocated_ub h C S : coefficients h cs C S -> away (vx r / Re') (vy r / Re') (vz r / Re') -> degree <= 198 -> degree <= Z.max order 1 + 1 -> cunningham cs r md mo Re GM None None h = UB.
  Proof.
    intros K A D1 D2. rewrite wrapper_open. cbn [scratch]. destruct (two_fresh h cs C S (degree + 1) ltac:(lia) K) as (h1 & w & h2 & m & E1 & E2 & Rd & Cm & Cw & _). replace (degree + 1 + 1) with (degree + 2) in * by lia. rewrite E1. cbn [bind]. rewrite E2. cbn [bind].
    pose proof Rd as (_ & _ & _ & _ & SM & SW & _). destruct (rows_enough h2 m _ SM ltac:(lia)) as (-> & ->). destruct (rows_enough h2 w _ SW ltac:(lia)) as (-> & ->). cbn [orb].
    rewrite (past cs r degree order Re' GM' m w (degree + 1) C S A HO D1 Cm ltac:(lia) h2 Rd HG D2 ltac:(lia)). reflexivity.
  Qed.
  (** a matrix that is too small next to a null pointer *)
  Lemma leak_M h m : srows (st m) < degree + 2 -> exists h' q l, cunningham cs r md mo Re GM None (Some m) h = Ok (h', None) /\ (length h <= q)%nat /\ nth_error h' q = Some (Live l).
  Proof.
    intros H. rewrite wrapper_open. cbn [scratch]. destruct (fresh h (degree + 1) ltac:(lia)) as (h1 & w & E1 & Z1 & C1 & P1 & _). replace (degree + 1 + 1) with (degree + 2) in * by lia. rewrite E1. cbn [bind].
    rewrite (proj2 (Z.ltb_lt _ _) H). rewrite !orb_true_r. cbn [orb]. destruct Z1 as ((_ & _ & _ & V) & _). rewrite P1 in V. destruct V as (l & V & _). exists h1, (length h), l. auto.
  Qed.
  Lemma leak_W h w : srows (st w) < degree + 2 -> exists h' q l, cunningham cs r md mo Re GM (Some w) None h = Ok (h', None) /\ (length h <= q)%nat /\ nth_error h' q = Some (Live l).
  Proof.
    intros H. rewrite wrapper_open. cbn [scratch bind]. destruct (fresh h (degree + 1) ltac:(lia)) as (h1 & m & E1 & Z1 & C1 & P1 & _). replace (degree + 1 + 1) with (degree + 2) in * by lia. rewrite E1. cbn [bind].
    rewrite (proj2 (Z.ltb_lt _ _) H). cbn [orb]. destruct Z1 as ((_ & _ & _ & V) & _). rewrite P1 in V. destruct V as (l & V & _). exists h1, (length h), l. auto.
  Qed.
  Lemma given_scratch h w m d e C S : ready h cs m w d e C S -> degree + 1 <= d -> degree + 1 <= e ->
    cunningham cs r md mo Re GM (Some w) (Some m) h = (' (h', s) <- cunningham_impl cs r degree order Re' GM' m w h ;; Ok (h', Some s)).
  Proof.
    intros (_ & _ & _ & _ & SM & SW & _) Hd He. rewrite wrapper_open. cbn [scratch bind]. destruct (rows_enough h m _ SM Hd) as (-> & ->). destruct (rows_enough h w _ SW He) as (-> & ->). cbn [orb].
    destruct (cunningham_impl _ _ _ _ _ _ _ _ _) as [(h', s)| | |]; reflexivity.
  Qed.
End Wrapper.
