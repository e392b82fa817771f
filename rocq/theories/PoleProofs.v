From Coq Require Import Reals ZArith List Bool Lia Lra.
From Verif Require Import Base StorageModel StorageSpec StorageProofs MatrixModel MatrixSpec MatrixProofs TideModel TideSpec TideProofs TideProofs2 TideProofs3 PoleModel PoleSpec.
Import ListNotations.
Open Scope Z_scope.

(** ** single elements *)
Definition framed (h : mem R) (m : mat) (h' : mem R) : Prop :=
  forall x, valid h x -> apart x m -> valid h' x /\ forall i j, kept x (i, j) -> get R h' x i j = get R h x i j.
Lemma framed_sized h m h' d x : framed h m h' -> apart x m -> sized h d x -> sized h' d x.
Proof. intros F A (V & E & Hr & C). szd. apply (F x V A). Qed.
Lemma framed_shows h m h' d x f : framed h m h' -> apart x m -> sized h d x -> shows h d x f -> shows h' d x f.
Proof. intros F A (V & E & Hr & C) S n k Hk Hn. rewrite (proj2 (F x V A)); [apply S; auto|]. apply (kept_lw x d); auto. Qed.
Lemma effect_framed h m h' : effect h (ptr m) h' m -> framed h m h'.
Proof. intros E x V A. destruct (replace_frame h h' m m x E V A) as (V' & _ & G). auto. Qed.

Lemma put_ok h d m i j c f : sized h d m -> 0 <= j <= i -> i <= d -> shows h d m f ->
  exists h', put h m i j c = Ok h' /\ sized h' d m /\ framed h m h' /\
    shows h' d m (fun n k => if (n =? i) && (k =? j) then c else f n k).
Proof.
  intros S Hj Hi Sh. pose proof S as (V & E & Hr & C). pose proof (proj1 (shows_reads h d m f S) Sh) as Rd.
  assert (K : kept m (i, j)) by (apply (kept_lw m d); auto).
  destruct (valid_contents _ _ V) as (l & Hc). pose proof (kept_index _ _ _ _ V K) as Hx. assert (Hnc : nelem m <= cap m) by apply V.
  destruct (inplace_loop (A := R) unit (fun h _ => store R h (ptr m) (index (st m) i j) c) (fun _ => index (st m) i j) (fun _ => c) h m l [tt])
    as (h' & l' & Q & Q1 & Q2 & Q3 & Q4 & Q5); auto.
  - intros; lia.
  - simpl. constructor; [intros []|constructor].
  - intros q h' l' x -> ? ? ? ? ?. reflexivity.
  - exists h'. unfold put. split.
    { simpl in Q. destruct (store R h (ptr m) (index (st m) i j) c); simpl in Q; congruence. }
    assert (S' : sized h' d m) by (szd; apply Q1). split; [exact S'|]. split; [apply effect_framed; exact Q1|].
    apply (shows_reads h' d m); auto. intros n k Hk. eapply get_contents; [exact Q3|].
    destruct ((n =? i) && (k =? j)) eqn:Eij.
    + apply andb_true_iff in Eij. destruct Eij as [Er Ec']. apply Z.eqb_eq in Er. apply Z.eqb_eq in Ec'. subst. apply (Q4 tt). left; reflexivity.
    + rewrite Q5; [eapply reads_cell; eauto|]. simpl. intros [Hz|[]].
      destruct (index_bij _ (valid_wf _ _ V)) as (_ & Inj & _). destruct (Inj _ _ _ _ K Hk Hz); subst. rewrite !Z.eqb_refl in Eij. discriminate.
Qed.

(** the coefficient matrices as read by the loop *)
Definition src_ok (h : mem R) (o : opt) (a b c d : Z -> Z -> R) : Prop :=
  (sized h (odeg o) (Ar o) /\ shows h (odeg o) (Ar o) (fun i j => Some (a i j)) /\ apart (Ar o) (oC o) /\ apart (Ar o) (oS o)) /\
  (sized h (odeg o) (Ai o) /\ shows h (odeg o) (Ai o) (fun i j => Some (b i j)) /\ apart (Ai o) (oC o) /\ apart (Ai o) (oS o)) /\
  (sized h (odeg o) (Br o) /\ shows h (odeg o) (Br o) (fun i j => Some (c i j)) /\ apart (Br o) (oC o) /\ apart (Br o) (oS o)) /\
  (sized h (odeg o) (Bi o) /\ shows h (odeg o) (Bi o) (fun i j => Some (d i j)) /\ apart (Bi o) (oC o) /\ apart (Bi o) (oS o)).
Definition dst_ok (h : mem R) (o : opt) (fC fS : Z -> Z -> cell R) : Prop :=
  sized h (odeg o) (oC o) /\ sized h (odeg o) (oS o) /\ apart (oC o) (oS o) /\ shows h (odeg o) (oC o) fC /\ shows h (odeg o) (oS o) fS.
Definition st_ok h o a b c d fC fS : Prop := src_ok h o a b c d /\ dst_ok h o fC fS.
(** everything else in memory *)
Definition besides (h : mem R) (o : opt) (h' : mem R) : Prop :=
  forall x, valid h x -> apart x (oC o) -> apart x (oS o) -> valid h' x /\ forall i j, kept x (i, j) -> get R h' x i j = get R h x i j.
Lemma besides_refl h o : besides h o h.
Proof. intros x V _ _. auto. Qed.
Lemma besides_trans h1 h2 h3 o : besides h1 o h2 -> besides h2 o h3 -> besides h1 o h3.
Proof. intros A B x V P Q. destruct (A x V P Q) as (V2 & G2). destruct (B x V2 P Q) as (V3 & G3). split; auto. intros i j K. rewrite G3, G2; auto. Qed.

Lemma src_frame h m h' o a b c d : (m = oC o \/ m = oS o) -> framed h m h' -> src_ok h o a b c d -> src_ok h' o a b c d.
Proof.
  intros E F ((S1 & H1 & A1 & B1) & (S2 & H2 & A2 & B2) & (S3 & H3 & A3 & B3) & (S4 & H4 & A4 & B4)).
  assert (X : forall x f, sized h (odeg o) x -> shows h (odeg o) x f -> apart x (oC o) -> apart x (oS o) ->
              sized h' (odeg o) x /\ shows h' (odeg o) x f /\ apart x (oC o) /\ apart x (oS o)).
  { intros x f S H A B. assert (apart x m) by (destruct E as [-> | ->]; auto). refine (conj _ (conj _ (conj A B))); [eapply framed_sized|eapply framed_shows]; eauto. }
  refine (conj _ (conj _ (conj _ _))); apply X; auto.
Qed.

Lemma combination_ok h o re im f g l m k fr fi : sized h (odeg o) re -> shows h (odeg o) re (fun i j => Some (f i j)) ->
  shows h (odeg o) im (fun i j => Some (g i j)) -> 0 <= m <= l -> l <= odeg o ->
  combination h re im l m (Some k) fr fi = Ok (Some (k * (f l m * fr + g l m * fi))%R).
Proof. intros S H1 H2 Hm Hl. unfold combination. rewrite H1, H2 by auto. reflexivity. Qed.

Lemma fill_one_ok h o a b c d fC fS fr fi l m k : st_ok h o a b c d fC fS -> 0 <= m <= l -> l <= odeg o ->
  exists h', fill_one o fr fi h l m (Some k) = Ok h' /\ besides h o h' /\
    st_ok h' o a b c d (fun i j => if (i =? l) && (j =? m) then Some (k * (a l m * fr + b l m * fi))%R else fC i j)
                       (fun i j => if (i =? l) && (j =? m) then Some (k * (c l m * fr + d l m * fi))%R else fS i j).
Proof.
  intros (SR & (ZC & ZS & AP & HC & HS)) Hm Hl. pose proof SR as ((S1 & H1 & A1 & B1) & (S2 & H2 & A2 & B2) & _).
  unfold fill_one. rewrite (combination_ok h o (Ar o) (Ai o) a b l m k fr fi) by auto. cbn [bind].
  destruct (put_ok h (odeg o) (oC o) l m (Some (k * (a l m * fr + b l m * fi))%R) fC ZC) as (h1 & E1 & Z1 & F1 & G1); auto. rewrite E1. cbn [bind].
  pose proof (src_frame h (oC o) h1 o a b c d (or_introl eq_refl) F1 SR) as SR1. pose proof SR1 as (_ & _ & (S3 & H3 & A3 & B3) & (S4 & H4 & A4 & B4)).
  pose proof (framed_sized _ _ _ _ _ F1 (apart_sym _ _ AP) ZS) as ZS1. pose proof (framed_shows _ _ _ _ _ _ F1 (apart_sym _ _ AP) ZS HS) as HS1.
  rewrite (combination_ok h1 o (Br o) (Bi o) c d l m k fr fi) by auto. cbn [bind].
  destruct (put_ok h1 (odeg o) (oS o) l m (Some (k * (c l m * fr + d l m * fi))%R) fS ZS1) as (h2 & E2 & Z2 & F2 & G2); auto.
  exists h2. split; [exact E2|]. split.
  - intros x V P Q. destruct (F1 x V P) as (V1 & G). destruct (F2 x V1 Q) as (V2 & G'). split; auto. intros i j K. rewrite G', G; auto.
  - split; [apply (src_frame h1 (oS o)); auto|]. refine (conj _ (conj Z2 (conj AP (conj _ G2)))); [eapply framed_sized|eapply framed_shows]; eauto.
Qed.

(** ** the loops *)
Lemma kn_love l : 0 <= l <= 360 -> exists k, znth kn_table l = Some k /\ kn k = love l.
Proof.
  intros H. destruct (znth_in_range kn_table l) as (k & E); [change (length kn_table) with 361%nat; lia|]. exists k. split; [exact E|].
  unfold love, kn. unfold znth in E. destruct (l <? 0) eqn:Q; [discriminate|]. rewrite E. reflexivity.
Qed.
Definition kfac (l : Z) : R := ((1 + love l) / IZR (2 * l + 1))%R.
Definition kf_ok (kf : list (cell R)) (n : Z) : Prop := length kf = 360%nat /\ forall l, 0 <= l < n -> znth kf l = Some (Some (kfac l)).

Lemma seq_snoc n : 0 <= n -> zrange (n + 1) = (zrange n ++ [n])%list.
Proof. intros H. unfold zrange. rewrite Z2Nat.inj_add by lia. change (Z.to_nat 1) with 1%nat. rewrite seq_app, map_app. simpl. rewrite Z2Nat.id by lia. reflexivity. Qed.

Lemma order_zero_step h o a b c d fC fS fr fi kf l : st_ok h o a b c d fC fS -> kf_ok kf l -> 0 <= l <= 359 -> l <= odeg o ->
  exists h' kf', order_zero o fr fi (h, kf) l = Ok (h', kf') /\ besides h o h' /\ kf_ok kf' (l + 1) /\
    st_ok h' o a b c d (fun i j => if (i =? l) && (j =? 0) then Some (desai_term a b fr fi l 0) else fC i j)
                       (fun i j => if (i =? l) && (j =? 0) then Some (desai_term c d fr fi l 0) else fS i j).
Proof.
  intros S (L & K) Hl Ho. unfold order_zero. destruct (kn_love l) as (k & E & Q); [lia|]. rewrite E, Q.
  replace ((0 <=? l) && (l <? Z.of_nat (length kf))) with true by (symmetry; apply andb_true_iff; rewrite Z.leb_le, Z.ltb_lt; lia).
  destruct (fill_one_ok h o a b c d fC fS fr fi l 0 (kfac l) S) as (h' & E' & B & S'); [lia|lia|]. fold (kfac l). rewrite E'. cbn [bind].
  exists h', (upd kf (Z.to_nat l) (Some (kfac l))). split; [reflexivity|]. split; [exact B|]. split; [|exact S'].
  split; [rewrite upd_length; exact L|]. intros i Hi. rewrite (znth_upd kf l i (Some (kfac l))) by lia. destruct (Z.eqb_spec i l) as [-> | N]; [reflexivity|apply K; lia].
Qed.

Lemma shows_ext (h : mem R) d m f g : (forall n k, 0 <= k <= n -> n <= d -> f n k = g n k) -> shows h d m f -> shows h d m g.
Proof. intros E S n k Hk Hn. rewrite <- E by auto. auto. Qed.
Lemma st_ext h o a b c d fC fS gC gS : (forall n k, 0 <= k <= n -> n <= odeg o -> fC n k = gC n k /\ fS n k = gS n k) ->
  st_ok h o a b c d fC fS -> st_ok h o a b c d gC gS.
Proof.
  intros E (S & (Z1 & Z2 & A & H1 & H2)). split; auto. refine (conj Z1 (conj Z2 (conj A (conj _ _)))); [eapply shows_ext; [|exact H1]|eapply shows_ext; [|exact H2]]; intros; apply E; auto.
Qed.

Definition upto (n : Z) (t : Z -> Z -> R) (f : Z -> Z -> cell R) : Z -> Z -> cell R := fun i j => if (j =? 0) && (i <? n) then Some (t i j) else f i j.
Lemma order_zero_loop o a b c d fr fi n : forall h fC fS, st_ok h o a b c d fC fS -> Z.of_nat n <= 360 -> Z.of_nat n <= odeg o + 1 ->
  exists h' kf', fold_res (order_zero o fr fi) (zrange (Z.of_nat n)) (h, repeat None 360) = Ok (h', kf') /\ besides h o h' /\ kf_ok kf' (Z.of_nat n) /\
    st_ok h' o a b c d (upto (Z.of_nat n) (desai_term a b fr fi) fC) (upto (Z.of_nat n) (desai_term c d fr fi) fS).
Proof.
  induction n as [|n IH]; intros h fC fS S Hn Ho.
  - exists h, (repeat None 360). split; [reflexivity|]. split; [apply besides_refl|]. split; [split; [reflexivity|intros; lia]|].
    eapply st_ext; [|exact S]. intros i j Hj Hi. unfold upto. change (Z.of_nat 0) with 0. destruct (i <? 0) eqn:Q; [apply Z.ltb_lt in Q; lia|]. rewrite !andb_false_r. auto.
  - rewrite Nat2Z.inj_succ in *. unfold Z.succ in *. rewrite seq_snoc by lia. destruct (IH h fC fS S) as (h1 & kf1 & E1 & B1 & K1 & S1); [lia|lia|].
    rewrite fold_res_app, E1. cbn [bind fold_res]. destruct (order_zero_step h1 o a b c d _ _ fr fi kf1 (Z.of_nat n) S1 K1) as (h2 & kf2 & E2 & B2 & K2 & S2); [lia|lia|].
    rewrite E2. cbn [bind]. exists h2, kf2. split; [reflexivity|]. split; [eapply besides_trans; eauto|]. split; [exact K2|].
    eapply st_ext; [|exact S2]. intros i j Hj Hi. cbv beta. unfold upto.
    destruct (Z.eqb_spec j 0), (Z.eqb_spec i (Z.of_nat n)), (Z.ltb_spec i (Z.of_nat n + 1)), (Z.ltb_spec i (Z.of_nat n)); subst; cbn [andb]; try lia; auto.
Qed.

Definition listed (xs : list (Z * Z)) (i j : Z) : bool := existsb (fun p => (fst p =? j) && (snd p =? i)) xs.
Definition among (xs : list (Z * Z)) (t : Z -> Z -> R) (f : Z -> Z -> cell R) : Z -> Z -> cell R := fun i j => if listed xs i j then Some (t i j) else f i j.
Lemma other_orders_loop o a b c d fr fi kf md xs : kf_ok kf (md + 1) -> md <= odeg o ->
  (forall m l, In (m, l) xs -> 0 <= m <= l /\ l <= md) -> forall h fC fS, st_ok h o a b c d fC fS ->
  exists h', fold_res (other_orders o fr fi kf) xs h = Ok h' /\ besides h o h' /\
    st_ok h' o a b c d (among xs (desai_term a b fr fi) fC) (among xs (desai_term c d fr fi) fS).
Proof.
  intros (L & K) Ho. induction xs as [|(m, l) xs IH]; intros P h fC fS S.
  - exists h. split; [reflexivity|]. split; [apply besides_refl|exact S].
  - destruct (P m l (or_introl eq_refl)) as (Hm & Hl). cbn [fold_res]. unfold other_orders at 1. rewrite K by lia.
    destruct (fill_one_ok h o a b c d fC fS fr fi l m (kfac l) S Hm) as (h1 & E1 & B1 & S1); [lia|]. rewrite E1. cbn [bind].
    destruct (IH (fun m l H => P m l (or_intror H)) h1 _ _ S1) as (h2 & E2 & B2 & S2). exists h2. split; [exact E2|]. split; [eapply besides_trans; eauto|].
    eapply st_ext; [|exact S2]. intros i j Hj Hi. unfold among. cbn [listed existsb fst snd]. fold (listed xs i j).
    destruct (listed xs i j) eqn:Q; [rewrite orb_true_r; auto|]. rewrite orb_false_r. rewrite andb_comm.
    destruct (Z.eqb_spec m j), (Z.eqb_spec l i), (Z.eqb_spec i l), (Z.eqb_spec j m); subst; cbn [andb]; try congruence; auto.
Qed.

Lemma positions_spec md mo m l : In (m, l) (positions md mo) <-> 1 <= m <= mo /\ m <= l <= md.
Proof.
  unfold positions. rewrite in_flat_map. split.
  - intros (x & Hx & Hin). apply in_zrange2 in Hx. apply in_map_iff in Hin. destruct Hin as (y & Ey & Hy). injection Ey as -> ->. apply in_zrange2 in Hy. lia.
  - intros H. exists m. split; [apply in_zrange2; lia|]. apply in_map_iff. exists l. split; auto. apply in_zrange2. lia.
Qed.
Lemma listed_spec md mo i j : listed (positions md mo) i j = (1 <=? j) && (j <=? mo) && (j <=? i) && (i <=? md).
Proof.
  apply eq_true_iff_eq. unfold listed. rewrite existsb_exists, !andb_true_iff, !Z.leb_le. split.
  - intros ((m, l) & H & E). apply positions_spec in H. simpl in E. apply andb_true_iff in E. rewrite !Z.eqb_eq in E. lia.
  - intros H. exists (j, i). split; [apply positions_spec; lia|]. simpl. rewrite !Z.eqb_refl. reflexivity.
Qed.

(** ** scaling and the whole call *)
Definition timesc (f : R) (x : cell R) : cell R := match x with Some v => Some (v * f)%R | None => None end.
Lemma multiply_ok h d m v f : sized h d m -> shows h d m f ->
  exists h', multiply R Rmult h m v = Ok h' /\ sized h' d m /\ framed h m h' /\ shows h' d m (fun i j => timesc v (f i j)).
Proof.
  intros S Sh. pose proof S as (V & E & Hr & C). pose proof (proj1 (shows_reads h d m f S) Sh) as Rd.
  destruct (multiply_spec (A := R) Rmult h m v f V Rd) as (h' & Q & Ef & _ & Rd'). exists h'. split; [exact Q|].
  assert (S' : sized h' d m) by (szd; apply Ef). split; [exact S'|]. split; [apply effect_framed; exact Ef|].
  apply (shows_reads h' d m); auto.
Qed.
Lemma scale_ok h o a b c d fC fS f : st_ok h o a b c d fC fS -> csdeg o <> 0 ->
  exists h', scale o f h = Ok h' /\ besides h o h' /\ st_ok h' o a b c d (fun i j => timesc f (fC i j)) (fun i j => timesc f (fS i j)).
Proof.
  intros (SR & (ZC & ZS & AP & HC & HS)) Hd. unfold scale. destruct (Z.eqb_spec (csdeg o) 0); [contradiction|].
  destruct (multiply_ok h (odeg o) (oC o) f fC ZC HC) as (h1 & E1 & Z1 & F1 & G1). rewrite E1. cbn [bind].
  pose proof (src_frame h (oC o) h1 o a b c d (or_introl eq_refl) F1 SR) as SR1.
  pose proof (framed_sized _ _ _ _ _ F1 (apart_sym _ _ AP) ZS) as ZS1. pose proof (framed_shows _ _ _ _ _ _ F1 (apart_sym _ _ AP) ZS HS) as HS1.
  destruct (multiply_ok h1 (odeg o) (oS o) f fS ZS1 HS1) as (h2 & E2 & Z2 & F2 & G2). exists h2. split; [exact E2|]. split.
  - intros x V P Q. destruct (F1 x V P) as (V1 & G). destruct (F2 x V1 Q) as (V2 & G'). split; auto. intros i j K. rewrite G', G; auto.
  - split; [apply (src_frame h1 (oS o)); auto|]. refine (conj _ (conj Z2 (conj AP (conj _ G2)))); [eapply framed_sized|eapply framed_shows]; eauto.
Qed.

Lemma opt_to_st h o a b c d : opt_ok h o a b c d -> forall fC fS, shows h (odeg o) (oC o) fC -> shows h (odeg o) (oS o) fS -> st_ok h o a b c d fC fS.
Proof. intros [] fC fS HC HS. split; [refine (conj _ (conj _ (conj _ _))); auto|refine (conj _ (conj _ (conj _ (conj _ _)))); auto]. Qed.
Lemma st_to_opt h o a b c d fC fS h0 : opt_ok h0 o a b c d -> st_ok h o a b c d fC fS -> opt_ok h o a b c d.
Proof. intros [] ((P1 & P2 & P3 & P4) & (Z1 & Z2 & A & H1 & H2)). constructor; auto. Qed.

Definition fresh (md mo : Z) (t : Z -> Z -> R) (f : Z -> Z -> cell R) : Z -> Z -> cell R :=
  fun i j => if computed md mo i j then Some (t i j) else f i j.

Lemma opt_fill h o a b c d fr fi md mo fC fS : opt_ok h o a b c d -> shows h (odeg o) (oC o) fC -> shows h (odeg o) (oS o) fS ->
  0 <= mo <= md -> md <= odeg o -> md <= 359 ->
  exists h1 kf h2, fold_res (order_zero o fr fi) (zrange (md + 1)) (h, repeat None 360) = Ok (h1, kf) /\
    fold_res (other_orders o fr fi kf) (positions md mo) h1 = Ok h2 /\ besides h o h2 /\
    st_ok h2 o a b c d (fresh md mo (desai_term a b fr fi) fC) (fresh md mo (desai_term c d fr fi) fS).
Proof.
  intros OK HC HS Hm Hd H9. pose proof (opt_to_st _ _ _ _ _ _ OK fC fS HC HS) as S.
  destruct (order_zero_loop o a b c d fr fi (Z.to_nat (md + 1)) h fC fS S) as (h1 & kf & E1 & B1 & K1 & S1); [rewrite Z2Nat.id; lia|rewrite Z2Nat.id; lia|].
  rewrite Z2Nat.id in * by lia.
  destruct (other_orders_loop o a b c d fr fi kf md (positions md mo) K1 Hd) with (h := h1) (fC := upto (md + 1) (desai_term a b fr fi) fC) (fS := upto (md + 1) (desai_term c d fr fi) fS) as (h2 & E2 & B2 & S2); auto.
  { intros m l H. apply positions_spec in H. lia. }
  exists h1, kf, h2. split; [exact E1|]. split; [exact E2|]. split; [eapply besides_trans; eauto|].
  eapply st_ext; [|exact S2]. intros i j Hj Hi. unfold among, fresh, upto, computed. rewrite listed_spec.
  destruct (Z.leb_spec 1 j), (Z.leb_spec j mo), (Z.leb_spec j i), (Z.leb_spec i md), (Z.eqb_spec j 0), (Z.ltb_spec i (md + 1)); cbn [andb]; try lia; auto.
Qed.

Lemma guard_accepted o md mo : accepted o md mo ->
  (asked o md (odeg o) <? asked o mo (oord o)) || (odeg o <? asked o md (odeg o)) || (oord o <? asked o mo (oord o)) = false.
Proof. intros (A & B & C). rewrite !orb_false_iff, !Z.ltb_ge. lia. Qed.
Lemma guard_refused o md mo : ~ accepted o md mo ->
  (asked o md (odeg o) <? asked o mo (oord o)) || (odeg o <? asked o md (odeg o)) || (oord o <? asked o mo (oord o)) = true.
Proof.
  intros N. destruct (_ || _) eqn:E; auto. exfalso. apply N. rewrite !orb_false_iff, !Z.ltb_ge in E. unfold accepted. lia.
Qed.

Theorem opt_refused h o fr fi fac md mo : ~ accepted o md mo -> opt_coeffs h o fr fi fac md mo = Ok (h, 1).
Proof. intros N. apply guard_refused in N. unfold opt_coeffs. unfold asked in N. rewrite N. reflexivity. Qed.

Theorem opt_exact h o a b c d fr fi fac md mo fC fS : opt_ok h o a b c d -> shows h (odeg o) (oC o) fC -> shows h (odeg o) (oS o) fS ->
  accepted o md mo -> asked o md (odeg o) <= 359 -> 0 < odeg o ->
  exists h', opt_coeffs h o fr fi fac md mo = Ok (h', 0) /\ opt_ok h' o a b c d /\ besides h o h' /\
    shows h' (odeg o) (oC o) (fun i j => timesc fac (fresh (asked o md (odeg o)) (asked o mo (oord o)) (desai_term a b fr fi) fC i j)) /\
    shows h' (odeg o) (oS o) (fun i j => timesc fac (fresh (asked o md (odeg o)) (asked o mo (oord o)) (desai_term c d fr fi) fS i j)).
Proof.
  intros OK HC HS Acc H9 H0. pose proof (guard_accepted _ _ _ Acc) as G. destruct Acc as (A1 & A2 & A3).
  unfold opt_coeffs. change (if md <? 0 then odeg o else md) with (asked o md (odeg o)). change (if mo <? 0 then oord o else mo) with (asked o mo (oord o)).
  rewrite G. assert (0 <= asked o mo (oord o)). { unfold asked. pose proof (ok_order _ _ _ _ _ _ OK). destruct (Z.ltb_spec mo 0); lia. }
  destruct (opt_fill h o a b c d fr fi (asked o md (odeg o)) (asked o mo (oord o)) fC fS OK HC HS) as (h1 & kf & h2 & E1 & E2 & B & S); auto.
  rewrite E1. cbn [bind]. rewrite E2. cbn [bind].
  destruct (scale_ok h2 o a b c d _ _ fac S) as (h3 & E3 & B3 & S3). { rewrite (ok_cs _ _ _ _ _ _ OK). lia. }
  rewrite E3. cbn [bind]. exists h3. split; [reflexivity|]. split; [eapply st_to_opt; eauto|]. split; [eapply besides_trans; eauto|].
  destruct S3 as (_ & (_ & _ & _ & P & Q)). auto.
Qed.
Theorem opt_degree0 h o a b c d fr fi fac md mo fC fS : opt_ok h o a b c d -> shows h (odeg o) (oC o) fC -> shows h (odeg o) (oS o) fS ->
  accepted o md mo -> odeg o = 0 ->
  exists h', opt_coeffs h o fr fi fac md mo = Ok (h', 0) /\ opt_ok h' o a b c d /\
    shows h' 0 (oC o) (fun i j => Some (desai_term a b fr fi i j)) /\ shows h' 0 (oS o) (fun i j => Some (desai_term c d fr fi i j)).
Proof.
  intros OK HC HS Acc H0. pose proof (guard_accepted _ _ _ Acc) as G. destruct Acc as (A1 & A2 & A3).
  unfold opt_coeffs. change (if md <? 0 then odeg o else md) with (asked o md (odeg o)). change (if mo <? 0 then oord o else mo) with (asked o mo (oord o)).
  rewrite G. assert (0 <= asked o mo (oord o)). { unfold asked. pose proof (ok_order _ _ _ _ _ _ OK). destruct (Z.ltb_spec mo 0); lia. }
  destruct (opt_fill h o a b c d fr fi (asked o md (odeg o)) (asked o mo (oord o)) fC fS OK HC HS) as (h1 & kf & h2 & E1 & E2 & B & S); auto; try lia.
  rewrite E1. cbn [bind]. rewrite E2. cbn [bind]. unfold scale. rewrite (ok_cs _ _ _ _ _ _ OK), H0. cbn [Z.eqb bind]. exists h2. split; [reflexivity|].
  split; [eapply st_to_opt; eauto|]. destruct S as (_ & (_ & _ & _ & P & Q)). rewrite H0 in P, Q.
  split; (eapply shows_ext; [|eassumption]); intros n k Hk Hn; cbv beta; unfold fresh, computed;
    (replace (n <=? asked o md 0) with true by (symmetry; apply Z.leb_le; rewrite H0 in *; lia));
    (replace (k <=? asked o mo (oord o)) with true by (symmetry; apply Z.leb_le; lia)); reflexivity.
Qed.

(** degree 360 *)
Theorem opt_360 h o a b c d fr fi fac md mo fC fS : opt_ok h o a b c d -> shows h (odeg o) (oC o) fC -> shows h (odeg o) (oS o) fS ->
  accepted o md mo -> asked o md (odeg o) = 360 -> opt_coeffs h o fr fi fac md mo = UB.
Proof.
  intros OK HC HS Acc E0. pose proof (guard_accepted _ _ _ Acc) as G. destruct Acc as (A1 & A2 & A3).
  unfold opt_coeffs. change (if md <? 0 then odeg o else md) with (asked o md (odeg o)). change (if mo <? 0 then oord o else mo) with (asked o mo (oord o)).
  rewrite G, E0. pose proof (opt_to_st _ _ _ _ _ _ OK fC fS HC HS) as S. rewrite (seq_snoc 360) by lia. rewrite fold_res_app.
  destruct (order_zero_loop o a b c d fr fi (Z.to_nat 360) h fC fS S) as (h1 & kf & E1 & _ & (L & _) & _); [rewrite Z2Nat.id; lia|rewrite Z2Nat.id; lia|].
  change (Z.of_nat (Z.to_nat 360)) with 360 in E1. rewrite E1. cbn [bind fold_res]. unfold order_zero.
  destruct (kn_love 360) as (k & Ek & _); [lia|]. rewrite Ek, L. reflexivity.
Qed.
(** no matrices: default constructed *)
Theorem opt_default h o fr fi fac md mo : accepted o md mo -> 0 <= asked o md (odeg o) -> ptr (Ar o) = None -> opt_coeffs h o fr fi fac md mo = UB.
Proof.
  intros Acc H0 Hp. pose proof (guard_accepted _ _ _ Acc) as G.
  unfold opt_coeffs. change (if md <? 0 then odeg o else md) with (asked o md (odeg o)). change (if mo <? 0 then oord o else mo) with (asked o mo (oord o)).
  rewrite G. replace (zrange (asked o md (odeg o) + 1)) with (0 :: map (fun k => Z.of_nat k) (seq 1 (Z.to_nat (asked o md (odeg o))))).
  2:{ unfold zrange. rewrite Z2Nat.inj_add by lia. rewrite Nat.add_comm. reflexivity. }
  cbn [fold_res]. unfold order_zero at 1. destruct (kn_love 0) as (k & Ek & _); [lia|]. rewrite Ek. cbn - [fill_one repeat].
  unfold fill_one at 1, combination at 1. unfold get, load. rewrite Hp. reflexivity.
Qed.
