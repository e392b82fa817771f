From Coq Require Import Reals ZArith List Bool Lia.
From Verif Require Import Base StorageModel StorageSpec StorageProofs MatrixModel MatrixSpec MatrixProofs Angles DoodsonModel DoodsonArgModel DoodsonArgSpec
  TideModel TideSpec TideProofs TideProofs2.
Import ListNotations.
Open Scope Z_scope.

(** ** sizes *)
Lemma apart_sym m n : apart m n -> apart n m.
Proof. unfold apart. destruct (ptr m), (ptr n); intros [H|H]; try discriminate; auto; right; congruence. Qed.

Section Grow.
  Context {A : Type}.
  Lemma replace_frame (h : mem A) h' m m' x : effect h (ptr m) h' m' -> valid h x -> apart x m ->
    valid h' x /\ apart x m' /\ forall i j, kept x (i, j) -> get A h' x i j = get A h x i j.
  Proof.
    intros (V & F & P & _) Vx Ax. assert (B : forall q, ptr x = Some q -> (q < length h)%nat).
    { intros q Hq. destruct Vx as (_ & _ & _ & Q). rewrite Hq in Q. destruct Q as (l & Hl & _). eapply nth_lt; eauto. }
    assert (FR : forall q, Some q = ptr x -> nth_error h' q = nth_error h q).
    { intros q Hq. apply F; [|apply B; auto]. intros E. destruct Ax; congruence. }
    refine (conj _ (conj _ _)).
    - apply (valid_frame h); auto.
    - destruct (ptr x) as [q|] eqn:Q; [right|left; auto]. rewrite Q. intros E. destruct P as [P|(p & P & G)].
      + destruct Ax; congruence.
      + specialize (B q eq_refl). rewrite P in E. injection E as ->. lia.
    - intros i j _. apply get_frame. auto.
  Qed.

  Lemma acc_cresize_ok (h : mem A) e a n m : 0 <= n -> pair_sized h e (amats a) -> apart (mC (amats a)) (mS (amats a)) ->
    exists h' a', acc_cresize A h a n m = Ok (h', a') /\ pair_sized h' n (amats a') /\ adeg a' = n /\ aord a' = m /\
      apart (mC (amats a')) (mS (amats a')) /\
      (forall x, valid h x -> apart x (mC (amats a)) -> apart x (mS (amats a)) ->
         valid h' x /\ apart x (mC (amats a')) /\ apart x (mS (amats a')) /\ forall i j, kept x (i, j) -> get A h' x i j = get A h x i j).
  Proof.
    intros D ((VC & EC & RC & CC) & (VS & ES & RS & CS)) AP.
    destruct (cresize_spec h (mC (amats a)) (n + 1) (n + 1)) as (h1 & c & E1 & F1 & T1 & _); auto; [rewrite EC; apply legal_lw; auto|].
    destruct (replace_frame h h1 _ c (mS (amats a)) F1 VS (apart_sym _ _ AP)) as (VS1 & AS1 & _).
    destruct (cresize_spec h1 (mS (amats a)) (n + 1) (n + 1)) as (h2 & s & E2 & F2 & T2 & _); auto; [rewrite ES; apply legal_lw; auto|].
    destruct (replace_frame h1 h2 _ s c F2 (proj1 F1) (apart_sym _ _ AS1)) as (VC2 & AC2 & _).
    exists h2, (mkAcc (mkPair c s) n m). unfold acc_cresize. rewrite E1. cbn [bind]. rewrite E2. cbn [bind amats mC mS adeg aord].
    assert (Q : forall x m0, valid h2 x -> st x = mkStorage (sch (st m0)) (n + 1) (n + 1) -> sch (st m0) = LwTriCol -> sized h2 n x).
    { intros x m0 Vx T K. rewrite K in T. szd; unfold rows, cols; rewrite T; [reflexivity|reflexivity|]. apply scols_mk. apply legal_lw; auto. }
    refine (conj eq_refl (conj _ (conj eq_refl (conj eq_refl (conj AC2 _))))).
    - split; [apply (Q c (mC (amats a))); auto|apply (Q s (mS (amats a))); auto; apply F2].
    - intros x Vx A1 A2. destruct (replace_frame h h1 _ c x F1 Vx A1) as (V1 & B1 & G1).
      destruct (replace_frame h1 h2 _ s x F2 V1 A2) as (V2 & B2 & G2). refine (conj V2 (conj B1 (conj B2 _))).
      intros i j K. rewrite G2, G1; auto.
  Qed.

  Lemma default_ok (h : mem A) : exists h' a, atm_default A h = Ok (h', a) /\ pair_sized h' (-1) (amats a) /\ adeg a = 0 /\ aord a = 0 /\
    apart (mC (amats a)) (mS (amats a)).
  Proof.
    assert (L : legal_dims LwTriCol 0 0) by (unfold legal_dims; lia).
    destruct (ctor_spec h LwTriCol 0 0 L) as (h1 & c & E1 & F1 & R1 & C1 & K1).
    destruct (ctor_spec h1 LwTriCol 0 0 L) as (h2 & s & E2 & F2 & R2 & C2 & K2).
    destruct (fresh_frame h1 h2 s c F2 (proj1 F1)) as (Vc & A1 & A2 & _).
    exists h2, (mkAcc (mkPair c s) 0 0). unfold atm_default. rewrite E1. cbn [bind]. rewrite E2. cbn [bind amats adeg aord mC mS].
    refine (conj eq_refl (conj _ (conj eq_refl (conj eq_refl A1)))). split; szd. apply F2.
  Qed.

  (** the degree of the matrices: -1 for the default accumulator *)
  Definition grow (e : Z) (s w : Z * Z) : Z * (Z * Z) :=
    if (fst s <? fst w) || (snd s <? snd w) then (fst w, w) else (e, s).

  Lemma atm_grow_ok (h : mem A) e a n m : 0 <= n -> pair_sized h e (amats a) -> apart (mC (amats a)) (mS (amats a)) ->
    exists h' a', atm_grow A h a n m = Ok (h', a') /\ (let (e', s') := grow e (adeg a, aord a) (n, m) in pair_sized h' e' (amats a') /\ (adeg a', aord a') = s') /\
      apart (mC (amats a')) (mS (amats a')) /\
      (forall x, valid h x -> apart x (mC (amats a)) -> apart x (mS (amats a)) ->
         valid h' x /\ apart x (mC (amats a')) /\ apart x (mS (amats a')) /\ forall i j, kept x (i, j) -> get A h' x i j = get A h x i j).
  Proof.
    intros D P AP. unfold atm_grow, grow. cbn [fst snd]. destruct ((adeg a <? n) || (aord a <? m)) eqn:Q.
    - destruct (acc_cresize_ok h e a n m D P AP) as (h' & a' & E & P' & D' & O' & AP' & G). rewrite E. cbn [bind].
      rewrite D', O', !Z.ltb_irrefl. cbn [orb]. exists h', a'. refine (conj eq_refl (conj (conj P' (f_equal2 (@Datatypes.pair Z Z) D' O')) (conj AP' G))).
    - cbn [bind]. rewrite Q. exists h, a. refine (conj eq_refl (conj (conj P eq_refl) (conj AP _))). auto.
  Qed.

  (** invariant of a history *)
  Lemma ahist_inv (h : mem A) a l : ahist h a l ->
    exists e, pair_sized h e (amats a) /\ apart (mC (amats a)) (mS (amats a)) /\ 0 <= aord a <= adeg a /\
      (forall w n m, In (w, (n, m)) l -> 0 <= m <= n /\ forall x, In x (wave_mats w) -> sized h n x /\ apart x (mC (amats a)) /\ apart x (mS (amats a))) /\
      ((e = -1 /\ adeg a = 0 /\ aord a = 0 /\ forall w n m, In (w, (n, m)) l -> n = 0) \/
       (e = adeg a /\ 0 < adeg a /\ exists w, In (w, (adeg a, aord a)) l)).
  Proof.
    induction 1 as [h h' acc E|h acc l h1 w n m h2 acc' H (e & P & AP & O & W & Q) K D Hw E].
    - destruct (default_ok h) as (h2 & a & E2 & P & D & O & AP). rewrite E in E2. injection E2 as <- <-. exists (-1).
      rewrite D, O. refine (conj P (conj AP (conj _ (conj _ _)))); [lia|intros w n m []|]. left. repeat split; auto. intros w n m [].
    - assert (P1 : pair_sized h1 e (amats acc)).
      { destruct P as ((VC & EC & RC & CC) & (VS & ES & RS & CS)). split; szd; apply K; auto. }
      destruct (atm_grow_ok h1 e acc n m ltac:(lia) P1 AP) as (h2' & a' & E' & G & AP' & F). rewrite E in E'. injection E' as <- <-.
      assert (Old : forall w0 n0 m0, In (w0, (n0, m0)) (l ++ [(w, (n, m))]) -> 0 <= m0 <= n0 /\
                forall x, In x (wave_mats w0) -> sized h2 n0 x /\ apart x (mC (amats acc')) /\ apart x (mS (amats acc'))).
      { intros w0 n0 m0 Hin. apply in_app_or in Hin.
        assert (T : 0 <= m0 <= n0 /\ forall x, In x (wave_mats w0) -> sized h1 n0 x /\ apart x (mC (amats acc)) /\ apart x (mS (amats acc))).
        { destruct Hin as [Hin|[Hin|[]]].
          - destruct (W w0 n0 m0 Hin) as (B & X). split; auto. intros x Hx. destruct (X x Hx) as ((Vx & Ex & Rx & Cx) & A1 & A2). split; [szd; apply K; auto|auto].
          - injection Hin as <- <- <-. split; auto. }
        destruct T as (B & X). split; auto. intros x Hx. destruct (X x Hx) as ((Vx & Ex & Rx & Cx) & A1 & A2).
        destruct (F x Vx A1 A2) as (V2 & B1 & B2 & _). split; [szd|auto]. }
      unfold grow in G. cbn [fst snd] in G. destruct ((adeg acc <? n) || (aord acc <? m)) eqn:B.
      + destruct G as (P2 & G). injection G as G1 G2. exists n. rewrite G1, G2. refine (conj P2 (conj AP' (conj D (conj Old _)))).
        right. split; [reflexivity|]. split; [|exists w; apply in_or_app; right; left; reflexivity].
        apply orb_true_iff in B. destruct B as [B|B]; apply Z.ltb_lt in B; lia.
      + destruct G as (P2 & G). injection G as G1 G2. apply orb_false_iff in B. destruct B as (B1 & B2). apply Z.ltb_ge in B1, B2.
        exists e. rewrite G1, G2. refine (conj P2 (conj AP' (conj O (conj Old _)))).
        destruct Q as [(Q1 & Q2 & Q3 & Q4)|(Q1 & Q2 & w1 & Q3)].
        * left. refine (conj Q1 (conj Q2 (conj Q3 _))). intros w0 n0 m0 Hin. apply in_app_or in Hin.
          destruct Hin as [Hin|[Hin|[]]]; [apply (Q4 w0 n0 m0 Hin)|]. injection Hin as <- <- <-. lia.
        * right. refine (conj Q1 (conj Q2 _)). exists w1. apply in_or_app. left. exact Q3.
  Qed.

  (** the accumulator dominates every wave when the sizes are comparable *)
  Lemma ahist_large (h : mem A) a l : ahist h a l ->
    (forall x y, In x (map snd l) -> In y (map snd l) -> comparable x y) ->
    forall w n m, In (w, (n, m)) l -> n <= adeg a /\ m <= aord a.
  Proof.
    induction 1 as [h h' acc E|h acc l h1 w n m h2 acc' H IH K D Hw E]; intros C w0 n0 m0 Hin; [destruct Hin|].
    destruct (ahist_inv h acc l H) as (e & P & AP & O & W & Q).
    assert (P1 : pair_sized h1 e (amats acc)).
    { destruct P as ((VC & EC & RC & CC) & (VS & ES & RS & CS)). split; szd; apply K; auto. }
    destruct (atm_grow_ok h1 e acc n m ltac:(lia) P1 AP) as (h2' & a' & E' & G & _). rewrite E in E'. injection E' as <- <-.
    assert (C' : forall x y, In x (map snd l) -> In y (map snd l) -> comparable x y)
      by (intros x y Hx Hy; apply C; rewrite map_app; apply in_or_app; auto).
    specialize (IH C'). unfold grow in G. cbn [fst snd] in G. destruct ((adeg acc <? n) || (aord acc <? m)) eqn:B.
    - destruct G as (_ & G). injection G as G1 G2. rewrite G1, G2. apply in_app_or in Hin. destruct Hin as [Hin|[Hin|[]]]; [|injection Hin as <- <- <-; lia].
      destruct (IH w0 n0 m0 Hin) as (L1 & L2). apply orb_true_iff in B. rewrite !Z.ltb_lt in B.
      destruct (W w0 n0 m0 Hin) as (R & _).
      (* the accumulator has the size of some wave, or is the default *)
      destruct Q as [(_ & Q2 & Q3 & _)|(_ & _ & w1 & Q3)]; [lia|].
      destruct (C (adeg acc, aord acc) (n, m)) as [(X & Y)|(X & Y)]; cbn [fst snd] in *; try lia;
        rewrite map_app; apply in_or_app; [left; apply in_map_iff; exists (w1, (adeg acc, aord acc)); auto|right; left; reflexivity].
    - destruct G as (_ & G). injection G as G1 G2. rewrite G1, G2. apply orb_false_iff in B. destruct B as (B1 & B2). apply Z.ltb_ge in B1, B2.
      apply in_app_or in Hin. destruct Hin as [Hin|[Hin|[]]]; [apply (IH w0 n0 m0 Hin)|]. injection Hin as <- <- <-. lia.
  Qed.
End Grow.

(** evaluation after appending *)
(** any sequence of sizes can be appended *)
Lemma valid_app {A} (h b : mem A) x : valid h x -> valid (h ++ b)%list x /\ forall i j, get A (h ++ b)%list x i j = get A h x i j.
Proof.
  intros V. assert (K : forall q, Some q = ptr x -> nth_error (h ++ b)%list q = nth_error h q).
  { intros q Hq. apply nth_error_app1. destruct V as (_ & _ & _ & Q). rewrite <- Hq in Q. destruct Q as (l & Hl & _). eapply nth_lt; eauto. }
  split; [apply (valid_frame h); auto|]. intros i j. apply get_frame. auto.
Qed.
Lemma ahist_extend {A} (h : mem A) a l n m : ahist (A := A) h a l -> 0 <= m <= n ->
  exists (h2 : mem A) a' w, ahist h2 a' (l ++ [(w, (n, m))])%list /\ (adeg a', aord a') = snd (grow 0 (adeg a, aord a) (n, m)).
Proof.
  intros H D. destruct (ahist_inv h a l H) as (e & P & AP & _).
  set (c := repeat (@None A) (Z.to_nat (num_elements (mkStorage LwTriCol (n + 1) (n + 1))))).
  set (h1 := (h ++ [Live c; Live c; Live c; Live c])%list).
  set (w := cell_wave (mkD 0 0 0 0 0 0 0) (length h) n).
  assert (K : keeps h h1). { intros x V. destruct (valid_app h [Live c; Live c; Live c; Live c] x V). auto. }
  assert (P1 : pair_sized h1 e (amats a)).
  { destruct P as ((V1 & S1) & (V2 & S2)). split; split; auto; apply (valid_app h _ _); auto. }
  assert (L : Z.of_nat (length c) = num_elements (mkStorage LwTriCol (n + 1) (n + 1))).
  { unfold c. rewrite repeat_length, Z2Nat.id; [reflexivity|]. apply num_elements_nonneg, wf_mk, legal_lw. lia. }
  assert (W : forall x, In x (wave_mats w) -> sized h1 n x /\ apart x (mC (amats a)) /\ apart x (mS (amats a))).
  { assert (B : forall y k, valid h y -> ptr y <> Some (length h + k)%nat).
    { intros y k V E. destruct V as (_ & _ & _ & Q). rewrite E in Q. destruct Q as (q & Hq & _). apply nth_lt in Hq. lia. }
    assert (X : forall k, (k < 4)%nat -> sized h1 n (cell_mat (length h + k) n) /\ apart (cell_mat (length h + k) n) (mC (amats a)) /\ apart (cell_mat (length h + k) n) (mS (amats a))).
    { intros k Hk. refine (conj _ (conj (or_intror _) (or_intror _))).
      - apply (cell_sized h1 _ n c); auto; [lia|]. unfold h1. rewrite nth_error_app2 by lia. replace (length h + k - length h)%nat with k by lia.
        destruct k as [|[|[|[|k]]]]; try reflexivity. lia.
      - intros E. symmetry in E. apply B in E; [auto|apply P].
      - intros E. symmetry in E. apply B in E; [auto|apply P]. }
    pose proof (X 0%nat) as X0. rewrite Nat.add_0_r in X0.
    intros x [<- | [<- | [<- | [<- | []]]]]; [apply X0; lia|apply (X 1%nat); lia|apply (X 2%nat); lia|apply (X 3%nat); lia]. }
  destruct (atm_grow_ok h1 e a n m) as (h2 & a' & E & G & _); [lia|exact P1|exact AP|].
  exists h2, a', w. split; [eapply ah_append; eauto|].
  unfold grow in *. cbn [fst snd] in *. destruct ((adeg a <? n) || (aord a <? m)); apply G.
Qed.
Lemma ahist_two {A} n1 m1 n2 m2 : 0 <= m1 <= n1 -> 0 <= m2 <= n2 ->
  exists (h : mem A) a w1 w2, ahist h a [(w1, (n1, m1)); (w2, (n2, m2))] /\
    (adeg a, aord a) = snd (grow 0 (snd (grow 0 (0, 0) (n1, m1))) (n2, m2)).
Proof.
  intros D1 D2. destruct (default_ok (A := A) []) as (h & a & E & _ & Q1 & Q2 & _).
  destruct (ahist_extend h a [] n1 m1 (ah_new _ _ _ E) D1) as (h1 & a1 & w1 & H1 & G1). rewrite Q1, Q2 in G1.
  destruct (ahist_extend h1 a1 _ n2 m2 H1 D2) as (h2 & a2 & w2 & H2 & G2). rewrite G1 in G2.
  exists h2, a2, w1, w2. auto.
Qed.

Lemma ahist_evaluates (h : mem R) a l F g : ahist h a l -> l <> [] ->
  ((exists d, 0 < d /\ forall w n m, In (w, (n, m)) l -> n = d) -> exists h', atm_coeffs h (amats a) (map fst l) F g = Ok h') /\
  (~ (exists d, 0 < d /\ forall w n m, In (w, (n, m)) l -> n = d) -> atm_coeffs h (amats a) (map fst l) F g = Abort).
Proof.
  intros H Ne. destruct (ahist_inv h a l H) as (e & P & AP & O & W & Q).
  assert (AA : acc_alone (amats a) (map fst l)).
  { refine (conj AP (conj (apart_sym _ _ AP) _)). intros w Hw x Hx. apply in_map_iff in Hw. destruct Hw as ((w', (n, m)) & <- & Hw).
    destruct (W w' n m Hw) as (_ & X). destruct (X x Hx) as (_ & A1 & A2). auto. }
  assert (M : map fst (with_factors (atm_factors F g) (map fst l)) = map fst l) by (unfold with_factors; rewrite map_map; apply map_id).
  split.
  - intros (d & Dp & Dall).
    assert (e = d).
    { destruct Q as [(Q1 & Q2 & Q3 & Q4)|(Q1 & Q2 & w1 & Q3)].
      - destruct l as [|(w, (n, m)) l]; [congruence|]. pose proof (Q4 w n m (or_introl eq_refl)). pose proof (Dall w n m (or_introl eq_refl)). lia.
      - rewrite Q1. apply (Dall w1 _ _ Q3). }
    subst e.
    destruct (evaluate_ok Rplus Rmult 0%R Rplus_comm h d (amats a) (with_factors (atm_factors F g) (map fst l)) P) as (h1 & E1 & _).
    + rewrite M. intros w Hw x Hx. apply in_map_iff in Hw. destruct Hw as ((w', (n, m)) & <- & Hw).
      destruct (W w' n m Hw) as (_ & X). destruct (X x Hx) as (S & _). rewrite (Dall w' n m Hw) in S. exact S.
    + rewrite M. exact AA.
    + exists h1. exact E1.
  - intros N. unfold atm_coeffs. apply (evaluate_abort Rplus Rmult 0%R Rplus_comm h e); auto.
    + rewrite M. exact AA.
    + rewrite M. intros w Hw x Hx. apply in_map_iff in Hw. destruct Hw as ((w', (n, m)) & <- & Hw).
      destruct (W w' n m Hw) as (B & X). destruct (X x Hx) as (S & _). exists n. split; [lia|exact S].
    + rewrite M.
      assert (T : exists w n m, In (w, (n, m)) l /\ n <> e).
      { destruct (all_or_not (fun x => fst (snd x) = e) l) as [Al|((w, (n, m)) & Hx & Nx)].
        - intros x _. lia.
        - destruct Q as [(Q1 & Q2 & Q3 & Q4)|(Q1 & Q2 & w1 & Q3)].
          + destruct l as [|(w, (n, m)) l]; [congruence|]. exists w, n, m. split; [left; auto|]. destruct (W w n m (or_introl eq_refl)). lia.
          + exfalso. apply N. exists e. split; [lia|]. intros w n m Hin. apply (Al (w, (n, m)) Hin).
        - exists w, n, m. auto. }
      destruct T as (w & n & m & Hin & Nn). exists w, (mC (tcos w)). split; [apply in_map_iff; exists (w, (n, m)); auto|].
      split; [unfold wave_mats; simpl; auto|]. intros (_ & _ & R' & _). destruct (W w n m Hin) as (_ & X).
      destruct (X (mC (tcos w))) as ((_ & _ & R1 & _) & _); [unfold wave_mats; simpl; auto|]. lia.
Qed.

(** ** ownership *)
Lemma option_eq_dec (q : nat) (p : option nat) : Some q = p \/ Some q <> p.
Proof. destruct p as [p|]; [|right; discriminate]. destruct (Nat.eq_dec q p); [left|right]; congruence. Qed.

Section Own.
  Context {M : Type}.
  Notation gstate := (gstate M).
  Notation gstep := (gstep M).

  Lemma gload_ok (h : list (gblock M)) p m : gload M h p = Ok m <-> nth_error h p = Some (GLive m).
  Proof. unfold gload. destruct (nth_error h p) as [[|]|]; split; intros E; try discriminate; injection E as <-; reflexivity. Qed.

  Definition ginv (s : gstate) : Prop := owned s /\ no_orphan s.

  Lemma nth_app_new {X} (l : list X) x i y : nth_error (l ++ [x]) i = Some y -> nth_error l i = Some y \/ (i = length l /\ y = x).
  Proof.
    intros E. destruct (Nat.lt_ge_cases i (length l)) as [L|L].
    - left. rewrite nth_error_app1 in E; auto.
    - right. rewrite nth_error_app2 in E by auto. destruct (i - length l)%nat as [|k] eqn:Q; [|destruct k; discriminate].
      injection E as <-. split; [lia|reflexivity].
  Qed.
  Lemma nth_app_old {X} (l : list X) x i y : nth_error l i = Some y -> nth_error (l ++ [x]) i = Some y.
  Proof. intros E. rewrite nth_error_app1; auto. apply nth_error_Some. congruence. Qed.
  Lemma nth_app_last {X} (l : list X) x : nth_error (l ++ [x]) (length l) = Some x.
  Proof. rewrite nth_error_app2, Nat.sub_diag by lia. reflexivity. Qed.

  Lemma gfree_ok (s : gstate) i p : owned s -> nth_error (gobjs M s) i = Some (Some p) ->
    exists h, gfree M (gheap M s) p = Ok h /\ length h = length (gheap M s) /\
      (forall q, Some q <> p -> nth_error h q = nth_error (gheap M s) q) /\ (forall q, Some q = p -> nth_error h q = Some GFreed).
  Proof.
    intros (L & _) E. destruct p as [p|].
    - destruct (L i p E) as (m & Hm). unfold gfree, gload. rewrite Hm. cbn [bind]. eexists. split; [reflexivity|].
      split; [apply upd_length|]. split.
      + intros q Hq. apply nth_error_upd_ne. congruence.
      + intros q Hq. injection Hq as <-. apply nth_error_upd_eq. apply nth_error_Some. congruence.
    - exists (gheap M s). repeat split; auto. discriminate.
  Qed.

  Lemma gptr_ok (s : gstate) i p : gptr M s i = Ok p -> nth_error (gobjs M s) i = Some (Some p).
  Proof. unfold gptr. destruct nth_error as [[q|]|]; intros E; try discriminate. congruence. Qed.
  Lemma gptr_cases (s : gstate) i : (exists p, gptr M s i = Ok p /\ nth_error (gobjs M s) i = Some (Some p)) \/ gptr M s i = Illegal.
  Proof. unfold gptr. destruct (nth_error (gobjs M s) i) as [[q|]|]; eauto. Qed.

  (** what an object points to, ignoring destroyed ones *)
  Lemma look (l : list (option (option nat))) i j x : (i < length l)%nat -> nth_error (upd l i x) j = if Nat.eqb j i then Some x else nth_error l j.
  Proof. intros L. rewrite nth_error_upd. destruct (Nat.ltb_spec i (length l)); [reflexivity|lia]. Qed.
  Lemma obj_lt (s : gstate) i x : nth_error (gobjs M s) i = Some x -> (i < length (gobjs M s))%nat.
  Proof. intros E. apply nth_error_Some. congruence. Qed.

  Lemma ginv_push (s : gstate) : ginv s -> ginv (mkGS M (gobjs M s ++ [Some None]) (gheap M s)).
  Proof.
    intros ((L & U) & N). split; [split|unfold no_orphan]; cbn [gobjs gheap].
    - intros i p E. apply nth_app_new in E. destruct E as [E|(_ & E)]; [apply (L i p E)|discriminate].
    - intros i j p E E'. apply nth_app_new in E, E'. destruct E as [E|(_ & E)]; [|discriminate]. destruct E' as [E'|(_ & E')]; [|discriminate]. apply (U i j p); auto.
    - intros p m E. destruct (N p m E) as (i & Hi). exists i. apply nth_app_old. exact Hi.
  Qed.

  Lemma ginv_release (s : gstate) i p h : ginv s -> nth_error (gobjs M s) i = Some (Some p) -> gfree M (gheap M s) p = Ok h ->
    ginv (mkGS M (upd (gobjs M s) i (Some None)) h).
  Proof.
    intros ((L & U) & N) E F. destruct (gfree_ok s i p (conj L U) E) as (h' & F' & Le & K & Z). rewrite F in F'. injection F' as <-.
    pose proof (obj_lt s i _ E) as Lt. split; [split|unfold no_orphan]; cbn [gobjs gheap].
    - intros j q Hj. rewrite look in Hj by auto. destruct (Nat.eqb_spec j i) as [-> | Ne]; [discriminate|]. destruct (L j q Hj) as (m & Hm).
      exists m. rewrite K; auto. intros <-. apply Ne. apply (U j i q); auto.
    - intros j k q Hj Hk. rewrite look in Hj, Hk by auto. destruct (Nat.eqb_spec j i) as [-> | Ne]; [discriminate|]. destruct (Nat.eqb_spec k i) as [-> | Ne']; [discriminate|].
      apply (U j k q); auto.
    - intros q m Hq. destruct (option_eq_dec q p) as [Eq|Nq].
      + rewrite (Z q Eq) in Hq. discriminate.
      + rewrite K in Hq by auto. destruct (N q m Hq) as (j & Hj). exists j. rewrite look by auto.
        destruct (Nat.eqb_spec j i) as [-> | Ne]; [|exact Hj]. rewrite E in Hj. injection Hj as ->. congruence.
  Qed.

  Lemma ginv_alloc (s : gstate) i m : ginv s -> nth_error (gobjs M s) i = Some (Some None) ->
    ginv (mkGS M (upd (gobjs M s) i (Some (Some (length (gheap M s))))) (gheap M s ++ [GLive m])).
  Proof.
    intros ((L & U) & N) E. pose proof (obj_lt s i _ E) as Lt.
    assert (Fresh : forall j, nth_error (gobjs M s) j <> Some (Some (Some (length (gheap M s))))).
    { intros j Hj. destruct (L j _ Hj) as (m' & Hm). assert (length (gheap M s) < length (gheap M s))%nat by (apply nth_error_Some; congruence). lia. }
    split; [split|unfold no_orphan]; cbn [gobjs gheap].
    - intros j q Hj. rewrite look in Hj by auto. destruct (Nat.eqb_spec j i) as [-> | Ne].
      + injection Hj as <-. exists m. apply nth_app_last.
      + destruct (L j q Hj) as (m' & Hm). exists m'. apply nth_app_old. exact Hm.
    - intros j k q Hj Hk. rewrite look in Hj, Hk by auto. destruct (Nat.eqb_spec j i) as [-> | Ne], (Nat.eqb_spec k i) as [-> | Ne']; auto.
      + injection Hj as <-. exfalso. apply (Fresh k Hk).
      + injection Hk as <-. exfalso. apply (Fresh j Hj).
      + apply (U j k q); auto.
    - intros q m' Hq. apply nth_app_new in Hq. destruct Hq as [Hq|(-> & _)].
      + destruct (N q m' Hq) as (j & Hj). exists j. rewrite look by auto. destruct (Nat.eqb_spec j i) as [-> | Ne]; [congruence|exact Hj].
      + exists i. rewrite look by auto. rewrite Nat.eqb_refl. reflexivity.
  Qed.

  Lemma ginv_transfer (s : gstate) i j r : ginv s -> i <> j -> nth_error (gobjs M s) i = Some (Some None) -> nth_error (gobjs M s) j = Some (Some (Some r)) ->
    ginv (mkGS M (upd (upd (gobjs M s) i (Some (Some r))) j (Some None)) (gheap M s)).
  Proof.
    intros ((L & U) & N) D E E'. pose proof (obj_lt s i _ E) as Lt. pose proof (obj_lt s j _ E') as Lt'.
    assert (Lk : forall k, nth_error (upd (upd (gobjs M s) i (Some (Some r))) j (Some None)) k =
                 if Nat.eqb k j then Some (Some None) else if Nat.eqb k i then Some (Some (Some r)) else nth_error (gobjs M s) k).
    { intros k. rewrite look by (rewrite upd_length; auto). destruct (Nat.eqb k j); [reflexivity|]. apply look; auto. }
    split; [split|unfold no_orphan]; cbn [gobjs gheap].
    - intros k q Hk. rewrite Lk in Hk. destruct (Nat.eqb_spec k j); [discriminate|]. destruct (Nat.eqb_spec k i) as [-> | Ne].
      + injection Hk as <-. apply (L j r E').
      + apply (L k q Hk).
    - intros k k' q Hk Hk'. rewrite Lk in Hk, Hk'. destruct (Nat.eqb_spec k j); [discriminate|]. destruct (Nat.eqb_spec k' j); [discriminate|].
      destruct (Nat.eqb_spec k i) as [-> | Ne], (Nat.eqb_spec k' i) as [-> | Ne']; auto.
      + injection Hk as <-. exfalso. apply n0. apply (U k' j r); auto.
      + injection Hk' as <-. exfalso. apply n. apply (U k j r); auto.
      + apply (U k k' q); auto.
    - intros q m Hq. destruct (N q m Hq) as (k & Hk). destruct (Nat.eq_dec k j) as [-> | Ne].
      + exists i. rewrite Lk. destruct (Nat.eqb_spec i j); [contradiction|]. rewrite Nat.eqb_refl. congruence.
      + exists k. rewrite Lk. destruct (Nat.eqb_spec k j); [contradiction|]. destruct (Nat.eqb_spec k i) as [-> | ]; [congruence|exact Hk].
  Qed.

  Lemma ginv_kill (s : gstate) i : ginv s -> nth_error (gobjs M s) i = Some (Some None) -> ginv (mkGS M (upd (gobjs M s) i None) (gheap M s)).
  Proof.
    intros ((L & U) & N) E. pose proof (obj_lt s i _ E) as Lt. split; [split|unfold no_orphan]; cbn [gobjs gheap].
    - intros j q Hj. rewrite look in Hj by auto. destruct (Nat.eqb_spec j i); [discriminate|]. apply (L j q Hj).
    - intros j k q Hj Hk. rewrite look in Hj, Hk by auto. destruct (Nat.eqb_spec j i); [discriminate|]. destruct (Nat.eqb_spec k i); [discriminate|]. apply (U j k q); auto.
    - intros q m Hq. destruct (N q m Hq) as (j & Hj). exists j. rewrite look by auto. destruct (Nat.eqb_spec j i) as [-> | ]; [congruence|exact Hj].
  Qed.

  Lemma upd_last {X} (l : list X) x y : upd (l ++ [x]) (length l) y = l ++ [y].
  Proof. induction l; simpl; [reflexivity|]. f_equal. exact IHl. Qed.
  Lemma upd_app {X} (l : list X) x i y : (i < length l)%nat -> upd (l ++ [x]) i y = upd l i y ++ [x].
  Proof. revert i. induction l as [|a l IH]; intros [|i] H; simpl in *; try lia; [reflexivity|]. f_equal. apply IH. lia. Qed.
  Lemma upd_twice {X} (l : list X) i x y : upd (upd l i x) i y = upd l i y.
  Proof. revert i. induction l as [|a l IH]; intros [|i]; simpl; auto. f_equal. apply IH. Qed.
  Lemma upd_comm {X} (l : list X) i j x y : i <> j -> upd (upd l i x) j y = upd (upd l j y) i x.
  Proof. revert i j. induction l as [|a l IH]; intros [|i] [|j] H; simpl; auto; [congruence|]. f_equal. apply IH. congruence. Qed.

  Lemma gstep_safe (s : gstate) o : ginv s -> ~ dangles s o -> gstep s o = Illegal \/ exists s', gstep s o = Ok s' /\ ginv s'.
  Proof.
    intros I Nd. pose proof I as (Ow & No). pose proof Ow as (L & U). destruct o as [|m|i|i|i j|i j|i m|i|i]; cbn [TideModel.gstep].
    - right. eexists. split; [reflexivity|]. apply ginv_push. exact I.
    - right. eexists. split; [reflexivity|]. pose proof (ginv_alloc _ (length (gobjs M s)) m (ginv_push s I)) as Q. cbn [gobjs gheap] in Q.
      rewrite upd_last in Q. apply Q. apply nth_app_last.
    - destruct (gptr_cases s i) as [(p & E & Ei)| ->]; [|left; reflexivity]. rewrite E. cbn [bind]. right. destruct p as [p|].
      + destruct (L i p Ei) as (m & Hm). unfold gclone, gload. rewrite Hm. cbn [bind gnew]. eexists. split; [reflexivity|].
        pose proof (ginv_alloc _ (length (gobjs M s)) m (ginv_push s I)) as Q. cbn [gobjs gheap] in Q. rewrite upd_last in Q. apply Q. apply nth_app_last.
      + cbn [gclone bind]. eexists. split; [reflexivity|]. apply ginv_push. exact I.
    - destruct (gptr_cases s i) as [(p & E & Ei)| ->]; [|left; reflexivity]. rewrite E. cbn [bind]. right. eexists. split; [reflexivity|].
      pose proof (obj_lt s i _ Ei) as Lt. destruct p as [p|].
      + pose proof (ginv_transfer _ (length (gobjs M s)) i p (ginv_push s I)) as Q. cbn [gobjs gheap] in Q. rewrite upd_last in Q.
        rewrite <- upd_app by auto. apply Q; [lia|apply nth_app_last|apply nth_app_old; auto].
      + rewrite (upd_same _ _ _ Ei). apply ginv_push. exact I.
    - destruct (gptr_cases s i) as [(p & E & Ei)| ->]; [|left; reflexivity]. rewrite E. cbn [bind].
      destruct (gptr_cases s j) as [(q & E' & Ej)| ->]; [|left; reflexivity]. rewrite E'. cbn [bind].
      right. destruct (Nat.eqb_spec i j) as [<- | Ne]; [eauto|].
      destruct (gfree_ok s i p Ow Ei) as (h & F & Le & K & Z). rewrite F. cbn [bind].
      pose proof (ginv_release s i p h I Ei F) as R. destruct q as [q|].
      + destruct (L j q Ej) as (m & Hm). unfold gclone, gload. rewrite K, Hm; [|intros <-; apply Ne; apply (U i j q); auto]. cbn [bind gnew].
        eexists. split; [reflexivity|]. pose proof (ginv_alloc _ i m R) as Q. cbn [gobjs gheap] in Q. rewrite upd_twice in Q. apply Q.
        rewrite look by (eapply obj_lt; eauto). rewrite Nat.eqb_refl. reflexivity.
      + cbn [gclone bind]. eexists. split; [reflexivity|]. exact R.
    - destruct (gptr_cases s i) as [(p & E & Ei)| ->]; [|left; reflexivity]. rewrite E. cbn [bind].
      destruct (gptr_cases s j) as [(q & E' & Ej)| ->]; [|left; reflexivity]. rewrite E'. cbn [bind]. right.
      destruct (gfree_ok s i p Ow Ei) as (h & F & Le & K & Z). rewrite F. cbn [bind].
      pose proof (ginv_release s i p h I Ei F) as R. destruct q as [q|].
      + eexists. split; [reflexivity|]. destruct (Nat.eq_dec i j) as [<- | Ne]; [rewrite upd_twice; exact R|].
        pose proof (ginv_transfer _ i j q R Ne) as Q. cbn [gobjs gheap] in Q. rewrite upd_twice in Q. apply Q.
        * rewrite look by (eapply obj_lt; eauto). rewrite Nat.eqb_refl. reflexivity.
        * rewrite look by (eapply obj_lt; eauto). destruct (Nat.eqb_spec j i); [congruence|exact Ej].
      + destruct p as [p|]; [exfalso; apply Nd; cbn [dangles]; split; eauto|]. injection F as <-. eexists. split; [reflexivity|]. destruct s; exact I.
    - destruct (gptr_cases s i) as [(p & E & Ei)| ->]; [|left; reflexivity]. rewrite E. cbn [bind]. right.
      destruct (gfree_ok s i p Ow Ei) as (h & F & Le & K & Z). rewrite F. cbn [bind gnew].
      pose proof (ginv_release s i p h I Ei F) as R. eexists. split; [reflexivity|].
      pose proof (ginv_alloc _ i m R) as Q. cbn [gobjs gheap] in Q. rewrite upd_twice in Q. apply Q.
      rewrite look by (eapply obj_lt; eauto). rewrite Nat.eqb_refl. reflexivity.
    - destruct (gptr_cases s i) as [(p & E & Ei)| ->]; [|left; reflexivity]. rewrite E. cbn [bind]. right. exists s. destruct p as [p|]; [|auto].
      destruct (L i p Ei) as (m & Hm). unfold gload. rewrite Hm. auto.
    - destruct (gptr_cases s i) as [(p & E & Ei)| ->]; [|left; reflexivity]. rewrite E. cbn [bind]. right.
      destruct (gfree_ok s i p Ow Ei) as (h & F & Le & K & Z). rewrite F. cbn [bind].
      pose proof (ginv_release s i p h I Ei F) as R. eexists. split; [reflexivity|].
      pose proof (ginv_kill _ i R) as Q. cbn [gobjs gheap] in Q. rewrite upd_twice in Q. apply Q.
      rewrite look by (eapply obj_lt; eauto). rewrite Nat.eqb_refl. reflexivity.
  Qed.

  Lemma ginit_inv : ginv (ginit M).
  Proof. split; [split|]. - intros [|i] p E; discriminate. - intros [|i] j p E; discriminate. - intros [|p] m E; discriminate. Qed.

  Lemma ghist_inv (s : gstate) : ghist s -> ginv s.
  Proof.
    induction 1 as [|s o s' H I N E]; [apply ginit_inv|]. destruct (gstep_safe s o I N) as [Q|(s2 & Q & I2)]; congruence.
  Qed.

  Lemma ghist_safe (s : gstate) o : ghist s -> ~ dangles s o -> gstep s o <> UB /\ gstep s o <> Abort.
  Proof. intros H N. destruct (gstep_safe s o (ghist_inv s H) N) as [-> | (s' & -> & _)]; split; discriminate. Qed.

  Lemma ghist_all_freed (s : gstate) : ghist s -> (forall i p, nth_error (gobjs M s) i <> Some (Some p)) ->
    forall p b, nth_error (gheap M s) p = Some b -> b = GFreed.
  Proof.
    intros H N p b E. destruct b as [m|]; [|reflexivity]. destruct (ghist_inv s H) as (_ & O). destruct (O p m E) as (i & Hi). exfalso. apply (N i _ Hi).
  Qed.

  (** the move assignment that is excluded leaves a pointer to freed memory *)
  Lemma gmove_dangles (s : gstate) i j : ghist s -> dangles s (GMoveAssign M i j) ->
    exists s', gstep s (GMoveAssign M i j) = Ok s' /\ gstep s' (GUse M i) = UB /\ gstep s' (GDestroy M i) = UB /\ gstep s' (GCopy M i) = UB.
  Proof.
    intros H ((p & Ei) & Ej). destruct (ghist_inv s H) as (Ow & _).
    destruct (gfree_ok s i (Some p) Ow Ei) as (h & F & Le & K & Z). cbn [TideModel.gstep]. unfold gptr. rewrite Ei, Ej. cbn [bind]. rewrite F. cbn [bind].
    exists (mkGS M (gobjs M s) h). split; [reflexivity|]. cbn [gobjs gheap]. rewrite Ei. cbn [bind]. unfold gclone, gfree, gload. rewrite (Z p eq_refl). auto.
  Qed.
End Own.
