From Coq Require Import Reals ZArith List Bool Lia Lra Permutation.
From Verif Require Import Base StorageModel StorageSpec StorageProofs MatrixModel MatrixSpec MatrixProofs Angles DoodsonModel DoodsonArgModel DoodsonArgSpec DoodsonArgProofs
  TideModel TideSpec TideProofs.
From Verif Require AtlasModel AtlasProofs.
Import ListNotations.
Open Scope Z_scope.

(** ** real sums *)
Lemma stores_sized h d l cs : Forall2 (stores h d) l cs -> waves_sized h d l.
Proof.
  induction 1 as [|w c l cs (_ & S & _) _ IH]; intros w' Hw'; [destruct Hw'|]. destruct Hw' as [<- | Hw']; [exact S|apply IH; auto].
Qed.

Lemma stores_frame h acc h' d l cs : only_acc h acc h' -> acc_alone acc l -> Forall2 (stores h d) l cs -> Forall2 (stores h' d) l cs.
Proof.
  intros O (A1 & A2 & A3) F. induction F as [|w c l cs (E & S & S1 & S2 & S3 & S4) F IH]; constructor.
  - pose proof (A3 w (or_introl eq_refl)) as Aw. refine (conj E (conj _ _)).
    + intros m Hm. destruct (Aw m Hm). apply (sized_frame h acc); auto.
    + assert (X : forall m f, In m (wave_mats w) -> shows h d m f -> shows h' d m f)
        by (intros m f Hm; destruct (Aw m Hm); apply (shows_frame h acc); auto).
      repeat split; apply X; auto; unfold wave_mats; simpl; auto.
  - apply IH. intros w' Hw'. apply A3. right; auto.
Qed.

Lemma loop_sum h d l fs cs n k : 0 <= k <= n -> n <= d -> Forall2 (stores h d) l cs -> length fs = length l ->
  forall x, loopC Rplus Rmult h (combine l fs) n k (Some x) = Some (x + csum (combine cs fs) n k)%R /\
            loopS Rplus Rmult h (combine l fs) n k (Some x) = Some (x + ssum (combine cs fs) n k)%R.
Proof.
  intros Hk Hn F. revert fs. induction F as [|w c l cs (E & S & S1 & S2 & S3 & S4) F IH]; intros fs L x.
  - simpl. rewrite Rplus_0_r. auto.
  - destruct fs as [|(a, b) fs]; [discriminate|]. injection L as L. cbn [combine loopC loopS csum ssum].
    unfold val. rewrite S1, S2, S3, S4 by auto. unfold termv, lift2.
    destruct (IH fs L (x + (cosC c n k * a + sinC c n k * b))%R) as (Q1 & _).
    destruct (IH fs L (x + (cosS c n k * a + sinS c n k * b))%R) as (_ & Q2). rewrite Q1, Q2. split; f_equal; ring.
Qed.

Lemma evaluate_sum h d acc l fs cs : 0 <= d -> pair_sized h d acc -> Forall2 (stores h d) l cs -> acc_alone acc l -> length fs = length l ->
  exists h', evaluate R Rplus Rmult 0%R h acc (combine l fs) = Ok h' /\ pair_sized h' d acc /\ only_acc h acc h' /\ Forall2 (stores h' d) l cs /\
    shows h' d (mC acc) (fun n k => Some (csum (combine cs fs) n k)) /\ shows h' d (mS acc) (fun n k => Some (ssum (combine cs fs) n k)).
Proof.
  intros D P F AA L.
  assert (M : map fst (combine l fs) = l).
  { clear -L. revert fs L. induction l as [|a l IH]; intros [|b fs] L; try discriminate; [reflexivity|]. injection L as L. simpl. f_equal; auto. }
  destruct (evaluate_ok Rplus Rmult 0%R Rplus_comm h d acc (combine l fs) P) as (h' & E & P' & O & S1 & S2).
  { rewrite M. apply (stores_sized h d l cs F). } { rewrite M. exact AA. }
  exists h'. split; [exact E|]. split; [exact P'|]. split; [exact O|]. split; [apply (stores_frame h acc); auto|].
  split; intros n k Hk Hn; [rewrite S1|rewrite S2]; auto; destruct (loop_sum h d l fs cs n k Hk Hn F L 0%R) as (Q1 & Q2); [rewrite Q1|rewrite Q2]; f_equal; f_equal; ring.
Qed.

Lemma with_combine f l : with_factors f l = combine l (map f l).
Proof. unfold with_factors. induction l; simpl; [reflexivity|]. f_equal; auto. Qed.

Lemma factors_angle h d l cs (f : twave -> R * R) theta :
  (forall w, f w = (cos (theta (td w)), sin (theta (td w)))) -> Forall2 (stores h d) l cs -> combine cs (map f l) = at_angle theta cs.
Proof.
  intros H F. induction F as [|w c l cs (E & _) F IH]; [reflexivity|]. simpl. rewrite H, E. f_equal. exact IH.
Qed.

Lemma cos_argument n F g : cos (argument n (delaunay2doodson F g)) = cos (iers_argument n F g) /\
  sin (argument n (delaunay2doodson F g)) = sin (iers_argument n F g).
Proof. rewrite argument_iers. split; [apply eqm_cos|apply eqm_sin]; apply anp_eqm. Qed.

Lemma ocean_thm h d acc l cs F g : 0 <= d -> pair_sized h d acc -> Forall2 (stores h d) l cs -> acc_alone acc l ->
  exists h', ocean_coeffs h acc l F g = Ok h' /\ pair_sized h' d acc /\ only_acc h acc h' /\ Forall2 (stores h' d) l cs /\
    shows h' d (mC acc) (fun n k => Some (csum (at_angle (fun x => iers_argument x F g) cs) n k)) /\
    shows h' d (mS acc) (fun n k => Some (ssum (at_angle (fun x => iers_argument x F g) cs) n k)).
Proof.
  intros D P S AA. unfold ocean_coeffs. rewrite with_combine.
  rewrite <- (factors_angle h d l cs (ocean_factors F g) (fun x => iers_argument x F g)); auto.
  - apply evaluate_sum; auto. apply map_length.
  - intros w. unfold ocean_factors. destruct (cos_argument (td w) F g) as (-> & ->). reflexivity.
Qed.

Lemma atm_thm h d acc l cs F g : 0 <= d -> pair_sized h d acc -> Forall2 (stores h d) l cs -> acc_alone acc l ->
  let theta := fun x => (iers_argument x F g + IZR (pifac x) * PI / 2)%R in
  exists h', atm_coeffs h acc l F g = Ok h' /\ pair_sized h' d acc /\ only_acc h acc h' /\ Forall2 (stores h' d) l cs /\
    shows h' d (mC acc) (fun n k => Some (csum (at_angle theta cs) n k)) /\
    shows h' d (mS acc) (fun n k => Some (ssum (at_angle theta cs) n k)).
Proof.
  intros D P S AA theta. unfold atm_coeffs. rewrite with_combine.
  rewrite <- (factors_angle h d l cs (atm_factors F g) theta); auto.
  - apply evaluate_sum; auto. apply map_length.
  - intros w. unfold atm_factors, theta. rewrite argument_iers. f_equal; [apply eqm_cos|apply eqm_sin]; apply eqm_add; try apply anp_eqm; apply eqm_refl.
Qed.

Lemma csum_perm l l' n k : Permutation l l' -> csum l n k = csum l' n k /\ ssum l n k = ssum l' n k.
Proof.
  induction 1 as [|(c, (x, y)) l l' _ (A & B)|(c, (x, y)) (c', (x', y')) l|l l' l'' _ (A & B) _ (A' & B')]; simpl.
  - auto.
  - rewrite A, B. auto.
  - split; ring.
  - split; congruence.
Qed.
Lemma angle_perm theta cs cs' : Permutation cs cs' -> Permutation (at_angle theta cs) (at_angle theta cs').
Proof. apply Permutation_map. Qed.

(** sequences of evaluations *)
Definition evaluations (h : mem R) acc l (es : list (delaunay * R)) : res (mem R) :=
  fold_res (fun h e => ocean_coeffs h acc l (fst e) (snd e)) es h.
Lemma evaluations_keep d acc l cs es : 0 <= d -> forall h, pair_sized h d acc -> Forall2 (stores h d) l cs -> acc_alone acc l ->
  exists h', evaluations h acc l es = Ok h' /\ pair_sized h' d acc /\ Forall2 (stores h' d) l cs.
Proof.
  intros D. induction es as [|(F, g) es IH]; intros h P S AA; [exists h; auto|].
  destruct (ocean_thm h d acc l cs F g D P S AA) as (h1 & E1 & P1 & O1 & S1 & _).
  unfold evaluations. cbn [fold_res fst snd]. rewrite E1. cbn [bind]. apply IH; auto.
Qed.

(** ** admittance *)
Lemma pair_up_ok l fc fs : length fc = length fs ->
  pair_up l fc fs = if (length l <=? length fc)%nat then Some (combine l (combine fc fs)) else None.
Proof.
  revert fc fs. induction l as [|w l IH]; intros [|c fc] [|s fs] L; try discriminate; try reflexivity.
  injection L as L. cbn [pair_up combine length]. rewrite IH by auto. cbn [Nat.leb]. destruct Nat.leb; reflexivity.
Qed.

Definition trig (dm : list doodson) F g (f : R -> R) : list R := map (fun x => f (iers_argument x F g)) dm.
Lemma factors_trig dm am F g :
  admittance_factors dm am F g = (map (fun r => dot r (trig dm F g cos)) am, map (fun r => dot r (trig dm F g sin)) am).
Proof.
  unfold admittance_factors, trig. rewrite !map_map.
  assert (E1 : map (fun x => cos (argument x (delaunay2doodson F g))) dm = map (fun x => cos (iers_argument x F g)) dm) by (apply map_ext; intros x; apply cos_argument).
  assert (E2 : map (fun x => sin (argument x (delaunay2doodson F g))) dm = map (fun x => sin (iers_argument x F g)) dm) by (apply map_ext; intros x; apply cos_argument).
  rewrite E1, E2. reflexivity.
Qed.

Lemma combine_firstn {X Y} (l : list X) (f : list Y) : combine l f = combine l (firstn (length l) f).
Proof. revert f. induction l; intros [|b f]; simpl; auto. f_equal; auto. Qed.
Lemma firstn_map_combine (am : list (list R)) (F1 F2 : list R -> R) k :
  firstn k (combine (map F1 am) (map F2 am)) = firstn k (map (fun r => (F1 r, F2 r)) am).
Proof. revert k. induction am; intros [|k]; simpl; auto. f_equal; auto. Qed.

Lemma admittance_thm h d acc l cs dm am F g : 0 <= d -> pair_sized h d acc -> Forall2 (stores h d) l cs -> acc_alone acc l ->
  (length l <= length am)%nat ->
  let fs := firstn (length l) (map (fun r => (dot r (trig dm F g cos), dot r (trig dm F g sin))) am) in
  exists h', ocean_coeffs_admittance h acc l dm am (length dm) F g = Ok h' /\ pair_sized h' d acc /\ only_acc h acc h' /\ Forall2 (stores h' d) l cs /\
    shows h' d (mC acc) (fun n k => Some (csum (combine cs fs) n k)) /\ shows h' d (mS acc) (fun n k => Some (ssum (combine cs fs) n k)).
Proof.
  intros D P S AA L fs.
  destruct (evaluate_sum h d acc l fs cs D P S AA) as (h' & E & R).
  { unfold fs. rewrite firstn_length, map_length. lia. }
  exists h'. split; [|exact R]. unfold ocean_coeffs_admittance. rewrite Nat.eqb_refl. cbn [negb]. rewrite factors_trig.
  rewrite pair_up_ok by (rewrite !map_length; reflexivity). rewrite map_length. apply Nat.leb_le in L. rewrite L.
  rewrite combine_firstn, firstn_map_combine. exact E.
Qed.

Lemma admittance_ub h d acc l dm am F g : 0 <= d -> pair_sized h d acc -> acc_alone acc l ->
  (length am < length l)%nat -> ocean_coeffs_admittance h acc l dm am (length dm) F g = UB.
Proof.
  intros D P (A1 & A2 & A3) L. unfold ocean_coeffs_admittance.
  destruct (clear_ok 0%R h d acc P A1 A2) as (h1 & E1 & _). rewrite E1. cbn [bind]. rewrite Nat.eqb_refl. cbn [negb]. rewrite factors_trig.
  rewrite pair_up_ok by (rewrite !map_length; reflexivity). rewrite map_length.
  destruct (Nat.leb_spec (length l) (length am)); [lia|reflexivity].
Qed.
Lemma admittance_abort h d acc l dm am nc F g : 0 <= d -> pair_sized h d acc -> acc_alone acc l ->
  nc <> length dm -> ocean_coeffs_admittance h acc l dm am nc F g = Abort.
Proof.
  intros D P (A1 & A2 & A3) L. unfold ocean_coeffs_admittance.
  destruct (clear_ok 0%R h d acc P A1 A2) as (h1 & E1 & _). rewrite E1. cbn [bind]. apply Nat.eqb_neq in L. rewrite L. reflexivity.
Qed.

(** ** constructor *)
Section Ctor.
  Context {A : Type}.
  Lemma legal_lw n : 0 <= n -> legal_dims LwTriCol (n + 1) (n + 1).
  Proof. intros H. unfold legal_dims. lia. Qed.

  Lemma resize_id (h : mem A) m r c : sized h r m -> c = r -> 0 <= r -> resize A h m (r + 1) (c + 1) = Ok (h, m).
  Proof.
    intros (V & E & R & C) -> D. unfold resize. rewrite E. rewrite (legal_dims_ok _ _ _ (legal_lw r D)).
    destruct V as (L & F & N & Q).
    assert (ST : st m = mkStorage LwTriCol (r + 1) (r + 1)).
    { destruct (st m) as [k a b] eqn:W. unfold rows, cols, scols in *. simpl in *. rewrite W in *. simpl in *. subst k a.
      unfold scols in *. simpl in *. congruence. }
    unfold nelem in N. rewrite ST in N. destruct (Z.ltb_spec (cap m) (num_elements (mkStorage LwTriCol (r + 1) (r + 1)))); [lia|].
    rewrite <- ST. destruct m; reflexivity.
  Qed.

  Lemma fresh_frame (h : mem A) h1 c x : effect h None h1 c -> valid h x ->
    valid h1 x /\ apart x c /\ apart c x /\ forall i j, kept x (i, j) -> get A h1 x i j = get A h x i j.
  Proof.
    intros (V & F & P & _) Vx. assert (B : forall q, ptr x = Some q -> (q < length h)%nat).
    { intros q Hq. destruct Vx as (_ & _ & _ & Q). rewrite Hq in Q. destruct Q as (l & Hl & _). eapply nth_lt; eauto. }
    assert (FR : forall q, Some q = ptr x -> nth_error h1 q = nth_error h q) by (intros q Hq; apply F; [discriminate|apply B; auto]).
    assert (AP : forall q, ptr x = Some q -> ptr c <> Some q).
    { intros q Hq Hc. destruct P as [P|(p & P & G)]; [congruence|]. rewrite Hc in P. injection P as <-. specialize (B _ Hq). lia. }
    refine (conj _ (conj _ (conj _ _))).
    - apply (valid_frame h); auto.
    - destruct (ptr x) as [q|] eqn:Q; [right|left; auto]. rewrite Q. intros E. apply (AP q); auto.
    - destruct (ptr c) as [q|] eqn:Q; [right|left; auto]. intros E. destruct (ptr x) as [r|] eqn:Q'; [|congruence]. apply (AP r); auto; congruence.
    - intros i j _. apply get_frame. auto.
  Qed.

  Lemma tide_ctor_ok (h : mem A) n m : 0 <= n ->
    exists h' acc, tide_ctor A h n m = Ok (h', acc) /\ pair_sized h' n (amats acc) /\ adeg acc = n /\ aord acc = (if m <? n then m else n) /\ apart (mC (amats acc)) (mS (amats acc)) /\ apart (mS (amats acc)) (mC (amats acc)) /\   (forall x, valid h x -> valid h' x /\ apart x (mC (amats acc)) /\ apart x (mS (amats acc)) /\ forall i j, kept x (i, j) -> get A h' x i j = get A h x i j).
  Proof.
    intros D. pose proof (legal_lw n D) as L.
    destruct (ctor_spec h LwTriCol (n + 1) (n + 1) L) as (h1 & c & E1 & F1 & R1 & C1 & K1).
    destruct (ctor_spec h1 LwTriCol (n + 1) (n + 1) L) as (h2 & s & E2 & F2 & R2 & C2 & K2).
    destruct (fresh_frame h1 h2 s c F2 (proj1 F1)) as (Vc & A1 & A2 & _).
    assert (Zc : sized h2 n c) by (szd). assert (Zs : sized h2 n s) by (szd; apply F2).
    assert (G : forall ao, exists h' acc, Ok (h2, mkAcc (mkPair c s) n ao) = Ok (h', acc) /\ pair_sized h' n (amats acc) /\ adeg acc = n /\ aord acc = ao /\ apart (mC (amats acc)) (mS (amats acc)) /\ apart (mS (amats acc)) (mC (amats acc)) /\   (forall x, valid h x -> valid h' x /\ apart x (mC (amats acc)) /\ apart x (mS (amats acc)) /\ forall i j, kept x (i, j) -> get A h' x i j = get A h x i j)).
    { intros ao. exists h2, (mkAcc (mkPair c s) n ao). cbn [amats mC mS adeg aord]. split; [reflexivity|]. split; [split; auto|]. split; [reflexivity|]. split; [reflexivity|].
      split; [exact A1|]. split; [exact A2|]. intros x Vx. destruct (fresh_frame h h1 c x F1 Vx) as (V1 & B1 & _ & G1).
      destruct (fresh_frame h1 h2 s x F2 V1) as (V2 & B2 & _ & G2). split; [exact V2|]. split; [exact B1|]. split; [exact B2|].
      intros i j K. rewrite G2, G1; auto. }
    unfold tide_ctor. rewrite E1. cbn [bind]. rewrite E2. cbn [bind]. destruct (m <? n).
    - rewrite (resize_id h2 c n n Zc eq_refl D). cbn [bind]. rewrite (resize_id h2 s n n Zs eq_refl D). cbn [bind]. apply G.
    - apply G.
  Qed.
End Ctor.

Lemma stores_ctor (h h' : mem R) d l cs (G : forall x, valid h x -> valid h' x /\ forall i j, kept x (i, j) -> get R h' x i j = get R h x i j) :
  Forall2 (stores h d) l cs -> Forall2 (stores h' d) l cs.
Proof.
  intros F. induction F as [|w c l cs (E & S & S1 & S2 & S3 & S4) F IH]; constructor; auto.
  refine (conj E (conj _ _)).
  - intros m Hm. destruct (S m Hm) as (V & Em & Rm & Cm). szd. apply G; auto.
  - assert (X : forall m f, In m (wave_mats w) -> shows h d m f -> shows h' d m f).
    { intros m f Hm Sh n k Hk Hn. destruct (S m Hm) as (V & Em & Rm & Cm). rewrite (proj2 (G m V)); [apply Sh; auto|]. apply (kept_lw m d); auto. }
    repeat split; apply X; auto; unfold wave_mats; simpl; auto.
Qed.

(** construction followed by any evaluations *)
Lemma ocean_object h d l cs m es F g : 0 <= d -> Forall2 (stores h d) l cs ->
  exists h0 acc h1 h2, tide_ctor R h d m = Ok (h0, acc) /\ evaluations h0 (amats acc) l es = Ok h1 /\ ocean_coeffs h1 (amats acc) l F g = Ok h2 /\ shows h2 d (mC (amats acc)) (fun n k => Some (csum (at_angle (fun x => iers_argument x F g) cs) n k)) /\ shows h2 d (mS (amats acc)) (fun n k => Some (ssum (at_angle (fun x => iers_argument x F g) cs) n k)).
Proof.
  intros D S. destruct (tide_ctor_ok h d m D) as (h0 & acc & E & P & _ & _ & A1 & A2 & G).
  assert (AA : acc_alone (amats acc) l).
  { refine (conj A1 (conj A2 _)). intros w Hw x Hx. assert (V : valid h x) by (apply (stores_sized h d l cs S w Hw x Hx)). destruct (G x V) as (_ & B1 & B2 & _). auto. }
  assert (S0 : Forall2 (stores h0 d) l cs) by (apply (stores_ctor h); auto; intros x V; destruct (G x V) as (? & _ & _ & ?); auto).
  destruct (evaluations_keep d (amats acc) l cs es D h0 P S0 AA) as (h1 & E1 & P1 & S1).
  destruct (ocean_thm h1 d (amats acc) l cs F g D P1 S1 AA) as (h2 & E2 & _ & _ & _ & Q1 & Q2).
  exists h0, acc, h1, h2. auto.
Qed.

(** atlases of any sizes *)
Lemma even_dec a d : even a d \/ exists w, In w a /\ (AtlasModel.sdeg (AtlasModel.wcos w) <> d \/ AtlasModel.sdeg (AtlasModel.wsin w) <> d).
Proof.
  destruct (all_or_not (fun w => AtlasModel.sdeg (AtlasModel.wcos w) = d /\ AtlasModel.sdeg (AtlasModel.wsin w) = d) a) as [H|(w & Hw & N)].
  - intros x _. lia.
  - left. exact H.
  - right. exists w. split; auto. lia.
Qed.

Lemma wave_in_mats {A} (h : mem A) w tw m : wave_in h w tw -> In m (wave_mats tw) ->
  exists e, 0 <= e /\ sized h e m /\ (e = AtlasModel.sdeg (AtlasModel.wcos w) \/ e = AtlasModel.sdeg (AtlasModel.wsin w)).
Proof.
  intros (_ & D1 & D2 & (S1 & S2) & (S3 & S4)) [<- | [<- | [<- | [<- | []]]]]; eexists; (split; [|split; [eassumption|]]); auto.
Qed.

Lemma forall2_in {X Y} (R : X -> Y -> Prop) l l' y : Forall2 R l l' -> In y l' -> exists x, In x l /\ R x y.
Proof. induction 1 as [|a b l l' H F IH]; intros I; [destruct I|]. destruct I as [<- | I]; [exists a; simpl; auto|]. destruct (IH I) as (x & Hx & Q). exists x; simpl; auto. Qed.
Lemma forall2_in_l {X Y} (R : X -> Y -> Prop) l l' x : Forall2 R l l' -> In x l -> exists y, In y l' /\ R x y.
Proof. induction 1 as [|a b l l' H F IH]; intros I; [destruct I|]. destruct I as [<- | I]; [exists b; simpl; auto|]. destruct (IH I) as (y & Hy & Q). exists y; simpl; auto. Qed.

Lemma ocean_any h a l F g : Forall2 (wave_in h) a l -> let n := fst (AtlasModel.max_atlas_degree a) in
  exists h0 acc, tide_ctor R h n (snd (AtlasModel.max_atlas_degree a)) = Ok (h0, acc) /\
    (even a n -> exists h1, ocean_coeffs h0 (amats acc) l F g = Ok h1) /\
    (~ even a n -> ocean_coeffs h0 (amats acc) l F g = Abort).
Proof.
  intros W n. pose proof (AtlasProofs.max_degree_spec a) as M. destruct (AtlasModel.max_atlas_degree a) as (n', m') eqn:EM. cbn [fst snd] in n. subst n.
  destruct M as (_ & D & _). cbn [snd].
  destruct (tide_ctor_ok h n' m' D) as (h0 & acc & E & P & _ & _ & A1 & A2 & G). exists h0, acc. split; [exact E|].
  assert (V : forall w x, In w l -> In x (wave_mats w) -> exists e, 0 <= e /\ sized h0 e x).
  { intros w x Hw Hx. destruct (forall2_in _ _ _ _ W Hw) as (aw & Haw & Q). destruct (wave_in_mats h aw w x Q Hx) as (e & He & (Vx & Ex & Rx & Cx) & _).
    exists e. split; auto. szd. apply G; auto. }
  assert (AA : acc_alone (amats acc) l).
  { refine (conj A1 (conj A2 _)). intros w Hw x Hx. destruct (forall2_in _ _ _ _ W Hw) as (aw & Haw & Q).
    destruct (wave_in_mats h aw w x Q Hx) as (e & He & (Vx & _) & _). destruct (G x Vx) as (_ & B1 & B2 & _). auto. }
  assert (M : map fst (with_factors (ocean_factors F g) l) = l) by (unfold with_factors; rewrite map_map; apply map_id).
  split.
  - intros Ev. destruct (evaluate_ok Rplus Rmult 0%R Rplus_comm h0 n' (amats acc) (with_factors (ocean_factors F g) l) P) as (h1 & E1 & _).
    + rewrite M. intros w Hw x Hx. destruct (forall2_in _ _ _ _ W Hw) as (aw & Haw & Q).
      destruct (wave_in_mats h aw w x Q Hx) as (e & He & (Vx & Ex & Rx & Cx) & O). destruct (Ev aw Haw) as (V1 & V2).
      assert (e = n') by (destruct O; congruence). subst e. szd. apply G; auto.
    + rewrite M. exact AA.
    + exists h1. exact E1.
  - intros N. destruct (even_dec a n') as [Q|(aw & Haw & O)]; [contradiction|].
    destruct (forall2_in_l _ _ _ _ W Haw) as (w & Hw & Q).
    unfold ocean_coeffs. apply (evaluate_abort Rplus Rmult 0%R Rplus_comm h0 n'); auto.
    + rewrite M; exact AA.
    + rewrite M. intros w' Hw' x Hx. apply (V w' x Hw' Hx).
    + rewrite M. destruct Q as (_ & _ & _ & (S1 & _) & (S3 & _)). destruct O as [O|O]; [exists w, (mC (tcos w))|exists w, (mC (tsin w))];
        (split; [exact Hw|]; split; [unfold wave_mats; simpl; auto|]); intros (_ & _ & R' & _).
      * destruct S1 as (_ & _ & R1 & _). lia.
      * destruct S3 as (_ & _ & R1 & _). lia.
Qed.

Lemma ocean_object_admittance h d l cs m dm am F g : 0 <= d -> Forall2 (stores h d) l cs -> (length l <= length am)%nat ->
  let fs := firstn (length l) (map (fun r => (dot r (trig dm F g cos), dot r (trig dm F g sin))) am) in
  exists h0 acc h2, tide_ctor R h d m = Ok (h0, acc) /\
    ocean_coeffs_admittance h0 (amats acc) l dm am (length dm) F g = Ok h2 /\
    shows h2 d (mC (amats acc)) (fun n k => Some (csum (combine cs fs) n k)) /\ shows h2 d (mS (amats acc)) (fun n k => Some (ssum (combine cs fs) n k)).
Proof.
  intros D S L fs. destruct (tide_ctor_ok h d m D) as (h0 & acc & E & P & _ & _ & A1 & A2 & G).
  assert (AA : acc_alone (amats acc) l).
  { refine (conj A1 (conj A2 _)). intros w Hw x Hx. assert (V : valid h x) by (apply (stores_sized h d l cs S w Hw x Hx)). destruct (G x V) as (_ & B1 & B2 & _). auto. }
  assert (S0 : Forall2 (stores h0 d) l cs) by (apply (stores_ctor h); auto; intros x V; destruct (G x V) as (? & _ & _ & ?); auto).
  destruct (admittance_thm h0 d (amats acc) l cs dm am F g D P S0 AA L) as (h2 & E2 & _ & _ & _ & Q1 & Q2).
  exists h0, acc, h2. auto.
Qed.

(** ** examples *)
Definition cell_mat (p : nat) (d : Z) : mat := mkMat (mkStorage LwTriCol (d + 1) (d + 1)) (Some p) (num_elements (mkStorage LwTriCol (d + 1) (d + 1))).
(** cosine part in blocks p and p + 1, sine part in p + 2 and p + 3 *)
Definition cell_wave (x : doodson) (p : nat) (d : Z) : twave :=
  mkTW x (mkPair (cell_mat p d) (cell_mat (p + 1) d)) (mkPair (cell_mat (p + 2) d) (cell_mat (p + 3) d)).
Lemma cell_sized {A} (h : mem A) p d l : 0 <= d -> nth_error h p = Some (Live l) ->
  Z.of_nat (length l) = num_elements (mkStorage LwTriCol (d + 1) (d + 1)) -> sized h d (cell_mat p d).
Proof.
  intros D E N. szd.
  - apply valid_mk; [apply legal_lw; auto|lia|eauto].
Qed.
(** a wave of degree 0 with four numbers *)
Definition blocks0 (a b c e : R) : mem R := [Live [Some a]; Live [Some b]; Live [Some c]; Live [Some e]].
Definition const_wave (x : doodson) (a b c e : R) : constituent := mkCn x (fun _ _ => a) (fun _ _ => b) (fun _ _ => c) (fun _ _ => e).
Lemma blocks0_store h p x a b c e : nth_error h p = Some (Live [Some a]) -> nth_error h (p + 1) = Some (Live [Some b]) ->
  nth_error h (p + 2) = Some (Live [Some c]) -> nth_error h (p + 3) = Some (Live [Some e]) ->
  stores h 0 (cell_wave x p 0) (const_wave x a b c e).
Proof.
  intros H0 H1 H2 H3. assert (S : forall m, In m (wave_mats (cell_wave x p 0)) -> sized h 0 m).
  { intros m [<- | [<- | [<- | [<- | []]]]]; eapply cell_sized; try eassumption; try lia; reflexivity. }
  refine (conj eq_refl (conj S _)).
  assert (X : forall q v, nth_error h q = Some (Live [Some v]) -> shows h 0 (cell_mat q 0) (fun _ _ => Some v)).
  { intros q v Hq n k Hk Hn. assert (n = 0) by lia. assert (k = 0) by lia. subst. unfold get, load, cell_mat. cbn [ptr]. rewrite Hq. reflexivity. }
  refine (conj (X _ _ H0) (conj (X _ _ H1) (conj (X _ _ H2) (X _ _ H3)))).
Qed.
