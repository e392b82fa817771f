From Coq Require Import Reals ZArith List Bool Lia Lra.
From Verif Require Import Base StorageModel StorageSpec MatrixModel MatrixSpec MatrixProofs TideSpec TideProofs2 TideProofs3 AlfSpec AlfProofs CunSpec CunMath CunMath2 CunModel CunReady CunProofs CunProofs3 CunProofs4 CunProofs5 CunProofs6 CunProofs7.
Import ListNotations.
Open Scope Z_scope.

(** a call with degree D and order O within those of the coefficients *)
Definition asks (cs : stokes) (md mo : Z) (Re GM : R) (D O : nat) (re gm : R) : Prop :=
  used (gdeg cs) md = Z.of_nat D /\ used (gord cs) mo = Z.of_nat O /\ usedR (gRe cs) Re = re /\ usedR (gGM cs) GM = gm /\
  (O <= D)%nat /\ Z.of_nat D <= gdeg cs /\ Z.of_nat O <= gord cs /\ (D <= 198)%nat /\ re <> 0%R.

Lemma call cs r md mo Re GM D O re gm h M W d e C S : asks cs md mo Re GM D O re gm -> away (vx r) (vy r) (vz r) -> ready h cs M W d e C S ->
  roomy d (Z.of_nat D) (Z.of_nat O) -> roomy e (Z.of_nat D) (Z.of_nat O) ->
  exists h', cunningham cs r md mo Re GM (Some W) (Some M) h =
    Ok (h', Some (vscale (gm / (2 * re * re)) (vsum (accP C S (MS r (Z.of_nat D) (Z.of_nat O) re d) (WS r (Z.of_nat D) (Z.of_nat O) re e)) (positions (Z.of_nat D) (Z.of_nat O))), sscale (gm / (4 * re * re * re)) (ssum (gradP C S (MS r (Z.of_nat D) (Z.of_nat O) re d) (WS r (Z.of_nat D) (Z.of_nat O) re e)) (positions (Z.of_nat D) (Z.of_nat O))))) /\
    sized h' d M /\ sized h' e W /\ elsewhere h M (Some W) h'.
Proof.
  intros (Q1 & Q2 & Q3 & Q4 & Q5 & Q6 & Q7 & Q8 & Q9) A Rd Hd He. unfold roomy in *.
  rewrite (given_scratch cs r md mo Re GM ltac:(rewrite Q1, Q2; lia) ltac:(rewrite Q1; lia) ltac:(rewrite Q2; lia) h W M d e C S Rd ltac:(rewrite Q1; lia) ltac:(rewrite Q1; lia)). rewrite Q1, Q2, Q3, Q4.
  destruct (impl_ok cs r (Z.of_nat D) (Z.of_nat O) re gm M W d e C S (away_scaled _ _ _ _ Q9 A) ltac:(lia) ltac:(lia) h Rd Q6 Hd He) as (h' & E & T & L). rewrite E. cbn [bind]. exists h'. split; [reflexivity|]. destruct T as (S1 & _ & S2 & _). auto.
Qed.

(** ** C38: scratch space *)
(** with one more row than required, or order far enough below degree, all accesses are inside and nothing but the scratch is changed *)
Theorem c38_in_bounds_partial cs r md mo Re GM D O re gm h M W d e C S : asks cs md mo Re GM D O re gm -> away (vx r) (vy r) (vz r) -> ready h cs M W d e C S ->
  roomy d (Z.of_nat D) (Z.of_nat O) -> roomy e (Z.of_nat D) (Z.of_nat O) ->
  exists h' a g, cunningham cs r md mo Re GM (Some W) (Some M) h = Ok (h', Some (a, g)) /\ sized h' d M /\ sized h' e W /\
    forall x, valid h x -> apart x M -> apart x W -> valid h' x /\ forall i j, kept x (i, j) -> get R h' x i j = get R h x i j.
Proof. intros Q A Rd Hd He. destruct (call _ _ _ _ _ _ _ _ _ _ _ _ _ _ _ _ _ Q A Rd Hd He) as (h' & E & S1 & S2 & L). eexists h', _, _. split; [exact E|]. split; [exact S1|]. split; [exact S2|exact L]. Qed.
(** the size the routine requires is not enough: undefined behaviour if degree <= max(order, 1) + 1, for example order = degree *)
Theorem c38_required_size_refuted cs r md mo Re GM D O re gm h M W e C S : asks cs md mo Re GM D O re gm -> away (vx r) (vy r) (vz r) -> ready h cs M W (Z.of_nat D + 1) e C S -> cap M = nelem M -> Z.of_nat D + 1 <= e ->
  Z.of_nat D <= Z.max (Z.of_nat O) 1 + 1 -> cunningham cs r md mo Re GM (Some W) (Some M) h = UB.
Proof.
  intros (Q1 & Q2 & Q3 & Q4 & Q5 & Q6 & Q7 & Q8 & Q9) A Rd HC He H.
  rewrite (given_scratch cs r md mo Re GM ltac:(rewrite Q1, Q2; lia) ltac:(rewrite Q1; lia) ltac:(rewrite Q2; lia) h W M _ e C S Rd ltac:(rewrite Q1; lia) ltac:(rewrite Q1; lia)). rewrite Q1, Q2, Q3, Q4.
  rewrite (past cs r (Z.of_nat D) (Z.of_nat O) re gm M W e C S (away_scaled _ _ _ _ Q9 A) ltac:(lia) ltac:(lia) HC He h Rd Q6 H ltac:(lia)). reflexivity.
Qed.
(** nor is what it allocates itself *)
Theorem c38_allocated_refuted cs r md mo Re GM D O re gm h C S : asks cs md mo Re GM D O re gm -> away (vx r) (vy r) (vz r) -> coefficients h cs C S ->
  Z.of_nat D <= Z.max (Z.of_nat O) 1 + 1 -> cunningham cs r md mo Re GM None None h = UB.
Proof.
  intros (Q1 & Q2 & Q3 & Q4 & Q5 & Q6 & Q7 & Q8 & Q9) A K H.
  apply (allocated_ub cs r md mo Re GM ltac:(rewrite Q1, Q2; lia) ltac:(rewrite Q1; lia) ltac:(rewrite Q2; lia) h C S K); rewrite ?Q1, ?Q2, ?Q3; try lia. apply away_scaled; assumption.
Qed.
(** with the required size, row degree + 2 shares its cells with the diagonal *)
Theorem c38_shared_cells_refuted (h : mem R) D M j : sized h (D + 1) M -> 0 <= j < D + 1 -> index (st M) (D + 2) j = index (st M) (j + 1) (j + 1) /\ (D + 2, j) <> (j + 1, j + 1).
Proof. intros S H. split; [replace (D + 2) with (D + 1 + 1) by lia; apply (index_next h); exact S|]. intros E. injection E. lia. Qed.
(** and the gradient is wrong then: degree 3, order 1, C(3,0) only, at (0,0,1) *)
Theorem c38_shared_gradient_refuted cs md mo h M W e : asks cs md mo 1 1 3 1 1 1 -> ready h cs M W 4 e (only 3 0) zero -> 5 <= e ->
  exists h' a g v, cunningham cs (V3 0 0 1) md mo 1 1 (Some W) (Some M) h = Ok (h', Some (a, g)) /\
    then_dz d_dz (geopotential 1 1 3 1 (natf (only 3 0)) (natf zero)) 0 0 1 v /\ gzz g <> v.
Proof.
  intros Q Rd He. assert (A : away 0 0 1) by (unfold away; lra).
  destruct (call _ (V3 0 0 1) _ _ _ _ _ _ _ _ _ _ _ _ _ _ _ Q A Rd) as (h' & E & _); try (unfold roomy; cbn; lia).
  eexists h', _, _, _. split; [exact E|]. split; [apply (true_gradient (V3 0 0 1) 3 1 1 1 (only 3 0) zero); [lra|exact A]|]. cbn [gzz vx vy vz]. apply shared_cell. lia.
Qed.
(** scratch memory is lost when one pointer is null and the other matrix is too small *)
Theorem c38_leak_refuted cs r md mo Re GM D O re gm h m : asks cs md mo Re GM D O re gm -> srows (st m) < Z.of_nat D + 2 ->
  (exists h' q l, cunningham cs r md mo Re GM None (Some m) h = Ok (h', None) /\ (length h <= q)%nat /\ nth_error h' q = Some (Live l)) /\
  (exists h' q l, cunningham cs r md mo Re GM (Some m) None h = Ok (h', None) /\ (length h <= q)%nat /\ nth_error h' q = Some (Live l)).
Proof.
  intros (Q1 & Q2 & Q3 & Q4 & Q5 & Q6 & Q7 & Q8 & Q9) H.
  split; [apply leak_M|apply leak_W]; rewrite ?Q1, ?Q2; lia.
Qed.
(** degrees beyond the table: abort *)
Theorem c38_degree_limit cs r degree order Re GM M W h : 198 < degree -> cunningham_impl cs r degree order Re GM M W h = Abort.
Proof. intros H. unfold cunningham_impl, table_size. destruct (Z.ltb_spec (201 - 3) degree); [reflexivity|lia]. Qed.
Example c38_nonvacuous : exists h cs M W, ready h cs M W 4 5 (only 3 0) zero /\ cap M = nelem M /\ asks cs (-1) 1 1 1 3 1 1 1 /\ roomy 4 3 1 /\ roomy 5 3 1 /\ asks cs (-1) (-1) 1 1 3 3 1 1.
Proof.
  destruct (memory_exists 3 3 4 5 1 1 (only 3 0) zero ltac:(lia) ltac:(lia) ltac:(lia)) as (h & cs & M & W & Rd & G1 & G2 & G3 & G4 & C1 & _). exists h, cs, M, W. split; [exact Rd|]. split; [exact C1|].
  unfold asks, roomy, used, usedR. rewrite G1, G2. cbn. destruct (Rlt_dec 1 0); [lra|]. repeat split; try lia; lra.
Qed.

(** ** C39: truncation *)
(** coefficients outside degree and order have no influence, if the order is at least 1 *)
Theorem c39_truncation_partial cs cs' r md mo md' mo' Re GM Re' GM' D O re gm h h' M W M' W' d e C S C' S' :
  asks cs md mo Re GM D O re gm -> asks cs' md' mo' Re' GM' D O re gm -> away (vx r) (vy r) (vz r) -> ready h cs M W d e C S -> ready h' cs' M' W' d e C' S' ->
  roomy d (Z.of_nat D) (Z.of_nat O) -> roomy e (Z.of_nat D) (Z.of_nat O) -> (1 <= O)%nat \/ D = O ->
  (forall n m, 0 <= m <= n -> n <= Z.of_nat D -> m <= Z.of_nat O -> C n m = C' n m /\ S n m = S' n m) ->
  exists h1 h1' s, cunningham cs r md mo Re GM (Some W) (Some M) h = Ok (h1, Some s) /\ cunningham cs' r md' mo' Re' GM' (Some W') (Some M') h' = Ok (h1', Some s).
Proof.
  intros Q Q' A Rd Rd' Hd He H1 H. destruct (call _ _ _ _ _ _ _ _ _ _ _ _ _ _ _ _ _ Q A Rd Hd He) as (h1 & E & _). destruct (call _ _ _ _ _ _ _ _ _ _ _ _ _ _ _ _ _ Q' A Rd' Hd He) as (h2 & E' & _).
  eexists h1, h2, _. split; [exact E|]. rewrite E'. do 3 f_equal.
  assert (X : forall p M W, In p (positions (Z.of_nat D) (Z.of_nat O)) -> accP C S M W p = accP C' S' M W p /\ gradP C S M W p = gradP C' S' M W p).
  { intros (n, m) M0 W0 I. apply in_positions in I. unfold accP, gradP. cbn [fst snd]. destruct (H n m) as (HC & HS); try lia.
    destruct (Z.eqb_spec m 0) as [-> |]; [|destruct (Z.eqb_spec m 1) as [-> |]]; unfold acc_term0, acc_term, grad_term0, grad_term1, grad_term, okf; cbv zeta; rewrite HC, ?HS; split; reflexivity. }
  f_equal; f_equal; [unfold vsum|unfold ssum]; f_equal; apply rs_ext; intros p I; destruct (X p (MS r (Z.of_nat D) (Z.of_nat O) re d) (WS r (Z.of_nat D) (Z.of_nat O) re e) I) as (X1 & X2); rewrite ?X1, ?X2; reflexivity.
Qed.
(** requests beyond the coefficients, or for an order above the degree, are refused: nothing is written *)
Theorem c39_refused cs r md mo Re GM h M W : let D := used (gdeg cs) md in let O := used (gord cs) mo in
  D < O \/ gdeg cs < D \/ gord cs < O -> cunningham cs r md mo Re GM W M h = Ok (h, None).
Proof.
  intros D O H. unfold cunningham. fold (used (gdeg cs) md). fold (used (gord cs) mo). fold D. fold O.
  destruct (Z.ltb_spec D O); [reflexivity|]. destruct (Z.ltb_spec (gdeg cs) D); [reflexivity|]. destruct (Z.ltb_spec (gord cs) O); [reflexivity|]. lia.
Qed.
(** order 0 with degree >= 1: the coefficients of order 1 enter *)
Theorem c39_order_0_refuted cs cs' md mo md' mo' h h' M W M' W' d e : asks cs md mo 1 1 1 0 1 1 -> asks cs' md' mo' 1 1 1 0 1 1 ->
  ready h cs M W d e (only 1 1) zero -> ready h' cs' M' W' d e zero zero -> 3 <= d -> 3 <= e ->
  (forall n m, 0 <= m <= n -> n <= 1 -> m <= 0 -> only 1 1 n m = zero n m) /\
  exists h1 h1' a g a' g', cunningham cs (V3 0 0 1) md mo 1 1 (Some W) (Some M) h = Ok (h1, Some (a, g)) /\ cunningham cs' (V3 0 0 1) md' mo' 1 1 (Some W') (Some M') h' = Ok (h1', Some (a', g')) /\ vx a <> vx a'.
Proof.
  intros Q Q' Rd Rd' Hd He. split. { intros n m H1 H2 H3. unfold only, zero. destruct (Z.eqb_spec m 1); [lia|]. rewrite andb_false_r. reflexivity. }
  assert (A : away 0 0 1) by (unfold away; lra).
  destruct (call _ (V3 0 0 1) _ _ _ _ _ _ _ _ _ _ _ _ _ _ _ Q A Rd) as (h1 & E & _); try (unfold roomy; cbn; lia). destruct (call _ (V3 0 0 1) _ _ _ _ _ _ _ _ _ _ _ _ _ _ _ Q' A Rd') as (h2 & E' & _); try (unfold roomy; cbn; lia).
  eexists h1, h2, _, _, _, _. split; [exact E|]. split; [exact E'|]. apply order_zero; lia.
Qed.
Example c39_nonvacuous : exists h cs M W, ready h cs M W 3 3 (only 1 1) zero /\ asks cs 1 0 1 1 1 0 1 1 /\ asks cs 1 1 1 1 1 1 1 1 /\ roomy 3 1 1.
Proof.
  destruct (memory_exists 1 1 3 3 1 1 (only 1 1) zero ltac:(lia) ltac:(lia) ltac:(lia)) as (h & cs & M & W & Rd & G1 & G2 & _). exists h, cs, M, W. split; [exact Rd|].
  unfold asks, roomy, used, usedR. rewrite G1, G2. cbn. destruct (Rlt_dec 1 0); [lra|]. repeat split; try lia; lra.
Qed.

(** ** C62: values *)
(** the acceleration is the gradient of the geopotential of degree D and order O *)
Theorem c62_acceleration_partial cs r md mo Re GM D O re gm h M W d e C S : asks cs md mo Re GM D O re gm -> away (vx r) (vy r) (vz r) -> ready h cs M W d e C S ->
  roomy d (Z.of_nat D) (Z.of_nat O) -> roomy e (Z.of_nat D) (Z.of_nat O) -> (1 <= O)%nat \/ D = O ->
  exists h' a g, cunningham cs r md mo Re GM (Some W) (Some M) h = Ok (h', Some (a, g)) /\
    d_dx (geopotential gm re D O (natf C) (natf S)) (vx r) (vy r) (vz r) (vx a) /\
    d_dy (geopotential gm re D O (natf C) (natf S)) (vx r) (vy r) (vz r) (vy a) /\
    d_dz (geopotential gm re D O (natf C) (natf S)) (vx r) (vy r) (vz r) (vz a).
Proof.
  intros Q A Rd Hd He H. destruct (call _ _ _ _ _ _ _ _ _ _ _ _ _ _ _ _ _ Q A Rd Hd He) as (h' & E & _). eexists h', _, _. split; [exact E|].
  destruct Q as (_ & _ & _ & _ & Q5 & Q6 & Q7 & Q8 & Q9). unfold roomy in *. apply (value_acceleration r D O re gm d e C S Q9 A); lia.
Qed.
(** the gradient is the matrix of second derivatives if order = degree and there is one more row than required *)
Theorem c62_gradient_partial cs r md mo Re GM D re gm h M W d e C S : asks cs md mo Re GM D D re gm -> away (vx r) (vy r) (vz r) -> ready h cs M W d e C S ->
  Z.of_nat D + 2 <= d -> Z.of_nat D + 2 <= e ->
  exists h' a g, cunningham cs r md mo Re GM (Some W) (Some M) h = Ok (h', Some (a, g)) /\
    second_derivatives (geopotential gm re D D (natf C) (natf S)) (vx r) (vy r) (vz r) g.
Proof.
  intros Q A Rd Hd He. destruct (call _ _ _ _ _ _ _ _ _ _ _ _ _ _ _ _ _ Q A Rd (or_introl Hd) (or_introl He)) as (h' & E & _). eexists h', _, _. split; [exact E|].
  destruct Q as (_ & _ & _ & _ & Q5 & Q6 & Q7 & Q8 & Q9). apply (value_gradient r D D re gm d e C S Q9 A); lia.
Qed.
(** with order < degree the gradient is wrong whatever the scratch: degree 2, order 1, C(2,1) only, at (1,0,1) *)
Theorem c62_gradient_order_refuted cs md mo h M W d e : asks cs md mo 1 1 2 1 1 1 -> ready h cs M W d e (only 2 1) zero -> 4 <= d -> 4 <= e ->
  exists h' a g v, cunningham cs (V3 1 0 1) md mo 1 1 (Some W) (Some M) h = Ok (h', Some (a, g)) /\
    then_dx d_dx (geopotential 1 1 2 1 (natf (only 2 1)) (natf zero)) 1 0 1 v /\ gxx g <> v.
Proof.
  intros Q Rd Hd He. assert (A : away 1 0 1) by (unfold away; lra).
  destruct (call _ (V3 1 0 1) _ _ _ _ _ _ _ _ _ _ _ _ _ _ _ Q A Rd) as (h' & E & _); try (unfold roomy; cbn; lia).
  eexists h', _, _, _. split; [exact E|]. split; [apply (true_gradient (V3 1 0 1) 2 1 1 1 (only 2 1) zero); [lra|exact A]|]. cbn [gxx vx vy vz]. apply order_loss; lia.
Qed.
(** the specification: in spherical coordinates, V and W are the normalised Legendre functions of C37 times cos and sin *)
Theorem c62_spec_spherical n m r phi lambda : (0 < r)%R ->
  Vn n m (r * cos phi * cos lambda) (r * cos phi * sin lambda) (r * sin phi) = (Pbar n m phi * cos (INR m * lambda) / r ^ (n + 1))%R /\
  Wn n m (r * cos phi * cos lambda) (r * cos phi * sin lambda) (r * sin phi) = (Pbar n m phi * sin (INR m * lambda) / r ^ (n + 1))%R.
Proof. exact (spherical n m r phi lambda). Qed.
Example c62_nonvacuous : forall C S, exists h cs M W, ready h cs M W 4 4 C S /\ asks cs 2 1 1 1 2 1 1 1 /\ asks cs (-1) (-1) (-1) (-1) 2 2 6378 398600 /\ roomy 4 2 2.
Proof.
  intros C S. destruct (memory_exists 2 2 4 4 6378 398600 C S ltac:(lia) ltac:(lia) ltac:(lia)) as (h & cs & M & W & Rd & G1 & G2 & G3 & G4 & _). exists h, cs, M, W. split; [exact Rd|].
  unfold asks, roomy, used, usedR. rewrite G1, G2, G3, G4. cbn [Z.ltb Z.compare]. destruct (Rlt_dec 1 0); [lra|]. destruct (Rlt_dec (-1) 0); [|lra]. cbn. repeat split; try lia; lra.
Qed.
Print Assumptions c38_in_bounds_partial.
Print Assumptions c38_required_size_refuted.
Print Assumptions c38_allocated_refuted.
Print Assumptions c38_shared_cells_refuted.
Print Assumptions c38_shared_gradient_refuted.
Print Assumptions c38_leak_refuted.
Print Assumptions c38_degree_limit.
Print Assumptions c39_truncation_partial.
Print Assumptions c39_order_0_refuted.
Print Assumptions c62_acceleration_partial.
Print Assumptions c62_gradient_partial.
Print Assumptions c62_gradient_order_refuted.
Print Assumptions c62_spec_spherical.
Print Assumptions c39_refused.
