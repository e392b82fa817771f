(** Properties C28-C30 (ocean and atmospheric tide models). *)
From Coq Require Import Reals ZArith List Bool Lia Lra Permutation.
From Verif Require Import Base StorageModel StorageSpec MatrixModel MatrixSpec DoodsonModel DoodsonArgModel DoodsonArgSpec TideModel TideSpec
  TideProofs TideProofs2 TideProofs3.
From Verif Require AtlasModel.
Import ListNotations.
Open Scope Z_scope.

(** ** C28 *)
(** Partial: the waves must all be stored up to the same degree (see c28_evaluates_iff); the admittance variant depends
    on the order of the waves (see c28_admittance_order_refuted).
    For an ocean tide object built from waves of one degree, after any evaluations [es]: the coefficients are the
    harmonic sum with the IERS arguments. *)
Theorem c28_harmonic_sum_partial : forall h d l cs m es F g, 0 <= d -> Forall2 (stores h d) l cs ->
  exists h0 acc h1 h2, tide_ctor R h d m = Ok (h0, acc) /\ evaluations h0 (amats acc) l es = Ok h1 /\
    ocean_coeffs h1 (amats acc) l F g = Ok h2 /\
    shows h2 d (mC (amats acc)) (fun n k => Some (csum (at_angle (fun x => iers_argument x F g) cs) n k)) /\
    shows h2 d (mS (amats acc)) (fun n k => Some (ssum (at_angle (fun x => iers_argument x F g) cs) n k)).
Proof. exact ocean_object. Qed.

(** the sum does not depend on the order of the waves *)
Theorem c28_order_irrelevant : forall theta cs cs' n k, Permutation cs cs' ->
  csum (at_angle theta cs) n k = csum (at_angle theta cs') n k /\ ssum (at_angle theta cs) n k = ssum (at_angle theta cs') n k.
Proof. intros theta cs cs' n k P. apply csum_perm. apply angle_perm. exact P. Qed.

(** one evaluation, accumulator given: nothing but the accumulator changes, in particular not the waves *)
Theorem c28_evaluation : forall h d acc l cs F g, 0 <= d -> pair_sized h d acc -> Forall2 (stores h d) l cs -> acc_alone acc l ->
  exists h', ocean_coeffs h acc l F g = Ok h' /\ pair_sized h' d acc /\ only_acc h acc h' /\ Forall2 (stores h' d) l cs /\
    shows h' d (mC acc) (fun n k => Some (csum (at_angle (fun x => iers_argument x F g) cs) n k)) /\
    shows h' d (mS acc) (fun n k => Some (ssum (at_angle (fun x => iers_argument x F g) cs) n k)).
Proof. exact ocean_thm. Qed.

(** the same for any number type with a commutative addition (doubles as they are): clear, then add in order *)
Theorem c28_loop_exact : forall A (add mul : A -> A -> A) zero, (forall x y, add x y = add y x) ->
  forall h d acc l, pair_sized h d acc -> waves_sized h d (map fst l) -> acc_alone acc (map fst l) ->
  exists h', evaluate A add mul zero h acc l = Ok h' /\ pair_sized h' d acc /\ only_acc h acc h' /\
    shows h' d (mC acc) (fun i j => loopC add mul h l i j (Some zero)) /\ shows h' d (mS acc) (fun i j => loopS add mul h l i j (Some zero)).
Proof. intros A add mul zero C. exact (evaluate_ok add mul zero C). Qed.

(** For an atlas of any sizes: evaluation completes exactly when every wave has, in both parts, the largest degree. *)
Theorem c28_evaluates_iff : forall h a l F g, Forall2 (wave_in h) a l -> let n := fst (AtlasModel.max_atlas_degree a) in
  exists h0 acc, tide_ctor R h n (snd (AtlasModel.max_atlas_degree a)) = Ok (h0, acc) /\
    (even a n -> exists h1, ocean_coeffs h0 (amats acc) l F g = Ok h1) /\
    (~ even a n -> ocean_coeffs h0 (amats acc) l F g = Abort).
Proof. exact ocean_any. Qed.

(** with admittance: wave i gets the i-th rows of the products, whatever its Doodson number *)
Theorem c28_admittance : forall h d acc l cs dm am F g, 0 <= d -> pair_sized h d acc -> Forall2 (stores h d) l cs -> acc_alone acc l ->
  (length l <= length am)%nat ->
  let fs := firstn (length l) (map (fun r => (dot r (trig dm F g cos), dot r (trig dm F g sin))) am) in
  exists h', ocean_coeffs_admittance h acc l dm am (length dm) F g = Ok h' /\ pair_sized h' d acc /\ only_acc h acc h' /\ Forall2 (stores h' d) l cs /\
    shows h' d (mC acc) (fun n k => Some (csum (combine cs fs) n k)) /\ shows h' d (mS acc) (fun n k => Some (ssum (combine cs fs) n k)).
Proof. exact admittance_thm. Qed.
Theorem c28_admittance_short_refuted : forall h d acc l dm am F g, 0 <= d -> pair_sized h d acc -> acc_alone acc l ->
  (length am < length l)%nat -> ocean_coeffs_admittance h acc l dm am (length dm) F g = UB.
Proof. exact admittance_ub. Qed.
Theorem c28_admittance_columns : forall h d acc l dm am nc F g, 0 <= d -> pair_sized h d acc -> acc_alone acc l ->
  nc <> length dm -> ocean_coeffs_admittance h acc l dm am nc F g = Abort.
Proof. exact admittance_abort. Qed.

(** two identical sets of waves appended in different order, the same admittance: different coefficients *)
Theorem c28_admittance_order_refuted : exists h cs cs' l l' dm am F g h0 acc h2 h0' acc' h2',
  Forall2 (stores h 0) l cs /\ Forall2 (stores h 0) l' cs' /\ Permutation l l' /\ Permutation cs cs' /\
  tide_ctor R h 0 0 = Ok (h0, acc) /\ tide_ctor R h 0 0 = Ok (h0', acc') /\
  ocean_coeffs_admittance h0 (amats acc) l dm am (length dm) F g = Ok h2 /\
  ocean_coeffs_admittance h0' (amats acc') l' dm am (length dm) F g = Ok h2' /\
  get R h2 (mC (amats acc)) 0 0 = Ok (Some 1%R) /\ get R h2' (mC (amats acc')) 0 0 = Ok (Some (-1)%R).
Proof.
  set (d1 := mkD 1 0 0 0 0 0 0). set (d2 := mkD 0 0 0 0 0 0 0).
  set (h := (blocks0 1 0 0 0 ++ blocks0 2 0 0 0)%list).
  assert (S1 : stores h 0 (cell_wave d1 0 0) (const_wave d1 1 0 0 0)) by (apply blocks0_store; reflexivity).
  assert (S2 : stores h 0 (cell_wave d2 4 0) (const_wave d2 2 0 0 0)) by (apply blocks0_store; reflexivity).
  set (F := mkDel 0 0 0 0 0).
  set (cs := [const_wave d1 1 0 0 0; const_wave d2 2 0 0 0]). set (cs' := [const_wave d2 2 0 0 0; const_wave d1 1 0 0 0]).
  set (l := [cell_wave d1 0 0; cell_wave d2 4 0]). set (l' := [cell_wave d2 4 0; cell_wave d1 0 0]).
  assert (T : Forall2 (stores h 0) l cs) by (constructor; [exact S1|constructor; [exact S2|constructor]]).
  assert (T' : Forall2 (stores h 0) l' cs') by (constructor; [exact S2|constructor; [exact S1|constructor]]).
  set (am := [[1; 0]; [0; 1]]%R).
  destruct (ocean_object_admittance h 0 l cs 0 [d1; d2] am F 0%R) as (h0 & acc & h2 & E1 & E2 & Q & _); [lia|exact T|simpl; lia|].
  destruct (ocean_object_admittance h 0 l' cs' 0 [d1; d2] am F 0%R) as (h0' & acc' & h2' & E1' & E2' & Q' & _); [lia|exact T'|simpl; lia|].
  exists h, cs, cs', l, l', [d1; d2], am, F, 0%R, h0, acc, h2, h0', acc', h2'.
  refine (conj T (conj T' (conj _ (conj _ (conj E1 (conj E1' (conj E2 (conj E2' (conj _ _))))))))); [apply perm_swap|apply perm_swap| |].
  - rewrite Q by lia. do 2 f_equal. simpl. unfold trig, iers_argument, nl, nlp, nF, nD, nOm. simpl.
    replace (1 * (0 + PI) - _)%R with PI by ring. replace (0 * (0 + PI) - _)%R with 0%R by ring. rewrite cos_PI, cos_0, sin_PI, sin_0. lra.
  - rewrite Q' by lia. do 2 f_equal. simpl. unfold trig, iers_argument, nl, nlp, nF, nD, nOm. simpl.
    replace (1 * (0 + PI) - _)%R with PI by ring. replace (0 * (0 + PI) - _)%R with 0%R by ring. rewrite cos_PI, cos_0, sin_PI, sin_0. lra.
Qed.

(** two waves of degrees 1 and 0: the evaluation aborts for all arguments *)
Theorem c28_uneven_degrees_refuted : exists h a l h0 acc, Forall2 (wave_in h) a l /\ length a = 2%nat /\
  tide_ctor R h (fst (AtlasModel.max_atlas_degree a)) (snd (AtlasModel.max_atlas_degree a)) = Ok (h0, acc) /\
  forall F g, ocean_coeffs h0 (amats acc) l F g = Abort.
Proof.
  set (d1 := mkD 1 0 0 0 0 0 0). set (d2 := mkD 0 0 0 0 0 0 0).
  set (b := Live [Some 0%R; Some 0%R; Some 0%R]).
  set (h := ([b; b; b; b] ++ blocks0 2 0 0 0)%list).
  set (a := [AtlasModel.new_wave d1 [] 1 1; AtlasModel.new_wave d2 [] 0 0]).
  set (l := [cell_wave d1 0 1; cell_wave d2 4 0]).
  assert (W : Forall2 (wave_in h) a l).
  { constructor; [|constructor; [|constructor]]; (refine (conj eq_refl (conj _ (conj _ (conj (conj _ _) (conj _ _))))); [simpl; lia|simpl; lia|..]);
      eapply cell_sized; try reflexivity; simpl; lia. }
  pose proof (ocean_any h a l (mkDel 0 0 0 0 0) 0%R W) as X. cbv zeta in X. destruct X as (h0 & acc & E & _).
  exists h, a, l, h0, acc. refine (conj W (conj eq_refl (conj E _))). intros F g.
  destruct (ocean_any h a l F g W) as (h0' & acc' & E' & _ & N). rewrite E in E'. injection E' as <- <-. apply N.
  intros Ev. destruct (Ev (AtlasModel.new_wave d2 [] 0 0)) as (Q & _); [simpl; auto|]. discriminate.
Qed.

Example c28_nonvacuous : let x := mkD 1 0 0 0 0 0 0 in let h := blocks0 1 2 3 4 in
  Forall2 (stores h 0) [cell_wave x 0 0] [const_wave x 1 2 3 4] /\
  csum (at_angle (fun d => iers_argument d (mkDel 0 0 0 0 0) 0) [const_wave x 1 2 3 4]) 0 0 = (-1)%R.
Proof.
  split; [constructor; [apply blocks0_store; reflexivity|constructor]|]. simpl. unfold iers_argument, nl, nlp, nF, nD, nOm. simpl.
  replace (1 * (0 + PI) - _)%R with PI by ring. rewrite cos_PI, sin_PI. lra.
Qed.

(** the atmospheric sum: the argument plus the phase of the constituent (a multiple of 90 degrees) *)
Theorem c28_atmospheric : forall h d acc l cs F g, 0 <= d -> pair_sized h d acc -> Forall2 (stores h d) l cs -> acc_alone acc l ->
  let theta := fun x => (iers_argument x F g + IZR (pifac x) * PI / 2)%R in
  exists h', atm_coeffs h acc l F g = Ok h' /\ pair_sized h' d acc /\ only_acc h acc h' /\ Forall2 (stores h' d) l cs /\
    shows h' d (mC acc) (fun n k => Some (csum (at_angle theta cs) n k)) /\
    shows h' d (mS acc) (fun n k => Some (ssum (at_angle theta cs) n k)).
Proof. exact atm_thm. Qed.
(** the ocean sum ignores that phase *)
Theorem c28_ocean_phase_ignored : exists c F g, pifac (cdood c) = 1 /\
  csum (at_angle (fun x => iers_argument x F g) [c]) 0 0 <> csum (at_angle (fun x => (iers_argument x F g + IZR (pifac x) * PI / 2)%R) [c]) 0 0.
Proof.
  exists (const_wave (mkD 0 0 0 0 0 0 1) 1 0 0 0), (mkDel 0 0 0 0 0), 0%R. split; [reflexivity|]. simpl. unfold iers_argument, nl, nlp, nF, nD, nOm. simpl.
  replace (0 * (0 + PI) - _)%R with 0%R by ring. replace (0 + 1 * PI / 2)%R with (PI / 2)%R by field. rewrite cos_0, cos_PI2, sin_0, sin_PI2. lra.
Qed.

(** ** C29 *)
(** Partial: histories without a move assignment from an object that has no admittance model to one that has. *)
Theorem c29_no_bad_access_partial : forall M (s : gstate M) o, ghist s -> ~ dangles s o -> gstep M s o <> UB /\ gstep M s o <> Abort.
Proof. exact @ghist_safe. Qed.
Theorem c29_single_owner_partial : forall M (s : gstate M), ghist s -> owned s /\ no_orphan s.
Proof. exact @ghist_inv. Qed.
Theorem c29_all_freed_partial : forall M (s : gstate M), ghist s -> (forall i p, nth_error (gobjs M s) i <> Some (Some p)) ->
  forall p b, nth_error (gheap M s) p = Some b -> b = GFreed.
Proof. exact @ghist_all_freed. Qed.
(** every excluded move assignment leaves a dangling pointer: the next use, copy or destruction is undefined *)
Theorem c29_move_assignment_refuted : forall M (s : gstate M) i j, ghist s -> dangles s (GMoveAssign M i j) ->
  exists s', gstep M s (GMoveAssign M i j) = Ok s' /\ gstep M s' (GUse M i) = UB /\ gstep M s' (GDestroy M i) = UB /\ gstep M s' (GCopy M i) = UB.
Proof. exact @gmove_dangles. Qed.
Theorem c29_double_free_refuted : exists s, grun nat [GNewWith nat 7%nat; GNew nat; GMoveAssign nat 0%nat 1%nat] = Ok s /\
  gstep nat s (GDestroy nat 0%nat) = UB /\ gstep nat s (GUse nat 0%nat) = UB.
Proof. eexists. split; [reflexivity|]. split; reflexivity. Qed.
(** a = std::move(a) frees the model and keeps none *)
Theorem c29_self_move_refuted : exists s s', grun nat [GNewWith nat 7%nat] = Ok s /\ model_of s 0%nat = Some 7%nat /\
  gstep nat s (GMoveAssign nat 0%nat 0%nat) = Ok s' /\ model_of s' 0%nat = None.
Proof. eexists _, _. split; [reflexivity|]. split; [reflexivity|]. split; reflexivity. Qed.
Example c29_nonvacuous : exists s, ghist (M := nat) s /\ model_of s 1%nat = Some 7%nat /\ model_of s 2%nat = Some 7%nat /\ nth_error (gobjs nat s) 0%nat = Some None.
Proof.
  assert (N : forall s o s', ghist s -> ~ dangles s o -> gstep nat s o = Ok s' -> ghist s') by apply ghist_step.
  pose proof (N _ (GNewWith nat 7%nat) _ (ghist_nil (M := nat)) (fun x => x) eq_refl) as H1.
  pose proof (N _ (GCopy nat 0%nat) _ H1 (fun x => x) eq_refl) as H2.
  pose proof (N _ (GNew nat) _ H2 (fun x => x) eq_refl) as H3.
  eassert (H4 : ghist _). { apply (N _ (GMoveAssign nat 2%nat 0%nat) _ H3); [intros (_ & E); vm_compute in E; discriminate|reflexivity]. }
  pose proof (N _ (GDestroy nat 0%nat) _ H4 (fun x => x) eq_refl) as H5.
  eexists. split; [exact H5|]. repeat split.
Qed.

(** ** C30 *)
(** Partial: of any two waves one must be at least as large as the other in both degree and order. *)
Theorem c30_accumulator_large_partial : forall A (h : mem A) a l, ahist h a l ->
  (forall x y, In x (map snd l) -> In y (map snd l) -> comparable x y) ->
  forall w n m, In (w, (n, m)) l -> n <= adeg a /\ m <= aord a.
Proof. exact @ahist_large. Qed.
(** the matrices always match the recorded degree (none before the first wave of positive degree) *)
Theorem c30_matrices : forall A (h : mem A) a l, ahist h a l ->
  exists e, pair_sized h e (amats a) /\ apart (mC (amats a)) (mS (amats a)) /\ 0 <= aord a <= adeg a /\
    (forall w n m, In (w, (n, m)) l -> 0 <= m <= n /\ forall x, In x (wave_mats w) -> sized h n x /\ apart x (mC (amats a)) /\ apart x (mS (amats a))) /\
    ((e = -1 /\ adeg a = 0 /\ aord a = 0 /\ forall w n m, In (w, (n, m)) l -> n = 0) \/
     (e = adeg a /\ 0 < adeg a /\ exists w, In (w, (adeg a, aord a)) l)).
Proof. exact @ahist_inv. Qed.
(** evaluation after appending: completes exactly when all waves have the same, positive degree *)
Theorem c30_evaluates_iff : forall (h : mem R) a l F g, ahist h a l -> l <> [] ->
  ((exists d, 0 < d /\ forall w n m, In (w, (n, m)) l -> n = d) -> exists h', atm_coeffs h (amats a) (map fst l) F g = Ok h') /\
  (~ (exists d, 0 < d /\ forall w n m, In (w, (n, m)) l -> n = d) -> atm_coeffs h (amats a) (map fst l) F g = Abort).
Proof. exact ahist_evaluates. Qed.

(** any wave of lower degree and higher order than what is there makes the accumulator smaller, and evaluation then aborts *)
Theorem c30_append_shrinks_refuted : forall n1 m1 n2 m2, 0 <= m1 <= n1 -> 0 <= m2 <= n2 -> n2 < n1 -> m1 < m2 ->
  exists (h : mem R) a w1 w2, ahist h a [(w1, (n1, m1)); (w2, (n2, m2))] /\ adeg a < n1 /\
    forall F g, atm_coeffs h (amats a) [w1; w2] F g = Abort.
Proof.
  intros n1 m1 n2 m2 D1 D2 L M. destruct (ahist_two (A := R) n1 m1 n2 m2 D1 D2) as (h & a & w1 & w2 & H & G).
  exists h, a, w1, w2. refine (conj H (conj _ _)).
  - unfold grow in G. cbn [fst snd] in G. replace (0 <? n1) with true in G by (symmetry; apply Z.ltb_lt; lia). cbn [orb fst snd] in G.
    replace (m1 <? m2) with true in G by (symmetry; apply Z.ltb_lt; lia). rewrite orb_true_r in G. cbn [snd] in G. injection G as -> _. lia.
  - intros F g. apply (ahist_evaluates h a _ F g H); [discriminate|]. intros (d & _ & Q). pose proof (Q w1 n1 m1 (or_introl eq_refl)).
    pose proof (Q w2 n2 m2 (or_intror (or_introl eq_refl))). lia.
Qed.
(** a model that holds only waves of degree 0 cannot be evaluated *)
Theorem c30_degree_zero_refuted : exists (h : mem R) a w1 w2, ahist h a [(w1, (0, 0)); (w2, (0, 0))] /\
  forall F g, atm_coeffs h (amats a) [w1; w2] F g = Abort.
Proof.
  destruct (ahist_two (A := R) 0 0 0 0) as (h & a & w1 & w2 & H & _); [lia|lia|]. exists h, a, w1, w2. split; [exact H|].
  intros F g. apply (ahist_evaluates h a _ F g H); [discriminate|]. intros (d & Hd & Q). pose proof (Q w1 0 0 (or_introl eq_refl)). lia.
Qed.
Example c30_nonvacuous : exists (h : mem R) a w1 w2, ahist h a [(w1, (2, 1)); (w2, (3, 2))] /\ adeg a = 3 /\ aord a = 2 /\
  (forall x y, In x (map snd [(w1, (2, 1)); (w2, (3, 2))]) -> In y (map snd [(w1, (2, 1)); (w2, (3, 2))]) -> comparable x y).
Proof.
  destruct (ahist_two (A := R) 2 1 3 2) as (h & a & w1 & w2 & H & G); [lia|lia|]. injection G as G1 G2. exists h, a, w1, w2.
  refine (conj H (conj G1 (conj G2 _))). intros x y [<- | [<- | []]] [<- | [<- | []]]; unfold comparable; simpl; lia.
Qed.
Print Assumptions c28_harmonic_sum_partial.
Print Assumptions c28_order_irrelevant.
Print Assumptions c28_evaluation.
Print Assumptions c28_loop_exact.
Print Assumptions c28_evaluates_iff.
Print Assumptions c28_admittance.
Print Assumptions c28_admittance_short_refuted.
Print Assumptions c28_admittance_columns.
Print Assumptions c28_admittance_order_refuted.
Print Assumptions c28_uneven_degrees_refuted.
Print Assumptions c28_atmospheric.
Print Assumptions c28_ocean_phase_ignored.
Print Assumptions c29_no_bad_access_partial.
Print Assumptions c29_single_owner_partial.
Print Assumptions c29_all_freed_partial.
Print Assumptions c29_move_assignment_refuted.
Print Assumptions c29_double_free_refuted.
Print Assumptions c29_self_move_refuted.
Print Assumptions c30_accumulator_large_partial.
Print Assumptions c30_matrices.
Print Assumptions c30_evaluates_iff.
Print Assumptions c30_append_shrinks_refuted.
Print Assumptions c30_degree_zero_refuted.
