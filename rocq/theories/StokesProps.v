(** Properties C08-C10, C53, C54 (StokesCoeffs). *)
From Coq Require Import ZArith List Bool Lia.
From Verif Require Import Base StorageModel StorageSpec MatrixModel MatrixSpec StokesModel StokesSpec
  StokesProofs StokesProofs2 StokesRefine.
Import ListNotations.
Open Scope Z_scope.

(** ** C08 *)
Theorem c08_add_exact : forall A (add mul : A -> A -> A) u s i j x y,
  hist add mul u s -> alive s i x -> alive s j y -> i <> j ->
  flag u i = true -> flag u j = true -> degree y <= degree x -> order y <= order x ->
  exists s', sstep A add mul s (SAdd A i j) = Ok (s', true) /\ scs A s' = scs A s /\
    (forall n m, 0 <= m <= n -> n <= degree y -> m <= order y ->
       exists a b c d, coefC s i n m = Ok a /\ coefC s j n m = Ok b /\ coefC s' i n m = Ok (lift2 A add a b) /\
                       coefS s i n m = Ok c /\ coefS s j n m = Ok d /\ coefS s' i n m = Ok (lift2 A add c d)) /\
    (forall n m, 0 <= m <= n -> n <= degree x -> n > degree y \/ m > order y ->
       coefC s' i n m = coefC s i n m /\ coefS s' i n m = coefS s i n m) /\
    (forall k z, alive s k z -> flag u k = true -> k <> i -> forall n m, 0 <= m <= n -> n <= degree z ->
       coefC s' k n m = coefC s k n m /\ coefS s' k n m = coefS s k n m).
Proof. exact @stokes_add_thm. Qed.
Print Assumptions c08_add_exact.

Theorem c08_larger_refused : forall A (add mul : A -> A -> A) s i j x y, alive s i x -> alive s j y ->
  degree x < degree y \/ order x < order y ->
  sstep A add mul s (SAdd A i j) = Ok (s, false).
Proof. exact @stokes_add_refused. Qed.
Print Assumptions c08_larger_refused.

(** adding a default-constructed set (degree 0, order 0, accepted by the check) is undefined behaviour *)
Theorem c08_add_default_refuted : exists s x y,
  srun Z Z.add Z.mul [SCtor Z 2 2; SClear Z 0 0; SDefault Z] = Ok s /\
  alive s 0 x /\ alive s 1 y /\ degree y <= degree x /\ order y <= order x /\
  sstep Z Z.add Z.mul s (SAdd Z 0 1) = UB.
Proof.
  eexists _, _, _. split; [vm_compute; reflexivity|]. split; [reflexivity|]. split; [reflexivity|].
  split; [vm_compute; discriminate|]. split; [vm_compute; discriminate|]. reflexivity.
Qed.
Print Assumptions c08_add_default_refuted.

Example c08_nonvacuous : exists s s',
  srun Z Z.add Z.mul [SCtor Z 3 2; SClear Z 0 5; SCtor Z 2 1; SClear Z 1 7] = Ok s /\
  sstep Z Z.add Z.mul s (SAdd Z 0 1) = Ok (s', true) /\
  coefC s' 0 2 1 = Ok (Some 12) /\ coefS s' 0 2 2 = Ok (Some 5) /\ coefC s' 0 3 0 = Ok (Some 5) /\
  coefC s' 1 2 1 = Ok (Some 7).
Proof. eexists _, _. split; [vm_compute; reflexivity|]. split; [vm_compute; reflexivity|]. repeat split. Qed.

(** ** C09 *)
(** Partial: holds for objects that hold coefficients ([flag]) with arguments
    order <= degree.  Missing: default-constructed and moved-from objects, and
    constructor/resize arguments with order > degree (refuted below). *)
Theorem c09_coefficients_accessible_partial : forall A (add mul : A -> A -> A) u s k x n m,
  hist add mul u s -> alive s k x -> flag u k = true ->
  0 <= order x <= degree x /\
  (0 <= m <= n -> n <= degree x -> (exists c, coefC s k n m = Ok c) /\ (exists c, coefS s k n m = Ok c)).
Proof. exact @stokes_accessible. Qed.
Print Assumptions c09_coefficients_accessible_partial.

Theorem c09_no_bad_access : forall A (add mul : A -> A -> A) u s o, hist add mul u s -> sop_ok s u o ->
  sstep A add mul s o <> UB /\ sstep A add mul s o <> Abort.
Proof. exact @stokes_no_ub. Qed.
Print Assumptions c09_no_bad_access.

Theorem c09_default_constructed_refuted : exists s x,
  srun Z Z.add Z.mul [SDefault Z] = Ok s /\ alive s 0 x /\ degree x = 0 /\ order x = 0 /\ coefC s 0 0 0 = UB.
Proof. eexists _, _. split; [vm_compute; reflexivity|]. repeat split. Qed.
Print Assumptions c09_default_constructed_refuted.

Theorem c09_moved_from_refuted : exists s x,
  srun Z Z.add Z.mul [SCtor Z 3 3; SClear Z 0 0; SMove Z 0] = Ok s /\ alive s 0 x /\ degree x = 3 /\ coefC s 0 2 1 = UB.
Proof. eexists _, _. split; [vm_compute; reflexivity|]. repeat split. Qed.
Print Assumptions c09_moved_from_refuted.

Theorem c09_order_above_degree_refuted : exists s x,
  srun Z Z.add Z.mul [SCtor Z 2 5] = Ok s /\ alive s 0 x /\ degree x < order x.
Proof. eexists _, _. split; [vm_compute; reflexivity|]. repeat split. Qed.
Print Assumptions c09_order_above_degree_refuted.

(** asking for order 0 gives a set of full order *)
Theorem c09_order_zero_ignored_refuted : exists s x,
  srun Z Z.add Z.mul [SCtor Z 4 0] = Ok s /\ alive s 0 x /\ order x = 4.
Proof. eexists _, _. split; [vm_compute; reflexivity|]. repeat split. Qed.
Print Assumptions c09_order_zero_ignored_refuted.

Example c09_nonvacuous : exists u s, hist Z.add Z.mul u s /\ flag u 0 = true /\ alive s 0 (mkSc 3 2).
Proof.
  eexists _, _. split.
  - eapply hist_step with (o := SCtor Z 3 2); [constructor|simpl; lia|vm_compute; reflexivity].
  - split; reflexivity.
Qed.

(** ** C10 *)
(** Partial: every degree except 0 (refuted below). *)
Theorem c10_scale_partial : forall A (add mul : A -> A -> A) u s k x f,
  hist add mul u s -> alive s k x -> flag u k = true -> degree x <> 0 ->
  exists s', sstep A add mul s (SScale A k f) = Ok (s', true) /\ scs A s' = scs A s /\
    (forall n m, 0 <= m <= n -> n <= degree x ->
       exists a b, coefC s k n m = Ok a /\ coefC s' k n m = Ok (lift2 A mul a (Some f)) /\
                   coefS s k n m = Ok b /\ coefS s' k n m = Ok (lift2 A mul b (Some f))) /\
    (forall i z, alive s i z -> flag u i = true -> i <> k -> forall n m, 0 <= m <= n -> n <= degree z ->
       coefC s' i n m = coefC s i n m /\ coefS s' i n m = coefS s i n m).
Proof. exact @stokes_scale_thm. Qed.
Print Assumptions c10_scale_partial.

Theorem c10_scale_compose_partial : forall A (add mul : A -> A -> A) u s k x a b,
  (forall p q r, mul (mul p q) r = mul p (mul q r)) ->
  hist add mul u s -> alive s k x -> flag u k = true -> degree x <> 0 ->
  exists s1 s2 s3, sstep A add mul s (SScale A k a) = Ok (s1, true) /\
    sstep A add mul s1 (SScale A k b) = Ok (s2, true) /\
    sstep A add mul s (SScale A k (mul a b)) = Ok (s3, true) /\
    forall n m, 0 <= m <= n -> n <= degree x ->
      coefC s2 k n m = coefC s3 k n m /\ coefS s2 k n m = coefS s3 k n m.
Proof. exact @stokes_scale_compose. Qed.
Print Assumptions c10_scale_compose_partial.

Theorem c10_degree_zero_refuted : exists s s',
  srun Z Z.add Z.mul [SCtor Z 0 0; SClear Z 0 1] = Ok s /\
  sstep Z Z.add Z.mul s (SScale Z 0 2) = Ok (s', true) /\ coefC s' 0 0 0 = Ok (Some 1).
Proof. eexists _, _. split; [vm_compute; reflexivity|]. split; [vm_compute; reflexivity|]. reflexivity. Qed.
Print Assumptions c10_degree_zero_refuted.

Example c10_nonvacuous : exists s s',
  srun Z Z.add Z.mul [SCtor Z 3 2; SClear Z 0 5; SSetS Z 0 3 1 4] = Ok s /\
  sstep Z Z.add Z.mul s (SScale Z 0 3) = Ok (s', true) /\ coefC s' 0 3 3 = Ok (Some 15) /\ coefS s' 0 3 1 = Ok (Some 12).
Proof. eexists _, _. split; [vm_compute; reflexivity|]. split; [vm_compute; reflexivity|]. repeat split. Qed.

(** ** C53 packed storage *)
Theorem c53_layout : forall A zero d (C S : Z -> Z -> cell A) r c, 0 <= r <= d -> 0 <= c <= d ->
  to_anm A zero d C S r c = if r <? c then S c (r + 1) else C r c.
Proof. exact @to_anm_value. Qed.
Print Assumptions c53_layout.

Theorem c53_unpack_pack : forall A zero d (M : anm A) r c, 0 <= r <= d -> 0 <= c <= d ->
  to_anm A zero d (fst (from_anm A d M)) (snd (from_anm A d M)) r c = M r c.
Proof. exact @to_from. Qed.
Print Assumptions c53_unpack_pack.

(** Partial: S coefficients of order 0 do not survive (refuted below). *)
Theorem c53_pack_unpack_partial : forall A zero d (C S : Z -> Z -> cell A) n m, 0 <= m <= n -> n <= d ->
  fst (from_anm A d (to_anm A zero d C S)) n m = C n m /\
  (1 <= m -> snd (from_anm A d (to_anm A zero d C S)) n m = S n m).
Proof. exact @from_to. Qed.
Print Assumptions c53_pack_unpack_partial.

(** S(n,0) of the unpacked set is never written: reading it is reading indeterminate memory *)
Theorem c53_order_zero_sine_refuted : forall A zero d (C S : Z -> Z -> cell A) n, 0 <= n <= d ->
  snd (from_anm A d (to_anm A zero d C S)) n 0 = None.
Proof. intros. rewrite from_anm_S by lia. reflexivity. Qed.
Print Assumptions c53_order_zero_sine_refuted.

Example c53_nonvacuous :
  let C := fun n m => Some (10 * n + m) in let S := fun n m => Some (100 + 10 * n + m) in
  to_anm Z 0 2 C S 1 2 = Some 122 /\ snd (from_anm Z 2 (to_anm Z 0 2 C S)) 2 2 = Some 122.
Proof. split; reflexivity. Qed.

(** ** C54 copies *)
Theorem c54_copy_construct : forall A (add mul : A -> A -> A) u s k x,
  hist add mul u s -> alive s k x -> flag u k = true ->
  exists s', sstep A add mul s (SCopy A k) = Ok (s', true) /\ alive s' (length (scs A s)) x /\
    (forall n m, 0 <= m <= n -> n <= degree x ->
       coefC s' (length (scs A s)) n m = coefC s k n m /\ coefS s' (length (scs A s)) n m = coefS s k n m) /\
    (forall i z, alive s i z -> flag u i = true -> alive s' i z /\ forall n m, 0 <= m <= n -> n <= degree z ->
       coefC s' i n m = coefC s i n m /\ coefS s' i n m = coefS s i n m).
Proof. exact @stokes_copy_thm. Qed.
Print Assumptions c54_copy_construct.

Example c54_nonvacuous : exists s,
  srun Z Z.add Z.mul [SCtor Z 3 2; SClear Z 0 5; SCopy Z 0; SSetC Z 1 2 1 9] = Ok s /\
  coefC s 0 2 1 = Ok (Some 5) /\ coefC s 1 2 1 = Ok (Some 9) /\ coefC s 1 3 0 = Ok (Some 5).
Proof. eexists. split; [vm_compute; reflexivity|]. repeat split. Qed.

(** Every history of construction, copy, move, assignment, swap, resizing, shrinking, clearing,
    scaling, element writes, += and destruction: each set has the dimensions of its abstract
    counterpart and every coefficient the abstract sets know is what the accessors return. The
    abstract sets ([astep], StokesSpec.v) are plain functions of (table, degree, order) with no
    sharing at all, so a shallow copy or a crossed table would show. *)
Theorem c54_refinement : forall A (add mul : A -> A -> A) a u s k x,
  ahist add mul a u s -> alive s k x ->
  exists y, nth_error a k = Some (Some y) /\ adeg y = degree x /\ aord y = order x /\
    forall t n m v, aval y t n m = Some v -> 0 <= m <= n -> n <= degree x -> coef s t k n m = Ok (Some v).
Proof. exact @refinement. Qed.
Print Assumptions c54_refinement.

Example c54_refinement_nonvacuous : exists a u s y,
  ahist Z.add Z.mul a u s /\ alive s 2 (mkSc 3 2) /\ nth_error a 2 = Some (Some y) /\
  aval y true 2 1 = Some 27 /\ aval y false 2 1 = Some 33 /\ coef s true 2 2 1 = Ok (Some 27) /\ coef s true 0 2 1 = Ok (Some 5).
Proof.
  assert (H := @ahist_nil Z Z.add Z.mul).
  Ltac fwd H p := eapply ahist_step with (o := p) in H;
    [|split; simpl; try exact I; try reflexivity; repeat split; intros; try lia;
      match goal with L : alive _ _ _ |- _ => inversion L; subst; simpl; lia end
     |vm_compute; reflexivity].
  fwd H (SCtor Z 3 2). fwd H (SClear Z 0 5). fwd H (SCopy Z 0). fwd H (SSetS Z 1 2 1 11). fwd H (SSetC Z 1 2 1 9).
  fwd H (SDefault Z). fwd H (SAssign Z 2 1). fwd H (SScale Z 2 3).
  do 4 eexists. split; [exact H|]. repeat split; vm_compute; reflexivity.
Qed.
