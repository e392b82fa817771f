(** Properties C04-C07 (coefficient matrices). *)
From Coq Require Import ZArith List Bool Lia.
From Verif Require Import Base StorageModel StorageSpec MatrixModel MatrixSpec MatrixProofs MatrixProgProofs.
Import ListNotations.
Open Scope Z_scope.

(** ** C04 *)
Theorem c04_copy_construct : forall A (h : mem A) src, valid h src ->
  exists h' m, copy_ctor A h src = Ok (h', m) /\ valid h' m /\
    sch (st m) = sch (st src) /\ rows m = rows src /\ cols m = cols src /\ ptr m <> ptr src /\
    (forall i j, kept src (i, j) -> get A h' m i j = get A h src i j) /\ others_unchanged h None h'.
Proof. exact @copy_ctor_thm. Qed.
Print Assumptions c04_copy_construct.

Theorem c04_copy_assign : forall A (h : mem A) dst src,
  valid h dst -> valid h src -> sch (st dst) = sch (st src) -> (ptr dst <> None -> ptr dst <> ptr src) ->
  exists h' m, copy_assign A h dst src = Ok (h', m) /\ valid h' m /\
    sch (st m) = sch (st src) /\ rows m = rows src /\ cols m = cols src /\
    (forall i j, kept src (i, j) -> get A h' m i j = get A h src i j) /\ others_unchanged h (ptr dst) h'.
Proof. exact @copy_assign_thm. Qed.
Print Assumptions c04_copy_assign.

Theorem c04_resize : forall A (h : mem A) m r c, valid h m -> legal_dims (sch (st m)) r c ->
  exists h' m', resize A h m r c = Ok (h', m') /\ valid h' m' /\
    sch (st m') = sch (st m) /\ rows m' = r /\ cols m' = c /\ others_unchanged h (ptr m) h'.
Proof. exact @resize_thm. Qed.
Print Assumptions c04_resize.

Theorem c04_cresize_keeps_common : forall A (h : mem A) m r c, valid h m -> legal_dims (sch (st m)) r c ->
  exists h' m', cresize A h m r c = Ok (h', m') /\ valid h' m' /\
    sch (st m') = sch (st m) /\ rows m' = r /\ cols m' = c /\
    (forall i j, kept m (i, j) -> i < r -> j < c -> get A h' m' i j = get A h m i j) /\
    others_unchanged h (ptr m) h'.
Proof. exact @cresize_thm. Qed.
Print Assumptions c04_cresize_keeps_common.

Theorem c04_move_construct : forall A (h : mem A) src, valid h src ->
  exists m src', move_ctor src = Ok (m, src') /\ m = src /\ valid h src' /\
    rows src' = 0 /\ cols src' = 0 /\ ptr src' = None.
Proof. exact @move_ctor_thm. Qed.
Print Assumptions c04_move_construct.

Theorem c04_move_assign : forall A (h : mem A) dst src,
  valid h dst -> valid h src -> sch (st dst) = sch (st src) ->
  exists m src', move_assign dst src = Ok (m, src') /\ m = src /\ valid h src' /\
    rows src' = 0 /\ cols src' = 0 /\ ptr src' = None.
Proof. exact @move_assign_thm. Qed.
Print Assumptions c04_move_assign.

Example c04_nonvacuous :
  let h : mem Z := [Live [Some 1; Some 2; Some 3]; Live [None]] in
  let a := mkMat (mkStorage LwTriCol 2 2) (Some 0%nat) 3 in
  valid h a /\ get Z h a 1 0 = Ok (Some 2) /\
  exists h' m, cresize Z h a 3 3 = Ok (h', m) /\ get Z h' m 1 0 = Ok (Some 2) /\ get Z h' m 1 1 = Ok (Some 3).
Proof.
  split; [|split; [reflexivity|]].
  - split; [unfold legal_dims; repeat split; cbn; lia|]. split; [reflexivity|]. split; [vm_compute; discriminate|].
    eexists; split; reflexivity.
  - eexists _, _. split; [vm_compute; reflexivity|]. split; reflexivity.
Qed.

(** ** C05 *)
Theorem c05_add_assign : forall A add mul (h : mem A) m e V old,
  (forall x y, add x y = add y x) ->
  valid h m -> operands_ok h (sch (st m)) m e -> eassert A e = true ->
  (if contiguous A e then rows m = erows A e /\ cols m = ecols A e
   else erows A e <= rows m /\ ecols A e <= cols m) ->
  (forall n, In n (leaves e) -> reads h n (V n)) -> reads h m old ->
  exists h', add_assign A add mul h m e = Ok h' /\ valid h' m /\
    reads h' m (fun i j => if (i <? erows A e) && (j <? ecols A e)
                           then lift2 A add (old i j) (meaning add mul V e i j) else old i j) /\
    others_unchanged h (ptr m) h'.
Proof. exact @add_assign_thm. Qed.
Print Assumptions c05_add_assign.

Theorem c05_construct_from_expression : forall A add mul (h : mem A) k e V,
  (forall x y, add x y = add y x) ->
  (forall n, In n (leaves e) -> valid h n /\ sch (st n) = k) ->
  eassert A e = true -> legal_dims k (erows A e) (ecols A e) ->
  (match e with ESum _ _ => True | EScaled _ _ => contiguous A e = true | _ => False end) ->
  (forall n, In n (leaves e) -> reads h n (V n)) ->
  exists h' m, from_expr A add mul h k e = Ok (h', m) /\ valid h' m /\
    sch (st m) = k /\ rows m = erows A e /\ cols m = ecols A e /\ reads h' m (meaning add mul V e) /\
    others_unchanged h None h'.
Proof. exact @from_expr_thm. Qed.
Print Assumptions c05_construct_from_expression.
(** operands of different shapes, or a shape the class does not have: the program stops, in both forms of the constructor *)
Theorem c05_construct_rejected : forall A add mul (h : mem A) k e, 0 <= erows A e -> 0 <= ecols A e ->
  eassert A e = false \/ ~ legal_dims k (erows A e) (ecols A e) -> from_expr A add mul h k e = Abort.
Proof.
  intros A add mul h k e R C H. unfold from_expr. destruct (eassert A e) eqn:E; [|reflexivity]. cbn [andb]. destruct (dims_ok k (erows A e) (ecols A e)) eqn:D; [|reflexivity].
  destruct H as [H|H]; [discriminate|]. elim H. apply dims_ok_legal; assumption.
Qed.
Example c05_construct_rejected_nonvacuous : forall m2 m3 : mat, sch (st m2) = LwTriCol -> erows Z (EMat m2) = 2 -> ecols Z (EMat m2) = 2 -> erows Z (EMat m3) = 3 -> eassert Z (ESum (EMat m2) (EMat m3)) = false.
Proof. intros m2 m3 S R C R3. cbn [eassert]. rewrite R, R3. reflexivity. Qed.
Print Assumptions c05_construct_rejected.
Theorem c05_add_assign_rejected : forall A add mul (h : mem A) m e,
  eassert A e = false \/ contiguous A e = true /\ (rows m <> erows A e \/ cols m <> ecols A e) -> add_assign A add mul h m e = Abort.
Proof.
  intros A add mul h m e H. unfold add_assign. destruct (eassert A e) eqn:E; [|reflexivity]. destruct H as [H|(Hc & H)]; [discriminate|]. rewrite Hc.
  destruct (Z.eqb_spec (rows m) (erows A e)); [|reflexivity]. destruct (Z.eqb_spec (cols m) (ecols A e)); [|reflexivity]. lia.
Qed.
Print Assumptions c05_add_assign_rejected.

Theorem c05_multiply : forall A mul (h : mem A) m v f, valid h m -> reads h m f ->
  exists h', multiply A mul h m v = Ok h' /\ valid h' m /\
    reads h' m (fun i j => lift2 A mul (f i j) (Some v)) /\ others_unchanged h (ptr m) h'.
Proof. exact @multiply_thm. Qed.
Print Assumptions c05_multiply.

Theorem c05_fill : forall A (h : mem A) m v, valid h m ->
  exists h', fill_with A h m v = Ok h' /\ valid h' m /\ reads h' m (fun _ _ => Some v) /\
    others_unchanged h (ptr m) h'.
Proof. exact @fill_thm. Qed.
Print Assumptions c05_fill.

Theorem c05_write_element : forall A (h : mem A) m r c v f, valid h m -> kept m (r, c) -> reads h m f ->
  exists h', set A h m r c v = Ok h' /\ valid h' m /\
    reads h' m (fun i j => if (i =? r) && (j =? c) then Some v else f i j) /\ others_unchanged h (ptr m) h'.
Proof. exact @set_thm. Qed.
Print Assumptions c05_write_element.

(** Operands of different storage schemes are accepted through a scaled proxy
    and give wrong elements or undefined behaviour. *)
Theorem c05_mixed_schemes_refuted : exists (h h' : mem Z) (a b : mat),
  valid h a /\ valid h b /\ rows a = rows b /\ cols a = cols b /\ ptr a <> ptr b /\
  add_assign Z Z.add Z.mul h a (EScaled (EMat b) 1) = Ok h' /\
  get Z h a 0 1 = Ok (Some 0) /\ get Z h b 0 1 = Ok (Some 12) /\ get Z h' a 0 1 = Ok (Some 21).
Proof. exact mixed_scheme_wrong. Qed.
Print Assumptions c05_mixed_schemes_refuted.

Theorem c05_mixed_schemes_ub_refuted : exists (h : mem Z) (a b : mat),
  valid h a /\ valid h b /\ rows a = rows b /\ cols a = cols b /\ ptr a <> ptr b /\
  add_assign Z Z.add Z.mul h a (EScaled (EMat b) 1) = UB.
Proof. exact mixed_scheme_ub. Qed.
Print Assumptions c05_mixed_schemes_ub_refuted.

Example c05_nonvacuous :
  let h : mem Z := [Live [Some 1; Some 2; Some 3; Some 4]; Live [Some 10; Some 20; Some 30; Some 40]] in
  let a := mkMat (mkStorage RowWise 2 2) (Some 0%nat) 4 in
  let b := mkMat (mkStorage RowWise 2 2) (Some 1%nat) 4 in
  let e := ESum (EView (EMat a) 1 2) (EView (EMat b) 1 2) in
  valid h a /\ valid h b /\ eassert Z e = true /\ contiguous Z e = false /\
  exists h', add_assign Z Z.add Z.mul h a e = Ok h' /\
    get Z h' a 0 1 = Ok (Some 24) /\ get Z h' a 1 1 = Ok (Some 4).
Proof.
  split; [|split; [|split; [reflexivity|split; [reflexivity|]]]].
  1,2: split; [unfold legal_dims; repeat split; cbn; try lia; intros [?|?]; discriminate|];
    split; [reflexivity|]; split; [vm_compute; discriminate|]; eexists; split; reflexivity.
  eexists. split; [vm_compute; reflexivity|]. split; reflexivity.
Qed.

(** ** C06 *)
(** no operation of any legal history touches freed or foreign memory or frees twice *)
Theorem c06_no_bad_access : forall A (add mul : A -> A -> A) os s o,
  runs add mul (@legal_step A) os s -> legal_step s o -> step A add mul s o <> UB.
Proof. exact @no_ub. Qed.
Print Assumptions c06_no_bad_access.

(** Partial: nothing is leaked provided move assignment is only used on targets
    that own nothing.  Missing: move assignment onto an owning matrix (refuted below). *)
Theorem c06_all_freed_partial : forall A (add mul : A -> A -> A) os s,
  runs add mul (fun s o => legal_step s o /\ move_target_empty s o) os s ->
  (forall i m, ~ live_at (objs A s) i m) ->
  forall p b, nth_error (heap A s) p = Some b -> b = Freed.
Proof. exact @all_destroyed_all_freed. Qed.
Print Assumptions c06_all_freed_partial.

Theorem c06_move_assignment_leaks_refuted : exists os s p l,
  runs Z.add Z.mul (@legal_step Z) os s /\
  (forall i m, ~ live_at (objs Z s) i m) /\ nth_error (heap Z s) p = Some (Live l) /\ length l = 6%nat.
Proof. exact move_assign_leak. Qed.
Print Assumptions c06_move_assignment_leaks_refuted.

Theorem c06_self_move_refuted : exists (s s' : pstate Z) m,
  run Z Z.add Z.mul [OCtor Z RowWise 2 3; OFill Z 0 7] (init Z) = Ok s /\
  step Z Z.add Z.mul s (OMoveAssign Z 0 0) = Ok s' /\
  live_at (objs Z s') 0 m /\ rows m = 0 /\ ~ no_leak s'.
Proof. exact self_move_empties. Qed.
Print Assumptions c06_self_move_refuted.

Example c06_nonvacuous : exists s,
  run Z Z.add Z.mul [OCtor Z LwTriCol 3 3; OFill Z 0 7; OCopyCtor Z 0; OCResize Z 1 5 5; OSwap Z 0 1;
    OMoveCtor Z 0; OAddView Z 2 1 2 2; OCopyAssign Z 0 2; ODestroy Z 0; ODestroy Z 1; ODestroy Z 2] (init Z) = Ok s
  /\ heap Z s = repeat Freed 4.
Proof. eexists. split; vm_compute; reflexivity. Qed.

(** ** C07 *)
Theorem c07_invariant : forall A (add mul : A -> A -> A) os s,
  runs add mul (@legal_step A) os s -> consistent s.
Proof. exact @runs_consistent. Qed.
Print Assumptions c07_invariant.

Example c07_nonvacuous : runs Z.add Z.mul (@legal_step Z) [OCtor Z ColWise 2 3]
  (mkP Z [Some (mkMat (mkStorage ColWise 2 3) (Some 0%nat) 6)] [Live (repeat None 6)]).
Proof.
  apply (runs_snoc Z.add Z.mul (@legal_step Z) [] (init Z)); [constructor| |reflexivity].
  split; [split; lia|exact I].
Qed.
