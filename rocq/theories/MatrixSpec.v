(** What a user of CoeffMatrix2D relies on: values of elements, ownership of
    memory, element-wise meaning of expressions. *)
From Coq Require Import ZArith List Bool.
From Verif Require Import Base StorageModel StorageSpec MatrixModel.
Import ListNotations.
Open Scope Z_scope.

Section Spec.
  Context {A : Type}.
  Notation mem := (mem A).
  Notation cell := (cell A).

  (** positions a matrix keeps *)
  Definition kept (m : mat) (p : Z * Z) : Prop := stored (sch (st m)) (rows m) (cols m) p.

  (** the matrix reads as the function [f] (on the positions it keeps) *)
  Definition reads (h : mem) (m : mat) (f : Z -> Z -> cell) : Prop :=
    forall i j, kept m (i, j) -> get A h m i j = Ok (f i j).

  (** the representation invariant of one object *)
  Definition valid (h : mem) (m : mat) : Prop :=
    legal_dims (sch (st m)) (rows m) (cols m) /\ scols_field (st m) = cols m /\
    nelem m <= cap m /\
    match ptr m with
    | None => cap m = 0
    | Some p => exists l, nth_error h p = Some (Live l) /\ Z.of_nat (length l) = cap m
    end.

  Definition live_at (objs : list (option mat)) (i : nat) (m : mat) : Prop :=
    nth_error objs i = Some (Some m).

  (** the invariant of a program state: valid objects, no block owned twice *)
  Definition consistent (s : pstate A) : Prop :=
    (forall i m, live_at (objs A s) i m -> valid (heap A s) m) /\
    (forall i j m n p, live_at (objs A s) i m -> live_at (objs A s) j n ->
       ptr m = Some p -> ptr n = Some p -> i = j).

  (** every allocated block belongs to some live object *)
  Definition no_leak (s : pstate A) : Prop :=
    forall p l, nth_error (heap A s) p = Some (Live l) ->
      exists i m, live_at (objs A s) i m /\ ptr m = Some p.

  (** element-wise meaning of an expression, given the values of its matrices *)
  Fixpoint meaning (add mul : A -> A -> A) (val : mat -> Z -> Z -> cell) (e : expr A) (i j : Z) : cell :=
    match e with
    | EMat m => val m i j
    | EScaled e f => lift2 A mul (meaning add mul val e i j) (Some f)
    | ESum a b => lift2 A add (meaning add mul val a i j) (meaning add mul val b i j)
    | EView e _ _ => meaning add mul val e i j
    end.

  Fixpoint leaves (e : expr A) : list mat :=
    match e with
    | EMat m => [m] | EScaled e _ => leaves e | ESum a b => leaves a ++ leaves b | EView e _ _ => leaves e
    end.

  (** every matrix of the expression is a valid object of scheme [k]; an operand
      sharing memory with the target [m] is [m] itself *)
  Definition operands_ok (h : mem) (k : scheme) (m : mat) (e : expr A) : Prop :=
    forall n, In n (leaves e) ->
      valid h n /\ sch (st n) = k /\ (ptr n <> None -> ptr n = ptr m -> n = m).

  (** no allocated block other than [p] is touched: every object not owning [p]
      keeps its value *)
  Definition others_unchanged (h : mem) (p : option nat) (h' : mem) : Prop :=
    forall n, valid h n -> (ptr n = None \/ ptr n <> p) ->
      valid h' n /\ forall i j, kept n (i, j) -> get A h' n i j = get A h n i j.

  (** arguments within the documented domain: non-negative dimensions *)
  Definition args_ok (o : op A) : Prop :=
    match o with
    | OCtor _ _ r c | OResize _ _ r c | OCResize _ _ r c => 0 <= r /\ 0 <= c
    | _ => True
    end.
  (** ... and element positions kept by the matrix *)
  Definition position_ok (s : pstate A) (o : op A) : Prop :=
    match o with
    | OSet _ i r c _ => forall m, live_at (objs A s) i m -> kept m (r, c)
    | _ => True
    end.

  (** move assignment only onto objects that own nothing *)
  Definition move_target_empty (s : pstate A) (o : op A) : Prop :=
    match o with
    | OMoveAssign _ i j => i <> j /\ forall m, live_at (objs A s) i m -> ptr m = None
    | _ => True
    end.

  (** program runs, recording a condition on every step taken *)
  Inductive runs (add mul : A -> A -> A) (P : pstate A -> op A -> Prop) : list (op A) -> pstate A -> Prop :=
  | runs_nil : runs add mul P [] (init A)
  | runs_snoc os s o s' :
      runs add mul P os s -> P s o -> step A add mul s o = Ok s' -> runs add mul P (os ++ [o]) s'.
End Spec.
