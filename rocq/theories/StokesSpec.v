(** What a user of StokesCoeffs relies on. *)
From Coq Require Import ZArith List Bool.
From Verif Require Import Base StorageModel StorageSpec MatrixModel MatrixSpec StokesModel.
Import ListNotations.
Open Scope Z_scope.

Section Spec.
  Context {A : Type}.
  (** what the accessors C(n,m) and S(n,m) of object [k] return *)
  Definition coefC (s : sstate A) (k : nat) (n m : Z) : res (cell A) :=
    x <- obj A (ps A s) (cslot k) ;; get A (heap A (ps A s)) x n m.
  Definition coefS (s : sstate A) (k : nat) (n m : Z) : res (cell A) :=
    x <- obj A (ps A s) (sslot k) ;; get A (heap A (ps A s)) x n m.

  Definition alive (s : sstate A) (k : nat) (x : sc) : Prop := nth_error (scs A s) k = Some (Some x).

  (** Which objects hold coefficients (as opposed to default-constructed or
      moved-from ones), computed from the history alone. *)
  Definition flag (u : list bool) (k : nat) : bool := nth k u false.
  Definition track (u : list bool) (o : sop A) : list bool :=
    match o with
    | SDefault _ => u ++ [false]
    | SCtor _ _ _ => u ++ [true]
    | SCopy _ k => u ++ [flag u k]
    | SMove _ k => upd u k false ++ [flag u k]
    | SAssign _ i j => upd u i (flag u j)
    | SMoveAssign _ i j => if Nat.eqb i j then u else upd (upd u i (flag u j)) j false
    | SSwap _ i j => upd (upd u i (flag u j)) j (flag u i)
    | SResize _ k _ _ | SCResize _ k _ _ => upd u k true
    | _ => u
    end.

  (** documented argument domain *)
  Definition sop_ok (s : sstate A) (u : list bool) (o : sop A) : Prop :=
    match o with
    | SCtor _ n m => 0 <= n /\ m <= n
    | SResize _ _ n m | SCResize _ _ n m => 0 <= m <= n
    | SShrink _ _ n m => 0 <= m
    | SSetC _ k n m _ | SSetS _ k n m _ =>
        flag u k = true /\ 0 <= m <= n /\ forall x, alive s k x -> n <= degree x
    | SAdd _ i j => i <> j /\ flag u i = true /\ flag u j = true
    | _ => True
    end.

  (** histories, with the flags computed along *)
  Inductive hist (add mul : A -> A -> A) : list bool -> sstate A -> Prop :=
  | hist_nil : hist add mul [] (sinit A)
  | hist_step u s o s' b : hist add mul u s -> sop_ok s u o -> sstep A add mul s o = Ok (s', b) ->
      hist add mul (track u o) s'.
End Spec.

(** ** Abstract coefficient sets: plain functions, no memory.
    [aval t n m]: the known value of C(n,m) ([t] = true) or S(n,m) ([t] = false);
    None: nothing is promised. *)
Section Abstract.
  Context {A : Type}.
  Variables add mul : A -> A -> A.
  Record aset := mkA { adeg : Z; aord : Z; aval : bool -> Z -> Z -> option A }.

  Definition unknown : bool -> Z -> Z -> option A := fun _ _ _ => None.
  Definition voided (a : option aset) : option aset :=
    option_map (fun a => mkA (adeg a) (aord a) unknown) a.
  Definition aget (a : list (option aset)) (k : nat) : option aset := nth k a None.
  (** change object k, if it exists *)
  Definition amod (a : list (option aset)) (k : nat) (f : aset -> aset) : list (option aset) :=
    upd a k (option_map f (aget a k)).

  Definition astep (a : list (option aset)) (o : sop A) : list (option aset) :=
    match o with
    | SDefault _ => a ++ [Some (mkA 0 0 unknown)]
    | SCtor _ n m => a ++ [Some (mkA n (if 0 <? m then m else n) unknown)]
    | SCopy _ k => a ++ [aget a k]
    | SMove _ k => upd a k (voided (aget a k)) ++ [aget a k]
    | SAssign _ i j => upd a i (aget a j)
    | SMoveAssign _ i j => if Nat.eqb i j then a else upd (upd a i (aget a j)) j (voided (aget a j))
    | SSwap _ i j => upd (upd a i (aget a j)) j (aget a i)
    | SResize _ k n m => amod a k (fun _ => mkA n m unknown)
    | SCResize _ k n m => amod a k (fun x => mkA n m (fun t r c => if r <=? adeg x then aval x t r c else None))
    | SShrink _ k n m =>
        amod a k (fun x => if (m <=? n) && (n <=? adeg x) && (m <=? aord x) then mkA n m (aval x) else x)
    | SClear _ k z => amod a k (fun x => mkA (adeg x) (aord x) (fun _ _ _ => Some z))
    | SScale _ k f => amod a k (fun x => mkA (adeg x) (aord x)
        (fun t n m => option_map (fun v => mul v f) (aval x t n m)))
    | SSetC _ k n m v => amod a k (fun x => mkA (adeg x) (aord x)
        (fun t r c => if t && (r =? n) && (c =? m) then Some v else aval x t r c))
    | SSetS _ k n m v => amod a k (fun x => mkA (adeg x) (aord x)
        (fun t r c => if negb t && (r =? n) && (c =? m) then Some v else aval x t r c))
    | SAdd _ i j =>
        match aget a j with
        | None => a
        | Some y => amod a i (fun x =>
            if (adeg y <=? adeg x) && (aord y <=? aord x)
            then mkA (adeg x) (aord x) (fun t n m =>
                   if (n <=? adeg y) && (m <=? aord y)
                   then match aval x t n m, aval y t n m with Some v, Some w => Some (add v w) | _, _ => None end
                   else aval x t n m)
            else x)
        end
    | SDestroy _ k => upd a k None
    end.

  (** argument domain of the refinement: as [sop_ok]; clearing only sets that hold
      coefficients; scaling only sets of degree > 0 *)
  Definition aop_ok (s : sstate A) (u : list bool) (o : sop A) : Prop :=
    sop_ok s u o /\
    match o with
    | SClear _ k _ => flag u k = true
    | SScale _ k _ => forall x, alive s k x -> degree x <> 0
    | _ => True
    end.

  Definition coef (s : sstate A) (t : bool) (k : nat) (n m : Z) : res (cell A) :=
    if t then coefC s k n m else coefS s k n m.

  (** histories together with the abstract sets *)
  Inductive ahist : list (option aset) -> list bool -> sstate A -> Prop :=
  | ahist_nil : ahist [] [] (sinit A)
  | ahist_step a u s o s' b : ahist a u s -> aop_ok s u o -> sstep A add mul s o = Ok (s', b) ->
      ahist (astep a o) (track u o) s'.
End Abstract.
