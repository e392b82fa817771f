(** Model of include/stokes_coefficients.hpp and src/lib/stokes_coefficients.cpp
    (class StokesCoeffs), on top of the matrix model.  GM and Re are plain copies
    and are not modelled except in [to_anm]/[from_anm]-independent operations,
    where they play no role. *)
From Coq Require Import ZArith List Bool.
From Verif Require Import Base StorageModel MatrixModel.
Import ListNotations.
Open Scope Z_scope.

Section Stokes.
  Variable A : Type.
  Variables add mul : A -> A -> A.

  (** One object: m_degree, m_order (stokes_coefficients.hpp:43, 45); its matrices
      _Cnm, _Snm (47, 49) are the matrix objects 2k and 2k+1 of the matrix state,
      where k is the number of the StokesCoeffs object.  None = destroyed. *)
  Record sc := mkSc { degree : Z; order : Z }.
  Record sstate := mkS { scs : list (option sc); ps : pstate A }.

  Definition cslot (k : nat) : nat := (2 * k)%nat.
  Definition sslot (k : nat) : nat := (2 * k + 1)%nat.

  Inductive sop :=
  | SDefault                              (* StokesCoeffs(): 129-131 *)
  | SCtor (n m : Z)                       (* StokesCoeffs(n, m): 134-136 *)
  | SCopy (k : nat)                       (* 71-76 *)
  | SMove (k : nat)                       (* 79-84 *)
  | SAssign (i j : nat)                   (* 87-98 *)
  | SMoveAssign (i j : nat)               (* 101-112 *)
  | SSwap (i j : nat)                     (* 117-126 *)
  | SResize (k : nat) (n m : Z)           (* src/lib/stokes_coefficients.cpp:4-9 *)
  | SCResize (k : nat) (n m : Z)          (* src/lib/stokes_coefficients.cpp:11-17 *)
  | SShrink (k : nat) (n m : Z)           (* shrink_dimensions: 155-163 *)
  | SClear (k : nat) (zero : A)           (* clear: 195-198 *)
  | SScale (k : nat) (f : A)              (* scale: 201-206 *)
  | SSetC (k : nat) (n m : Z) (v : A)     (* C(n,m) = v: 212 *)
  | SSetS (k : nat) (n m : Z) (v : A)     (* S(n,m) = v: 218 *)
  | SAdd (i j : nat)                      (* operator+= *)
  | SDestroy (k : nat).                   (* 115; members destroyed in reverse order *)

  (** the positions visited by one of the two loops of operator+=,
      src/lib/stokes_coefficients.cpp:24-32 and 34-42: (column m, offset n) *)
  Definition add_positions (deg ord : Z) : list (Z * Z) :=
    flat_map (fun m => map (fun n => (m, n)) (zrange (deg - m + 1))) (zrange (ord + 1)).

  (** colCnm[n] += colCnm2[n] over those positions.  The target column pointer is
      __restrict__ (26, 36): if source and target are the same block the program
      has undefined behaviour. *)
  Definition add_columns (h : mem A) (dst src : mat) (deg ord : Z) : res (mem A) :=
    match add_positions deg ord, ptr dst, ptr src with
    | _ :: _, Some p, Some q => if Nat.eqb p q then UB else
        fold_res (fun h x =>
          v <- load A h (ptr src) (slice (st src) (fst x) + snd x) ;;
          old <- load A h (ptr dst) (slice (st dst) (fst x) + snd x) ;;
          store A h (ptr dst) (slice (st dst) (fst x) + snd x) (lift2 A add old v))
        (add_positions deg ord) h
    | _ :: _, _, _ => UB
    | [], _, _ => Ok h
    end.

  Definition scobj (s : sstate) (k : nat) : res sc :=
    match nth_error (scs s) k with Some (Some x) => Ok x | _ => Illegal end.
  Definition mrun (s : sstate) (os : list (op A)) : res (pstate A) := fold_res (step A add mul) os (ps s).

  (** result: new state and whether the call completed without throwing *)
  Definition sstep (s : sstate) (o : sop) : res (sstate * bool) :=
    match o with
    | SDefault =>
        p <- mrun s [OCtor A LwTriCol 0 0; OCtor A LwTriCol 0 0] ;;
        Ok (mkS (scs s ++ [Some (mkSc 0 0)]) p, true)
    | SCtor n m =>
        p <- mrun s [OCtor A LwTriCol (n + 1) (n + 1); OCtor A LwTriCol (n + 1) (n + 1)] ;;
        Ok (mkS (scs s ++ [Some (mkSc n (if 0 <? m then m else n))]) p, true)
    | SCopy k =>
        x <- scobj s k ;;
        p <- mrun s [OCopyCtor A (cslot k); OCopyCtor A (sslot k)] ;;
        Ok (mkS (scs s ++ [Some x]) p, true)
    | SMove k =>
        x <- scobj s k ;;
        p <- mrun s [OMoveCtor A (cslot k); OMoveCtor A (sslot k)] ;;
        Ok (mkS (scs s ++ [Some x]) p, true)
    | SAssign i j =>
        x <- scobj s i ;; y <- scobj s j ;;
        if Nat.eqb i j then Ok (s, true) else
        p <- mrun s [OCopyAssign A (cslot i) (cslot j); OCopyAssign A (sslot i) (sslot j)] ;;
        Ok (mkS (upd (scs s) i (Some y)) p, true)
    | SMoveAssign i j =>
        x <- scobj s i ;; y <- scobj s j ;;
        if Nat.eqb i j then Ok (s, true) else
        p <- mrun s [OMoveAssign A (cslot i) (cslot j); OMoveAssign A (sslot i) (sslot j)] ;;
        Ok (mkS (upd (scs s) i (Some y)) p, true)
    | SSwap i j =>
        x <- scobj s i ;; y <- scobj s j ;;
        p <- mrun s [OSwap A (cslot i) (cslot j); OSwap A (sslot i) (sslot j)] ;;
        Ok (mkS (upd (upd (scs s) i (Some y)) j (Some x)) p, true)
    | SResize k n m =>
        x <- scobj s k ;;
        p <- mrun s [OResize A (cslot k) (n + 1) (n + 1); OResize A (sslot k) (n + 1) (n + 1)] ;;
        Ok (mkS (upd (scs s) k (Some (mkSc n m))) p, true)
    | SCResize k n m =>
        x <- scobj s k ;;
        p <- mrun s [OCResize A (cslot k) (n + 1) (n + 1); OCResize A (sslot k) (n + 1) (n + 1)] ;;
        Ok (mkS (upd (scs s) k (Some (mkSc n m))) p, true)
    | SShrink k n m =>
        x <- scobj s k ;;
        if (m <=? n) && (n <=? degree x) && (m <=? order x)
        then Ok (mkS (upd (scs s) k (Some (mkSc n m))) (ps s), true)
        else Ok (s, true)
    | SClear k z =>
        x <- scobj s k ;;
        p <- mrun s [OFill A (cslot k) z; OFill A (sslot k) z] ;; Ok (mkS (scs s) p, true)
    | SScale k f =>
        x <- scobj s k ;;
        if degree x =? 0 then Ok (s, true)
        else p <- mrun s [OMultiply A (cslot k) f; OMultiply A (sslot k) f] ;; Ok (mkS (scs s) p, true)
    | SSetC k n m v =>
        x <- scobj s k ;; p <- mrun s [OSet A (cslot k) n m v] ;; Ok (mkS (scs s) p, true)
    | SSetS k n m v =>
        x <- scobj s k ;; p <- mrun s [OSet A (sslot k) n m v] ;; Ok (mkS (scs s) p, true)
    | SAdd i j =>
        x <- scobj s i ;; y <- scobj s j ;;
        (* src/lib/stokes_coefficients.cpp:20-22 throws *)
        if (degree x <? degree y) || (order x <? order y) then Ok (s, false)
        else
          xc <- obj A (ps s) (cslot i) ;; yc <- obj A (ps s) (cslot j) ;;
          h1 <- add_columns (heap A (ps s)) xc yc (degree y) (order y) ;;
          xs <- obj A (ps s) (sslot i) ;; ys <- obj A (ps s) (sslot j) ;;
          h2 <- add_columns h1 xs ys (degree y) (order y) ;;
          Ok (mkS (scs s) (mkP A (objs A (ps s)) h2), true)
    | SDestroy k =>
        x <- scobj s k ;;
        p <- mrun s [ODestroy A (sslot k); ODestroy A (cslot k)] ;;
        Ok (mkS (upd (scs s) k None) p, true)
    end.

  Definition sinit : sstate := mkS [] (init A).

  (** a sequence of calls, none of which may throw (used in examples) *)
  Definition srun (os : list sop) : res sstate :=
    fold_res (fun s o => ' (s', b) <- sstep s o ;; if b then Ok s' else Abort) os sinit.

  (** ** packed storage, stokes_coefficients.hpp:269-301.  An Eigen matrix of size
      d x d is the list of its writes onto an all-zero (to_anm) or arbitrary matrix;
      here: a total function of (row, column). *)
  Definition anm := Z -> Z -> cell A.
  Definition anm_set (M : anm) (r c : Z) (v : cell A) : anm :=
    fun i j => if (i =? r) && (j =? c) then v else M i j.

  (** the (row, column) pairs of the two inner loops for column c *)
  Definition upper_rows (c : Z) : list Z := zrange c.
  Definition lower_rows (c d : Z) : list Z := zrange2 c (d + 1).

  (** to_anm: 269-280; [C]/[S] are the accessors of the object *)
  Definition to_anm (zero : A) (d : Z) (C S : Z -> Z -> cell A) : anm :=
    fold_left (fun M c =>
        let M1 := fold_left (fun M r => anm_set M r c (S c (r + 1))) (upper_rows c) M in
        fold_left (fun M r => anm_set M r c (C r c)) (lower_rows c d) M1)
      (zrange (d + 1)) (fun _ _ => Some zero).

  (** from_anm: 282-301; result: the C and S coefficients of the new object, which
      are indeterminate where not written *)
  Definition from_anm (d : Z) (M : anm) : (anm * anm) :=
    fold_left (fun cs m =>
        let cs1 := fold_left (fun (cs : anm * anm) l => (fst cs, anm_set (snd cs) m (l + 1) (M l m)))
                             (upper_rows m) cs in
        fold_left (fun (cs : anm * anm) l => (anm_set (fst cs) l m (M l m), snd cs)) (lower_rows m d) cs1)
      (zrange (d + 1)) ((fun _ _ => None), (fun _ _ => None)).
End Stokes.
