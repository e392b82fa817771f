(** Model of include/coeff_matrix_2d.hpp (class CoeffMatrix2D<S>).
    The element type and its operations are parameters, so that results hold
    for IEEE doubles as they are; indeterminate memory contents are [None]. *)
From Coq Require Import ZArith List Bool.
From Verif Require Import Base StorageModel.
Import ListNotations.
Open Scope Z_scope.

Section Matrix.
  Variable A : Type.
  Variables add mul : A -> A -> A.

  (** one double; None = indeterminate (new double[n] does not initialise) *)
  Definition cell := option A.
  (** heap blocks, addressed by their allocation number *)
  Inductive block := Live (l : list cell) | Freed.
  Definition mem := list block.

  (** data members m_storage, m_data, _capacity: 38-40; None = nullptr *)
  Record mat := mkMat { st : storage; ptr : option nat; cap : Z }.

  Definition lift2 (f : A -> A -> A) (x y : cell) : cell :=
    match x, y with Some a, Some b => Some (f a b) | _, _ => None end.

  (** ** heap primitives *)
  (** new double[n] *)
  Definition alloc (h : mem) (n : Z) : mem * nat :=
    (h ++ [Live (repeat None (Z.to_nat n))], length h).
  (** delete[] p *)
  Definition free (h : mem) (p : nat) : res mem :=
    match nth_error h p with
    | Some (Live _) => Ok (upd h p Freed)
    | _ => UB
    end.
  (** if (m_data) delete[] m_data; *)
  Definition free_opt (h : mem) (p : option nat) : res mem :=
    match p with None => Ok h | Some q => free h q end.
  (** p[i] as rvalue *)
  Definition load (h : mem) (p : option nat) (i : Z) : res cell :=
    match p with
    | None => UB
    | Some q => match nth_error h q with
                | Some (Live l) => match znth l i with Some c => Ok c | None => UB end
                | _ => UB
                end
    end.
  (** p[i] = c *)
  Definition store (h : mem) (p : option nat) (i : Z) (c : cell) : res mem :=
    match p with
    | None => UB
    | Some q => match nth_error h q with
                | Some (Live l) =>
                    match znth l i with
                    | Some _ => Ok (upd h q (Live (upd l (Z.to_nat i) c)))
                    | None => UB
                    end
                | _ => UB
                end
    end.
  (** std::memcpy(dst + doff, src + soff, n * sizeof(double)), element by element.
      n <= 0 copies nothing (a zero-size memcpy with null pointers is treated as
      a no-op). *)
  Definition memcpy (h : mem) (dst : option nat) (doff : Z) (src : option nat) (soff : Z) (n : Z)
    : res mem :=
    fold_res (fun h k => c <- load h src (soff + k) ;; store h dst (doff + k) c) (zrange n) h.

  (** ** members *)
  Definition rows (m : mat) : Z := srows (st m).                    (* 232 *)
  Definition cols (m : mat) : Z := scols (st m).                    (* 235 *)
  Definition nelem (m : mat) : Z := num_elements (st m).            (* 238-240 *)

  (** CoeffMatrix2D(int rows, int cols): 344-353 *)
  Definition ctor (h : mem) (k : scheme) (r c : Z) : res (mem * mat) :=
    if dims_ok k r c then
      let s := mkStorage k r c in
      if 0 <? num_elements s
      then let (h', p) := alloc h (num_elements s) in Ok (h', mkMat s (Some p) (num_elements s))
      else Ok (h, mkMat s None (num_elements s))
    else Abort.

  (** ~CoeffMatrix2D(): 356-360 *)
  Definition dtor (h : mem) (m : mat) : res mem := free_opt h (ptr m).

  (** CoeffMatrix2D(const CoeffMatrix2D &): 363-367 *)
  Definition copy_ctor (h : mem) (src : mat) : res (mem * mat) :=
    let (h1, p) := alloc h (nelem src) in
    h2 <- memcpy h1 (Some p) 0 (ptr src) 0 (nelem src) ;;
    Ok (h2, mkMat (st src) (Some p) (nelem src)).

  (** __set_dimensions(r, c), include/coeff_matrix_storage.hpp: 68-73, 159-164,
      237-240, 326-329, 395-398; the scheme never changes *)
  Definition set_dims (s : storage) (r c : Z) : res storage :=
    if dims_ok (sch s) r c then Ok (mkStorage (sch s) r c) else Abort.

  (** CoeffMatrix2D(CoeffMatrix2D &&): 370-375; returns (new object, source after) *)
  Definition move_ctor (src : mat) : res (mat * mat) :=
    s0 <- set_dims (st src) 0 0 ;;
    Ok (mkMat (st src) (ptr src) (cap src), mkMat s0 None 0).

  (** operator=(const CoeffMatrix2D &), distinct objects: 402-415
      (self assignment returns immediately, 403) *)
  Definition copy_assign (h : mem) (dst src : mat) : res (mem * mat) :=
    '(h1, p1, cap1) <-
      (if cap dst <? cap src
       then h0 <- free_opt h (ptr dst) ;;
            let (h1, p) := alloc h0 (nelem src) in Ok (h1, Some p, nelem src)
       else Ok (h, ptr dst, cap dst)) ;;
    h2 <- memcpy h1 p1 0 (ptr src) 0 (nelem src) ;;
    s <- set_dims (st dst) (rows src) (cols src) ;;
    Ok (h2, mkMat s p1 cap1).

  (** operator=(CoeffMatrix2D &&): 418-426.  First the fields of *this are set from
      [mat] (419-421), the result being the first component; then [mat] is reset
      (422-424), second component.  For self assignment the caller applies the
      second update to the same object. *)
  Definition move_assign (dst src : mat) : res (mat * mat) :=
    s <- set_dims (st dst) (rows src) (cols src) ;;
    s0 <- set_dims (st src) 0 0 ;;
    Ok (mkMat s (ptr src) (cap src), mkMat s0 None 0).

  (** swap: 212-224 *)
  Definition swap (a b : mat) : mat * mat :=
    (mkMat (st b) (ptr b) (cap b), mkMat (st a) (ptr a) (cap a)).

  (** resize: 439-450 *)
  Definition resize (h : mem) (m : mat) (r c : Z) : res (mem * mat) :=
    if dims_ok (sch (st m)) r c then
      let s := mkStorage (sch (st m)) r c in
      if cap m <? num_elements s
      then h0 <- free_opt h (ptr m) ;;
           let (h1, p) := alloc h0 (num_elements s) in
           Ok (h1, mkMat s (Some p) (num_elements s))
      else Ok (h, mkMat s (ptr m) (cap m))
    else Abort.

  (** cresize: 489-513 *)
  Definition cresize (h : mem) (m : mat) (r c : Z) : res (mem * mat) :=
    if (r =? rows m) && (c =? cols m) then Ok (h, m)
    else if dims_ok (sch (st m)) r c then
      let s := mkStorage (sch (st m)) r c in
      let (h1, p) := alloc h (num_elements s) in
      h3 <- match ptr m with
            | None => Ok h1
            | Some q =>
                h2 <- fold_res (fun h i =>
                        memcpy h (Some p) (slice s i) (ptr m) (slice (st m) i)
                               (Z.min (slice_len (st m) i) (slice_len s i)))
                        (zrange (Z.min (num_slices s) (num_slices (st m)))) h1 ;;
                free h2 q
            end ;;
      Ok (h3, mkMat s (Some p) (num_elements s))
    else Abort.

  (** operator()(i, j): 243-260 *)
  Definition get (h : mem) (m : mat) (i j : Z) : res cell := load h (ptr m) (index (st m) i j).
  Definition set (h : mem) (m : mat) (i j : Z) (v : A) : res mem :=
    store h (ptr m) (index (st m) i j) (Some v).

  (** fill_with: 325-327 (over the whole capacity) *)
  Definition fill_with (h : mem) (m : mat) (v : A) : res mem :=
    fold_res (fun h i => store h (ptr m) i (Some v)) (zrange (cap m)) h.

  (** multiply: 330-333 *)
  Definition multiply (h : mem) (m : mat) (v : A) : res mem :=
    fold_res (fun h i => x <- load h (ptr m) i ;; store h (ptr m) i (lift2 mul x (Some v)))
             (zrange (nelem m)) h.

  (** ** expression proxies: 106-209 *)
  Inductive expr :=
  | EMat (m : mat)
  | EScaled (e : expr) (f : A)           (* _ScaledProxy, 158-176 *)
  | ESum (l r : expr)                    (* _SumProxy, 178-209 *)
  | EView (e : expr) (r c : Z).          (* _ReducedViewProxy, 106-152 *)

  (** rows()/cols() of the proxies: 112-113, 163-164, 183-184 *)
  Fixpoint erows (e : expr) : Z :=
    match e with EMat m => rows m | EScaled e _ => erows e | ESum l _ => erows l | EView _ r _ => r end.
  Fixpoint ecols (e : expr) : Z :=
    match e with EMat m => cols m | EScaled e _ => ecols e | ESum l _ => ecols l | EView _ _ c => c end.
  (** hasContiguousMem: 41, 110, 161, 181 *)
  Fixpoint contiguous (e : expr) : bool :=
    match e with
    | EMat _ => true | EScaled e _ => contiguous e
    | ESum l r => contiguous l && contiguous r | EView _ _ _ => false
    end.
  (** the assertions made while the proxies are built: 118, 191 *)
  Fixpoint eassert (e : expr) : bool :=
    match e with
    | EMat _ => true
    | EScaled e _ => eassert e
    | ESum l r => eassert l && eassert r && (erows l =? erows r) && (ecols l =? ecols r)
    | EView e r c => eassert e && (r <=? erows e) && (c <=? ecols e)
    end.
  (** operator()(i,j) of the proxies: 120, 169, 185-188 *)
  Fixpoint eval_at (h : mem) (e : expr) (i j : Z) : res cell :=
    match e with
    | EMat m => get h m i j
    | EScaled e f => x <- eval_at h e i j ;; Ok (lift2 mul x (Some f))
    | ESum l r => x <- eval_at h r i j ;; y <- eval_at h l i j ;; Ok (lift2 add x y)
    | EView e _ _ => eval_at h e i j
    end.
  (** data(i) of the proxies: 44, 170, 189 (views have no data member) *)
  Fixpoint eval_data (h : mem) (e : expr) (k : Z) : res cell :=
    match e with
    | EMat m => load h (ptr m) k
    | EScaled e f => x <- eval_data h e k ;; Ok (lift2 mul x (Some f))
    | ESum l r => x <- eval_data h l k ;; y <- eval_data h r k ;; Ok (lift2 add x y)
    | EView _ _ _ => Illegal
    end.

  (** op<Equal>, op<EqAdd>: 18-27 *)
  Definition assign_op (acc : bool) (old new : cell) : cell := if acc then lift2 add old new else new.

  (** the positions visited by reduce_copy, in order: 83-98 *)
  Definition reduce_positions (s : storage) (cprows cpcols : Z) : list (Z * Z) :=
    if is_row_major (sch s)
    then flat_map (fun i => map (fun j => (i, j)) (zrange (Z.min cpcols (slice_len s i)))) (zrange cprows)
    else flat_map (fun i => map (fun j => (j, i)) (zrange2 (first_row_of_col (sch s) i) cprows))
                  (zrange cpcols).
  (** the offset written for position (i,j): entries[j] (87) or entries[j-k] (95) *)
  Definition reduce_offset (s : storage) (p : Z * Z) : Z :=
    let (i, j) := p in
    if is_row_major (sch s) then slice s i + j
    else slice s j + (i - first_row_of_col (sch s) j).

  (** reduce_copy<Op>(rhs): 72-99 *)
  Definition reduce_copy (acc : bool) (h : mem) (m : mat) (e : expr) : res mem :=
    if (erows e <=? rows m) && (ecols e <=? cols m) then
      fold_res (fun h p =>
          v <- eval_at h e (fst p) (snd p) ;;
          old <- load h (ptr m) (reduce_offset (st m) p) ;;
          store h (ptr m) (reduce_offset (st m) p) (assign_op acc old v))
        (reduce_positions (st m) (erows e) (ecols e)) h
    else Abort.

  (** the contiguous element loop: 383-385, 396-398, 538-540 *)
  Definition data_loop (acc : bool) (h : mem) (m : mat) (e : expr) : res mem :=
    fold_res (fun h k =>
        v <- eval_data h e k ;;
        old <- load h (ptr m) k ;;
        store h (ptr m) k (assign_op acc old v)) (zrange (nelem m)) h.

  (** operator+=(rhs): 535-545 *)
  Definition add_assign (h : mem) (m : mat) (e : expr) : res mem :=
    if eassert e then
      if contiguous e
      then if (rows m =? erows e) && (cols m =? ecols e) then data_loop true h m e else Abort
      else reduce_copy true h m e
    else Abort.

  (** CoeffMatrix2D(_SumProxy&&): 377-389, CoeffMatrix2D(_ScaledProxy&&): 391-399.
      [k] is the class being constructed; it is the class whose proxies make up [e]. *)
  Definition from_expr (h : mem) (k : scheme) (e : expr) : res (mem * mat) :=
    if eassert e && dims_ok k (erows e) (ecols e) then
      let s := mkStorage k (erows e) (ecols e) in
      let (h1, p) := alloc h (num_elements s) in
      let m := mkMat s (Some p) (num_elements s) in
      match e with
      | ESum _ _ => h2 <- (if contiguous e then data_loop false h1 m e else reduce_copy false h1 m e) ;;
                    Ok (h2, m)
      | EScaled _ _ => if contiguous e then h2 <- data_loop false h1 m e ;; Ok (h2, m)
                       else Illegal        (* a view has no data(): does not compile *)
      | _ => Illegal
      end
    else Abort.

  (** ** programs: a table of matrix objects (None = already destroyed) *)
  Record pstate := mkP { objs : list (option mat); heap : mem }.

  Inductive op :=
  | OCtor (k : scheme) (r c : Z)
  | OCopyCtor (i : nat) | OMoveCtor (i : nat)
  | OCopyAssign (i j : nat) | OMoveAssign (i j : nat) | OSwap (i j : nat)
  | OResize (i : nat) (r c : Z) | OCResize (i : nat) (r c : Z)
  | OSet (i : nat) (r c : Z) (v : A) | OFill (i : nat) (v : A) | OMultiply (i : nat) (v : A)
  | OAddScaled (i j : nat) (f : A)        (* x_i += x_j * f *)
  | OAddView (i j : nat) (r c : Z)        (* x_i += x_j.reduced_view(r,c) *)
  | ODestroy (i : nat).

  Definition obj (s : pstate) (i : nat) : res mat :=
    match nth_error (objs s) i with Some (Some m) => Ok m | _ => Illegal end.
  Definition put (s : pstate) (i : nat) (m : mat) : pstate :=
    mkP (upd (objs s) i (Some m)) (heap s).

  Definition scheme_eqb (a b : scheme) : bool :=
    match a, b with
    | LwTriRow, LwTriRow | LwTriCol, LwTriCol | Trapezoid, Trapezoid
    | RowWise, RowWise | ColWise, ColWise => true
    | _, _ => false
    end.
  (** both operands must be instances of the same class template *)
  Definition same_type (a b : mat) : bool := scheme_eqb (sch (st a)) (sch (st b)).

  Definition step (s : pstate) (o : op) : res pstate :=
    match o with
    | OCtor k r c =>
        '(h, m) <- ctor (heap s) k r c ;; Ok (mkP (objs s ++ [Some m]) h)
    | OCopyCtor i =>
        a <- obj s i ;; '(h, m) <- copy_ctor (heap s) a ;; Ok (mkP (objs s ++ [Some m]) h)
    | OMoveCtor i =>
        a <- obj s i ;; '(m, a') <- move_ctor a ;;
        Ok (mkP (upd (objs s) i (Some a') ++ [Some m]) (heap s))
    | OCopyAssign i j =>
        a <- obj s i ;; b <- obj s j ;;
        if same_type a b then
          if Nat.eqb i j then Ok s
          else '(h, m) <- copy_assign (heap s) a b ;; Ok (mkP (upd (objs s) i (Some m)) h)
        else Illegal
    | OMoveAssign i j =>
        a <- obj s i ;; b <- obj s j ;;
        if same_type a b then
          '(m, b') <- move_assign a b ;; Ok (put (put s i m) j b')
        else Illegal
    | OSwap i j =>
        a <- obj s i ;; b <- obj s j ;;
        if same_type a b then
          let (a', b') := swap a b in Ok (put (put s i a') j b')
        else Illegal
    | OResize i r c =>
        a <- obj s i ;; '(h, m) <- resize (heap s) a r c ;; Ok (mkP (upd (objs s) i (Some m)) h)
    | OCResize i r c =>
        a <- obj s i ;; '(h, m) <- cresize (heap s) a r c ;; Ok (mkP (upd (objs s) i (Some m)) h)
    | OSet i r c v => a <- obj s i ;; h <- set (heap s) a r c v ;; Ok (mkP (objs s) h)
    | OFill i v => a <- obj s i ;; h <- fill_with (heap s) a v ;; Ok (mkP (objs s) h)
    | OMultiply i v => a <- obj s i ;; h <- multiply (heap s) a v ;; Ok (mkP (objs s) h)
    | OAddScaled i j f =>
        a <- obj s i ;; b <- obj s j ;;
        if same_type a b then
          h <- add_assign (heap s) a (EScaled (EMat b) f) ;; Ok (mkP (objs s) h)
        else Illegal
    | OAddView i j r c =>
        a <- obj s i ;; b <- obj s j ;;
        if same_type a b then
          h <- add_assign (heap s) a (EView (EMat b) r c) ;; Ok (mkP (objs s) h)
        else Illegal
    | ODestroy i =>
        a <- obj s i ;; h <- dtor (heap s) a ;; Ok (mkP (upd (objs s) i None) h)
    end.

  Definition init : pstate := mkP [] [].
  Definition run (os : list op) (s : pstate) : res pstate := fold_res step os s.
End Matrix.

Arguments Live {A} _. Arguments Freed {A}.
Arguments EMat {A} _. Arguments EScaled {A} _ _. Arguments ESum {A} _ _. Arguments EView {A} _ _ _.
