(** Normalised associated Legendre functions: src/lib/gravity/forward_column_alf.cpp.
    Real arithmetic; int arithmetic with overflow as UB. Division by cos(theta) = 0 in the
    second routine gives infinities in C++; the model only describes cos(theta) <> 0. *)
From Coq Require Import Reals ZArith List Bool.
From Verif Require Import Base StorageModel MatrixModel PoleModel.
Import ListNotations.
Open Scope Z_scope.

(** ** int arithmetic *)
Definition int32 (z : Z) : res Z := if (-2147483648 <=? z) && (z <=? 2147483647) then Ok z else UB.
Definition imul (a b : Z) : res Z := int32 (a * b).
Definition iadd (a b : Z) : res Z := int32 (a + b).
Definition isub (a b : Z) : res Z := int32 (a - b).
(** anm: lines 6-8 *)
Definition anm (n m : Z) : res R :=
  n2 <- imul 2 n ;; p <- isub n2 1 ;; q <- iadd n2 1 ;; num <- imul p q ;;
  d <- isub n m ;; s <- iadd n m ;; den <- imul d s ;; Ok (sqrt (IZR num / IZR den)).
(** bnm: lines 10-14; the products are of type int *)
Definition bnm (n m : Z) : res R :=
  n2 <- imul 2 n ;; p <- iadd n2 1 ;; s <- iadd n m ;; s1 <- isub s 1 ;; d <- isub n m ;; d1 <- isub d 1 ;;
  x <- imul p s1 ;; b1 <- imul x d1 ;;
  y <- imul d s ;; n3 <- isub n2 3 ;; b2 <- imul y n3 ;; Ok (sqrt (IZR b1 / IZR b2)).
(** fnm: lines 16-20 *)
Definition fnm (n m : Z) : res R :=
  nn <- imul n n ;; mm <- imul m m ;; x <- isub nn mm ;; n2 <- imul 2 n ;; p <- iadd n2 1 ;;
  f1 <- imul x p ;; f2 <- isub n2 1 ;; Ok (sqrt (IZR f1 / IZR f2)).

(** ** columns *)
(** P.column(m)[k]: coeff_matrix_2d.hpp:287-302; inside the allocation, column limits are not checked *)
Definition colget (h : mem R) (P : mat) (m k : Z) : res (cell R) := load R h (ptr P) (slice (st P) m + k).
Definition colput (h : mem R) (P : mat) (m k : Z) (c : cell R) : res (mem R) := store R h (ptr P) (slice (st P) m + k) c.
Definition timesR (a : R) (c : cell R) : cell R := lift2 R Rmult (Some a) c.
Definition minusR (a b : cell R) : cell R := lift2 R Rminus a b.
(** [dP]: the derivative matrix, of the second overload (66-120) only *)
Definition with_dP (dP : option mat) (h : mem R) (f : mat -> res (mem R)) : res (mem R) :=
  match dP with None => Ok h | Some q => f q end.
(** dpmm[k] = uinv * (n*t*pmm[k] - fnm(n,m)*pmm[k-1]): lines 92, 97, 112, 116 *)
Definition derivative_term (u t : R) (P q : mat) (h : mem R) (m n : Z) : res (mem R) :=
  let k := n - m in
  a <- colget h P m k ;; f <- fnm n m ;; b <- colget h P m (k - 1) ;;
  colput h q m k (timesR (1 / u) (minusR (timesR (IZR n * t) a) (timesR f b))).
(** lines 45-48 (58-61): one n; lines 94-98 (113-117) with derivative *)
Definition term (u t : R) (P : mat) (dP : option mat) (m : Z) (h : mem R) (n : Z) : res (mem R) :=
  let k := n - m in
  a <- anm n m ;; x <- colget h P m (k - 1) ;; b <- bnm n m ;; y <- colget h P m (k - 2) ;;
  h1 <- colput h P m k (minusR (timesR (a * t) x) (timesR b y)) ;;
  with_dP dP h1 (fun q => derivative_term u t P q h1 m n).
(** one column: lines 41-48, 55-61; 85-98, 105-117 with derivative *)
Definition column (u t : R) (P : mat) (dP : option mat) (md : Z) (h : mem R) (m : Z) : res (mem R) :=
  h0 <- with_dP dP h (fun q => x <- colget h P m 0 ;; colput h q m 0 (timesR (IZR m * (t / u)) x)) ;;
  a <- anm (m + 1) m ;; x <- colget h0 P m 0 ;;
  h1 <- colput h0 P m 1 (timesR (a * t) x) ;;
  h2 <- with_dP dP h1 (fun q => derivative_term u t P q h1 m (m + 1)) ;;
  fold_res (term u t P dP m) (zrange2 (m + 2) (md + 1)) h2.
(** body of the loop over the columns: lines 39-52, 84-102 *)
Definition column_step (u t : R) (P : mat) (dP : option mat) (md : Z) (h : mem R) (m : Z) : res (mem R) :=
  h1 <- column u t P dP md h m ;;
  if 0 <? m then x <- colget h1 P m 0 ;; colput h1 P (m + 1) 0 (timesR (u * sqrt ((2 * IZR m + 3) / (2 * IZR m + 2))) x)
  else Ok h1.
(** lines 23-64 and 66-120; always returns 0, the memory is the result *)
Definition alf (dP : option mat) (h : mem R) (theta : R) (md mo : Z) (P : mat) : res (mem R) :=
  if md <? mo then Abort else
  let u := cos theta in let t := sin theta in
  h0 <- put h P 0 0 (Some 1%R) ;; h1 <- put h0 P 1 1 (Some (sqrt 3 * u)%R) ;;
  h2 <- fold_res (column_step u t P dP md) (zrange mo) h1 ;;
  column u t P dP md h2 mo.
(** the two overloads *)
Definition legendre_functions (h : mem R) (theta : R) (md mo : Z) (P : mat) : res (mem R) := alf None h theta md mo P.
Definition legendre_derivatives (h : mem R) (theta : R) (md mo : Z) (P dP : mat) : res (mem R) := alf (Some dP) h theta md mo P.
