(** What the theorems about the Cunningham recursion assume about memory and arguments. *)
From Coq Require Import Reals ZArith.
From Verif Require Import Base MatrixModel TideSpec CunSpec CunModel.
Open Scope Z_scope.

(** degree and order that are used *)
Definition used (a asked : Z) : Z := if asked <? 0 then a else asked.
Definition usedR (a asked : R) : R := if Rlt_dec asked 0 then a else asked.
(** the coefficients in memory *)
Definition coefficients (h : mem R) (cs : stokes) (C S : Z -> Z -> R) : Prop :=
  sized h (gdeg cs) (gC cs) /\ shows h (gdeg cs) (gC cs) (fun n k => Some (C n k)) /\
  sized h (gdeg cs) (gS cs) /\ shows h (gdeg cs) (gS cs) (fun n k => Some (S n k)).
(** coefficients up to degree gdeg, scratch matrices with d+1 and e+1 rows, all in different memory *)
Definition ready (h : mem R) (cs : stokes) (M W : mat) (d e : Z) (C S : Z -> Z -> R) : Prop :=
  sized h (gdeg cs) (gC cs) /\ shows h (gdeg cs) (gC cs) (fun n k => Some (C n k)) /\
  sized h (gdeg cs) (gS cs) /\ shows h (gdeg cs) (gS cs) (fun n k => Some (S n k)) /\
  sized h d M /\ sized h e W /\ apart M W /\ apart W M /\
  apart (gC cs) M /\ apart (gC cs) W /\ apart (gS cs) M /\ apart (gS cs) W.
(** enough rows to keep all accesses inside *)
Definition roomy (d degree order : Z) : Prop := degree + 2 <= d \/ d = degree + 1 /\ Z.max order 1 + 2 <= degree.
(** coefficients as functions of natural numbers *)
Definition natf (f : Z -> Z -> R) (n m : nat) : R := f (Z.of_nat n) (Z.of_nat m).
(** the matrix of second derivatives; each mixed one in both orders *)
Definition second_derivatives (F : R -> R -> R -> R) (x y z : R) (g : sym3) : Prop :=
  then_dx d_dx F x y z (gxx g) /\ then_dy d_dx F x y z (gxy g) /\ then_dz d_dx F x y z (gxz g) /\
  then_dx d_dy F x y z (gxy g) /\ then_dy d_dy F x y z (gyy g) /\ then_dz d_dy F x y z (gyz g) /\
  then_dx d_dz F x y z (gxz g) /\ then_dy d_dz F x y z (gyz g) /\ then_dz d_dz F x y z (gzz g).
