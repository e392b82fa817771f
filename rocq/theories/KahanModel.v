(** Compensated summation: include/kahan.hpp, in binary64 (Flocq, rounding to nearest even). *)
From Coq Require Import ZArith List.
From Flocq Require Import Core.Core IEEE754.BinarySingleNaN.
Import ListNotations.

(** ** double *)
Definition double : Set := binary_float 53 1024.
Definition Hprec : Prec_gt_0 53 := eq_refl.
Definition Hmax : Prec_lt_emax 53 1024 := eq_refl.
Definition dadd (x y : double) : double := @Bplus 53 1024 Hprec Hmax mode_NE x y.
Definition dsub (x y : double) : double := @Bminus 53 1024 Hprec Hmax mode_NE x y.
Definition dabs (x : double) : double := Babs x.
(** x >= y; false for NaN *)
Definition dge (x y : double) : bool := match Bcompare x y with Some Gt | Some Eq => true | _ => false end.
Definition dzero : double := B754_zero false.

(** ** KahanSum: lines 7-13 *)
Record kahan := mkK { msum : double; merr : double }.
(** constructor: line 33 *)
Definition start (v : double) : kahan := mkK v dzero.
(** operator+=: lines 18-30 *)
Definition plus_assign (k : kahan) (v : double) : kahan :=
  let t := dadd (msum k) v in
  if dge (dabs (msum k)) (dabs v) then mkK t (dadd (merr k) (dadd (dsub (msum k) t) v))
  else mkK t (dadd (merr k) (dadd (dsub v t) (msum k))).
(** operator double: line 36 *)
Definition to_double (k : kahan) : double := dadd (msum k) (merr k).
(** the loops of xcip06a.cpp and ycip06a.cpp: one addition after another *)
Definition total (v : double) (l : list double) : kahan := fold_left plus_assign l (start v).
