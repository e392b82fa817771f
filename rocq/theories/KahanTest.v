(** The test program test/unit_tests/kahan.cpp. *)
From Coq Require Import ZArith List Bool.
From Flocq Require Import Core.Core IEEE754.BinarySingleNaN.
From Verif Require Import KahanModel.
Import ListNotations.

(** the literals 1e-3 and 1e0: the closest doubles *)
Definition milli : double := binary_normalize 53 1024 Hprec Hmax mode_NE 4611686018427388 (-62) false.
Definition one : double := binary_normalize 53 1024 Hprec Hmax mode_NE 1 0 false.
(** == *)
Definition deq (x y : double) : bool := match Bcompare x y with Some Eq => true | _ => false end.
(** lines 7-14: true: the assertion of line 11 holds and 0 is returned; the default of the constructor is 0, include/kahan.hpp:33 *)
Definition kahan_test : bool := deq (to_double (total dzero (repeat milli (Z.to_nat 1000)))) one.
