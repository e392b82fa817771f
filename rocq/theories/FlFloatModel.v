(** The expressions of FlModel evaluated in binary64 (Flocq, rounding to nearest even), without contraction. *)
From Coq Require Import Reals ZArith List Bool.
From Flocq Require Import Core.Core IEEE754.BinarySingleNaN.
From Verif Require Import KahanModel FlModel.
Import ListNotations.
Open Scope Z_scope.

Definition dmul (x y : double) : double := @Bmult 53 1024 Hprec Hmax mode_NE x y.
Definition ddiv (x y : double) : double := @Bdiv 53 1024 Hprec Hmax mode_NE x y.
Definition of_int (n : Z) : double := binary_normalize 53 1024 Hprec Hmax mode_NE n 0 false.
(** a decimal literal is the double next to it: the quotient of an integer and a power of ten, both of them doubles (see [bnds]) *)
Definition of_dec (n : Z) (k : nat) : double := ddiv (of_int n) (of_int (10 ^ Z.of_nat k)).

(** std::sin, std::cos, dso::sec2rad *)
Section Exec.
  Variables dsin dcos dsec : double -> double.
  Variable env : nat -> double.
  Fixpoint exec (e : expr) : double :=
    match e with
    | Var i => env i
    | Int n => of_int n
    | Dec n k => of_dec n k
    | Neg a => Bopp (exec a)
    | Add a b => dadd (exec a) (exec b)
    | Sub a b => dsub (exec a) (exec b)
    | Mul a b => dmul (exec a) (exec b)
    | Quo a d => ddiv (exec a) (of_int (Zpos d))
    | Sin a => dsin (exec a)
    | Cos a => dcos (exec a)
    | Sec a => dsec (exec a)
    end.
End Exec.

(** the bounds of [bnd], and whether all of them are small: values below 2^60, integers below 2^53, powers of ten that are doubles *)
Definition small (p : Z * Z) : bool := (0 <=? fst p) && (0 <=? snd p) && (fst p + snd p <=? 2 ^ 180).
Definition fit53 (n : Z) : bool := (Z.abs n <? 2 ^ 53).
Section Bounds.
  Variable vb : nat -> Z * Z.
  Definition both (p : Z * Z) (b : bool) : (Z * Z) * bool := (p, b && small p).
  Fixpoint bnds (e : expr) : (Z * Z) * bool :=
    match e with
    | Var i => both (vb i) true
    | Int n => both (Z.abs n * 2 ^ 120, 0) (fit53 n)
    | Dec n k => both (rounded (Z.abs n * 2 ^ 120 / 10 ^ Z.of_nat k + 1) 0) (fit53 n && fit53 (5 ^ Z.of_nat k))
    | Neg a => bnds a
    | Add a b | Sub a b => let '(ma, ea, sa) := bnds a in let '(mb, eb, sb) := bnds b in both (rounded (ma + mb) (ea + eb)) (sa && sb)
    | Mul a b => let '(ma, ea, sa) := bnds a in let '(mb, eb, sb) := bnds b in both (rounded (upmul ma mb) (upmul ea mb + upmul ma eb + upmul ea eb)) (sa && sb)
    | Quo a d => let '(ma, ea, sa) := bnds a in both (rounded (ma / Zpos d + 1) (ea / Zpos d + 1)) (sa && fit53 (Zpos d))
    | Sin a | Cos a => let '(_, ea, sa) := bnds a in both (2 ^ 120, ea + 2 ^ 68) sa
    | Sec a => let '(ma, ea, sa) := bnds a in let m := assec ma in let i := assec ea in both (m, i + 4 * urel (m + i) + 1) sa
    end.
End Bounds.
