(** Rounded evaluation of arithmetic expressions. An expression stands for a C++ expression over doubles, written in the order in
    which the code evaluates it. [eval] is its value in real arithmetic. [run] relates it to every value that an evaluation with
    rounding at each operation may give: a result lies within half a unit in the last place (relative 2^-53, absolute 2^-1074)
    of the exact result of the operation on the computed operands. Results without rounding are allowed as well, so that products
    contracted into fused multiply-add (CMakeLists.txt:45, -march=native) are covered. *)
From Coq Require Import Reals ZArith List.
From Verif Require Import FundModel.
Import ListNotations.
Open Scope R_scope.

(** variables hold doubles; integers are converted without rounding; decimal literals n 10^-k are rounded *)
Inductive expr :=
| Var (i : nat) | Int (n : Z) | Dec (n : Z) (k : nat)
| Neg (a : expr) | Add (a b : expr) | Sub (a b : expr) | Mul (a b : expr) | Quo (a : expr) (d : positive)
| Sin (a : expr) | Cos (a : expr) | Sec (a : expr).

Arguments Int n%Z.
Arguments Dec n%Z k%nat.
Arguments Quo a d%positive.

Section Run.
  Variable env : nat -> R.
  Fixpoint eval (e : expr) : R :=
    match e with
    | Var i => env i
    | Int n => IZR n
    | Dec n k => IZR n / 10 ^ k
    | Neg a => - eval a
    | Add a b => eval a + eval b
    | Sub a b => eval a - eval b
    | Mul a b => eval a * eval b
    | Quo a d => eval a / IZR (Zpos d)
    | Sin a => sin (eval a)
    | Cos a => cos (eval a)
    | Sec a => sec2rad (eval a)
    end.

  Definition u : R := / 2 ^ 53.
  Definition tiny : R := / 2 ^ 1074.
  (** v is x rounded, or x *)
  Definition near (x v : R) : Prop := Rabs (v - x) <= u * Rabs x + tiny.
  (** std::sin, std::cos are accurate to 2^-52; sec2rad (geodesy library) takes a few operations *)
  Fixpoint run (e : expr) (v : R) : Prop :=
    match e with
    | Var i => v = env i
    | Int n => v = IZR n
    | Dec n k => near (IZR n / 10 ^ k) v
    | Neg a => exists x, run a x /\ v = - x
    | Add a b => exists x y, run a x /\ run b y /\ near (x + y) v
    | Sub a b => exists x y, run a x /\ run b y /\ near (x - y) v
    | Mul a b => exists x y, run a x /\ run b y /\ near (x * y) v
    | Quo a d => exists x, run a x /\ near (x / IZR (Zpos d)) v
    | Sin a => exists x, run a x /\ Rabs (v - sin x) <= / 2 ^ 52
    | Cos a => exists x, run a x /\ Rabs (v - cos x) <= / 2 ^ 52
    | Sec a => exists x, run a x /\ Rabs (v - sec2rad x) <= 4 * u * Rabs (sec2rad x) + tiny
    end.
End Run.

(** ** A bound of the values and of the errors, in units of 2^-120, from bounds of the variables *)
Open Scope Z_scope.
Definition upmul (a b : Z) : Z := Z.shiftr (a * b) 120 + 1.
(** an upper bound of u x *)
Definition urel (x : Z) : Z := Z.shiftr x 53 + 1.
(** exact value below m, operands' errors leading to i *)
Definition rounded (m i : Z) : Z * Z := (m, i + urel (m + i) + 1).
Definition assec (m : Z) : Z := m * 4848136812 / 10 ^ 15 + 1.
Section Bound.
  Variable vb : nat -> Z * Z.
  Fixpoint bnd (e : expr) : Z * Z :=
    match e with
    | Var i => vb i
    | Int n => (Z.abs n * 2 ^ 120, 0)
    | Dec n k => rounded (Z.abs n * 2 ^ 120 / 10 ^ Z.of_nat k + 1) 0
    | Neg a => bnd a
    | Add a b | Sub a b => let '(ma, ea) := bnd a in let '(mb, eb) := bnd b in rounded (ma + mb) (ea + eb)
    | Mul a b => let '(ma, ea) := bnd a in let '(mb, eb) := bnd b in rounded (upmul ma mb) (upmul ea mb + upmul ma eb + upmul ea eb)
    | Quo a d => let '(ma, ea) := bnd a in rounded (ma / Zpos d + 1) (ea / Zpos d + 1)
    | Sin a | Cos a => let '(_, ea) := bnd a in (2 ^ 120, ea + 2 ^ 68)
    | Sec a => let '(ma, ea) := bnd a in let m := assec ma in let i := assec ea in (m, i + 4 * urel (m + i) + 1)
    end.
End Bound.
