(** Acceleration and gradient of src/lib/gravity/sh_cunningham_normalized_gradient.cpp with rounding: lines 160-379. The expressions of
    the code are data here; every operation rounds (FlModel), also those that are exact in double, and a value that the code computes
    once and uses twice may round differently each time: more results than the code can give. *)
From Coq Require Import Reals ZArith List.
From Verif Require Import FlModel FlAlfModel CunModel FlCunModel.
Import ListNotations.
Open Scope Z_scope.

(** cs.C(n, m), cs.S(n, m), M(n, m), W(n, m) *)
Inductive leaf := LC (n m : Z) | LS (n m : Z) | LM (n m : Z) | LW (n m : Z).
(** square root of an integer; times or divided by std::sqrt(2e0). The products of up to four integers below 403 are exact in double. *)
Inductive weight := Plain | Twice | Over.
Inductive ex :=
| Int (k : Z) | Leaf (l : leaf) | Wt (k : weight) (p : Z) | Rt (p q : Z) | Neg (a : ex) | Add (a b : ex) | Sub (a b : ex) | Mul (a b : ex).
Section Evaluate.
  Variable val : leaf -> R.
  Open Scope R_scope.
  Definition weight_of (k : weight) (p : Z) : R := match k with Plain => sqrt (IZR p) | Twice => sqrt (IZR p) * sqrt 2 | Over => sqrt (IZR p) / sqrt 2 end.
  Fixpoint exact (e : ex) : R :=
    match e with
    | Int k => IZR k | Leaf l => val l | Wt k p => weight_of k p | Rt p q => sqrt (IZR p / IZR q)
    | Neg a => - exact a | Add a b => exact a + exact b | Sub a b => exact a - exact b | Mul a b => exact a * exact b
    end.
  Definition weight_run (k : weight) (p : Z) (v : R) : Prop := exists s, near (sqrt (IZR p)) s /\
    match k with Plain => v = s | Twice => exists t, near (sqrt 2) t /\ near (s * t) v | Over => exists t, near (sqrt 2) t /\ near (s / t) v end.
  Fixpoint eval (e : ex) (v : R) : Prop :=
    match e with
    | Int k => v = IZR k | Leaf l => v = val l | Wt k p => weight_run k p v | Rt p q => root_run p q v
    | Neg a => eval a (- v)
    | Add a b => exists x y, eval a x /\ eval b y /\ near (x + y) v
    | Sub a b => exists x y, eval a x /\ eval b y /\ near (x - y) v
    | Mul a b => exists x y, eval a x /\ eval b y /\ near (x * y) v
    end.
  (** += of the elements in the order of the loops *)
  Fixpoint sum_run (l : list ex) (s v : R) : Prop :=
    match l with [] => v = s | e :: r => exists t s', eval e t /\ near (s + t) s' /\ sum_run r s' v end.
End Evaluate.

Section Expressions.
  Notation C n m := (Leaf (LC n m)). Notation S n m := (Leaf (LS n m)). Notation M n m := (Leaf (LM n m)). Notation W n m := (Leaf (LW n m)).
  Infix "+!" := Add (at level 50, left associativity). Infix "-!" := Sub (at level 50, left associativity). Infix "*!" := Mul (at level 40, left associativity).
  (** lines 168-206, 255-281, 325-341 *)
  Definition acc_ex (n m : Z) : ex * ex * ex :=
    let f := Rt (2 * n + 1) (2 * n + 3) in
    if m =? 0 then
      let wm0 := Wt Plain ((n + 1) * (n + 1)) in let wp1 := Wt Over ((n + 1) * (n + 2)) in
      let Cm0 := wm0 *! M (n + 1) 0 in let Cp1 := wp1 *! M (n + 1) 1 in let Sp1 := wp1 *! W (n + 1) 1 in
      (C n 0 *! (Int (-2) *! Cp1) *! f, C n 0 *! (Int (-2) *! Sp1) *! f, C n 0 *! (Int (-2) *! Cm0) *! f)
    else
      let wm1 := Wt (if m =? 1 then Twice else Plain) ((n - m + 1) * (n - m + 2)) in
      let wm0 := Wt Plain ((n - m + 1) * (n + m + 1)) in
      let wp1 := Wt Plain ((n + m + 1) * (n + m + 2)) in
      let Cm1 := wm1 *! M (n + 1) (m - 1) in let Sm1 := wm1 *! W (n + 1) (m - 1) in
      let Cm0 := wm0 *! M (n + 1) m in let Sm0 := wm0 *! W (n + 1) m in
      let Cp1 := wp1 *! M (n + 1) (m + 1) in let Sp1 := wp1 *! W (n + 1) (m + 1) in
      ((C n m *! (Cm1 -! Cp1) +! S n m *! (Sm1 -! Sp1)) *! f,
       (C n m *! (Neg Sm1 -! Sp1) +! S n m *! (Cm1 +! Cp1)) *! f,
       (C n m *! (Int (-2) *! Cm0) +! S n m *! (Int (-2) *! Sm0)) *! f).
  (** lines 207-247, 282-318, 342-370; xx, xy, xz, yy, yz, zz *)
  Definition grad_ex (n m : Z) : ex * ex * ex * ex * ex * ex :=
    let f := Rt (2 * n + 1) (2 * n + 5) in let two := Int 2 in
    let wm0 := Wt Plain ((n - m + 1) * (n - m + 2) * (n + m + 1) * (n + m + 2)) in
    let Cm0 := wm0 *! M (n + 2) m in let Sm0 := wm0 *! W (n + 2) m in
    if m =? 0 then
      let wm0 := Wt Plain ((n + 1) * (n + 2) * (n + 1) * (n + 2)) in let wp1 := Wt Over ((n + 1) * (n + 1) * (n + 2) * (n + 3)) in let wp2 := Wt Over ((n + 1) * (n + 2) * (n + 3) * (n + 4)) in
      let Cm0 := wm0 *! M (n + 2) 0 in let Cp1 := wp1 *! M (n + 2) 1 in let Sp1 := wp1 *! W (n + 2) 1 in let Cp2 := wp2 *! M (n + 2) 2 in let Sp2 := wp2 *! W (n + 2) 2 in
      (C n 0 *! (Int (-2) *! Cm0 +! two *! Cp2) *! f, C n 0 *! (two *! Sp2) *! f, C n 0 *! (Int 4 *! Cp1) *! f, C n 0 *! (Int (-2) *! Cm0 -! two *! Cp2) *! f, C n 0 *! (Int 4 *! Sp1) *! f, C n 0 *! (Int 4 *! Cm0) *! f)
    else
      let wm1 := Wt (if m =? 1 then Twice else Plain) ((n - m + 1) * (n - m + 2) * (n - m + 3) * (n + m + 1)) in
      let wp1 := Wt Plain ((n - m + 1) * (n + m + 1) * (n + m + 2) * (n + m + 3)) in
      let wp2 := Wt Plain ((n + m + 1) * (n + m + 2) * (n + m + 3) * (n + m + 4)) in
      let Cm1 := wm1 *! M (n + 2) (m - 1) in let Sm1 := wm1 *! W (n + 2) (m - 1) in
      let Cp1 := wp1 *! M (n + 2) (m + 1) in let Sp1 := wp1 *! W (n + 2) (m + 1) in
      let Cp2 := wp2 *! M (n + 2) (m + 2) in let Sp2 := wp2 *! W (n + 2) (m + 2) in
      let gxz := C n m *! (Int (-2) *! Cm1 +! two *! Cp1) +! S n m *! (Int (-2) *! Sm1 +! two *! Sp1) in
      let gzz := C n m *! (Int 4 *! Cm0) +! S n m *! (Int 4 *! Sm0) in
      if m =? 1 then
        ((C n m *! (Int (-3) *! Cm0 +! Cp2) +! S n m *! (Neg Sm0 +! Sp2)) *! f,
         (C n m *! (Neg Sm0 +! Sp2) +! S n m *! (Neg Cm0 -! Cp2)) *! f, gxz *! f,
         (C n m *! (Neg Cm0 -! Cp2) +! S n m *! (Int (-3) *! Sm0 -! Sp2)) *! f,
         (C n m *! (two *! Sp1) +! S n m *! (Int (-2) *! Cm1 -! two *! Cp1)) *! f, gzz *! f)
      else
        let wm2 := Wt (if m =? 2 then Twice else Plain) ((n - m + 1) * (n - m + 2) * (n - m + 3) * (n - m + 4)) in
        let Cm2 := wm2 *! M (n + 2) (m - 2) in let Sm2 := wm2 *! W (n + 2) (m - 2) in
        ((C n m *! (Cm2 -! two *! Cm0 +! Cp2) +! S n m *! (Sm2 -! two *! Sm0 +! Sp2)) *! f,
         (C n m *! (Neg Sm2 +! Sp2) +! S n m *! (Cm2 -! Cp2)) *! f, gxz *! f,
         (C n m *! (Neg Cm2 -! two *! Cm0 -! Cp2) +! S n m *! (Neg Sm2 -! two *! Sm0 -! Sp2)) *! f,
         (C n m *! (two *! Sm1 +! two *! Sp1) +! S n m *! (Int (-2) *! Cm1 -! two *! Cp1)) *! f, gzz *! f).
End Expressions.

(** lines 374-375: GM / (2e0 * Re * Re), GM / (4e0 * Re * Re * Re), and the product *)
Section Scale.
  Open Scope R_scope.
  Definition scale2_run (GM Re k : R) : Prop := exists a b, near (2 * Re) a /\ near (a * Re) b /\ near (GM / b) k.
  Definition scale3_run (GM Re k : R) : Prop := exists a b c, near (4 * Re) a /\ near (a * Re) b /\ near (b * Re) c /\ near (GM / c) k.
  (** reading the matrices *)
  Definition leaves (C S M W : nat -> nat -> R) (l : leaf) : R :=
    match l with LC n m => C (Z.to_nat n) (Z.to_nat m) | LS n m => S (Z.to_nat n) (Z.to_nat m) | LM n m => M (Z.to_nat n) (Z.to_nat m) | LW n m => W (Z.to_nat n) (Z.to_nat m) end.
  Definition component_run (val : leaf -> R) (k : R) (f : Z * Z -> ex) (l : list (Z * Z)) (v : R) : Prop := exists s, sum_run val (map f l) 0 s /\ near (s * k) v.
End Scale.
Definition part1 (i : nat) (p : ex * ex * ex) : ex := let '(x, y, z) := p in match i with O => x | S O => y | _ => z end.
Definition part2 (i : nat) (p : ex * ex * ex * ex * ex * ex) : ex := let '(a, b, c, d, e, f) := p in match i with 0%nat => a | 1%nat => b | 2%nat => c | 3%nat => d | 4%nat => e | _ => f end.
(** lines 110-379 *)
Definition acceleration_run (rx ry rz GM Re : R) (degree order : nat) (C S : nat -> nat -> R) (a : nat -> R) : Prop :=
  exists M W k, basis_run rx ry rz Re degree order M W /\ scale2_run GM Re k /\
    forall i, (i < 3)%nat -> component_run (leaves C S M W) k (fun p => part1 i (acc_ex (fst p) (snd p))) (positions (Z.of_nat degree) (Z.of_nat order)) (a i).
Definition gradient_run (rx ry rz GM Re : R) (degree order : nat) (C S : nat -> nat -> R) (g : nat -> R) : Prop :=
  exists M W k, basis_run rx ry rz Re degree order M W /\ scale3_run GM Re k /\
    forall i, (i < 6)%nat -> component_run (leaves C S M W) k (fun p => part2 i (grad_ex (fst p) (snd p))) (positions (Z.of_nat degree) (Z.of_nat order)) (g i).
