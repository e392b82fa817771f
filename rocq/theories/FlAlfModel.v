(** The Legendre functions of src/lib/gravity/forward_column_alf.cpp with rounding (FlModel). Element (n, m) of the matrices is
    P n m, dP n m; the accesses themselves are in AlfModel. *)
From Coq Require Import Reals ZArith List.
From Flocq Require Import Core.Core IEEE754.BinarySingleNaN.
From Verif Require Import KahanModel FlModel FlFloatModel.
Open Scope R_scope.

(** std::sqrt of a quotient of integers: lines 7, 13, 19, 51 *)
Definition root_run (p q : Z) (v : R) : Prop := exists x, near (IZR p / IZR q) x /\ near (sqrt x) v.
(** anm, bnm, fnm: lines 6-20; the numerators and denominators are sums and products of integers, exact in double *)
Section Factors.
  Local Open Scope Z_scope.
  Local Notation z := Z.of_nat.
  Definition anum (n m : nat) : Z := (2 * z n - 1) * (2 * z n + 1).
  Definition aden (n m : nat) : Z := (z n - z m) * (z n + z m).
  Definition bnum (n m : nat) : Z := (2 * z n + 1) * (z n + z m - 1) * (z n - z m - 1).
  Definition bden (n m : nat) : Z := (z n - z m) * (z n + z m) * (2 * z n - 3).
  Definition fnum (n m : nat) : Z := (z n * z n - z m * z m) * (2 * z n + 1).
  Definition fden (n m : nat) : Z := 2 * z n - 1.
  (** (2e0 * m + 3) / (2e0 * m + 2): line 51 *)
  Definition snum (m : nat) : Z := 2 * z m + 3.
  Definition sden (m : nat) : Z := 2 * z m + 2.
End Factors.

(** lines 57 (43), 60 (47): one column, [p n] the element of degree n *)
Definition column_run (t : R) (m N : nat) (p : nat -> R) : Prop :=
  ((m < N)%nat -> exists a x, root_run (anum (S m) m) (aden (S m) m) a /\ near (a * t) x /\ near (x * p m) (p (S m))) /\
  forall n, (m <= n)%nat -> (S (S n) <= N)%nat -> exists a x y b z,
    root_run (anum (S (S n)) m) (aden (S (S n)) m) a /\ near (a * t) x /\ near (x * p (S n)) y /\
    root_run (bnum (S (S n)) m) (bden (S (S n)) m) b /\ near (b * p n) z /\ near (y - z) (p (S (S n))).
(** lines 35-36, 51 *)
Definition diagonal_run (c : R) (M : nat) (P : nat -> R) : Prop :=
  P O = 1 /\ (exists s, near (sqrt 3) s /\ near (s * c) (P 1%nat)) /\
  forall m, (1 <= m < M)%nat -> exists s x, root_run (snum m) (sden m) s /\ near (c * s) x /\ near (x * P m) (P (S m)).
(** std::sin and std::cos: two units in the last place *)
Definition trig (x v : R) : Prop := Rabs (v - x) <= 2 * u * Rabs x + tiny.
(** lines 23-64: degree N, order M *)
Definition legendre_run (theta : R) (N M : nat) (P : nat -> nat -> R) : Prop :=
  exists c t, trig (cos theta) c /\ trig (sin theta) t /\ diagonal_run c M (fun m => P m m) /\ forall m, (m <= M)%nat -> column_run t m N (fun n => P n m).

(** lines 82-98, 105-117 *)
Definition derivative_run (c t : R) (m N : nat) (p d : nat -> R) : Prop :=
  (exists q x, near (t / c) q /\ near (INR m * q) x /\ near (x * p m) (d m)) /\
  forall n, (m <= n)%nat -> (S n <= N)%nat -> exists i x y f z w,
    near (1 / c) i /\ near (INR (S n) * t) x /\ near (x * p (S n)) y /\ root_run (fnum (S n) m) (fden (S n) m) f /\ near (f * p n) z /\ near (y - z) w /\ near (i * w) (d (S n)).
Definition derivatives_run (theta : R) (N M : nat) (P D : nat -> nat -> R) : Prop :=
  exists c t, trig (cos theta) c /\ trig (sin theta) t /\ diagonal_run c M (fun m => P m m) /\
    forall m, (m <= M)%nat -> column_run t m N (fun n => P n m) /\ derivative_run c t m N (fun n => P n m) (fun n => D n m).

(** ** binary64 *)
Definition dsqrt (x : double) : double := @Bsqrt 53 1024 Hprec Hmax mode_NE x.
Definition root64 (p q : Z) : double := dsqrt (ddiv (of_int p) (of_int q)).
Section Doubles.
  Variables dsin dcos : double -> double.
  Variable theta : double.
  Let c := dcos theta.
  Let t := dsin theta.
  Fixpoint diagonal64 (m : nat) : double :=
    match m with
    | O => of_int 1
    | S O => dmul (dsqrt (of_int 3)) c
    | S (S _ as k) => dmul (dmul c (root64 (snum k) (sden k))) (diagonal64 k)
    end.
  (** elements of degrees m + k and m + k - 1 *)
  Fixpoint column64 (m k : nat) : double * double :=
    match k with
    | O => (diagonal64 m, dzero)
    | S O => let p := diagonal64 m in (dmul (dmul (root64 (anum (S m) m) (aden (S m) m)) t) p, p)
    | S (S _ as j) => let '(p, q) := column64 m j in let n := (m + k)%nat in
        (dsub (dmul (dmul (root64 (anum n m) (aden n m)) t) p) (dmul (root64 (bnum n m) (bden n m)) q), p)
    end.
  Definition legendre64 (n m : nat) : double := fst (column64 m (n - m)).
  Definition derivative64 (n m : nat) : double :=
    if Nat.eqb n m then dmul (dmul (of_int (Z.of_nat m)) (ddiv t c)) (legendre64 m m)
    else dmul (ddiv (of_int 1) c) (dsub (dmul (dmul (of_int (Z.of_nat n)) t) (legendre64 n m)) (dmul (root64 (fnum n m) (fden n m)) (legendre64 (n - 1) m))).
End Doubles.
