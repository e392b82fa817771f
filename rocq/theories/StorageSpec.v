(** What a user of the storage schemes relies on, stated without the address
    arithmetic of the code. *)
From Coq Require Import ZArith List Bool.
From Verif Require Import StorageModel.
Open Scope Z_scope.

(** Legal dimensions: non-negative, square for the triangular schemes. *)
Definition legal_dims (k : scheme) (r c : Z) : Prop :=
  0 <= r /\ 0 <= c /\ (k = LwTriRow \/ k = LwTriCol -> r = c).

(** The positions of an r x c matrix kept by each scheme. *)
Definition stored (k : scheme) (r c : Z) (p : Z * Z) : Prop :=
  let (i, j) := p in
  0 <= i < r /\ 0 <= j < c /\
  match k with
  | LwTriRow | LwTriCol | Trapezoid => j <= i
  | RowWise | ColWise => True
  end.

(** [f] maps the positions satisfying [P] one-to-one onto {0, ..., n-1}. *)
Definition bijection_onto (P : Z * Z -> Prop) (f : Z -> Z -> Z) (n : Z) : Prop :=
  (forall i j, P (i, j) -> 0 <= f i j < n) /\
  (forall i j i' j', P (i, j) -> P (i', j') -> f i j = f i' j' -> i = i' /\ j = j') /\
  (forall a, 0 <= a < n -> exists i j, P (i, j) /\ f i j = a).

(** The k-th element of the i-th slice of a row-major (column-major) matrix. *)
Definition slice_position (k : scheme) (i e : Z) : Z * Z :=
  match k with
  | LwTriRow | Trapezoid | RowWise => (i, e)
  | LwTriCol => (i + e, i)
  | ColWise => (e, i)
  end.
