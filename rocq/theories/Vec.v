(** Vectors and 3x3 matrices of real numbers. *)
From Coq Require Import Reals Lra.
Open Scope R_scope.

Record v3 := mk3 { p1 : R; p2 : R; p3 : R }.
Definition vplus (a b : v3) : v3 := mk3 (p1 a + p1 b) (p2 a + p2 b) (p3 a + p3 b).
Definition vminus (a b : v3) : v3 := mk3 (p1 a - p1 b) (p2 a - p2 b) (p3 a - p3 b).
Definition vmul (k : R) (a : v3) : v3 := mk3 (k * p1 a) (k * p2 a) (k * p3 a).
Definition vdiv (a : v3) (k : R) : v3 := mk3 (p1 a / k) (p2 a / k) (p3 a / k).
Definition dot (a b : v3) : R := p1 a * p1 b + p2 a * p2 b + p3 a * p3 b.
Definition cross (a b : v3) : v3 := mk3 (p2 a * p3 b - p3 a * p2 b) (p3 a * p1 b - p1 a * p3 b) (p1 a * p2 b - p2 a * p1 b).
Definition len (a : v3) : R := sqrt (dot a a).
Definition v0 : v3 := mk3 0 0 0.
(** rows *)
Record m33 := mkM { row1 : v3; row2 : v3; row3 : v3 }.
Definition app3 (A : m33) (v : v3) : v3 := mk3 (dot (row1 A) v) (dot (row2 A) v) (dot (row3 A) v).
Definition transp (A : m33) : m33 :=
  mkM (mk3 (p1 (row1 A)) (p1 (row2 A)) (p1 (row3 A))) (mk3 (p2 (row1 A)) (p2 (row2 A)) (p2 (row3 A))) (mk3 (p3 (row1 A)) (p3 (row2 A)) (p3 (row3 A))).
(** v A for a row v *)
Definition rowapp (v : v3) (A : m33) : v3 := app3 (transp A) v.
Definition mmul (A B : m33) : m33 := mkM (rowapp (row1 A) B) (rowapp (row2 A) B) (rowapp (row3 A) B).
Definition mplus (A B : m33) : m33 := mkM (vplus (row1 A) (row1 B)) (vplus (row2 A) (row2 B)) (vplus (row3 A) (row3 B)).
Definition mminus (A B : m33) : m33 := mkM (vminus (row1 A) (row1 B)) (vminus (row2 A) (row2 B)) (vminus (row3 A) (row3 B)).
Definition mscale (k : R) (A : m33) : m33 := mkM (vmul k (row1 A)) (vmul k (row2 A)) (vmul k (row3 A)).
Definition mdiv (A : m33) (k : R) : m33 := mkM (vdiv (row1 A) k) (vdiv (row2 A) k) (vdiv (row3 A) k).
Definition ident : m33 := mkM (mk3 1 0 0) (mk3 0 1 0) (mk3 0 0 1).
(** a b^T *)
Definition outer (a b : v3) : m33 := mkM (vmul (p1 a) b) (vmul (p2 a) b) (vmul (p3 a) b).
Definition trace (A : m33) : R := p1 (row1 A) + p2 (row2 A) + p3 (row3 A).
Definition det (A : m33) : R := dot (row1 A) (cross (row2 A) (row3 A)).

(** derivative of a curve *)
Definition curve_lim (c : R -> v3) (t : R) (u : v3) : Prop :=
  derivable_pt_lim (fun s => p1 (c s)) t (p1 u) /\ derivable_pt_lim (fun s => p2 (c s)) t (p2 u) /\ derivable_pt_lim (fun s => p3 (c s)) t (p3 u).

Lemma v3_eq a b : p1 a = p1 b -> p2 a = p2 b -> p3 a = p3 b -> a = b.
Proof. destruct a, b; cbn; intros; subst; reflexivity. Qed.
Lemma dot_nonneg a : 0 <= dot a a. Proof. unfold dot. nra. Qed.
Lemma dot_zero a : dot a a = 0 -> a = v0.
Proof. destruct a as [x y z]. unfold dot. cbn. intros H. assert (x = 0) by nra. assert (y = 0) by nra. assert (z = 0) by nra. subst. reflexivity. Qed.
Lemma dot_pos a : a <> v0 -> 0 < dot a a.
Proof. intros H. destruct (Rle_lt_or_eq_dec 0 (dot a a) (dot_nonneg a)) as [|E]; [assumption|]. exfalso. apply H, dot_zero. auto. Qed.
Lemma len_pos a : a <> v0 -> 0 < len a. Proof. intros H. apply sqrt_lt_R0, dot_pos, H. Qed.
Lemma len_sq a : len a * len a = dot a a. Proof. apply sqrt_sqrt, dot_nonneg. Qed.
