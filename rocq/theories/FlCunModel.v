(** The functions M and W of src/lib/gravity/sh_cunningham_normalized_gradient.cpp with rounding (FlModel). Element (n, m) of the
    matrices is M n m, W n m; the accesses themselves are in CunModel. Integers below 2^53 are exact in double. *)
From Coq Require Import Reals ZArith List.
From Verif Require Import FlModel FlAlfModel.
Open Scope R_scope.

(** the factors: lines 18-42 *)
Section Factors.
  Local Open Scope Z_scope.
  Local Notation z := Z.of_nat.
  (** (2e0 * n + 1e0) / static_cast<double>((n + m) * (n - m)): lines 34-35 *)
  Definition common_run (n m : nat) (f : R) : Prop := near (IZR (2 * z n + 1) / IZR ((z n + z m) * (z n - z m))) f.
  (** f1(n, m), m < n: line 37 *)
  Definition f1_run (n m : nat) (v : R) : Prop := exists f g, common_run n m f /\ near (f * IZR (2 * z n - 1)) g /\ near (sqrt g) v.
  (** f2(n, m), m < n: lines 39-40 *)
  Definition f2_run (n m : nat) (v : R) : Prop := exists f g h k s, common_run n m f /\
    near (f * IZR (z n - z m - 1)) g /\ near (g * IZR (z n + z m - 1)) h /\ near (h / IZR (2 * z n - 3)) k /\ near (sqrt k) s /\ v = (- s)%R.
  (** f1(n, n), n > 0: lines 26-29 *)
  Definition f0_run (n : nat) (v : R) : Prop :=
    match n with S O => near (sqrt 3) v | _ => exists g, near (IZR (2 * z n + 1) / IZR (2 * z n)) g /\ near (sqrt g) v end.
End Factors.

(** Eigen's squaredNorm of three components: either association *)
Definition sum3_run (a b c s : R) : Prop := exists d, near (a + b) d /\ near (d + c) s \/ near (b + c) d /\ near (a + d) s.
(** std::pow(i, 2): two units in the last place *)
Definition pow2_run (i v : R) : Prop := Rabs (v - i * i) <= 2 * u * (i * i) + tiny.
(** lines 117-121, 124: rs, rs.norm(), rr, x, y, z; [o] is 1e0 / rs.norm() *)
Definition position_run (rx ry rz Re rr x y z o : R) : Prop := exists sx sy sz a b c s nrm,
  near (rx / Re) sx /\ near (ry / Re) sy /\ near (rz / Re) sz /\ near (sx * sx) a /\ near (sy * sy) b /\ near (sz * sz) c /\ sum3_run a b c s /\ near (sqrt s) nrm /\
  near (1 / nrm) o /\ pow2_run o rr /\ near (sx * rr) x /\ near (sy * rr) y /\ near (sz * rr) z.

(** lines 128-131, 139-148: a column of M or W; N = degree + 2 *)
Definition ccolumn_run (z rr : R) (m N : nat) (p : nat -> R) : Prop :=
  ((m < N)%nat -> exists a x, (if Nat.eqb m 0 then near (sqrt 3) a else f1_run (S m) m a) /\ near (a * z) x /\ near (x * p m) (p (S m))) /\
  forall n, (m <= n)%nat -> (S (S n) <= N)%nat -> exists a x y b w v,
    f1_run (S (S n)) m a /\ near (a * z) x /\ near (x * p (S n)) y /\
    f2_run (S (S n)) m b /\ near (b * rr) w /\ near (w * p n) v /\ near (y + v) (p (S (S n))).
(** lines 136-137, 153-154: the diagonals up to L = order + 2 *)
Definition cdiagonal_run (x y : R) (L : nat) (M W : nat -> R) : Prop := forall m, (m < L)%nat ->
  exists f a b c d s t, f0_run (S m) f /\ near (x * M m) a /\ near (y * W m) b /\ near (a - b) s /\ near (f * s) (M (S m)) /\
    near (y * M m) c /\ near (x * W m) d /\ near (c + d) t /\ near (f * t) (W (S m)).
(** lines 110-155 *)
Definition basis_run (rx ry rz Re : R) (degree order : nat) (M W : nat -> nat -> R) : Prop :=
  exists rr x y z, position_run rx ry rz Re rr x y z (M O O) /\ (forall n, W n O = 0) /\
    ccolumn_run z rr 0 (degree + 2) (fun n => M n O) /\
    cdiagonal_run x y (order + 2) (fun m => M m m) (fun m => W m m) /\
    forall m, (1 <= m < order + 2)%nat -> ccolumn_run z rr m (degree + 2) (fun n => M n m) /\ ccolumn_run z rr m (degree + 2) (fun n => W n m).
