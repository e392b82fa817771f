(** What interpolation of a series means. *)
From Coq Require Import Reals ZArith List.
From Verif Require Import Base Poly EopModel.
Import ListNotations.
Open Scope R_scope.

Section Spec.
  Context {T : Type}.
  Variable days : T -> R.

  (** strictly increasing epochs *)
  Fixpoint sorted (l : list (rec T)) : Prop :=
    match l with
    | [] => True
    | r :: l' => Forall (fun q => days (rt T r) < days (rt T q)) l' /\ sorted l'
    end.

  (** [l] cut at an epoch: records not later, records later *)
  Definition cut (l : list (rec T)) (t : T) (before after : list (rec T)) : Prop :=
    l = before ++ after /\ Forall (fun r => days (rt T r) <= days t) before /\ Forall (fun r => days t < days (rt T r)) after.

  (** the n records on either side *)
  Definition nearest (before after : list (rec T)) (n : nat) : list (rec T) :=
    skipn (length before - n) before ++ firstn n after.

  (** number of points available for a degree, on either side *)
  Definition usable (before after : list (rec T)) (degree : Z) : nat :=
    Nat.min (Z.to_nat ((degree + 1) / 2)) (Nat.min (length before) (length after)).

  (** [y] is the value at [x] of every polynomial of degree below the number of nodes that passes through the
      nodes (and there is one) *)
  Definition interpolates (nodes : list (rec T)) (v : rec T -> R) (x y : R) : Prop :=
    (exists f, ispoly (length nodes) f /\ forall r, In r nodes -> f (days (rt T r)) = v r) /\
    (forall f, ispoly (length nodes) f -> (forall r, In r nodes -> f (days (rt T r)) = v r) -> y = f x).

  (** every parameter of a record interpolated; UT1-UTC through UT1-TAI *)
  Definition interpolated (nodes : list (rec T)) (t : T) (lp : R) (r : rec T) : Prop :=
    interpolates nodes (xp T) (days t) (xp T r) /\ interpolates nodes (yp T) (days t) (yp T r) /\
    interpolates nodes (fun q => dut T q - rdat T q) (days t) (dut T r - lp) /\
    interpolates nodes (lod T) (days t) (lod T r) /\ interpolates nodes (dX T) (days t) (dX T r) /\
    interpolates nodes (dY T) (days t) (dY T r).
  (** all values of a record but the epoch *)
  Definition same_values (a b : rec T) : Prop :=
    xp T a = xp T b /\ yp T a = yp T b /\ dut T a = dut T b /\ lod T a = lod T b /\ dX T a = dX T b /\ dY T a = dY T b /\
    rdat T a = rdat T b /\ xrt T a = xrt T b /\ yrt T a = yrt T b.

  (** a series that may be queried: the cached iterator belongs to it *)
  Definition ready (s : series T) : Prop := exists k, last_it T s = Some k /\ (k <= length (mvec T s))%nat.
End Spec.
