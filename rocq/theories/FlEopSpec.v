(** Bound of the rounding error of an interpolation, in units of 2^-53. *)
From Coq Require Import Reals List.
From Verif Require Import EopModel.
Import ListNotations.
Open Scope R_scope.

Section Spec.
  Context {T : Type}.
  Variable days : T -> R.
  Variable g : R.
  Notation day r := (days (rt T r)).
  (** the factor of node r at t, in size; differences below g count as g *)
  Definition weight (nodes : list (rec T)) (t : T) (r : rec T) : R :=
    fold_right (fun q p => (if Req_EM_T (day q) (day r) then 1 else Rmax (Rabs (days t - day q)) g / Rabs (day r - day q)) * p) 1 nodes.
  (** 2^-199 stands for the loss of products below the range of normal numbers *)
  Definition condition (nodes : list (rec T)) (t : T) (y : rec T -> R) : R :=
    fold_right (fun r s => (Rabs (y r) + / 2 ^ 199) * weight nodes t r + s) 0 nodes.
  (** the epochs of the nodes are at least g apart, none is 2^20 days from another one or from t *)
  Definition spaced (nodes : list (rec T)) (t : T) : Prop :=
    (forall r q, In r nodes -> In q nodes -> day r <> day q -> g <= Rabs (day r - day q) <= 2 ^ 20) /\ forall r, In r nodes -> Rabs (days t - day r) <= 2 ^ 20.
  (** error bounds; c: error of a difference of two epochs *)
  Definition close (c : R) (nodes : list (rec T)) (t : T) (y : rec T -> R) (o r : R) : Prop := Rabs (o - r) <= (20 * c + 34) * / 2 ^ 53 * condition nodes t y.
  (** UT1-UTC: interpolated as UT1-TAI, one more rounding *)
  Definition close_ut1 (c : R) (nodes : list (rec T)) (t : T) (o r : R) : Prop :=
    Rabs (o - r) <= (20 * c + 35) * / 2 ^ 53 * condition nodes t (fun r => dut T r - rdat T r) + / 2 ^ 53 * Rabs r.
End Spec.
