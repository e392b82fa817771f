(** What C79 talks about: numbers on lines, the part of a path behind the last slash. *)
From Coq Require Import Reals ZArith List.
From Verif Require Import CostgModel.
Import ListNotations.
Open Scope Z_scope.

Section Spec.
  Variable sdbl : list Z -> option fl * list Z.
  (** n numbers, each after any number of blanks *)
  Inductive numbers : nat -> list Z -> list fl -> Prop :=
  | none s : numbers 0 s []
  | one n k w v r vs : (match w with c :: _ => c <> 32 | [] => True end) -> sdbl w = (Some v, r) -> numbers n r vs -> numbers (S n) (repeat 32 k ++ w) (v :: vs).
  (** the epoch: whole days towards zero, and seconds *)
  Definition in_int (k : Z) : Prop := - 2 ^ 31 <= k <= 2 ^ 31 - 1.
  Definition whole (x : R) (k : Z) : Prop := (0 <= x /\ IZR k <= x < IZR k + 1 \/ x < 0 /\ IZR k - 1 < x <= IZR k)%R.
  (** what a line contributes *)
  Inductive contributes (n : nat) (line : list Z) : option bm -> Prop :=
  | record x k vs : numbers n line (Num x :: vs) -> whole x k -> in_int k -> contributes n line (Some (mkB k ((x - IZR k) * 86400)%R vs))
  | nothing : (forall vs, ~ numbers n line vs) -> contributes n line None.
  Definition undefined (n : nat) (line : list Z) : Prop := exists t vs, numbers n line (t :: vs) /\ (t = Special \/ exists x k, t = Num x /\ whole x k /\ ~ in_int k).
End Spec.
Fixpoint somes {A} (l : list (option A)) : list A := match l with [] => [] | Some a :: r => a :: somes r | None :: r => somes r end.
(** a name without its directory *)
Definition name_of (path name : list Z) : Prop := (exists dir, path = dir ++ 47 :: name \/ dir = [] /\ path = name) /\ ~ In 47 name.
