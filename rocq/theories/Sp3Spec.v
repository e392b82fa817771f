(** What C93 talks about. *)
From Coq Require Import Ascii String Reals ZArith List.
From Verif Require Import Base CString PyModel AodMergeSpec TestSuiteSpec Sp3Model.
Import ListNotations.
Open Scope Z_scope.

(** names that differ in the case of letters only; names in capitals *)
Definition lower (c : Z) : Prop := 97 <= c <= 122.
Definition same_letter (c d : Z) : Prop := c = d \/ lower c /\ d = c - 32 \/ lower d /\ c = d - 32.
Definition capitals (s : list Z) : Prop := Forall (fun c => ~ lower c) s.

Section Lines.
  Variable fl : list Z -> option R.
  Variable date : list Z -> R -> py R.
  Variable sat : list Z.
  (** a star, five integers and the seconds *)
  Definition epoch_line (l : list Z) (t : R) : Prop := begins_with (chars "* ") l /\ exists w0 ws w more ns s,
    words_of l (w0 :: ws ++ w :: more) /\ length ws = 5%nat /\ Forall2 decimal_text ws ns /\ fl w = Some s /\ date ns s = Val t.
  (** a letter and the name of the satellite, and three numbers, [k] to the unit of the result *)
  Definition triple_line (c : Z) (k : R) (l : list Z) (v : vec) : Prop := begins_with (c :: sat) l /\ exists w0 a b d more x y z,
    words_of l (w0 :: a :: b :: d :: more) /\ fl a = Some x /\ fl b = Some y /\ fl d = Some z /\ v = (k * x, k * y, k * z)%R.
  (** kilometres to metres; decimetres per second to metres per second *)
  Definition position_line := triple_line 80 1000.
  Definition velocity_line := triple_line 86 (1 / 10).
  Definition other_line (l : list Z) : Prop := ~ begins_with (chars "* ") l /\ ~ begins_with (80 :: sat) l /\ ~ begins_with (86 :: sat) l.
  (** epochs with position and velocity, and epochs without the satellite *)
  Inductive epochs : list (list Z) -> list (R * vec * vec) -> Prop :=
  | epochs_none : epochs [] []
  | epochs_state e t a p x b v u c r sts : epoch_line e t -> Forall other_line a -> position_line p x -> Forall other_line b -> velocity_line v u -> Forall other_line c ->
      epochs r sts -> epochs ([e] ++ a ++ [p] ++ b ++ [v] ++ c ++ r) ((t, x, u) :: sts)
  | epochs_absent e t a r sts : epoch_line e t -> Forall other_line a -> epochs r sts -> epochs ([e] ++ a ++ r) sts.
End Lines.
