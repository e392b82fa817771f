(** What C97 talks about. *)
From Coq Require Import Ascii String Reals ZArith List.
From Verif Require Import Base CString PyModel AodMergeSpec TestSuiteSpec EopPlotSpec.
Import ListNotations.
Open Scope Z_scope.

Section Lines.
  Variable fl : list Z -> option R.
  (** a first word and five numbers *)
  Definition five (l : list Z) (x : R * R * R * R * R) : Prop := let '(t, xp, yp, dut1, lod) := x in
    exists w ws, words_of l (w :: ws) /\ Forall2 (number fl) ws [t; xp; yp; dut1; lod].
  (** lines of raw values, lines of corrected values, in any order *)
  Inductive output : list (list Z) -> list (R * R * R * R * R) -> list (R * R * R * R * R) -> Prop :=
  | output_end : output [] [] []
  | output_raw l x ls a b : begins_with (chars "[RAW]") l -> five l x -> output ls a b -> output (l :: ls) (x :: a) b
  | output_cor l x ls a b : ~ begins_with (chars "[RAW]") l -> five l x -> output ls a b -> output (l :: ls) a (x :: b).
  (** not six words, or one after the first that is no number *)
  Definition not_five (l : list Z) : Prop := exists ws, words_of l ws /\ (length ws <> 6%nat \/ exists w r v, ws = w :: r /\ In v r /\ fl v = None).
End Lines.
(** the points more than four days after the first epoch, in order *)
Inductive after_four : list (R * R) -> list (R * R) -> Prop :=
| after_end : after_four [] []
| after_keep p l r : (4 < fst p)%R -> after_four l r -> after_four (p :: l) (p :: r)
| after_drop p l r : (fst p <= 4)%R -> after_four l r -> after_four (p :: l) r.
