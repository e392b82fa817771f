(** What C96 talks about. *)
From Coq Require Import Ascii String Reals ZArith List.
From Verif Require Import Base CString PyModel AodMergeSpec TestSuiteSpec EopPlotSpec.
Import ListNotations.
Open Scope Z_scope.

(** words with one blank between them *)
Fixpoint one_blank (ws : list (list Z)) : list Z := match ws with [] => [] | [w] => w | w :: r => w ++ 32 :: one_blank r end.
(** float(): an empty text is no number, a newline at the end makes no difference *)
Definition float_like (fl : list Z -> option R) : Prop := fl [] = None /\ forall w, fl (w ++ [10]) = fl w.
Section Lines.
  Variable fl : list Z -> option R.
  (** a line that is read at all *)
  Definition plain_line (l : list Z) : Prop := ~ begins_with (chars "#") l /\ ~ begins_with (chars "mjd") l.
  (** day, seconds, and six components *)
  Definition data_line (l : list Z) (xs : list R) : Prop := plain_line l /\ length xs = 8%nat /\ exists ws, l = one_blank ws ++ [10] /\ Forall (fun w => ~ In 32 w) ws /\ Forall2 (number fl) ws xs.
  (** comments; other lines: not eight words, or one that is no number *)
  Definition no_data (l : list Z) : Prop := (begins_with (chars "#") l /\ ~ begins_with (chars "#title") l \/ begins_with (chars "mjd") l) \/
    exists ws, l = one_blank ws ++ [10] /\ ws <> [] /\ Forall (fun w => ~ In 32 w) ws /\ plain_line l /\ (length ws <> 8%nat \/ exists w, In w ws /\ fl w = None).
  (** a title, without the character of comments *)
  Definition title_line (l s : list Z) : Prop := exists b1 b2, l = chars "#title" ++ b1 ++ s ++ b2 ++ [10] /\ gap b1 /\ gap b2 /\ begins_solid s /\ ends_solid s /\ ~ In 35 s.
End Lines.
(** what is plotted of a row *)
Definition shown (xs : list R) : R * (R * R * R) * (R * R * R) := let x i := nth i xs 0%R in (x 1%nat, (x 2%nat, x 3%nat, x 4%nat), (x 5%nat, x 6%nat, x 7%nat)).
