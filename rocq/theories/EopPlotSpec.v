(** What C95 talks about. *)
From Coq Require Import Ascii String Reals ZArith List.
From Flocq Require Import Core.Core.
From Verif Require Import Base CString PyModel AodMergeSpec TestSuiteSpec.
Import ListNotations.
Open Scope Z_scope.

(** a double, its rounding *)
Definition double (x : R) : Prop := generic_format radix2 (FLT_exp (-1074) 53) x.
Definition nearest (x : R) : R := round radix2 (FLT_exp (-1074) 53) ZnearestE x.
(** modified Julian dates from 1948 to 2038: 32768 days to 65536 *)
Definition modern (t : R) : Prop := double t /\ (32768 <= t < 65536)%R.
Section Lines.
  Variable fl : list Z -> option R.
  Definition number (w : list Z) (x : R) : Prop := fl w = Some x.
  (** a line of the reference: numbers; a line of the program: days, seconds, numbers *)
  Definition ref_line (l : list Z) (xs : list R) : Prop := (5 < length l)%nat /\ exists ws, words_of l ws /\ Forall2 number ws xs.
  Definition lib_line (l : list Z) (r : list R) : Prop := exists a b ws i s xs, words_of l (a :: b :: ws) /\ decimal_text a i /\ number b s /\ Forall2 number ws xs /\
    r = nearest (nearest (IZR i) + nearest (s / 86400)) :: xs.
  (** lines that are none *)
  Definition no_ref (l : list Z) : Prop := (length l <= 5)%nat \/ exists ws w, words_of l ws /\ In w ws /\ fl w = None.
  Definition no_lib (l : list Z) : Prop := exists ws, words_of l ws /\ ((length ws < 2)%nat \/ (exists a w, ws = a :: w /\ exists v, In v w /\ fl v = None) \/
    (exists c w r, ws = (c :: w) :: r /\ ~ digit c /\ c <> 43 /\ c <> 45)).
End Lines.
(** every line with its row, or none *)
Inductive file (is : list Z -> list R -> Prop) (isnt : list Z -> Prop) : list (list Z) -> list (list R) -> Prop :=
| file_end : file is isnt [] []
| file_row l x ls xs : is l x -> file is isnt ls xs -> file is isnt (l :: ls) (x :: xs)
| file_other l ls xs : isnt l -> file is isnt ls xs -> file is isnt (l :: ls) xs.
Arguments file_end {is isnt}. Arguments file_row {is isnt}. Arguments file_other {is isnt}.
(** a text of lines, the newline at the end of each *)
Definition made_of (text : list Z) (ls : list (list Z)) : Prop := text = concat ls /\ Forall (fun l => exists s, l = s ++ [10] /\ one_line s) ls.
(** the references whose epoch is among those of the program, and the differences to the first row of this epoch *)
Definition at_epoch (t : R) (r : list R) : Prop := exists xs, r = t :: xs.
Inductive matched (l2 : list (list R)) : list (list R) -> list (list R) -> Prop :=
| matched_end : matched l2 [] []
| matched_one t xs r a ys b m : l2 = a ++ (t :: ys) :: b -> Forall (fun q => ~ at_epoch t q) a -> matched l2 r m ->
    matched l2 ((t :: xs) :: r) ((t :: map (fun p => nearest (fst p - snd p)) (combine xs ys)) :: m)
| matched_none t xs r m : Forall (fun q => ~ at_epoch t q) l2 -> matched l2 r m -> matched l2 ((t :: xs) :: r) m.
Arguments matched_end {l2}. Arguments matched_one {l2}. Arguments matched_none {l2}.
