(** Specification of the test driver: what a test that passes says. *)
From Coq Require Import Ascii String Reals ZArith List Bool.
From Verif Require Import Base CString AodMergeSpec TestSuiteModel.
Import ListNotations.
Open Scope Z_scope.

(** ** texts without their blanks and newlines *)
Inductive bare : list Z -> list Z -> Prop :=
| bare_nil : bare [] []
| bare_skip c s t : c = 32 \/ c = 10 -> bare s t -> bare (c :: s) t
| bare_keep c s t : c <> 32 -> c <> 10 -> bare s t -> bare (c :: s) (c :: t).
Definition same_bare (a b : list Z) : Prop := exists t, bare a t /\ bare b t.

(** ** lines of a text, words of a line *)
Inductive lines_of : list Z -> list (list Z) -> Prop :=
| lines_none : lines_of [] []
| lines_last l : l <> [] -> one_line l -> lines_of l [l]
| lines_more l s ls : one_line l -> lines_of s ls -> lines_of (l ++ 10 :: s) (l :: ls).
Inductive words_of : list Z -> list (list Z) -> Prop :=
| words_none b : Forall white b -> words_of b []
| words_more b w s ws : Forall white b -> w <> [] -> Forall (fun c => ~ white c) w -> (forall c t, s = c :: t -> white c) -> words_of s ws -> words_of (b ++ w ++ s) (w :: ws).

Section Check.
  Variable tofloat : list Z -> option float.
  (** words at a column are numbers that differ by less than [p] *)
  Definition close (p : R) (w1 w2 : list Z) : Prop := exists x y, tofloat w1 = Some (Fin x) /\ tofloat w2 = Some (Fin y) /\ (Rabs (x - y) < p)%R.
  (** a line of the output and one of the reference *)
  Definition line_ok (cols : list nat) (precision : list R) (l1 l2 : list Z) : Prop := exists w1 w2,
    words_of l1 w1 /\ words_of l2 w2 /\ length w1 = length w2 /\
    (forall c a b, nth_error w1 c = Some a -> nth_error w2 c = Some b -> ~ In c cols -> a = b) /\
    (forall i c p, nth_error cols i = Some c -> nth_error precision i = Some p -> exists a b, nth_error w1 c = Some a /\ nth_error w2 c = Some b /\ close p a b).
  (** lines that both texts have *)
  Definition common_ok (cols : list nat) (precision : list R) (out ref : list Z) : Prop := exists L1 L2,
    lines_of out L1 /\ lines_of ref L2 /\ forall i l1 l2, nth_error L1 i = Some l1 -> nth_error L2 i = Some l2 -> line_ok cols precision l1 l2.

  Variable isfile : list Z -> bool.
  Variable exec : list Z -> list (list Z) -> option (Z * list Z).
  Variable join : list Z -> list Z -> list Z.
  Definition expected (e : exit_status) (code : Z) : Prop := match e with Nzero => code <> 0 | Code n => code = n end.
  (** a program of the list passes *)
  Definition passes (d : special) : Prop := isfile (join (path d) (prog d)) = true /\ exists code out,
    exec (join (path d) (prog d)) (args d) = Some (code, out) /\ expected (exit_ d) code /\
    forall r, results d = Some r ->
      match testwp d with
      | Some (cols, precision) => common_ok cols precision out r
      | None => same_bare out r
      end.
  Definition named (e s : list Z) : Prop := exists r, s = r ++ e.
  Variable load : list Z -> option (list mock).
  (** a file of the directory passes *)
  Definition file_passes (dir : list Z) (sp : list special) (f : list Z) : Prop :=
    (named (chars ".out") f -> (forall d, In d sp -> prog d <> f) -> exists out, exec (join dir f) [] = Some (0, out)) /\
    (named (chars ".json") f -> exists ms, load (join dir f) = Some ms /\
      forall m, In m ms -> exists out, exec (cxx m) [flags m; name m; chars "-I" ++ incp m] = Some (mexit m, out)).
End Check.
