(** What C41, C42 and C63 talk about. *)
From Coq Require Import Reals ZArith List.
From Verif Require Import Vec.
Import ListNotations.
Open Scope Z_scope.

(** NAIF numbering: the Sun is 10, planet number k of the solar system is k99, its satellite number j is 100 k + j *)
Inductive body := Sun | Planet_no (k : Z) | Satellite (k j : Z).
Definition naif (b : body) : Z := match b with Sun => 10 | Planet_no k => 100 * k + 99 | Satellite k j => 100 * k + j end.
(** the enumeration in its order of declaration: Earth, Moon, Sun, Mercury, Venus, Mars, Jupiter, Saturn *)
Definition bodies : list body :=
  [Planet_no 3; Satellite 3 1; Sun; Planet_no 1; Planet_no 2; Planet_no 4; Planet_no 5; Planet_no 6].

(** [s] is the usual decimal text of [n] *)
Definition value (s : list Z) : Z := fold_left (fun a c => 10 * a + (c - 48)) s 0.
Definition decimal_text (s : list Z) (n : Z) : Prop :=
  s <> [] /\ (forall c, In c s -> 48 <= c <= 57) /\ (hd 0 s <> 48 \/ length s = 1%nat) /\ value s = n.

(** [w] is the beginning of another name *)
Definition shorter_part (w f : list Z) : Prop := exists t, t <> [] /\ f = (w ++ t)%list.
