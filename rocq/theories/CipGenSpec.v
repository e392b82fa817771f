(** The Poisson series of a sequence of tables, each for one coordinate and one power of time. *)
From Coq Require Import Reals ZArith List.
From Verif Require Import CipRow CipSpec CipGenModel.
Import ListNotations.
Open Scope R_scope.

Definition is (c d : component) : bool := match c, d with CX, CX | CY, CY => true | _, _ => false end.
Definition poisson (c : component) (l : list (list row * component * Z)) (F : list R) (t : R) : R :=
  total (map (fun x => let '(tab, d, p) := x in if is c d then t ^ Z.to_nat p * total (map (wave F) tab) else 0) l).
(** a line has fourteen multipliers; the powers are those the program knows *)
Definition proper (l : list (list row * component * Z)) : Prop :=
  Forall (fun x => let '(tab, _, p) := x in (0 <= p <= 4)%Z /\ Forall (fun r => length (mult r) = 14%nat) tab) l.
(** a later line of the same coordinate and lunisolar argument has a higher power, or the same power and no larger amplitude *)
Definition lines (l : list (list row * component * Z)) : list (component * row * Z) := flat_map (fun x => let '(tab, c, p) := x in map (fun r => (c, r, p)) tab) l.
Definition follows (le : row -> row -> Prop) (a b : component * row * Z) : Prop :=
  let '(c, r, p) := a in let '(d, s, q) := b in c = d -> firstn 5 (mult r) = firstn 5 (mult s) -> (p < q)%Z \/ p = q /\ le s r.
Definition decreasing (le : row -> row -> Prop) (l : list (list row * component * Z)) : Prop := ForallOrdPairs (follows le) (lines l).
Definition smaller (a b : row) : Prop := (csin a * csin a + ccos a * ccos a <= csin b * csin b + ccos b * ccos b)%Z.
(** the lowest power and the largest square of an amplitude in a list of terms *)
Definition lowest (l : list plrow) (m : Z) : Prop := (exists p, In p l /\ ppow p = m) /\ forall p, In p l -> (m <= ppow p)%Z.
Definition square (p : plrow) : Z := (psin p * psin p + pcos p * pcos p)%Z.
Definition largest (l : list plrow) (a : Z) : Prop := (exists p, In p l /\ square p = a) /\ forall p, In p l -> (square p <= a)%Z.
(** arrays made of groups: the multipliers and the two numbers of terms, and the terms of the groups one after the other *)
Definition arrays (gs : list (list Z * list plrow * list plrow)) : list freq * list plrow :=
  (map (fun g => let '(n, x, y) := g in mkFreq n (Z.of_nat (length x)) (Z.of_nat (length y))) gs, concat (map (fun g => let '(_, x, y) := g in x ++ y) gs)).
Definition rises (a b : list Z * list plrow * list plrow) : Prop :=
  let '(_, x, y) := a in let '(_, u, v) := b in forall m n p q, lowest (x ++ y) m -> lowest (u ++ v) n -> largest (x ++ y) p -> largest (u ++ v) q -> (m < n \/ m = n /\ p <= q)%Z.
