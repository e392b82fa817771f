(** Specification of downloading AOD1B files: names of the products of days. *)
From Coq Require Import Ascii String ZArith List Bool.
From Verif Require Import Base CString.
Import ListNotations.
Open Scope Z_scope.

(** the name of the product of a day, with the text of the day and of the release *)
Definition product (day release : list Z) : list Z := chars "AOD1B_" ++ day ++ chars "_X_" ++ release ++ chars ".asc".
Definition compressed (day release : list Z) : list Z := product day release ++ chars ".gz".
Definition directory (year release : list Z) : list Z := chars "/grace/Level-1B/GFZ/AOD/RL" ++ release ++ chars "/" ++ year.
(** digits and hyphens *)
Definition numeric (s : list Z) : Prop := Forall (fun c => 48 <= c <= 57 \/ c = 45) s.
Definition in_dir (out f : list Z) : list Z := out ++ chars "/" ++ f.
