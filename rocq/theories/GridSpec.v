(** Nodes of a regular grid and the cell a point lies in, in exact arithmetic. *)
From Coq Require Import Reals ZArith.
From Verif Require Import GridModel.
Open Scope Z_scope.

Definition node (g : grid) (i j : Z) : R * R := ((x0 g + IZR i * dx g)%R, (y0 g + IZR j * dy g)%R).
Definition on_grid (g : grid) (i j : Z) : Prop := 0 <= i < nx g /\ 0 <= j < ny g.
(** position of a node in the list of all nodes: the leading axis varies slowest *)
Definition linear (a : axis) (g : grid) (i j : Z) : Z := match a with X => i * ny g + j | Y => j * nx g + i end.
(** the cell whose lower left node is (i, j) *)
Definition in_cell (g : grid) (i j : Z) (x y : R) : Prop :=
  (x0 g + IZR i * dx g <= x < x0 g + IZR (i + 1) * dx g)%R /\ (y0 g + IZR j * dy g <= y < y0 g + IZR (j + 1) * dy g)%R.
Definition ascending (g : grid) : Prop := (0 < dx g)%R /\ (0 < dy g)%R.
(** the node numbers fit the integer types of the code *)
Definition small (g : grid) : Prop := 0 < nx g /\ 0 < ny g /\ nx g * ny g <= 2 ^ 31 - 1.
