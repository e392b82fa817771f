(** Regular two-dimensional grids; include/grid.hpp *)
From Coq Require Import Reals ZArith List Bool SpecFloat.
From Verif Require Import Base Float64.
Import ListNotations.
Open Scope Z_scope.

(** the leading axis *)
Inductive axis := X | Y.
(** grid.hpp:17-19 *)
Record grid := mkG { nx : Z; ny : Z; x0 : R; dx : R; y0 : R; dy : R }.

Definition floor (r : R) : Z := up r - 1.
Definition Rleb (a b : R) : bool := if Rle_dec a b then true else false.
Definition Rltb (a b : R) : bool := if Rlt_dec a b then true else false.
(** results of int arithmetic *)
Definition int_ok (n : Z) : bool := (- 2 ^ 31 <=? n) && (n <=? 2 ^ 31 - 1).
Definition as_int (n : Z) : res Z := if int_ok n then Ok n else UB.

Section Rounding.
  (** rounding of the results of floating-point operations; the identity for exact arithmetic *)
  Variable rnd : R -> R.

  (** grid.hpp:21-27 *)
  Definition xindex (g : grid) (x : R) : Z := floor (rnd (rnd (x - x0 g) / dx g)).
  Definition yindex (g : grid) (y : R) : Z := floor (rnd (rnd (y - y0 g) / dy g)).
  (** grid.hpp:69-70 *)
  Definition xstop (g : grid) : R := rnd (x0 g + rnd (IZR (nx g) * dx g)).
  Definition ystop (g : grid) : R := rnd (y0 g + rnd (IZR (ny g) * dy g)).
  (** grid.hpp:39-44 *)
  Definition out_x (g : grid) (x : R) : bool := negb (Rleb (x0 g) x && Rltb x (xstop g)).
  Definition out_y (g : grid) (y : R) : bool := negb (Rleb (y0 g) y && Rltb y (ystop g)).
  (** grid.hpp:29-37: int products and sums, converted to long *)
  Definition xyindex (a : axis) (g : grid) (x y : R) : res Z :=
    let i := xindex g x in
    let j := yindex g y in
    match a with
    | X => p <- as_int (i * ny g) ;; as_int (p + j)
    | Y => p <- as_int (j * nx g) ;; as_int (p + i)
    end.
  (** grid.hpp:72-82 *)
  Definition line (a : axis) (g : grid) (x y : R) : res Z := if out_x g x || out_y g y then Ok (-1) else xyindex a g x y.
  (** grid.hpp:84-94 *)
  Definition at_node (g : grid) (i j : Z) : R * R := (rnd (rnd (IZR i * dx g) + x0 g), rnd (rnd (IZR j * dy g) + y0 g)).
  Definition xyindex2node (a : axis) (g : grid) (k : Z) : res (R * R) :=
    match a with
    | X => if ny g =? 0 then UB else let i := Z.quot k (ny g) in Ok (at_node g i (k - i * nx g))
    | Y => if nx g =? 0 then UB else let j := Z.quot k (nx g) in Ok (at_node g (k - j * nx g) j)
    end.
  (** grid.hpp:46-57 *)
  Definition corners (a : axis) (g : grid) (bl : Z) : Z * Z * Z * Z :=
    match a with
    | X => let br := bl + ny g in let tl := bl + 1 in (bl, br, tl, tl + 1)
    | Y => let br := bl + 1 in let tl := bl + nx g in (bl, br, tl, tl + 1)
    end.
  (** grid.hpp:96-102; the assignments of line 100 are overwritten *)
  Definition surrounding_nodes (a : axis) (g : grid) (x y : R) : res (Z * Z * Z * Z) :=
    bl <- line a g x y ;; Ok (corners a g (if bl <? 0 then -1 else bl)).
End Rounding.

(** xindex of a node in binary64: start, step and number of the node *)
Definition node64 (start step : spec_float) (i : Z) : spec_float := fadd (fmul (of_Z i) step) start.
Definition index64 (start step x : spec_float) : option Z := floorZ (fdiv (fsub x start) step).
