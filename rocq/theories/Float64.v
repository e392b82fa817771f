(** binary64 arithmetic (round to nearest even) on the standard library's [spec_float], to run floating-point code on given inputs. *)
From Coq Require Import ZArith SpecFloat Bool.
Open Scope Z_scope.

Definition fadd := SFadd 53 1024.
Definition fsub := SFsub 53 1024.
Definition fmul := SFmul 53 1024.
Definition fdiv := SFdiv 53 1024.
(** conversion of an integer *)
Definition of_Z (n : Z) : spec_float := binary_normalize 53 1024 n 0 false.
(** std::floor as an integer; None for infinities and NaN *)
Definition floorZ (x : spec_float) : option Z :=
  match x with
  | S754_zero _ => Some 0
  | S754_finite s m e => let v := if s then Zneg m else Zpos m in Some (if 0 <=? e then v * 2 ^ e else v / 2 ^ (- e))
  | _ => None
  end.
Definition flt (x y : spec_float) : bool := SFltb x y.
Definition fle (x y : spec_float) : bool := SFleb x y.
