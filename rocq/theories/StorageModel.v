(** Model of include/coeff_matrix_storage.hpp: address arithmetic of the
    coefficient matrix storage schemes.  C++ [int]/[size_t] are modelled by [Z]
    (overflow is treated separately, see OverflowModel.v). *)
From Coq Require Import ZArith List Bool.
Import ListNotations.
Open Scope Z_scope.

(** MatrixStorageType, include/coeff_matrix_storage.hpp:21 (enum) and the five
    specialisations at 42-121, 131-204, 213-295, 302-364, 371-434. *)
Inductive scheme := LwTriRow | LwTriCol | Trapezoid | RowWise | ColWise.

(** StorageImplementation<S>: the scheme is the template parameter; [rows] and
    [cols] are the data members (the triangular classes keep only [rows], and
    their ncols() returns rows: 82, 170). *)
Record storage := mkStorage { sch : scheme; srows : Z; scols_field : Z }.

(** ncols(): 82, 170, 234, 323, 392 *)
Definition scols (s : storage) : Z :=
  match sch s with
  | LwTriRow | LwTriCol => srows s
  | _ => scols_field s
  end.

(** isRowMajor: 53, 139, 222, 311, 380 *)
Definition is_row_major (k : scheme) : bool :=
  match k with LwTriRow | Trapezoid | RowWise => true | LwTriCol | ColWise => false end.

(** Constructor assertion r == c of the triangular classes: 63, 149
    (the assert is active: the #ifdef around it is commented out). *)
Definition dims_ok (k : scheme) (r c : Z) : bool :=
  match k with LwTriRow | LwTriCol => r =? c | _ => true end.

(** _size(d) = d * (d + 1) / 2: 49.  C++ division truncates; the operand is
    never negative for d >= 0, [Z.quot] is used to keep the C++ meaning. *)
Definition tri_size (d : Z) : Z := Z.quot (d * (d + 1)) 2.

(** Trapezoid::pts_in_row: 256-258 *)
Definition pts_in_row (s : storage) (row : Z) : Z := Z.min (row + 1) (scols_field s).

(** sum of f 0 .. f (n-1); the loops at 249-250 and 271-272 *)
Fixpoint sum_upto (f : Z -> Z) (n : nat) : Z :=
  match n with
  | O => 0
  | S k => sum_upto f k + f (Z.of_nat k)
  end.

(** slice(i): 93, 182-184, 269-274, 352, 422 *)
Definition slice (s : storage) (i : Z) : Z :=
  match sch s with
  | LwTriRow => tri_size i
  | LwTriCol => i * srows s - Z.quot (i * (i - 1)) 2
  | Trapezoid => sum_upto (pts_in_row s) (Z.to_nat i)
  | RowWise => i * scols_field s
  | ColWise => i * srows s
  end.

(** second result of slice(i, num_elements): 103, 187, 277, 355, 425 *)
Definition slice_len (s : storage) (i : Z) : Z :=
  match sch s with
  | LwTriRow => i + 1
  | LwTriCol => srows s - i
  | Trapezoid => pts_in_row s i
  | RowWise => scols_field s
  | ColWise => srows s
  end.

(** num_slices(): 108, 192, 282, 360, 429 *)
Definition num_slices (s : storage) : Z :=
  match sch s with
  | ColWise => scols_field s
  | _ => srows s
  end.

(** num_elements(): 76, 154-156, 243-253, 332, 401 *)
Definition num_elements (s : storage) : Z :=
  match sch s with
  | LwTriRow => tri_size (srows s)
  | LwTriCol => Z.quot (srows s * (srows s + 1)) 2
  | Trapezoid =>
      if srows s =? scols_field s
      then Z.quot (srows s * (srows s + 1)) 2
      else sum_upto (pts_in_row s) (Z.to_nat (srows s))
  | RowWise | ColWise => srows s * scols_field s
  end.

(** index(row, column): 115, 199, 289, 339, 409 *)
Definition index (s : storage) (row col : Z) : Z :=
  match sch s with
  | LwTriRow => slice s row + col
  | LwTriCol => slice s col + (row - col)
  | Trapezoid => if col <=? srows s then slice s row + col else slice s col + row
  | RowWise => row * scols_field s + col
  | ColWise => col * srows s + row
  end.

(** first_row_of_col(col): 118, 202, 292, 362, 431 *)
Definition first_row_of_col (k : scheme) (col : Z) : Z :=
  match k with
  | LwTriRow | LwTriCol | Trapezoid => col
  | RowWise | ColWise => 0
  end.

(** first_col_of_row(row): 119, 203, 293, 363, 432 *)
Definition first_col_of_row (k : scheme) (row : Z) : Z := 0.
