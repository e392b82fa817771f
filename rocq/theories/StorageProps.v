(** Properties C01, C02, C03 (address arithmetic of coefficient matrices). *)
From Coq Require Import ZArith List Bool Lia.
From Verif Require Import StorageModel StorageSpec StorageProofs.
Open Scope Z_scope.

(** C01: in every scheme the stored positions are in bijection with the cells. *)
Theorem c01_index_bijection : forall k r c, legal_dims k r c ->
  bijection_onto (stored k r c) (index (mkStorage k r c)) (num_elements (mkStorage k r c)).
Proof. exact index_bijection. Qed.
Print Assumptions c01_index_bijection.

Example c01_nonvacuous :
  legal_dims LwTriCol 5 5 /\ stored LwTriCol 5 5 (4, 2) /\
  index (mkStorage LwTriCol 5 5) 4 2 = 11 /\ num_elements (mkStorage LwTriCol 5 5) = 15 /\
  legal_dims ColWise 3 7 /\ index (mkStorage ColWise 3 7) 2 6 = 20.
Proof. unfold legal_dims, stored. repeat split; try lia; try (intros [E|E]; discriminate E). Qed.

(** C02: the trapezoid instance, for any number of rows and columns. *)
Theorem c02_trapezoid_bijection : forall r c, 0 <= r -> 0 <= c ->
  bijection_onto (fun p => 0 <= fst p < r /\ 0 <= snd p < c /\ snd p <= fst p)
    (index (mkStorage Trapezoid r c)) (num_elements (mkStorage Trapezoid r c)).
Proof. exact trapezoid_bijection. Qed.
Print Assumptions c02_trapezoid_bijection.

Example c02_nonvacuous :
  num_elements (mkStorage Trapezoid 5 2) = 9 /\ index (mkStorage Trapezoid 5 2) 4 1 = 8.
Proof. split; reflexivity. Qed.

(** C02, second half: positions outside the stored part are NOT kept apart: in
    a 3x3 trapezoid, element access at (0,2) hits the cell of (1,1). *)
Theorem c02_unstored_positions_alias_refuted : exists r c i j i' j',
  0 <= i < r /\ 0 <= j < c /\ ~ stored Trapezoid r c (i, j) /\ stored Trapezoid r c (i', j') /\
  index (mkStorage Trapezoid r c) i j = index (mkStorage Trapezoid r c) i' j'.
Proof. exact trapezoid_alias. Qed.
Print Assumptions c02_unstored_positions_alias_refuted.

(** C03: slices tile the allocation and walking a slice is element access. *)
Theorem c03_slices_tile : forall k r c, legal_dims k r c ->
  slice (mkStorage k r c) 0 = 0 /\
  (forall i, 0 <= i < num_slices (mkStorage k r c) ->
     slice (mkStorage k r c) (i + 1) = slice (mkStorage k r c) i + slice_len (mkStorage k r c) i) /\
  slice (mkStorage k r c) (num_slices (mkStorage k r c)) = num_elements (mkStorage k r c) /\
  (forall i e, 0 <= i < num_slices (mkStorage k r c) ->
     (0 <= e < slice_len (mkStorage k r c) i <->
      0 <= e /\ stored k r c (slice_position k i e))) /\
  (forall i e, 0 <= i < num_slices (mkStorage k r c) -> 0 <= e < slice_len (mkStorage k r c) i ->
     index (mkStorage k r c) (fst (slice_position k i e)) (snd (slice_position k i e))
     = slice (mkStorage k r c) i + e).
Proof. exact slices_tile. Qed.
Print Assumptions c03_slices_tile.

Theorem c03_first_row_first_col : forall k r c i j, legal_dims k r c -> stored k r c (i, j) ->
  first_row_of_col k j <= i /\ first_col_of_row k i <= j /\
  (forall i', first_row_of_col k j <= i' < r -> stored k r c (i', j)).
Proof. exact first_row_first_col. Qed.
Print Assumptions c03_first_row_first_col.

Example c03_nonvacuous :
  slice (mkStorage LwTriCol 4 4) 2 = 7 /\ slice_len (mkStorage LwTriCol 4 4) 2 = 2 /\
  slice_position LwTriCol 2 1 = (3, 2).
Proof. repeat split; reflexivity. Qed.
