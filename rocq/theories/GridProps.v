(** C23, C24 *)
From Coq Require Import Reals ZArith List Bool Lia Lra SpecFloat.
From Flocq Require Import Core.
From Verif Require Import Base Float64 GridModel GridSpec GridProofs.
Import ListNotations.
Open Scope Z_scope.

(** *** C23: nodes and their numbers *)
(** exact arithmetic: the number of a node, both orders; the node of a number, Y leading *)
Theorem c23_index a g i j : ascending g -> small g -> on_grid g i j -> line id a g (fst (node g i j)) (snd (node g i j)) = Ok (linear a g i j).
Proof. intros. apply line_node; auto using exact_id. Qed.
Print Assumptions c23_index.
Theorem c23_numbers a g : small g -> (forall i j, on_grid g i j -> 0 <= linear a g i j < nx g * ny g) /\
  (forall i j i' j', on_grid g i j -> on_grid g i' j' -> linear a g i j = linear a g i' j' -> i = i' /\ j = j') /\
  (forall k, 0 <= k < nx g * ny g -> exists i j, on_grid g i j /\ linear a g i j = k).
Proof.
  intros S. split; [intros i j H; apply linear_range; exact H|]. split; [intros i j i' j' H H' E; eapply linear_inj; eauto|].
  intros k (K1 & K2). destruct S as (S1 & S2 & _). destruct a; cbn [linear].
  - exists (k / ny g), (k mod ny g). pose proof (Z.mod_pos_bound k (ny g) S2). pose proof (Z.div_mod k (ny g) ltac:(lia)).
    assert (0 <= k / ny g) by (apply Z.div_pos; lia). assert (k / ny g < nx g) by (apply Z.div_lt_upper_bound; lia). split; [split; lia|lia].
  - exists (k mod nx g), (k / nx g). pose proof (Z.mod_pos_bound k (nx g) S1). pose proof (Z.div_mod k (nx g) ltac:(lia)).
    assert (0 <= k / nx g) by (apply Z.div_pos; lia). assert (k / nx g < ny g) by (apply Z.div_lt_upper_bound; lia). split; [split; lia|lia].
Qed.
Print Assumptions c23_numbers.
Theorem c23_node_Y_partial g i j : ascending g -> small g -> on_grid g i j -> xyindex2node id Y g (linear Y g i j) = Ok (node g i j).
Proof. intros. apply node_of_linear_Y; auto using exact_id. Qed.
Print Assumptions c23_node_Y_partial.
(** X leading: right on square grids and in the first column only *)
Theorem c23_node_X_partial g i j : ascending g -> small g -> on_grid g i j ->
  (xyindex2node id X g (linear X g i j) = Ok (node g i j) <-> i = 0 \/ nx g = ny g).
Proof.
  intros A S O. rewrite (node_of_linear_X id g S i j O). unfold at_node, node, id. destruct A as (_ & A).
  split.
  - intros E. injection E as _ E. assert (E' : IZR (j + i * (ny g - nx g)) = IZR j) by (apply Rmult_eq_reg_r with (r := dy g); lra). apply eq_IZR in E'.
    assert (i * (ny g - nx g) = 0) as Z0 by lia. apply Z.mul_eq_0 in Z0. lia.
  - intros H. replace (j + i * (ny g - nx g)) with j by (destruct H as [-> | ->]; lia). f_equal. f_equal; ring.
Qed.
Print Assumptions c23_node_X_partial.
Theorem c23_node_X_refuted : exists g i j p, ascending g /\ small g /\ on_grid g i j /\ xyindex2node id X g (linear X g i j) = Ok p /\ p <> node g i j.
Proof.
  exists (mkG 2 3 0 1 0 1), 1, 0. eexists. split; [split; cbn; lra|]. split; [unfold small; cbn; lia|]. split; [split; cbn; lia|]. split; [reflexivity|].
  unfold at_node, node, id. cbn. intros E. injection E as E1. lra.
Qed.
(** more than 2^31 - 1 nodes: the number overflows int *)
Theorem c23_large_refuted : exists g i j, ascending g /\ on_grid g i j /\ (forall x y, in_cell g i j x y -> line id X g x y = UB /\ line id Y g x y = UB) /\ exists x y, in_cell g i j x y.
Proof.
  set (g := mkG 50000 50000 0 1 0 1). assert (A : ascending g) by (split; cbn; lra).
  exists g, 49999, 49999. split; [exact A|]. split; [split; cbn; lia|]. split; [|exists 49999%R, 49999%R; split; cbn; lra].
  intros x y C. destruct (proj1 (cell_index g _ _ x y A) C) as (Ei & Ej). destruct C as (Cx & Cy).
  assert (HX : out_x id g x = false) by (unfold out_x, xstop, id; cbn in *; apply negb_false_iff, andb_true_iff; rewrite Rleb_true, Rltb_true; lra).
  assert (HY : out_y id g y = false) by (unfold out_y, ystop, id; cbn in *; apply negb_false_iff, andb_true_iff; rewrite Rleb_true, Rltb_true; lra).
  unfold line, xyindex. rewrite HX, HY, Ei, Ej. split; reflexivity.
Qed.
(** binary64: the round trip holds wherever the coordinates of the nodes are exact *)
Definition rnd64 : R -> R := round radix2 (FLT_exp (-1074) 53) ZnearestE.
Definition fmt64 (r : R) : Prop := generic_format radix2 (FLT_exp (-1074) 53) r.
Theorem c23_binary64_partial a g i j : ascending g -> small g ->
  (forall k, 0 <= k <= nx g -> fmt64 (IZR k * dx g) /\ fmt64 (x0 g + IZR k * dx g)) -> (forall k, 0 <= k <= ny g -> fmt64 (IZR k * dy g) /\ fmt64 (y0 g + IZR k * dy g)) ->
  on_grid g i j -> line rnd64 a g (fst (node g i j)) (snd (node g i j)) = Ok (linear a g i j) /\ xyindex2node rnd64 Y g (linear Y g i j) = Ok (node g i j).
Proof.
  intros A S FX FY O.
  assert (I : forall k, 0 <= k <= 2 ^ 31 -> rnd64 (IZR k) = IZR k).
  { intros k K. apply round_generic; [apply valid_rnd_N|]. replace (IZR k) with (F2R (Float radix2 k 0)) by (unfold F2R; cbn; ring).
    apply generic_format_FLT. exists (Float radix2 k 0); [reflexivity|cbn [Fnum]; change (Z.pow_pos radix2 53) with (2 ^ 53); rewrite Z.abs_eq by lia; change (2 ^ 31) with 2147483648 in K; cbn; lia|cbn; lia]. }
  assert (BX : nx g <= 2 ^ 31 /\ ny g <= 2 ^ 31) by (destruct S as (S1 & S2 & S3); nia).
  assert (EX : exact_axis rnd64 (x0 g) (dx g) (nx g)).
  { intros k K. destruct (FX k K) as (F1 & F2). split; [apply round_generic; [apply valid_rnd_N|exact F1]|]. split; [apply round_generic; [apply valid_rnd_N|exact F2]|apply I; lia]. }
  assert (EY : exact_axis rnd64 (y0 g) (dy g) (ny g)).
  { intros k K. destruct (FY k K) as (F1 & F2). split; [apply round_generic; [apply valid_rnd_N|exact F1]|]. split; [apply round_generic; [apply valid_rnd_N|exact F2]|apply I; lia]. }
  split; [apply line_node; assumption|apply node_of_linear_Y; assumption].
Qed.
Print Assumptions c23_binary64_partial.
(** otherwise a node can be taken for its neighbour: node 43 of the axis 0, 0.1, 0.2, ... *)
Theorem c23_binary64_refuted : let tenth := fdiv (of_Z 1) (of_Z 10) in index64 (of_Z 0) tenth (node64 (of_Z 0) tenth 43) = Some 42.
Proof. vm_compute. reflexivity. Qed.
Lemma half_format n : Z.abs n < 2 ^ 53 -> fmt64 (IZR n * (1 / 2)).
Proof. intros H. apply generic_format_FLT. exists (Float radix2 n (-1)); [unfold F2R; cbn; lra|exact H|cbn; lia]. Qed.
(** a half-degree grid is exact *)
Example c23_nonvacuous_binary64 : let g := mkG 721 361 (-180) (1/2) (-90) (1/2) in
  (forall k, 0 <= k <= nx g -> fmt64 (IZR k * dx g) /\ fmt64 (x0 g + IZR k * dx g)) /\ (forall k, 0 <= k <= ny g -> fmt64 (IZR k * dy g) /\ fmt64 (y0 g + IZR k * dy g)).
Proof.
  cbv zeta. cbn [nx ny x0 dx y0 dy]. split; intros k K; (split; [apply half_format; change (2 ^ 53) with 9007199254740992; lia|]).
  - replace (-180 + IZR k * (1 / 2))%R with (IZR (k - 360) * (1 / 2))%R by (rewrite minus_IZR; lra). apply half_format. change (2 ^ 53) with 9007199254740992. lia.
  - replace (-90 + IZR k * (1 / 2))%R with (IZR (k - 180) * (1 / 2))%R by (rewrite minus_IZR; lra). apply half_format. change (2 ^ 53) with 9007199254740992. lia.
Qed.
Example c23_nonvacuous : let g := mkG 721 361 (-180) (1/2) (-90) (1/2) in ascending g /\ small g /\ on_grid g 7 9 /\ on_grid g 720 360.
Proof. split; [split; cbn; lra|]. split; [unfold small; cbn; lia|]. split; (split; cbn; lia). Qed.

(** *** C24: the cell of a point *)
Theorem c24_cell g x y : ascending g -> exists i j, in_cell g i j x y /\ forall i' j', in_cell g i' j' x y -> i' = i /\ j' = j.
Proof. intros A. destruct (cell_exists g x y A) as (i & j & C). exists i, j. split; [exact C|]. intros i' j' C'. eapply cell_unique; eauto. Qed.
Print Assumptions c24_cell.
(** Y leading: the corners of the cell; on the grid unless in the last column or row *)
Theorem c24_corners_Y_partial g i j x y : ascending g -> small g -> in_cell g i j x y -> on_grid g i j ->
  surrounding_nodes id Y g x y = Ok (linear Y g i j, linear Y g (i + 1) j, linear Y g i (j + 1), linear Y g (i + 1) (j + 1)).
Proof. apply corners_Y. Qed.
Print Assumptions c24_corners_Y_partial.
(** X leading: the first three corners are right, the last is never the opposite corner of a proper cell *)
Theorem c24_corners_X_partial g i j x y : ascending g -> small g -> in_cell g i j x y -> on_grid g i j ->
  surrounding_nodes id X g x y = Ok (linear X g i j, linear X g (i + 1) j, linear X g i (j + 1), linear X g i (j + 2)).
Proof. apply corners_X. Qed.
Print Assumptions c24_corners_X_partial.
Theorem c24_corners_X_refuted g i j x y : ascending g -> small g -> 2 <= ny g -> in_cell g i j x y -> on_grid g i j ->
  forall bl br tl tr, surrounding_nodes id X g x y = Ok (bl, br, tl, tr) -> tr <> linear X g (i + 1) (j + 1).
Proof. intros A S N C O bl br tl tr E. rewrite (corners_X g i j x y A S C O) in E. injection E as <- <- <- <-. cbn [linear]. lia. Qed.
Print Assumptions c24_corners_X_refuted.
(** the last column counts as inside: its right corners are nodes of the next row or no nodes *)
Theorem c24_last_column_refuted : exists g x y, ascending g /\ small g /\ surrounding_nodes id Y g x y = Ok (2, 3, 5, 6) /\ nx g = 3 /\ ny g = 2 /\ linear Y g 0 1 = 3 /\ nx g * ny g <= 6.
Proof.
  set (g := mkG 3 2 0 1 0 1). exists g, (5 / 2)%R, 0%R. assert (A : ascending g) by (split; cbn; lra). assert (S : small g) by (unfold small; cbn; lia). split; [exact A|]. split; [exact S|].
  split; [rewrite (corners_Y g 2 0); [reflexivity|exact A|exact S|split; cbn; lra|split; cbn; lia]|]. repeat split; cbn; lia.
Qed.
(** outside: line returns -1, yet three node numbers are returned that look valid *)
Theorem c24_outside g a i j x y : ascending g -> small g -> in_cell g i j x y -> ~ on_grid g i j -> line id a g x y = Ok (-1).
Proof. intros. eapply corners_outside; eauto. Qed.
Print Assumptions c24_outside.
Theorem c24_outside_refuted g a i j x y : ascending g -> small g -> in_cell g i j x y -> ~ on_grid g i j ->
  surrounding_nodes id a g x y = Ok (match a with X => (-1, ny g - 1, 0, 1) | Y => (-1, 0, nx g - 1, nx g) end).
Proof. intros. eapply corners_outside; eauto. Qed.
Print Assumptions c24_outside_refuted.
(** an axis that does not ascend contains no point *)
Theorem c24_descending a g x y : (dx g <= 0)%R -> 0 <= nx g -> line id a g x y = Ok (-1).
Proof. apply descending. Qed.
Print Assumptions c24_descending.
Example c24_nonvacuous : let g := mkG 4 3 (-10) 2 5 3 in ascending g /\ small g /\ in_cell g 1 0 (-7.5) 7 /\ on_grid g 1 0 /\ in_cell g 4 0 (-1) 7 /\ ~ on_grid g 4 0.
Proof. cbv zeta. split; [split; cbn; lra|]. split; [unfold small; cbn; lia|]. split; [split; cbn; lra|]. split; [split; cbn; lia|]. split; [split; cbn; lra|]. intros ((_ & H) & _). cbn in H. lia. Qed.
Print Assumptions c23_node_X_refuted.
Print Assumptions c23_large_refuted.
Print Assumptions c23_binary64_refuted.
Print Assumptions c24_last_column_refuted.
