From Coq Require Import Reals ZArith List Bool Lia Lra SpecFloat.
From Verif Require Import Base Float64 GridModel GridSpec.
Import ListNotations.
Open Scope Z_scope.

Lemma floor_unique r n : (IZR n <= r < IZR n + 1)%R -> floor r = n.
Proof. intros (A & B). unfold floor. rewrite <- (tech_up r (n + 1)); [lia| |]; rewrite plus_IZR; lra. Qed.
Lemma floor_spec r : (IZR (floor r) <= r < IZR (floor r) + 1)%R.
Proof. unfold floor. destruct (archimed r). rewrite minus_IZR. lra. Qed.
Lemma Rleb_true a b : Rleb a b = true <-> (a <= b)%R.
Proof. unfold Rleb. destruct (Rle_dec a b); split; auto; discriminate || contradiction. Qed.
Lemma Rltb_true a b : Rltb a b = true <-> (a < b)%R.
Proof. unfold Rltb. destruct (Rlt_dec a b); split; auto; discriminate || contradiction. Qed.
Lemma as_int_ok n : - 2 ^ 31 <= n <= 2 ^ 31 - 1 -> as_int n = Ok n.
Proof. intros H. unfold as_int, int_ok. replace (_ && _) with true; [reflexivity|]. symmetry. apply andb_true_iff. rewrite !Z.leb_le. exact H. Qed.

(** one axis with exact nodes *)
Definition exact_axis (rnd : R -> R) (start step : R) (n : Z) : Prop :=
  forall i, 0 <= i <= n -> rnd (IZR i * step)%R = (IZR i * step)%R /\ rnd (start + IZR i * step)%R = (start + IZR i * step)%R /\ rnd (IZR i) = IZR i.
Lemma axis_index rnd start step n i : exact_axis rnd start step n -> (0 < step)%R -> 0 <= i < n ->
  floor (rnd (rnd ((start + IZR i * step) - start) / step)%R) = i.
Proof.
  intros E P H. destruct (E i ltac:(lia)) as (E1 & _ & E3). replace (start + IZR i * step - start)%R with (IZR i * step)%R by ring. rewrite E1.
  replace (IZR i * step / step)%R with (IZR i) by (field; lra). rewrite E3. apply floor_unique. lra.
Qed.
Lemma axis_in rnd start step n i : exact_axis rnd start step n -> (0 < step)%R -> 0 <= i < n ->
  (start <= start + IZR i * step < rnd (start + rnd (IZR n * step)))%R.
Proof.
  intros E P H. destruct (E n ltac:(lia)) as (E1 & E2 & _). rewrite E1, E2. assert (0 <= IZR i)%R by (apply IZR_le; lia). assert (IZR i < IZR n)%R by (apply IZR_lt; lia). split; [nra|nra].
Qed.

Section Exact.
  Variable rnd : R -> R.
  Variable g : grid.
  Hypothesis EX : exact_axis rnd (x0 g) (dx g) (nx g).
  Hypothesis EY : exact_axis rnd (y0 g) (dy g) (ny g).
  Hypothesis A : ascending g.
  Hypothesis S : small g.

  Lemma at_node_exact i j : on_grid g i j -> at_node rnd g i j = node g i j.
  Proof.
    intros (Hi & Hj). unfold at_node, node. destruct (EX i ltac:(lia)) as (E1 & E2 & _). destruct (EY j ltac:(lia)) as (F1 & F2 & _).
    rewrite E1, F1. rewrite (Rplus_comm _ (x0 g)), (Rplus_comm _ (y0 g)), E2, F2. reflexivity.
  Qed.
  Lemma linear_range a i j : on_grid g i j -> 0 <= linear a g i j < nx g * ny g.
  Proof. intros (Hi & Hj). destruct a; cbn [linear]; nia. Qed.
  Lemma linear_inj a i j i' j' : on_grid g i j -> on_grid g i' j' -> linear a g i j = linear a g i' j' -> i = i' /\ j = j'.
  Proof.
    intros (Hi & Hj) (Hi' & Hj') E. destruct a; cbn [linear] in E.
    - assert (i = i') by nia. subst. split; [reflexivity|lia].
    - assert (j = j') by nia. subst. split; [lia|reflexivity].
  Qed.
  Lemma line_node a i j : on_grid g i j -> line rnd a g (fst (node g i j)) (snd (node g i j)) = Ok (linear a g i j).
  Proof.
    intros O. pose proof O as (Hi & Hj). destruct A as (A1 & A2). pose proof (linear_range a i j O) as LR. destruct S as (S1 & S2 & S3). unfold line, node. cbn [fst snd].
    unfold out_x, out_y, xstop, ystop.
    destruct (axis_in _ _ _ _ _ EX A1 Hi) as (B1 & B2). destruct (axis_in _ _ _ _ _ EY A2 Hj) as (C1 & C2).
    apply Rleb_true in B1, C1. apply Rltb_true in B2, C2. rewrite B1, B2, C1, C2. cbn [andb negb orb].
    unfold xyindex, xindex, yindex. rewrite (axis_index _ _ _ _ _ EX A1 Hi), (axis_index _ _ _ _ _ EY A2 Hj).
    destruct a; cbn [linear] in *; rewrite as_int_ok by nia; cbn [bind]; apply as_int_ok; lia.
  Qed.
  Lemma node_of_linear_Y i j : on_grid g i j -> xyindex2node rnd Y g (linear Y g i j) = Ok (node g i j).
  Proof.
    intros O. pose proof O as (Hi & Hj). destruct S as (S1 & S2 & S3). unfold xyindex2node, linear. destruct (Z.eqb_spec (nx g) 0); [lia|]. cbv zeta.
    assert (Q : Z.quot (j * nx g + i) (nx g) = j) by (rewrite Z.quot_div_nonneg by nia; rewrite Z.div_add_l by lia; rewrite Z.div_small by lia; lia).
    rewrite Q. replace (j * nx g + i - j * nx g) with i by lia. rewrite at_node_exact by exact O. reflexivity.
  Qed.
  (** what the other order gives: the second number is off by i (ny - nx) *)
  Lemma node_of_linear_X i j : on_grid g i j -> xyindex2node rnd X g (linear X g i j) = Ok (at_node rnd g i (j + i * (ny g - nx g))).
  Proof.
    intros O. pose proof O as (Hi & Hj). destruct S as (S1 & S2 & S3). unfold xyindex2node, linear. destruct (Z.eqb_spec (ny g) 0); [lia|]. cbv zeta.
    assert (Q : Z.quot (i * ny g + j) (ny g) = i) by (rewrite Z.quot_div_nonneg by nia; rewrite Z.div_add_l by lia; rewrite Z.div_small by lia; lia).
    rewrite Q. f_equal. f_equal. lia.
  Qed.
End Exact.

Lemma exact_id start step n : exact_axis (fun r => r) start step n.
Proof. intros i _. repeat split. Qed.

(** points in exact arithmetic *)
Definition id (r : R) : R := r.
Lemma axis_cell start step x i : (0 < step)%R -> (start + IZR i * step <= x < start + IZR (i + 1) * step)%R <-> floor ((x - start) / step) = i.
Proof.
  intros P. assert (E : forall r, ((x - start) / step < r <-> x < start + r * step)%R).
  { intros r. split; intros H.
    - apply Rmult_lt_compat_r with (r := step) in H; [|exact P]. unfold Rdiv in H. rewrite Rmult_assoc, Rinv_l in H by lra. lra.
    - apply Rmult_lt_reg_r with (r := step); [exact P|]. unfold Rdiv. rewrite Rmult_assoc, Rinv_l by lra. lra. }
  pose proof (floor_spec ((x - start) / step)) as (F1 & F2). split.
  - intros (H1 & H2). apply floor_unique. split.
    + destruct (Rle_or_lt (IZR i) ((x - start) / step)) as [|N]; [assumption|]. apply E in N. lra.
    + apply E. rewrite plus_IZR in H2. lra.
  - intros <-. split.
    + destruct (Rle_or_lt (start + IZR (floor ((x - start) / step)) * step) x) as [|N]; [assumption|]. apply E in N. lra.
    + apply E. rewrite plus_IZR. lra.
Qed.
Lemma cell_index g i j x y : ascending g -> in_cell g i j x y <-> xindex id g x = i /\ yindex id g y = j.
Proof. intros (P & Q). unfold in_cell, xindex, yindex, id. rewrite !axis_cell by assumption. tauto. Qed.
Lemma cell_exists g x y : ascending g -> exists i j, in_cell g i j x y.
Proof. intros A. exists (xindex id g x), (yindex id g y). apply cell_index; auto. Qed.
Lemma cell_unique g i j i' j' x y : ascending g -> in_cell g i j x y -> in_cell g i' j' x y -> i = i' /\ j = j'.
Proof. intros A H H'. apply (cell_index g i j x y A) in H as (<- & <-). apply (cell_index g i' j' x y A) in H' as (<- & <-). auto. Qed.

(** inside: in a cell whose lower left node is on the grid *)
Lemma axis_inside start step n x i : (0 < step)%R -> (start + IZR i * step <= x < start + IZR (i + 1) * step)%R ->
  ((start <= x < start + IZR n * step)%R <-> 0 <= i < n).
Proof.
  intros P (H1 & H2). split.
  - intros (A & B). split.
    + assert (IZR 0 < IZR (i + 1))%R; [|apply lt_IZR in H; lia]. destruct (Rlt_or_le 0 (IZR (i + 1))) as [|N]; [assumption|]. assert (IZR (i + 1) * step <= 0)%R by nra. lra.
    + apply lt_IZR. destruct (Rlt_or_le (IZR i) (IZR n)) as [|N]; [assumption|]. assert (IZR n * step <= IZR i * step)%R by nra. lra.
  - intros (A & B). assert (0 <= IZR i)%R by (apply IZR_le; lia). assert (IZR (i + 1) <= IZR n)%R by (apply IZR_le; lia). split; [nra|]. assert (IZR (i + 1) * step <= IZR n * step)%R by nra. lra.
Qed.
Lemma line_cell a g i j x y : ascending g -> small g -> in_cell g i j x y ->
  line id a g x y = Ok (if (0 <=? i) && (i <? nx g) && ((0 <=? j) && (j <? ny g)) then linear a g i j else -1).
Proof.
  intros A S C. pose proof C as (Cx & Cy). pose proof A as (P & Q). destruct (proj1 (cell_index g i j x y A) C) as (Ei & Ej).
  pose proof (axis_inside (x0 g) (dx g) (nx g) x i P Cx) as IX. pose proof (axis_inside (y0 g) (dy g) (ny g) y j Q Cy) as IY.
  assert (HX : out_x id g x = negb ((0 <=? i) && (i <? nx g))).
  { unfold out_x, xstop, id. f_equal. apply eq_true_iff_eq. rewrite !andb_true_iff, Rleb_true, Rltb_true, Z.leb_le, Z.ltb_lt. exact IX. }
  assert (HY : out_y id g y = negb ((0 <=? j) && (j <? ny g))).
  { unfold out_y, ystop, id. f_equal. apply eq_true_iff_eq. rewrite !andb_true_iff, Rleb_true, Rltb_true, Z.leb_le, Z.ltb_lt. exact IY. }
  unfold line. rewrite HX, HY. destruct (_ && _) eqn:E1; [|reflexivity]. destruct ((0 <=? j) && (j <? ny g)) eqn:E2; [|reflexivity]. cbn [negb orb andb].
  apply andb_true_iff in E1 as (E1 & E1'), E2 as (E2 & E2'). apply Z.leb_le in E1, E2. apply Z.ltb_lt in E1', E2'.
  unfold xyindex. rewrite Ei, Ej. destruct S as (S1 & S2 & S3). assert (O : on_grid g i j) by (split; lia). pose proof (linear_range g a i j O) as LR.
  destruct a; cbn [linear] in *; rewrite as_int_ok by nia; cbn [bind]; apply as_int_ok; lia.
Qed.
Lemma corners_Y g i j x y : ascending g -> small g -> in_cell g i j x y -> on_grid g i j ->
  surrounding_nodes id Y g x y = Ok (linear Y g i j, linear Y g (i + 1) j, linear Y g i (j + 1), linear Y g (i + 1) (j + 1)).
Proof.
  intros A S C O. pose proof O as ((H1 & H2) & (H3 & H4)). unfold surrounding_nodes. rewrite (line_cell Y g i j x y A S C).
  replace ((0 <=? i) && (i <? nx g) && ((0 <=? j) && (j <? ny g))) with true by (symmetry; rewrite !andb_true_iff, !Z.leb_le, !Z.ltb_lt; lia). cbn [bind].
  pose proof (linear_range g Y i j O) as LR. destruct (Z.ltb_spec (linear Y g i j) 0); [lia|]. unfold corners, linear. f_equal. repeat (apply f_equal2; [|lia]). lia.
Qed.
Lemma corners_X g i j x y : ascending g -> small g -> in_cell g i j x y -> on_grid g i j ->
  surrounding_nodes id X g x y = Ok (linear X g i j, linear X g (i + 1) j, linear X g i (j + 1), linear X g i (j + 2)).
Proof.
  intros A S C O. pose proof O as ((H1 & H2) & (H3 & H4)). unfold surrounding_nodes. rewrite (line_cell X g i j x y A S C).
  replace ((0 <=? i) && (i <? nx g) && ((0 <=? j) && (j <? ny g))) with true by (symmetry; rewrite !andb_true_iff, !Z.leb_le, !Z.ltb_lt; lia). cbn [bind].
  pose proof (linear_range g X i j O) as LR. destruct (Z.ltb_spec (linear X g i j) 0); [lia|]. unfold corners, linear. f_equal. repeat (apply f_equal2; [|lia]). lia.
Qed.
Lemma corners_outside a g i j x y : ascending g -> small g -> in_cell g i j x y -> ~ on_grid g i j ->
  line id a g x y = Ok (-1) /\ surrounding_nodes id a g x y = Ok (match a with X => (-1, ny g - 1, 0, 1) | Y => (-1, 0, nx g - 1, nx g) end).
Proof.
  intros A S C O. unfold surrounding_nodes. rewrite (line_cell a g i j x y A S C).
  replace ((0 <=? i) && (i <? nx g) && ((0 <=? j) && (j <? ny g))) with false.
  2:{ symmetry. apply not_true_iff_false. rewrite !andb_true_iff, !Z.leb_le, !Z.ltb_lt. intros ((? & ?) & (? & ?)). apply O. split; lia. }
  split; [reflexivity|]. cbn [bind]. unfold corners. destruct a; cbn [Z.ltb Z.compare]; f_equal; repeat (apply f_equal2; [|lia]); lia.
Qed.
Lemma descending a g x y : (dx g <= 0)%R -> 0 <= nx g -> line id a g x y = Ok (-1).
Proof.
  intros D N. unfold line, out_x, xstop, id. destruct (Rleb (x0 g) x) eqn:E1; [|reflexivity]. destruct (Rltb x (x0 g + IZR (nx g) * dx g)) eqn:E2; [|reflexivity].
  apply Rleb_true in E1. apply Rltb_true in E2. exfalso. assert (0 <= IZR (nx g))%R by (apply IZR_le; lia). nra.
Qed.
