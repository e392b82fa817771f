From Coq Require Import Ascii String Reals ZArith List Bool Lia Lra.
From Verif Require Import Base CString PyModel AodMergeSpec PyProofs TestSuiteSpec TestSuiteProofs Sp3Model Sp3Spec.
Import ListNotations.
Open Scope Z_scope.

Lemma startswith_ok a s : startswith a s = true <-> begins_with a s.
Proof.
  unfold startswith. rewrite text_eqb_eq. split.
  - intros E. exists (skipn (length a) s). rewrite E at 1. symmetry. apply firstn_skipn.
  - intros (r & ->). rewrite firstn_app, firstn_all, Nat.sub_diag. cbn [firstn]. symmetry. apply app_nil_r.
Qed.
Lemma startswith_not a s : ~ begins_with a s -> startswith a s = false.
Proof. intros N. destruct (startswith a s) eqn:E; [apply startswith_ok in E; contradiction|reflexivity]. Qed.
Lemma other_first c d r l : c <> d -> begins_with (c :: r) l -> forall q, ~ begins_with (d :: q) l.
Proof. intros N (x & ->) q (y & E). cbn in E. congruence. Qed.

Section P.
  Variable fl : list Z -> option R.
  Variable date : list Z -> R -> py R.
  Variable sat : list Z.
  Notation ex := (extract fl date sat).
  Lemma each_ints ws ns : Forall2 decimal_text ws ns -> each parse_int ws = Val ns.
  Proof.
    induction 1 as [|w n ws ns D _ IH]; [reflexivity|]. cbn [each]. assert (E : parse_int w = Some n) by (rewrite <- (parse_decimal w n [] [] D (Forall_nil _) (Forall_nil _)); cbn [app]; rewrite app_nil_r; reflexivity).
    rewrite E. cbn [ofopt pbind]. rewrite IH. reflexivity.
  Qed.
  Lemma epoch_ok l t : epoch_line fl date l t -> epoch_of fl date l = Val t.
  Proof.
    intros (_ & w0 & ws & w & more & ns & s & W & L & D & E & F). apply words_complete in W. unfold epoch_of. rewrite W.
    assert (N : nth_error (w0 :: ws ++ w :: more) 6 = Some w) by (change (nth_error (ws ++ w :: more) 5 = Some w); rewrite nth_error_app2 by lia; rewrite L; reflexivity). rewrite N. cbn [skipn].
    rewrite firstn_app, L. replace (firstn 5 ws) with ws by (symmetry; apply firstn_all2; lia). cbn [Nat.sub firstn]. rewrite app_nil_r, (each_ints ws ns D). cbn [ofopt pbind]. rewrite E. exact F.
  Qed.
  Lemma three_ok c k k' l v : k' = k -> triple_line fl sat c k l v -> three fl k' l = Val v.
  Proof.
    intros -> (_ & w0 & a & b & d & more & x & y & z & W & A & B & D & ->). apply words_complete in W. unfold three. rewrite W. cbn [skipn firstn each]. rewrite A, B, D. cbn [ofopt pbind]. rewrite (Rmult_comm x), (Rmult_comm y), (Rmult_comm z). reflexivity.
  Qed.
  Lemma ex_epoch l t r t0 p0 : epoch_line fl date l t -> ex (l :: r) t0 p0 = ex r (Some t) p0.
  Proof. intros E. cbn [extract]. rewrite (proj2 (startswith_ok _ _) (proj1 E)), (epoch_ok l t E). reflexivity. Qed.
  Lemma ex_position l v r t0 p0 : position_line fl sat l v -> ex (l :: r) t0 p0 = ex r t0 (Some v).
  Proof.
    intros E. cbn [extract]. rewrite (startswith_not (chars "* ")) by exact (other_first 80 42 sat l ltac:(lia) (proj1 E) _). rewrite (proj2 (startswith_ok (chars "P" ++ sat) l) (proj1 E)), (three_ok 80 1000 1000 l v eq_refl E). reflexivity.
  Qed.
  Lemma ex_velocity l v r t0 p0 : velocity_line fl sat l v -> ex (l :: r) t0 p0 = match t0, p0 with Some t, Some p => let* es := ex r t0 p0 in Val ((t, p, v) :: es) | _, _ => Raise NameError end.
  Proof.
    intros E. cbn [extract]. rewrite (startswith_not (chars "* ")) by exact (other_first 86 42 sat l ltac:(lia) (proj1 E) _). rewrite (startswith_not (chars "P" ++ sat)) by exact (other_first 86 80 sat l ltac:(lia) (proj1 E) _).
    rewrite (proj2 (startswith_ok (chars "V" ++ sat) l) (proj1 E)), (three_ok 86 (1 / 10) 0.1 l v ltac:(lra) E). reflexivity.
  Qed.
  Lemma ex_others a r t0 p0 : Forall (other_line sat) a -> ex (a ++ r) t0 p0 = ex r t0 p0.
  Proof.
    induction 1 as [|l a (A & B & C) _ IH]; [reflexivity|]. cbn [app extract]. rewrite (startswith_not _ _ A), (startswith_not (chars "P" ++ sat) l B), (startswith_not (chars "V" ++ sat) l C). exact IH.
  Qed.
  Lemma ex_epochs ls sts : epochs fl date sat ls sts -> forall t0 p0, ex ls t0 p0 = Val sts.
  Proof.
    induction 1 as [|e t a p x b v u c r sts E A P B V C _ IH|e t a r sts E A _ IH]; intros t0 p0; [reflexivity| |]; cbn [app].
    - rewrite (ex_epoch e t _ _ _ E), ex_others, (ex_position p x _ _ _ P), ex_others, (ex_velocity v u _ _ _ V), ex_others, IH by assumption. reflexivity.
    - rewrite (ex_epoch e t _ _ _ E), ex_others by assumption. apply IH.
  Qed.
End P.
Lemma upper_capitals s : capitals s -> upper s = s.
Proof. induction 1 as [|c s N _ IH]; [reflexivity|]. unfold lower in N. cbn [upper map]. fold (upper s). rewrite IH. destruct (97 <=? c) eqn:A; [|reflexivity]. destruct (c <=? 122) eqn:B; [|reflexivity]. apply Z.leb_le in A, B. lia. Qed.
Lemma upper_same a b : Forall2 same_letter a b -> upper a = upper b.
Proof.
  induction 1 as [|c d a b S _ IH]; [reflexivity|]. cbn [upper map]. fold (upper a) (upper b). rewrite IH. f_equal. unfold same_letter, lower in S.
  destruct (Z.leb_spec 97 c), (Z.leb_spec c 122), (Z.leb_spec 97 d), (Z.leb_spec d 122); cbn [andb]; lia.
Qed.
