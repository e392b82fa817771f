(** Real polynomials as functions: degree bounds, roots, Lagrange interpolation. *)
From Coq Require Import Reals List Lia Lra ZArith.
Import ListNotations.
Open Scope R_scope.

(** c0 + c1 x + c2 x^2 + ... *)
Definition peval (c : list R) (x : R) : R := fold_right (fun a acc => a + x * acc) 0 c.
(** polynomial function with at most n coefficients (degree below n) *)
Definition ispoly (n : nat) (f : R -> R) : Prop := exists c, (length c <= n)%nat /\ forall x, f x = peval c x.

Fixpoint padd (a b : list R) : list R :=
  match a, b with
  | [], _ => b
  | _, [] => a
  | x :: a', y :: b' => (x + y) :: padd a' b'
  end.
Lemma peval_add a b x : peval (padd a b) x = peval a x + peval b x.
Proof. revert b; induction a as [|u a IH]; intros [|v b]; simpl; try ring. rewrite IH. ring. Qed.
Lemma padd_length a b : length (padd a b) = Nat.max (length a) (length b).
Proof. revert b; induction a as [|u a IH]; intros [|v b]; simpl; auto. Qed.
Lemma peval_scale k c x : peval (map (Rmult k) c) x = k * peval c x.
Proof. induction c; simpl; [ring|]. rewrite IHc. ring. Qed.

Lemma ispoly_ext n f g : (forall x, f x = g x) -> ispoly n f -> ispoly n g.
Proof. intros E (c & L & H). exists c. split; [exact L|]. intros x. rewrite <- E. apply H. Qed.
Lemma ispoly_weaken n m f : (n <= m)%nat -> ispoly n f -> ispoly m f.
Proof. intros L (c & H & E). exists c. split; [lia|exact E]. Qed.
Lemma ispoly_zero n : ispoly n (fun _ => 0).
Proof. exists []. split; [simpl; lia|]. reflexivity. Qed.
Lemma ispoly_const k : ispoly 1 (fun _ => k).
Proof. exists [k]. split; [simpl; lia|]. intros. simpl. ring. Qed.
Lemma ispoly_add n f g : ispoly n f -> ispoly n g -> ispoly n (fun x => f x + g x).
Proof.
  intros (a & La & Ea) (b & Lb & Eb). exists (padd a b). split; [rewrite padd_length; lia|].
  intros x. rewrite peval_add, Ea, Eb. reflexivity.
Qed.
Lemma ispoly_scale n k f : ispoly n f -> ispoly n (fun x => k * f x).
Proof.
  intros (a & La & Ea). exists (map (Rmult k) a). split; [rewrite map_length; lia|]. intros x. rewrite peval_scale, Ea. reflexivity.
Qed.
Lemma ispoly_sub n f g : ispoly n f -> ispoly n g -> ispoly n (fun x => f x - g x).
Proof.
  intros Hf Hg. apply (ispoly_ext n (fun x => f x + (-1) * g x)); [intros; ring|]. apply ispoly_add; [exact Hf|]. apply ispoly_scale, Hg.
Qed.
Lemma ispoly_mulx n f : ispoly n f -> ispoly (S n) (fun x => x * f x).
Proof. intros (a & La & Ea). exists (0 :: a). split; [simpl; lia|]. intros x. simpl. rewrite Ea. ring. Qed.
Lemma ispoly_mul_linear n f a : ispoly n f -> ispoly (S n) (fun x => f x * (x - a)).
Proof.
  intros H. apply (ispoly_ext (S n) (fun x => x * f x + (- a) * f x)); [intros; ring|].
  apply ispoly_add; [apply ispoly_mulx, H|]. apply ispoly_scale. apply (ispoly_weaken n); [lia|exact H].
Qed.

(** division by x - a *)
Lemma ispoly_divide n f a : ispoly (S n) f -> exists q, ispoly n q /\ forall x, f x - f a = (x - a) * q x.
Proof.
  intros (c & L & E). assert (D : exists q, (length q <= length c - 1)%nat /\ forall x, peval c x - peval c a = (x - a) * peval q x).
  { clear L E. induction c as [|u c (q & Lq & Eq)].
    - exists []. split; [simpl; lia|]. intros. simpl. ring.
    - exists (padd c (map (Rmult a) q)). split; [rewrite padd_length, map_length; simpl; lia|].
      intros x. rewrite peval_add, peval_scale. simpl. specialize (Eq x).
      replace (u + x * peval c x - (u + a * peval c a)) with ((x - a) * peval c x + a * (peval c x - peval c a)) by ring.
      rewrite Eq. ring. }
  destruct D as (q & Lq & Eq). exists (peval q). split; [exists q; split; [lia|reflexivity]|]. intros x. rewrite !E. apply Eq.
Qed.

(** n distinct roots kill a polynomial of degree below n *)
Lemma ispoly_roots n f xs : ispoly n f -> NoDup xs -> (n <= length xs)%nat -> (forall x, In x xs -> f x = 0) -> forall x, f x = 0.
Proof.
  revert f xs; induction n as [|n IH]; intros f xs P ND L Z x.
  - destruct P as (c & Lc & Ec). destruct c; [|simpl in Lc; lia]. rewrite Ec. reflexivity.
  - destruct xs as [|a xs]; [simpl in L; lia|]. inversion ND; subst.
    destruct (ispoly_divide n f a P) as (q & Pq & Eq).
    assert (Za : f a = 0) by (apply Z; left; reflexivity).
    assert (Q : forall y, q y = 0).
    { apply (IH q xs Pq H2); [simpl in L; lia|]. intros y Hy. specialize (Eq y). rewrite Za, (Z y (or_intror Hy)) in Eq.
      assert (y - a <> 0) by (intros E; apply H1; replace a with y by lra; exact Hy).
      apply Rmult_eq_reg_l with (y - a); [lra|assumption]. }
    specialize (Eq x). rewrite Za, Q in Eq. lra.
Qed.

Lemma ispoly_unique n f g xs : ispoly n f -> ispoly n g -> NoDup xs -> (n <= length xs)%nat ->
  (forall x, In x xs -> f x = g x) -> forall x, f x = g x.
Proof.
  intros Pf Pg ND L E x. enough (f x - g x = 0) by lra.
  apply (ispoly_roots n (fun x => f x - g x) xs); auto; [apply ispoly_sub; assumption|]. intros y Hy. rewrite (E y Hy). ring.
Qed.

Lemma ispoly_fold_sum {X} n (g : X -> R -> R) (l : list X) f0 : ispoly n f0 -> (forall a, In a l -> ispoly n (g a)) ->
  ispoly n (fun x => fold_left (fun s a => s + g a x) l (f0 x)).
Proof.
  revert f0; induction l as [|a l IH]; intros f0 P H; simpl; [exact P|].
  apply (IH (fun x => f0 x + g a x)); [apply ispoly_add; [exact P|apply H; left; reflexivity]|]. intros b Hb. apply H. right. exact Hb.
Qed.
