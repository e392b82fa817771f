(** Outcomes of modelled C++ computations and list utilities. *)
From Coq Require Import ZArith List Bool Lia.
Import ListNotations.

(** Outcome of a C++ computation.  [UB]: undefined behaviour; [Abort]: a failing
    assert (NDEBUG is not defined) or an exception escaping a noexcept function;
    [Illegal]: the call does not compile / refers to an object that does not
    exist (it cannot be written by a user of the API). *)
Inductive res (T : Type) := Ok (t : T) | UB | Abort | Illegal.
Arguments Ok {T} _. Arguments UB {T}. Arguments Abort {T}. Arguments Illegal {T}.

Definition bind {T U} (r : res T) (f : T -> res U) : res U :=
  match r with Ok t => f t | UB => UB | Abort => Abort | Illegal => Illegal end.
Notation "x <- r ;; k" := (bind r (fun x => k)) (at level 61, r at next level, right associativity).
Notation "' p <- r ;; k" := (bind r (fun x => match x with p => k end))
  (at level 61, p pattern, r at next level, right associativity).

(** fold with early exit *)
Fixpoint fold_res {X S} (f : S -> X -> res S) (l : list X) (s : S) : res S :=
  match l with
  | [] => Ok s
  | x :: l' => s' <- f s x ;; fold_res f l' s'
  end.

(** 0, 1, ..., n-1 *)
Definition zrange (n : Z) : list Z := map Z.of_nat (seq 0 (Z.to_nat n)).
(** lo, ..., hi-1 *)
Definition zrange2 (lo hi : Z) : list Z := map (fun k => (lo + k)%Z) (zrange (hi - lo)).

(** list update (identity out of range) *)
Fixpoint upd {X} (l : list X) (n : nat) (x : X) : list X :=
  match l, n with
  | [], _ => []
  | _ :: t, O => x :: t
  | h :: t, S k => h :: upd t k x
  end.

Definition znth {X} (l : list X) (i : Z) : option X :=
  if (i <? 0)%Z then None else nth_error l (Z.to_nat i).

Lemma upd_length {X} (l : list X) n x : length (upd l n x) = length l.
Proof. revert n; induction l; destruct n; simpl; auto. Qed.

Lemma nth_error_upd {X} (l : list X) n m x :
  nth_error (upd l n x) m =
  if Nat.eqb m n then (if Nat.ltb n (length l) then Some x else None) else nth_error l m.
Proof.
  revert n m; induction l as [|a l IH]; intros n m; simpl.
  - destruct (Nat.eqb m n); destruct m; reflexivity.
  - destruct n, m; simpl; try reflexivity.
    rewrite IH. destruct (Nat.eqb m n); auto.
Qed.

Lemma nth_error_upd_eq {X} (l : list X) n x : (n < length l)%nat -> nth_error (upd l n x) n = Some x.
Proof.
  intros H. rewrite nth_error_upd, Nat.eqb_refl.
  destruct (Nat.ltb_spec n (length l)); [reflexivity|lia].
Qed.

Lemma nth_error_upd_ne {X} (l : list X) n m x : m <> n -> nth_error (upd l n x) m = nth_error l m.
Proof.
  intros H. rewrite nth_error_upd. destruct (Nat.eqb_spec m n); [contradiction|reflexivity].
Qed.

Lemma in_zrange n i : In i (zrange n) <-> (0 <= i < n)%Z.
Proof.
  unfold zrange. rewrite in_map_iff. split.
  - intros (k & <- & Hk). apply in_seq in Hk. lia.
  - intros H. exists (Z.to_nat i). split; [lia|]. apply in_seq. lia.
Qed.

Lemma NoDup_map_inj {X Y} (f : X -> Y) l :
  (forall a b, In a l -> In b l -> f a = f b -> a = b) -> NoDup l -> NoDup (map f l).
Proof.
  induction l as [|a l IH]; intros Hf Hn; [constructor|].
  inversion Hn; subst. simpl. constructor.
  - rewrite in_map_iff. intros (b & Hb & Hin).
    apply H1. rewrite <- (Hf b a); simpl; auto.
  - apply IH; auto. intros; apply Hf; simpl; auto.
Qed.

Lemma NoDup_zrange n : NoDup (zrange n).
Proof. apply NoDup_map_inj; [intros; lia | apply seq_NoDup]. Qed.

Lemma in_zrange2 lo hi i : In i (zrange2 lo hi) <-> (lo <= i < hi)%Z.
Proof.
  unfold zrange2. rewrite in_map_iff. split.
  - intros (k & <- & Hk). apply in_zrange in Hk. lia.
  - intros H. exists (i - lo)%Z. split; [lia|]. apply in_zrange. lia.
Qed.

Lemma NoDup_zrange2 lo hi : NoDup (zrange2 lo hi).
Proof. apply NoDup_map_inj; [intros; lia | apply NoDup_zrange]. Qed.

Lemma fold_res_app {X S} (f : S -> X -> res S) l1 l2 s :
  fold_res f (l1 ++ l2) s = bind (fold_res f l1 s) (fold_res f l2).
Proof.
  revert s; induction l1 as [|x l IH]; intros s; simpl; [reflexivity|].
  destruct (f s x); simpl; auto.
Qed.

Lemma fold_res_flat_map {X Y S} (f : S -> Y -> res S) (g : X -> list Y) l s :
  fold_res (fun s x => fold_res f (g x) s) l s = fold_res f (flat_map g l) s.
Proof.
  revert s; induction l as [|x l IH]; intros s; simpl; [reflexivity|].
  rewrite fold_res_app. destruct (fold_res f (g x) s); simpl; auto.
Qed.

Lemma fold_res_map {X Y S} (f : S -> Y -> res S) (g : X -> Y) l s :
  fold_res f (map g l) s = fold_res (fun s x => f s (g x)) l s.
Proof.
  revert s; induction l as [|x l IH]; intros s; simpl; [reflexivity|].
  destruct (f s (g x)); simpl; auto.
Qed.

Lemma fold_res_ext {X S} (f g : S -> X -> res S) l s :
  (forall s x, In x l -> f s x = g s x) -> fold_res f l s = fold_res g l s.
Proof.
  revert s; induction l as [|x l IH]; intros s H; simpl; [reflexivity|].
  rewrite H by (left; reflexivity).
  destruct (g s x); simpl; auto. apply IH. intros; apply H; right; assumption.
Qed.

Lemma znth_Some {X} (l : list X) i x : znth l i = Some x -> (0 <= i < Z.of_nat (length l))%Z.
Proof.
  unfold znth. destruct (Z.ltb_spec i 0); [discriminate|]. intros E.
  assert (nth_error l (Z.to_nat i) <> None) by congruence.
  apply nth_error_Some in H0. lia.
Qed.

Lemma znth_in_range {X} (l : list X) i : (0 <= i < Z.of_nat (length l))%Z -> exists x, znth l i = Some x.
Proof.
  intros H. unfold znth. destruct (Z.ltb_spec i 0); [lia|].
  destruct (nth_error l (Z.to_nat i)) eqn:E; [eauto|].
  apply nth_error_None in E. lia.
Qed.
