From Coq Require Import Reals ZArith List Bool Lia Lra.
From Verif Require Import Base Poly EopModel EopSpec EopProofs.
Import ListNotations.
Open Scope R_scope.

Section Eop.
  Context {T : Type}.
  Variable ltb : T -> T -> bool.
  Variable days : T -> R.
  Variable leap : T -> R.
  Hypothesis ltb_days : forall a b, ltb a b = true <-> days a < days b.
  Notation rec := (rec T). Notation rt := (rt T).

  Lemma cut_prior l t b a r0 : sorted days l -> cut days (r0 :: l) t b a -> (b = [] <-> days t < days (rt r0)).
  Proof.
    intros S (E & B & A). split.
    - intros ->. simpl in E. subst a. inversion A; assumption.
    - intros H. destruct b as [|r b]; [reflexivity|]. simpl in E. injection E as <- _. inversion B; subst. lra.
  Qed.
  Lemma cut_later l t b a rl : cut days (l ++ [rl]) t b a -> (a = [] <-> days (rt rl) <= days t).
  Proof.
    intros (E & B & A). split.
    - intros ->. rewrite app_nil_r in E. subst b. apply Forall_app in B as (_ & B). inversion B; assumption.
    - intros H. destruct a as [|r a] using rev_ind; [reflexivity|]. rewrite app_assoc in E. apply app_inj_tail in E as (_ & <-).
      apply Forall_app in A as (_ & A). inversion A; subst. lra.
  Qed.

  (** the status, as a function of the cut *)
  Definition status_spec (b a : list rec) (d : Z) (st : status) : Prop :=
    (st = Prior <-> b = []) /\ (st = Later <-> a = []) /\
    (st = Linear <-> b <> [] /\ a <> [] /\ usable b a d = 1%nat) /\
    (st = Requested <-> b <> [] /\ a <> [] /\ usable b a d <> 1%nat /\ (2 * Z.of_nat (usable b a d) = d + 1)%Z) /\
    (st = Decreased <-> b <> [] /\ a <> [] /\ usable b a d <> 1%nat /\ (2 * Z.of_nat (usable b a d) <> d + 1)%Z).
  Lemma status_total s t e d b a : sorted days (mvec T s) -> ready s -> (1 <= d <= 9)%Z -> mvec T s <> [] -> cut days (mvec T s) t b a ->
    exists st r s', interpolate T ltb days leap s t e d = Ok (st, r, s') /\ status_spec b a d st.
  Proof.
    intros S Rd D N C. destruct b as [|r0 b].
    - destruct a as [|q a]; [destruct C as (E & _); simpl in E; congruence|].
      destruct (interpolate_prior ltb days leap ltb_days s t e d (q :: a) S Rd) as (r & s' & E & _); [lia|exact C|discriminate|].
      exists Prior, r, s'. split; [exact E|]. unfold status_spec. intuition (congruence || discriminate).
    - destruct a as [|q a].
      + destruct (interpolate_later ltb days leap ltb_days s t e d (r0 :: b) S Rd) as (r & s' & E & _); [lia|exact C|discriminate|].
        exists Later, r, s'. split; [exact E|]. unfold status_spec. intuition (congruence || discriminate).
      + destruct (interpolate_inside ltb days leap ltb_days s t e d (r0 :: b) (q :: a) S Rd D C) as (r & s' & E & _); [discriminate..|].
        eexists _, r, s'. split; [exact E|]. unfold status_spec.
        destruct (Nat.eqb_spec (usable (r0 :: b) (q :: a) d) 1); [|destruct (Z.eqb_spec (2 * Z.of_nat (usable (r0 :: b) (q :: a) d)) (d + 1))];
          intuition (congruence || discriminate).
  Qed.

  Lemma status_bounds s t e d st r s' r0 l l' rl : interpolate T ltb days leap s t e d = Ok (st, r, s') -> sorted days (mvec T s) -> ready s -> (1 <= d <= 9)%Z ->
    mvec T s = r0 :: l -> mvec T s = l' ++ [rl] ->
    (st = Prior <-> days t < days (rt r0)) /\ (st = Later <-> days (rt rl) <= days t).
  Proof.
    intros H S Rd D E0 E1. destruct (cut_exists days (mvec T s) t S) as (b & a & C).
    destruct (status_total s t e d b a S Rd D) as (st' & r' & s'' & H' & P1 & P2 & _); [rewrite E0; discriminate|exact C|].
    rewrite H in H'. injection H' as <- <- <-. split.
    - rewrite P1. rewrite E0 in C, S. destruct S as (_ & S). apply (cut_prior l t b a r0 S C).
    - rewrite P2. rewrite E1 in C. apply (cut_later l' t b a rl C).
  Qed.

  (** even degrees are never reported as requested *)
  Lemma even_never_requested s t e d st r s' : sorted days (mvec T s) -> ready s -> (1 <= d <= 9)%Z -> mvec T s <> [] -> Z.even d = true ->
    interpolate T ltb days leap s t e d = Ok (st, r, s') -> st <> Requested.
  Proof.
    intros S Rd D N Ev H Q. destruct (cut_exists days (mvec T s) t S) as (b & a & C).
    destruct (status_total s t e d b a S Rd D N C) as (st' & r' & s'' & H' & _ & _ & _ & P & _).
    rewrite H in H'. injection H' as <- <- <-. apply P in Q. destruct Q as (X1 & X2 & X3 & Q). apply Z.even_spec in Ev as (k & ->). lia.
  Qed.

  (** samples of polynomials are reproduced *)
  Lemma interpolates_poly nodes v x y f n : interpolates days nodes v x y -> ispoly n f -> (n <= length nodes)%nat ->
    (forall r, In r nodes -> v r = f (days (rt r))) -> y = f x.
  Proof. intros (_ & U) P L H. apply U; [apply (ispoly_weaken n); assumption|]. intros r Hr. symmetry. apply H, Hr. Qed.
  Lemma interpolates_node nodes v x y r : interpolates days nodes v x y -> In r nodes -> days (rt r) = x -> y = v r.
  Proof. intros ((f & P & Q) & U) I <-. rewrite (U f P Q). apply Q, I. Qed.

  Lemma nearest_incl (b a : list rec) n r : In r (nearest b a n) -> In r (b ++ a).
  Proof.
    unfold nearest. intros H. apply in_app_or in H as [H|H]; apply in_or_app.
    - left. rewrite <- (firstn_skipn (length b - n) b). apply in_or_app. right. exact H.
    - right. rewrite <- (firstn_skipn n a). apply in_or_app. left. exact H.
  Qed.

  (** at the epoch of a record that is not the last *)
  Lemma interpolate_node s t e d l1 r0 q l2 : sorted days (mvec T s) -> ready s -> (1 <= d <= 9)%Z -> mvec T s = l1 ++ r0 :: q :: l2 -> days (rt r0) = days t ->
    exists st r s', interpolate T ltb days leap s t e d = Ok (st, r, s') /\ rt r = t /\
      xp T r = xp T r0 /\ yp T r = yp T r0 /\ dut T r = dut T r0 - rdat T r0 + leap t /\ lod T r = lod T r0 /\ dX T r = dX T r0 /\ dY T r = dY T r0.
  Proof.
    intros S Rd D E Et.
    assert (C : cut days (mvec T s) t (l1 ++ [r0]) (q :: l2)).
    { rewrite E in *. apply sorted_app in S as (S1 & (F2 & F3 & S2) & F1). split; [rewrite <- app_assoc; reflexivity|]. split.
      - apply Forall_app. split; [|constructor; [lra|constructor]]. rewrite Forall_forall in *. intros x Hx. specialize (F1 x Hx). inversion F1; subst. lra.
      - rewrite <- Et. exact F2. }
    destruct (interpolate_inside ltb days leap ltb_days s t e d (l1 ++ [r0]) (q :: l2) S Rd D C) as (r & s' & H & I & Hr & _ & L1 & _); [destruct l1; discriminate|discriminate|].
    eexists _, r, s'. split; [exact H|]. split; [exact Hr|].
    set (n := usable _ _ _) in *.
    assert (Hn : In r0 (nearest (l1 ++ [r0]) (q :: l2) n)).
    { unfold nearest. apply in_or_app. left. rewrite skipn_app. apply in_or_app. right. rewrite app_length. cbn [length].
      replace (length l1 + 1 - n - length l1)%nat with O by lia. left. reflexivity. }
    destruct I as (I1 & I2 & I3 & I4 & I5 & I6).
    rewrite (interpolates_node _ _ _ _ _ I1 Hn Et), (interpolates_node _ _ _ _ _ I2 Hn Et), (interpolates_node _ _ _ _ _ I4 Hn Et),
      (interpolates_node _ _ _ _ _ I5 Hn Et), (interpolates_node _ _ _ _ _ I6 Hn Et).
    pose proof (interpolates_node _ _ _ _ _ I3 Hn Et) as U. simpl in U. repeat split. lra.
  Qed.

  (** a polynomial sampled by one parameter, all records *)
  Lemma interpolate_poly s t e d b a (v : rec -> R) f : sorted days (mvec T s) -> ready s -> (1 <= d <= 9)%Z -> cut days (mvec T s) t b a -> b <> [] -> a <> [] ->
    ispoly (2 * usable b a d) f -> (forall r, In r (mvec T s) -> v r = f (days (rt r))) ->
    In v [xp T; yp T; lod T; dX T; dY T] ->
    exists st r s', interpolate T ltb days leap s t e d = Ok (st, r, s') /\ v r = f (days t).
  Proof.
    intros S Rd D C Nb Na P H I.
    destruct (interpolate_inside ltb days leap ltb_days s t e d b a S Rd D C Nb Na) as (r & s' & E & J & _ & _ & _ & L & _).
    eexists _, r, s'. split; [exact E|]. set (n := usable b a d) in *.
    assert (X : interpolates days (nearest b a n) v (days t) (v r)).
    { destruct J as (J1 & J2 & J3 & J4 & J5 & J6). simpl in I. intuition subst; assumption. }
    apply (interpolates_poly _ _ _ _ f (2 * n) X P); [lia|]. intros q Hq. apply H. destruct C as (-> & _). apply (nearest_incl _ _ n), Hq.
  Qed.
  Lemma interpolate_poly_dut s t e d b a f : sorted days (mvec T s) -> ready s -> (1 <= d <= 9)%Z -> cut days (mvec T s) t b a -> b <> [] -> a <> [] ->
    ispoly (2 * usable b a d) f -> (forall r, In r (mvec T s) -> dut T r - rdat T r = f (days (rt r))) ->
    exists st r s', interpolate T ltb days leap s t e d = Ok (st, r, s') /\ dut T r = f (days t) + leap t.
  Proof.
    intros S Rd D C Nb Na P H.
    destruct (interpolate_inside ltb days leap ltb_days s t e d b a S Rd D C Nb Na) as (r & s' & E & J & _ & _ & _ & L & _).
    eexists _, r, s'. split; [exact E|]. set (n := usable b a d) in *. destruct J as (_ & _ & J & _).
    enough (dut T r - leap t = f (days t)) by lra.
    apply (interpolates_poly _ _ _ _ f (2 * n) J P); [lia|]. intros q Hq. apply H. destruct C as (-> & _). apply (nearest_incl _ _ n), Hq.
  Qed.

  (** ** histories of queries *)
  Inductive reaches : series T -> series T -> Prop :=
  | re_refl s : reaches s s
  | re_interpolate s t e d st r s1 s2 : interpolate T ltb days leap s t e d = Ok (st, r, s1) -> reaches s1 s2 -> reaches s s2
  | re_approx s t st v s1 s2 : approx_dut1 T ltb days leap s t = Ok (st, v, s1) -> reaches s1 s2 -> reaches s s2.
  Lemma reaches_same s s' : reaches s s' -> ready s -> ready s' /\ mvec T s' = mvec T s.
  Proof.
    induction 1; intros Rd; [split; [exact Rd|reflexivity]| |].
    - apply interpolate_ready in H as (R1 & M1); [|exact Rd]. destruct (IHreaches R1) as (R2 & M2). split; [exact R2|congruence].
    - apply approx_ready in H as (R1 & M1); [|exact Rd]. destruct (IHreaches R1) as (R2 & M2). split; [exact R2|congruence].
  Qed.
  Lemma history s s' t e d : sorted days (mvec T s) -> ready s -> reaches s s' ->
    interpolate T ltb days leap s' t e d = interpolate T ltb days leap s t e d /\ approx_dut1 T ltb days leap s' t = approx_dut1 T ltb days leap s t.
  Proof.
    intros S Rd H. apply reaches_same in H as (R' & M); [|exact Rd]. split.
    - apply (interpolate_history ltb days leap ltb_days); [exact M|rewrite M; exact S|exact R'|exact Rd].
    - apply (approx_history ltb days leap ltb_days); [exact M|rewrite M; exact S|exact R'|exact Rd].
  Qed.
End Eop.
