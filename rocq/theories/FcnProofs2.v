(** Free core nutation: tables in any order; continuity. *)
From Coq Require Import Reals ZArith List Bool Lia Lra Sorted.
From Verif Require Import Base GridModel GridProofs FcnModel FcnSpec FcnProofs.
Import ListNotations.
Open Scope R_scope.

Lemma neighbours_rev l (a b : lcoef) : neighbours (rev l) a b <-> neighbours l b a.
Proof.
  assert (G : forall l a b, neighbours l b a -> neighbours (rev l) a b).
  { intros l0 x y (p & q & ->). exists (rev q), (rev p). rewrite rev_app_distr. cbn [rev]. rewrite <- !app_assoc. reflexivity. }
  split; [intros H; apply G in H; rewrite rev_involutive in H; exact H|apply G].
Qed.
Lemma neighbours_cons l (x a b : lcoef) : neighbours l a b -> neighbours (x :: l) a b.
Proof. intros (p & q & ->). exists (x :: p), q. reflexivity. Qed.
Lemma neighbours_cons_inv l (x a b : lcoef) : neighbours (x :: l) a b -> (x = a /\ exists q, l = b :: q) \/ neighbours l a b.
Proof. intros ([|y p] & q & E); injection E as -> ->; [left; split; [reflexivity|exists q; reflexivity]|right; exists p, q; reflexivity]. Qed.
Lemma interval_spec t l : match interval t l with
  | Some (a, b) => exists p q, l = p ++ b :: a :: q /\ encloses t a b /\ forall c d, neighbours (p ++ [b]) d c -> ~ encloses t c d
  | None => forall c d, neighbours l d c -> ~ encloses t c d
  end.
Proof.
  induction l as [|b [|a l] IH]; [intros c d ([|? [|]] & ? & E); discriminate E|intros c d ([|? [|]] & ? & E); discriminate E|].
  change (interval t (b :: a :: l)) with (if Rleb (lt a) t && Rltb t (lt b) then Some (a, b) else interval t (a :: l)).
  destruct (Rleb (lt a) t && Rltb t (lt b)) eqn:E.
  - apply andb_prop in E as [E1 E2]. apply Rleb_true in E1. apply Rltb_true in E2. exists [], l. split; [reflexivity|]. split; [split; assumption|]. intros c d ([|? [|]] & ? & Q); discriminate Q.
  - assert (N : ~ encloses t a b). { intros [E1 E2]. apply Rleb_true in E1. apply Rltb_true in E2. rewrite E1, E2 in E. discriminate. }
    destruct (interval t (a :: l)) as [(x, y)|].
    + destruct IH as (p & q & Ep & Ex & H). exists (b :: p), q. split; [cbn; rewrite Ep; reflexivity|]. split; [exact Ex|]. intros c d Hn. cbn [app] in Hn. apply neighbours_cons_inv in Hn as [(-> & r & Er)|Hn]; [|exact (H c d Hn)].
      assert (c = a). { destruct p as [|z p]; cbn [app] in Ep, Er; injection Ep as -> _; injection Er as -> _; reflexivity. } subst c. exact N.
    + intros c d Hn. apply neighbours_cons_inv in Hn as [(-> & r & Er)|Hn]; [injection Er as -> _; exact N|exact (IH c d Hn)].
Qed.
(** without an enclosing pair an epoch later than t has only later ones before it *)
Lemma all_later t (l : list lcoef) : (forall c d, neighbours l d c -> ~ encloses t c d) -> match l with [] => True | e :: _ => t < lt e -> Forall (fun e => t < lt e) l end.
Proof.
  induction l as [|b [|a l] IH]; intros H; [exact I|intros E; constructor; [exact E|constructor]|]. intros E. constructor; [exact E|]. apply IH; [intros c d Hn; apply H, neighbours_cons, Hn|].
  assert (N : ~ encloses t a b) by (apply H; exists [], l; reflexivity). unfold encloses in N. lra.
Qed.
Lemma any_table v t : v <> [] ->
  (exists a b, latest v t a b /\ amplitudes t v = Ok (interpolated t a b)) \/
  ((forall a b, neighbours v a b -> ~ encloses t a b) /\ exists e, amplitudes t v = Ok (extrapolated t e) /\ ((last v e /\ lt e <= t) \/ (first v e /\ Forall (fun e => t < lt e) v))).
Proof.
  intros NE. unfold amplitudes. pose proof (interval_spec t (rev v)) as S. pose proof (all_later t (rev v)) as L. destruct (rev v) as [|z l] eqn:E.
  { apply (f_equal (@rev lcoef)) in E. rewrite rev_involutive in E. contradiction. }
  assert (V : v = rev (z :: l)) by (rewrite <- E, rev_involutive; reflexivity). assert (LZ : last v z) by (exists (rev l); exact V).
  destruct v as [|f v']; [contradiction|]. destruct (interval t (z :: l)) as [(a, b)|].
  - left. destruct S as (p & q & Ep & Ex & H). exists a, b. split; [|reflexivity]. exists (rev q), (rev p). split; [rewrite V, Ep, rev_app_distr; cbn [rev]; rewrite <- !app_assoc; reflexivity|]. split; [exact Ex|].
    intros c d Hn. apply H. apply neighbours_rev. rewrite rev_app_distr. exact Hn.
  - right. split; [intros a b Hn; apply S; apply neighbours_rev; rewrite <- V; exact Hn|]. destruct (Rle_or_lt (lt z) t) as [H|H].
    + exists z. rewrite (proj2 (Rleb_true _ _) H). split; [reflexivity|]. left. split; [exact LZ|exact H].
    + exists f. rewrite Rleb_false by exact H. split; [reflexivity|]. right. split; [exists v'; reflexivity|]. rewrite V. apply Forall_rev'. exact (L S H).
Qed.

(** ** continuity *)
Lemma glue f g c : continuity f -> continuity g -> f c = g c -> continuity (fun t => if Rlt_dec t c then f t else g t).
Proof.
  intros F G E x. intros eps He. destruct (F x eps He) as (d1 & D1 & H1), (G x eps He) as (d2 & D2 & H2). unfold dist, R_met, R_dist in *. cbn in *.
  destruct (Rtotal_order x c) as [L|[L|L]].
  - exists (Rmin d1 (c - x)). split; [apply Rmin_pos; lra|]. intros y (N & Hy). assert (A1 : Rabs (y - x) < d1) by (eapply Rlt_le_trans; [exact Hy|apply Rmin_l]). assert (A2 : Rabs (y - x) < c - x) by (eapply Rlt_le_trans; [exact Hy|apply Rmin_r]).
    apply Rabs_def2 in A2. destruct (Rlt_dec y c); [|lra]. destruct (Rlt_dec x c); [|lra]. apply H1. split; assumption.
  - subst x. exists (Rmin d1 d2). split; [apply Rmin_pos; lra|]. intros y (N & Hy). assert (A1 : Rabs (y - c) < d1) by (eapply Rlt_le_trans; [exact Hy|apply Rmin_l]). assert (A2 : Rabs (y - c) < d2) by (eapply Rlt_le_trans; [exact Hy|apply Rmin_r]).
    destruct (Rlt_dec c c); [lra|]. destruct (Rlt_dec y c); [rewrite <- E; apply H1|apply H2]; split; assumption.
  - exists (Rmin d2 (x - c)). split; [apply Rmin_pos; lra|]. intros y (N & Hy). assert (A1 : Rabs (y - x) < d2) by (eapply Rlt_le_trans; [exact Hy|apply Rmin_l]). assert (A2 : Rabs (y - x) < x - c) by (eapply Rlt_le_trans; [exact Hy|apply Rmin_r]).
    apply Rabs_def2 in A2. destruct (Rlt_dec y c); [lra|]. destruct (Rlt_dec x c); [lra|]. apply H2. split; assumption.
Qed.
(** pieces: [out] outside the table, [piece] between neighbours *)
Section Curve.
  Variables (out : lcoef -> R -> R) (piece : lcoef -> lcoef -> R -> R).
  Hypotheses (Co : forall e, continuity (out e)) (Cp : forall a b, lt a < lt b -> continuity (piece a b)).
  Variable good : lcoef -> Prop.
  Hypotheses (P0 : forall a b, good a -> good b -> lt a < lt b -> piece a b (lt a) = out a (lt a)) (P1 : forall a b, good a -> good b -> lt a < lt b -> piece a b (lt b) = out b (lt b)).
  (** from the first element on *)
  Fixpoint from (a : lcoef) (r : list lcoef) (t : R) : R :=
    match r with [] => out a t | b :: s => if Rlt_dec t (lt b) then piece a b t else from b s t end.
  Definition curve (v : list lcoef) (t : R) : R := match v with [] => 0 | a :: r => if Rlt_dec t (lt a) then out a t else from a r t end.
  Lemma from_at a r : ascending (a :: r) -> Forall good (a :: r) -> from a r (lt a) = out a (lt a).
  Proof.
    intros S G. destruct r as [|b s]; [reflexivity|]. cbn [from]. inversion S as [|? ? S' F]; subst. inversion F as [|? ? Hb _]; subst. inversion G as [|? ? Ga G']; subst. inversion G' as [|? ? Gb _]; subst.
    unfold earlier in Hb. destruct (Rlt_dec (lt a) (lt b)); [|lra]. apply P0; assumption.
  Qed.
  Lemma from_continuous r : forall a, ascending (a :: r) -> Forall good (a :: r) -> continuity (from a r).
  Proof.
    induction r as [|b s IH]; intros a S G; [exact (Co a)|]. cbn [from]. inversion S as [|? ? S' F]; subst. inversion F as [|? ? Hb _]; subst. inversion G as [|? ? Ga G']; subst. inversion G' as [|? ? Gb _]; subst.
    apply glue; [apply Cp; exact Hb|apply IH; assumption|]. rewrite from_at by assumption. apply P1; assumption.
  Qed.
  Lemma curve_continuous v : ascending v -> Forall good v -> continuity (curve v).
  Proof.
    intros S G. destruct v as [|a r]; [apply continuity_const; intros x y; reflexivity|]. cbn [curve]. apply glue; [apply Co|apply from_continuous; assumption|]. rewrite from_at by assumption. reflexivity.
  Qed.
  Lemma from_last r : forall a e t, ascending (a :: r) -> last (a :: r) e -> lt e <= t -> from a r t = out e t.
  Proof.
    induction r as [|b s IH]; intros a e t S L T.
    - destruct L as ([|x [|]] & E); try discriminate E. injection E as ->. reflexivity.
    - inversion S as [|? ? S' F]; subst. assert (L' : last (b :: s) e). { destruct L as ([|x l] & E); [discriminate E|]. injection E as -> E. exists l. exact E. }
      cbn [from].
      destruct L' as (l & E). pose proof S' as S2. rewrite E in S2. pose proof (ascending_head l e S2) as H. rewrite <- E in H. inversion H as [|? ? Hb _]; subst. destruct (Rlt_dec t (lt b)); [lra|]. apply IH; [exact S'|exists l; exact E|exact T].
  Qed.
  Lemma from_between r : forall a x y t, ascending (a :: r) -> neighbours (a :: r) x y -> encloses t x y -> from a r t = piece x y t.
  Proof.
    induction r as [|b s IH]; intros a x y t S N (T1 & T2).
    - destruct N as ([|? [|]] & ? & E); discriminate E.
    - inversion S as [|? ? S' F]; subst. apply neighbours_cons_inv in N as [(-> & q & Eq)|N].
      + injection Eq as -> ->. cbn [from]. destruct (Rlt_dec t (lt y)); [reflexivity|lra].
      + cbn [from]. assert (H : lt b <= lt x). { destruct N as ([|z l] & q & E); injection E as -> ->; [lra|]. inversion S' as [|? ? _ F']; subst. rewrite Forall_forall in F'. apply Rlt_le. apply (F' x). apply in_or_app. right. left. reflexivity. }
        destruct (Rlt_dec t (lt b)); [lra|]. apply IH; [exact S'|exact N|split; assumption].
  Qed.
  Lemma curve_first v e t : first v e -> t < lt e -> curve v t = out e t.
  Proof. intros (r & ->) T. cbn [curve]. destruct (Rlt_dec t (lt e)); [reflexivity|lra]. Qed.
  Lemma first_le v a e : ascending v -> first v a -> In e v -> lt a <= lt e.
  Proof. intros S (r & ->) [<- | I]; [lra|]. inversion S as [|? ? _ F]; subst. rewrite Forall_forall in F. apply Rlt_le, (F e I). Qed.
  Lemma curve_last v e t : ascending v -> last v e -> lt e <= t -> curve v t = out e t.
  Proof.
    intros S L T. destruct v as [|a r]; [destruct L as ([|] & E); discriminate E|]. cbn [curve]. assert (I : In e (a :: r)) by (destruct L as (l & ->); apply in_or_app; right; left; reflexivity).
    pose proof (first_le _ a e S ltac:(exists r; reflexivity) I). destruct (Rlt_dec t (lt a)); [lra|]. apply from_last; assumption.
  Qed.
  Lemma curve_between v x y t : ascending v -> neighbours v x y -> encloses t x y -> curve v t = piece x y t.
  Proof.
    intros S N E. destruct v as [|a r]; [destruct N as ([|] & ? & Q); discriminate Q|]. cbn [curve]. assert (I : In x (a :: r)) by (destruct N as (l & q & ->); apply in_or_app; right; left; reflexivity).
    pose proof (first_le _ a x S ltac:(exists r; reflexivity) I). destruct E as (T1 & T2). destruct (Rlt_dec t (lt a)); [lra|]. apply from_between; [exact S|exact N|split; assumption].
  Qed.
End Curve.
Definition amplitude (f : lcoef -> R) (v : list lcoef) : R -> R := curve (fun e _ => f e) (fun a b t => line (lt a) (lt b) (f a) (f b) t) v.
Definition uncertainty (v : list lcoef) : R -> R := curve (fun e t => 2 * (lsg e + 0.3 * (t - lt e))) (fun a b t => 2 * Rabs (line (lt a) (lt b) (lsg a) (lsg b) t)) v.
Lemma line_continuous t0 t1 p q : continuity (fun t => line t0 t1 p q t).
Proof. unfold line. intros x. reg. Qed.
Lemma amplitude_continuous f v : ascending v -> continuity (amplitude f v).
Proof.
  intros S. apply (curve_continuous _ _ (fun e => continuity_const (fun _ => f e) (fun x y => eq_refl)) (fun a b _ => line_continuous (lt a) (lt b) (f a) (f b)) (fun _ => True)).
  - intros a b _ _ H. apply line_at_start, H.
  - intros a b _ _ H. apply line_at_end, H.
  - exact S.
  - apply Forall_forall. intros; exact I.
Qed.
Lemma uncertainty_continuous v : ascending v -> Forall (fun e => 0 <= lsg e) v -> continuity (uncertainty v).
Proof.
  intros S G. apply (curve_continuous (fun e t => 2 * (lsg e + 0.3 * (t - lt e))) (fun a b t => 2 * Rabs (line (lt a) (lt b) (lsg a) (lsg b) t))) with (good := fun e => 0 <= lsg e); [| | | |exact S|exact G].
  - intros e x. reg.
  - intros a b _ x. apply continuity_pt_mult; [apply continuity_pt_const; intros ? ?; reflexivity|]. apply (continuity_pt_comp (fun t => line (lt a) (lt b) (lsg a) (lsg b) t) Rabs); [apply line_continuous|apply Rcontinuity_abs].
  - intros a b Ga Gb H. rewrite line_at_start by exact H. rewrite Rabs_pos_eq by exact Ga. replace (lt a - lt a) with 0 by ring. ring.
  - intros a b Ga Gb H. rewrite line_at_end by exact H. rewrite Rabs_pos_eq by exact Gb. replace (lt b - lt b) with 0 by ring. ring.
Qed.
Lemma fcn_curve v t : ascending v -> v <> [] -> exists r, lambert_fcn t v = Ok r /\ says r t (amplitude lre v t) (amplitude lim v t) (uncertainty v t).
Proof.
  intros S NE. unfold lambert_fcn. destruct (any_table v t NE) as [(a & b & (l & q & E & X & _) & ->)|(_ & e & -> & [(L & T)|(F & T)])]; cbn [bind]; eexists; (split; [reflexivity|]).
  - assert (N : neighbours v a b) by (exists l, q; exact E). unfold amplitude, uncertainty. rewrite !(curve_between _ _ v a b t S N X). apply says_interpolated. destruct X; lra.
  - unfold amplitude, uncertainty. rewrite !(curve_last _ _ v e t S L T). apply says_extrapolated.
  - assert (H : t < lt e) by (destruct F as (q & ->); inversion T; assumption). unfold amplitude, uncertainty. rewrite !(curve_first _ _ v e t F H). apply says_extrapolated.
Qed.
