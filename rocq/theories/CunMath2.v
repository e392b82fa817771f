(** Recursions and derivatives of the normalised solid harmonics. *)
From Coq Require Import Reals List Lia Lra Ranalysis.
From Verif Require Import Poly AlfSpec AlfMath CunSpec CunMath.
Import ListNotations.
Open Scope R_scope.

(** ** recursions *)
Section Recursions.
  Variables x y z : R.
  Hypothesis P : 0 < x * x + y * y + z * z.
  Let r := rad x y z.
  Let rr := 1 / r * (1 / r).
  Local Lemma rp' : r <> 0. Proof. pose proof (rad_pos x y z P). unfold r. lra. Qed.
  Local Lemma rk' k : r ^ k <> 0. Proof. apply pow_nonzero, rp'. Qed.
  Lemma radial_00 : radial 0 0 x y z = 1 / r.
  Proof. unfold radial. fold r. rewrite legendre_00. cbn. pose proof rp'. field. auto. Qed.
  Lemma radial_first m : radial (S m) m x y z = INR (2 * m + 1) * (z * rr) * radial m m x y z.
  Proof. unfold radial, rr. fold r. rewrite legendre_next. replace (S m + m + 1)%nat with (S (m + m + 1)) by lia. cbn [pow]. pose proof rp'. pose proof (rk' (m + m + 1)). field. auto. Qed.
  Lemma radial_next n m : (m <= S (S n))%nat -> INR (S (S n) - m) * radial (S (S n)) m x y z = INR (2 * n + 3) * (z * rr) * radial (S n) m x y z - INR (n + m + 1) * rr * radial n m x y z.
  Proof.
    intros M. unfold radial, rr. fold r. pose proof (three_terms n m (z / r) M) as T. replace (S (S n) + m + 1)%nat with (S (S (n + m + 1))) by lia. replace (S n + m + 1)%nat with (S (n + m + 1)) by lia. cbn [pow].
    set (k := (n + m + 1)%nat) in *. pose proof rp'. pose proof (rk' k). replace (INR (S (S n) - m) * (legendre (S (S n)) m (z / r) / (r * (r * r ^ k)))) with (INR (S (S n) - m) * legendre (S (S n)) m (z / r) / (r * (r * r ^ k))) by (field; auto). rewrite T. field. auto.
  Qed.
  Lemma radial_diagonal m : radial (S m) (S m) x y z = INR (2 * m + 1) * rr * radial m m x y z.
  Proof. unfold radial, rr. fold r. rewrite legendre_diagonal. replace (S m + S m + 1)%nat with (S (S (m + m + 1))) by lia. cbn [pow]. pose proof rp'. pose proof (rk' (m + m + 1)). field. auto. Qed.

  Definition An (n m : nat) : R := sqrt (INR (2 * n + 1) * INR (2 * n + 3) / (INR (S n - m) * INR (S n + m))).
  Definition Bn (n m : nat) : R := sqrt (INR (2 * n + 5) * INR (n + m + 1) * INR (S n - m) / (INR (S (S n) - m) * INR (S (S n) + m) * INR (2 * n + 1))).
  Lemma Nradial_first m : norm (S m) m * radial (S m) m x y z = An m m * (z * rr) * (norm m m * radial m m x y z).
  Proof.
    rewrite radial_first. pose proof (norm_a m m ltac:(lia)) as N. fold (An m m) in N. replace (S m - m)%nat with 1%nat in N by lia. change (INR 1) with 1 in N.
    transitivity (norm (S m) m * INR (2 * m + 1) * (z * rr * radial m m x y z)); [ring|]. rewrite N. ring.
  Qed.
  Lemma Nradial_next n m : (m <= n)%nat -> norm (S (S n)) m * radial (S (S n)) m x y z = An (S n) m * (z * rr) * (norm (S n) m * radial (S n) m x y z) - Bn n m * rr * (norm n m * radial n m x y z).
  Proof.
    intros M. pose proof (radial_next n m ltac:(lia)) as T. pose proof (norm_a (S n) m ltac:(lia)) as NA. pose proof (norm_b n m M) as NB. fold (An (S n) m) in NA. fold (Bn n m) in NB.
    replace (2 * S n + 1)%nat with (2 * n + 3)%nat in NA by lia.
    assert (Q : INR (S (S n) - m) <> 0) by (apply not_0_INR; lia). apply (Rmult_eq_reg_l (INR (S (S n) - m))); [|exact Q].
    transitivity (norm (S (S n)) m * (INR (S (S n) - m) * radial (S (S n)) m x y z)); [ring|]. rewrite T.
    transitivity (norm (S (S n)) m * INR (2 * n + 3) * (z * rr * radial (S n) m x y z) - norm (S (S n)) m * INR (n + m + 1) * (rr * radial n m x y z)); [ring|]. rewrite NA, NB. ring.
  Qed.
  Lemma Vn_00 : Vn 0 0 x y z = 1 / r.
  Proof. unfold Vn, solid_v. rewrite radial_00. unfold norm. cbn. replace (1 * 1 * 1 / 1) with 1 by field. rewrite sqrt_1. ring. Qed.
  Lemma Wn_0 n : Wn n 0 x y z = 0. Proof. unfold Wn, solid_w. cbn. ring. Qed.
  Lemma Vn_first m : Vn (S m) m x y z = An m m * (z * rr) * Vn m m x y z.
  Proof. unfold Vn, solid_v. transitivity (A m x y * (norm (S m) m * radial (S m) m x y z)); [ring|]. rewrite Nradial_first. ring. Qed.
  Lemma Wn_first m : Wn (S m) m x y z = An m m * (z * rr) * Wn m m x y z.
  Proof. unfold Wn, solid_w. transitivity (B m x y * (norm (S m) m * radial (S m) m x y z)); [ring|]. rewrite Nradial_first. ring. Qed.
  Lemma Vn_next n m : (m <= n)%nat -> Vn (S (S n)) m x y z = An (S n) m * (z * rr) * Vn (S n) m x y z - Bn n m * rr * Vn n m x y z.
  Proof. intros M. unfold Vn, solid_v. transitivity (A m x y * (norm (S (S n)) m * radial (S (S n)) m x y z)); [ring|]. rewrite Nradial_next by exact M. ring. Qed.
  Lemma Wn_next n m : (m <= n)%nat -> Wn (S (S n)) m x y z = An (S n) m * (z * rr) * Wn (S n) m x y z - Bn n m * rr * Wn n m x y z.
  Proof. intros M. unfold Wn, solid_w. transitivity (B m x y * (norm (S (S n)) m * radial (S (S n)) m x y z)); [ring|]. rewrite Nradial_next by exact M. ring. Qed.
  Definition Dn (m : nat) : R := if Nat.eqb m 0 then sqrt 3 else sqrt (INR (2 * m + 3) / INR (2 * m + 2)).
  Lemma Nradial_diagonal m : norm (S m) (S m) * radial (S m) (S m) x y z = Dn m * rr * (norm m m * radial m m x y z).
  Proof.
    rewrite radial_diagonal. unfold Dn. destruct m as [|m].
    - cbn [Nat.eqb]. unfold norm. cbn. replace (2 * (1 + 1 + 1) * 1 / (1 + 1)) with 3 by field. replace (1 * 1 * 1 / 1) with 1 by field. rewrite sqrt_1. ring.
    - cbn [Nat.eqb]. pose proof (norm_diagonal (S m) ltac:(lia)) as N. transitivity (norm (S (S m)) (S (S m)) * INR (2 * S m + 1) * (rr * radial (S m) (S m) x y z)); [ring|]. rewrite N. ring.
  Qed.
  Lemma Vn_diagonal m : Vn (S m) (S m) x y z = Dn m * (x * rr * Vn m m x y z - y * rr * Wn m m x y z).
  Proof. unfold Vn, Wn, solid_v, solid_w. rewrite A_S. transitivity ((x * A m x y - y * B m x y) * (norm (S m) (S m) * radial (S m) (S m) x y z)); [ring|]. rewrite Nradial_diagonal. ring. Qed.
  Lemma Wn_diagonal m : Wn (S m) (S m) x y z = Dn m * (y * rr * Vn m m x y z + x * rr * Wn m m x y z).
  Proof. unfold Vn, Wn, solid_v, solid_w. rewrite B_S. transitivity ((y * A m x y + x * B m x y) * (norm (S m) (S m) * radial (S m) (S m) x y z)); [ring|]. rewrite Nradial_diagonal. ring. Qed.
End Recursions.
Lemma solid_vanishes n m x y z : (n < m)%nat -> Vn n m x y z = 0 /\ Wn n m x y z = 0.
Proof. intros M. unfold Vn, Wn, solid_v, solid_w, radial. rewrite legendre_vanishes by exact M. split; unfold Rdiv; ring. Qed.

(** ** normalised combinations *)
Definition half (a : R) : R := a / 2.
Definition rat (n : nat) : R := sqrt (INR (2 * n + 1) / INR (2 * n + 3)).
Definition delta (m : nat) : R := if Nat.eqb m 0 then sqrt 2 else 1.
(** norm(n, m) / norm(n+1, m+1), norm(n, p+1) (n-p) (n-p+1) / norm(n+1, p), norm(n, m) (n-m+1) / norm(n+1, m) *)
Definition wup (n m : nat) : R := rat n * sqrt (INR (n + m + 1) * INR (n + m + 2)) / delta m.
Definition wdn (n p : nat) : R := rat n * (sqrt (INR (n - p) * INR (n - p + 1)) * delta p).
Definition weq (n m : nat) : R := rat n * sqrt (INR (S n - m) * INR (n + m + 1)).
Lemma sqrt_sq a : 0 <= a -> sqrt a ^ 2 = a. Proof. intros H. apply pow2_sqrt, H. Qed.
Lemma div_nonneg a b : 0 <= a -> 0 < b -> 0 <= a / b.
Proof. intros Ha Hb. apply Rmult_le_pos; auto. apply Rlt_le, Rinv_0_lt_compat, Hb. Qed.
Lemma rat_pos n : 0 <= rat n. Proof. apply sqrt_pos. Qed.
Lemma rat_sq n : rat n ^ 2 = INR (2 * n + 1) / INR (2 * n + 3).
Proof. apply sqrt_sq. apply div_nonneg; [apply pos_INR|apply INR_pos; lia]. Qed.
Lemma delta_pos m : 0 < delta m. Proof. unfold delta. destruct (Nat.eqb m 0); [apply sqrt_lt_R0|]; lra. Qed.
Lemma delta_sq m : delta m ^ 2 = if Nat.eqb m 0 then 2 else 1. Proof. unfold delta. destruct (Nat.eqb m 0); [apply sqrt_sq; lra|ring]. Qed.
Lemma norm_wup n m : (m <= n)%nat -> norm n m = wup n m * norm (S n) (S m).
Proof.
  intros M. pose proof (rat_pos n) as R0. pose proof (delta_pos m) as D0. apply same_square; [apply norm_pos| |].
  - apply Rmult_le_pos; [|apply norm_pos]. unfold wup. apply div_nonneg; [|exact D0]. apply Rmult_le_pos; [exact R0|apply sqrt_pos].
  - unfold wup. replace ((rat n * sqrt (INR (n + m + 1) * INR (n + m + 2)) / delta m * norm (S n) (S m)) ^ 2) with (rat n ^ 2 * sqrt (INR (n + m + 1) * INR (n + m + 2)) ^ 2 / delta m ^ 2 * norm (S n) (S m) ^ 2) by (field; lra).
    rewrite !norm_square, rat_sq, delta_sq, sqrt_sq by (apply Rmult_le_pos; apply pos_INR). unfold weight. cbn [Nat.eqb]. replace (S n - S m)%nat with (n - m)%nat by lia. replace (S n + S m)%nat with (S (S (n + m))) by lia. rewrite !fact_S.
    replace (n + m + 1)%nat with (S (n + m)) by lia. replace (n + m + 2)%nat with (S (S (n + m))) by lia. replace (2 * S n + 1)%nat with (2 * n + 3)%nat by lia.
    pose proof (fact_pos (n + m)). pose proof (INR_pos (S (n + m)) ltac:(lia)). pose proof (INR_pos (S (S (n + m))) ltac:(lia)). pose proof (INR_pos (2 * n + 3) ltac:(lia)).
    destruct (Nat.eqb m 0); field; repeat split; lra.
Qed.
Lemma norm_wdn n p : (p + 1 <= n)%nat -> norm n (S p) * (INR (n - p) * INR (n - p + 1)) = wdn n p * norm (S n) p.
Proof.
  intros M. pose proof (rat_pos n) as R0. pose proof (delta_pos p) as D0. apply same_square.
  - apply Rmult_le_pos; [apply norm_pos|]. apply Rmult_le_pos; apply pos_INR.
  - apply Rmult_le_pos; [|apply norm_pos]. unfold wdn. apply Rmult_le_pos; [exact R0|]. apply Rmult_le_pos; [apply sqrt_pos|lra].
  - unfold wdn. rewrite !Rpow_mult_distr. rewrite !norm_square, rat_sq, delta_sq, sqrt_sq by (apply Rmult_le_pos; apply pos_INR). unfold weight. cbn [Nat.eqb].
    replace (n + S p)%nat with (S (n + p)) by lia. replace (S n + p)%nat with (S (n + p)) by lia. replace (S n - p)%nat with (S (S (n - S p))) by lia. rewrite (fact_S (S (n - S p))), (fact_S (n - S p)).
    replace (S (n - S p)) with (n - p)%nat by lia. replace (S (n - p)) with (n - p + 1)%nat by lia. replace (2 * S n + 1)%nat with (2 * n + 3)%nat by lia.
    pose proof (fact_pos (S (n + p))). pose proof (INR_pos (2 * n + 3) ltac:(lia)). destruct (Nat.eqb p 0); field; repeat split; lra.
Qed.
Lemma norm_weq n m : (m <= n)%nat -> norm n m * INR (S n - m) = weq n m * norm (S n) m.
Proof.
  intros M. pose proof (rat_pos n) as R0. apply same_square.
  - apply Rmult_le_pos; [apply norm_pos|apply pos_INR].
  - apply Rmult_le_pos; [|apply norm_pos]. unfold weq. apply Rmult_le_pos; [exact R0|apply sqrt_pos].
  - unfold weq. rewrite !Rpow_mult_distr, !norm_square, rat_sq, sqrt_sq by (apply Rmult_le_pos; apply pos_INR). pose proof (weight_up n m M) as U. replace (n + m + 1)%nat with (S n + m)%nat by lia.
    pose proof (INR_pos (2 * n + 3) ltac:(lia)) as Q. apply (Rmult_eq_reg_l (INR (2 * n + 3))); [|lra].
    transitivity (weight n m * INR (2 * n + 3) * INR (S n - m) * INR (S n - m)); [cbn [pow]; ring|]. rewrite <- U. field. lra.
Qed.

Definition onen (k : kind) (n m : nat) (x y z : R) : R := match k with KV => Vn n m x y z | KW => Wn n m x y z end.
Lemma onen_one k n m x y z : onen k n m x y z = norm n m * one k n m x y z. Proof. destruct k; reflexivity. Qed.
Fixpoint evn (c : comb) (x y z : R) : R := match c with [] => 0 | (a, (k, n, m)) :: r => a * onen k n m x y z + evn r x y z end.
Definition dxn (t : kind * nat * nat) : comb :=
  match t with
  | (KV, n, O) => [(- wup n 0, (KV, S n, 1%nat))]
  | (KW, n, O) => []
  | (k, n, S p) => [(half (wdn n p), (k, S n, p)); (- half (wup n (S p)), (k, S n, S (S p)))]
  end.
Definition dyn (t : kind * nat * nat) : comb :=
  match t with
  | (KV, n, O) => [(- wup n 0, (KW, S n, 1%nat))]
  | (KW, n, O) => []
  | (KV, n, S p) => [(- half (wdn n p), (KW, S n, p)); (- half (wup n (S p)), (KW, S n, S (S p)))]
  | (KW, n, S p) => [(half (wdn n p), (KV, S n, p)); (half (wup n (S p)), (KV, S n, S (S p)))]
  end.
Definition dzn (t : kind * nat * nat) : comb := match t with (k, n, m) => [(- weq n m, (k, S n, m))] end.
Lemma evn_scale a c x y z : evn (scale_c a c) x y z = a * evn c x y z.
Proof. induction c as [|(b, ((k, n), m)) c IH]; [cbn; ring|]. cbn [scale_c map evn fst snd]. unfold scale_c in IH. rewrite IH. ring. Qed.
Lemma evn_app c d x y z : evn (c ++ d) x y z = evn c x y z + evn d x y z.
Proof. induction c as [|(b, ((k, n), m)) c IH]; [cbn; ring|]. cbn [app evn]. rewrite IH. ring. Qed.
Lemma dxn_ok k n m x y z : (m <= n)%nat -> evn (dxn (k, n, m)) x y z = norm n m * ev (dx1 (k, n, m)) x y z.
Proof.
  intros M. destruct m as [|p].
  - destruct k; cbn [dxn dx1 evn ev]; [|ring]. rewrite onen_one, (norm_wup n 0) by lia. ring.
  - pose proof (norm_wdn n p ltac:(lia)) as D. pose proof (norm_wup n (S p) ltac:(lia)) as U.
    assert (X : forall k, evn [(half (wdn n p), (k, S n, p)); (- half (wup n (S p)), (k, S n, S (S p)))] x y z = norm n (S p) * ev [(low n p, (k, S n, p)); (- / 2, (k, S n, S (S p)))] x y z).
    { intros k'. cbn [evn ev]. rewrite !onen_one. unfold half, low.
      transitivity (wdn n p * norm (S n) p / 2 * one k' (S n) p x y z - wup n (S p) * norm (S n) (S (S p)) / 2 * one k' (S n) (S (S p)) x y z); [field|]. rewrite <- D, <- U. field. }
    destruct k; apply X.
Qed.
Lemma dyn_ok k n m x y z : (m <= n)%nat -> evn (dyn (k, n, m)) x y z = norm n m * ev (dy1 (k, n, m)) x y z.
Proof.
  intros M. destruct m as [|p].
  - destruct k; cbn [dyn dy1 evn ev]; [|ring]. rewrite onen_one, (norm_wup n 0) by lia. ring.
  - pose proof (norm_wdn n p ltac:(lia)) as D. pose proof (norm_wup n (S p) ltac:(lia)) as U. destruct k; cbn [dyn dy1 evn ev]; rewrite !onen_one; unfold half, low.
    + transitivity (- (wdn n p * norm (S n) p) / 2 * one KW (S n) p x y z - wup n (S p) * norm (S n) (S (S p)) / 2 * one KW (S n) (S (S p)) x y z); [field|]. rewrite <- D, <- U. field.
    + transitivity (wdn n p * norm (S n) p / 2 * one KV (S n) p x y z + wup n (S p) * norm (S n) (S (S p)) / 2 * one KV (S n) (S (S p)) x y z); [field|]. rewrite <- D, <- U. field.
Qed.
Lemma dzn_ok k n m x y z : (m <= n)%nat -> evn (dzn (k, n, m)) x y z = norm n m * ev (dz1 (k, n, m)) x y z.
Proof. intros M. pose proof (norm_weq n m M) as D. cbn [dzn dz1 evn ev]. rewrite onen_one. transitivity (- (weq n m * norm (S n) m) * one k (S n) m x y z); [ring|]. rewrite <- D. ring. Qed.

Section NDerivatives.
  Variables x y z : R.
  Hypothesis P : 0 < x * x + y * y + z * z.
  Lemma onen_x k n m : (m <= n)%nat -> d_dx (onen k n m) x y z (evn (dxn (k, n, m)) x y z).
  Proof. intros M. rewrite dxn_ok by exact M. unfold d_dx. apply (limit_ext (fun s => norm n m * one k n m s y z)); [intros; symmetry; apply onen_one|]. apply derivable_pt_lim_scal. apply (one_x x y z P k n m M). Qed.
  Lemma onen_y k n m : (m <= n)%nat -> d_dy (onen k n m) x y z (evn (dyn (k, n, m)) x y z).
  Proof. intros M. rewrite dyn_ok by exact M. unfold d_dy. apply (limit_ext (fun s => norm n m * one k n m x s z)); [intros; symmetry; apply onen_one|]. apply derivable_pt_lim_scal. apply (one_y x y z P k n m M). Qed.
  Lemma onen_z k n m : (m <= n)%nat -> d_dz (onen k n m) x y z (evn (dzn (k, n, m)) x y z).
  Proof. intros M. rewrite dzn_ok by exact M. unfold d_dz. apply (limit_ext (fun s => norm n m * one k n m x y s)); [intros; symmetry; apply onen_one|]. apply derivable_pt_lim_scal. apply (one_z x y z P k n m M). Qed.
  Lemma evn_d (d : kind * nat * nat -> comb) (f : comb -> R -> R) s :
    (f [] = fun _ => 0) -> (forall a k n m c v, f ((a, (k, n, m)) :: c) v = a * f [(1, (k, n, m))] v + f c v) ->
    (forall k n m, (m <= n)%nat -> derivable_pt_lim (f [(1, (k, n, m))]) s (evn (d (k, n, m)) x y z)) ->
    forall c, wfc c -> derivable_pt_lim (f c) s (evn (dc d c) x y z).
  Proof.
    intros F0 FS D c. induction c as [|(a, ((k, n), m)) c IH]; intros Wf.
    - rewrite F0. apply derivable_pt_lim_const.
    - inversion Wf; subst. cbn [dc flat_map fst snd]. rewrite evn_app, evn_scale. apply (limit_ext (fun v => a * f [(1, (k, n, m))] v + f c v)); [intros v; symmetry; apply FS|].
      apply (derivable_pt_lim_plus (fun v => a * f [(1, (k, n, m))] v) (f c)); [apply derivable_pt_lim_scal, D; assumption|apply IH; assumption].
  Qed.
  Lemma evn_x c : wfc c -> d_dx (evn c) x y z (evn (dc dxn c) x y z).
  Proof. intros Wf. unfold d_dx. apply (evn_d dxn (fun c s => evn c s y z)); auto; [intros; cbn [evn]; ring|]. intros k n m M. apply (limit_ext (fun s => onen k n m s y z)); [intros; cbn [evn]; ring|]. apply onen_x, M. Qed.
  Lemma evn_y c : wfc c -> d_dy (evn c) x y z (evn (dc dyn c) x y z).
  Proof. intros Wf. unfold d_dy. apply (evn_d dyn (fun c s => evn c x s z)); auto; [intros; cbn [evn]; ring|]. intros k n m M. apply (limit_ext (fun s => onen k n m x s z)); [intros; cbn [evn]; ring|]. apply onen_y, M. Qed.
  Lemma evn_z c : wfc c -> d_dz (evn c) x y z (evn (dc dzn c) x y z).
  Proof. intros Wf. unfold d_dz. apply (evn_d dzn (fun c s => evn c x y s)); auto; [intros; cbn [evn]; ring|]. intros k n m M. apply (limit_ext (fun s => onen k n m x y s)); [intros; cbn [evn]; ring|]. apply onen_z, M. Qed.
End NDerivatives.
Lemma wf_dxn k n m : (m <= n)%nat -> wfc (dxn (k, n, m)). Proof. intros M. unfold wfc. destruct k, m; cbn [dxn]; repeat apply Forall_cons; try apply Forall_nil; lia. Qed.
Lemma wf_dyn k n m : (m <= n)%nat -> wfc (dyn (k, n, m)). Proof. intros M. unfold wfc. destruct k, m; cbn [dyn]; repeat apply Forall_cons; try apply Forall_nil; lia. Qed.
Lemma wf_dzn k n m : (m <= n)%nat -> wfc (dzn (k, n, m)). Proof. intros M. unfold wfc. cbn [dzn]. repeat apply Forall_cons; try apply Forall_nil; lia. Qed.
