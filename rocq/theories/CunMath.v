From Coq Require Import Reals List Lia Lra Ranalysis.
From Verif Require Import Poly AlfSpec AlfMath CunSpec.
Import ListNotations.
Open Scope R_scope.

(** ** Legendre identities *)
Lemma next_both n m x : legendre (S n) (S m) x = x * legendre n (S m) x + INR (n + m + 1) * legendre n m x.
Proof.
  unfold legendre. fold (G (S n) (S n + S m) x) (G n (n + S m) x) (G n (n + m) x). replace (S n + S m)%nat with (S (n + S m)) by lia. rewrite ladder_B.
  replace (n + S m - 1)%nat with (n + m)%nat by lia. replace (n + S m)%nat with (n + m + 1)%nat by lia. reflexivity.
Qed.
Lemma next_degree n m x : (m <= n)%nat -> (1 - x ^ 2) * legendre n (S m) x - INR (n + m + 1) * x * legendre n m x = - INR (S n - m) * legendre (S n) m x.
Proof.
  intros M. destruct n as [|n].
  - replace m with O by lia. rewrite legendre_vanishes by lia. rewrite legendre_next, legendre_00. cbn. ring.
  - rewrite derivative_relation by lia. pose proof (three_terms n m x ltac:(lia)) as T. replace (S (S n) - m)%nat with (S (S n) - m)%nat in T by lia.
    assert (E1 : INR (S n + m + 1) = INR (S n + m) + 1) by (rewrite plus_INR; cbn; ring). assert (E2 : INR (S n - m) = INR (S n) - INR m) by (apply minus_INR; lia).
    assert (E3 : INR (2 * n + 3) = 2 * INR (S n) + 1) by (rewrite S_INR, plus_INR, mult_INR; cbn; ring). assert (E4 : INR (S n + m) = INR (S n) + INR m) by apply plus_INR. assert (E5 : INR (n + m + 1) = INR (S n) + INR m) by (replace (n + m + 1)%nat with (S n + m)%nat by lia; apply plus_INR).
    replace (- INR (S (S n) - m) * legendre (S (S n)) m x) with (- (INR (S (S n) - m) * legendre (S (S n)) m x)) by ring. rewrite T, E1, E2, E3, E4, E5. ring.
Qed.
Lemma lower_order n p x : (p + 1 <= n)%nat -> 2 * INR (S p) * legendre n (S p) x - (1 - x ^ 2) * legendre (S n) (S (S p)) x = INR (n - p) * INR (n - p + 1) * legendre (S n) p x.
Proof.
  intros P. rewrite derivative_relation by lia. pose proof (ladder_E n (n + S p) x) as E. unfold legendre in *. fold (G (S n) (S n + S p) x) (G n (n + S p) x) (G (S n) (S n + p) x).
  replace (S n + S p)%nat with (S (n + S p)) by lia. replace (S n + p)%nat with (n + S p)%nat by lia.
  set (q1 := G (S n) (S (n + S p)) x) in *. set (q := G (S n) (n + S p) x) in *. set (o := G n (n + S p) x) in *.
  assert (E1 : INR (n - p) = INR n - INR p) by (apply minus_INR; lia). assert (E2 : INR (n - p + 1) = INR n - INR p + 1) by (rewrite plus_INR, E1; reflexivity).
  assert (E3 : INR (S n - S p) = INR n - INR p) by (replace (S n - S p)%nat with (n - p)%nat by lia; exact E1). assert (E4 : INR (S (n + S p)) = INR n + INR p + 2) by (rewrite S_INR, plus_INR, S_INR; ring).
  assert (E5 : INR (n + S p) = INR n + INR p + 1) by (rewrite plus_INR, S_INR; ring). rewrite E1, E2, E3, E4. rewrite E5, S_INR in E. rewrite S_INR.
  assert (X : x * q1 = o + (INR n - INR p + 1) * q) by lra. replace ((INR n - INR p) * x * q1) with ((INR n - INR p) * (x * q1)) by ring. rewrite X. ring.
Qed.

(** ** the radius *)
Lemma rad_pos x y z : 0 < x * x + y * y + z * z -> 0 < rad x y z. Proof. apply sqrt_lt_R0. Qed.
Lemma rad_sq x y z : rad x y z * rad x y z = x * x + y * y + z * z. Proof. apply sqrt_sqrt. nra. Qed.
Lemma rad_limit (q : R -> R) s c : 0 < c + s * s -> (forall v, q v = c + v * v) -> derivable_pt_lim (fun v => sqrt (q v)) s (s / sqrt (c + s * s)).
Proof.
  intros P E. apply (limit_ext (fun v => sqrt (c + v * v))); [intros v; rewrite E; reflexivity|].
  replace (s / sqrt (c + s * s)) with (/ (2 * sqrt (c + s * s)) * (0 + (1 * s + s * 1))).
  - apply (derivable_pt_lim_comp (fun v => c + v * v) sqrt).
    + apply (derivable_pt_lim_plus (fun _ => c) (fun v => v * v)); [apply derivable_pt_lim_const|]. apply (derivable_pt_lim_mult (fun v => v) (fun v => v)); apply derivable_pt_lim_id.
    + apply derivable_pt_lim_sqrt. exact P.
  - field. pose proof (sqrt_lt_R0 _ P). lra.
Qed.
Lemma rad_x x y z : 0 < x * x + y * y + z * z -> d_dx rad x y z (x / rad x y z).
Proof. intros P. unfold d_dx, rad. replace (x * x + y * y + z * z) with ((y * y + z * z) + x * x) by ring. apply rad_limit; [lra|]. intros; ring. Qed.
Lemma rad_y x y z : 0 < x * x + y * y + z * z -> d_dy rad x y z (y / rad x y z).
Proof. intros P. unfold d_dy, rad. replace (x * x + y * y + z * z) with ((x * x + z * z) + y * y) by ring. apply rad_limit; [lra|]. intros; ring. Qed.
Lemma rad_z x y z : 0 < x * x + y * y + z * z -> d_dz rad x y z (z / rad x y z).
Proof. intros P. unfold d_dz, rad. apply rad_limit; [lra|]. intros; ring. Qed.

(** ** the radial factor *)
Lemma radial_limit n m k (u rho : R -> R) s u1 r1 : rho s <> 0 -> derivable_pt_lim u s u1 -> derivable_pt_lim rho s r1 ->
  derivable_pt_lim (fun v => legendre n m (u v / rho v) / rho v ^ k) s
    (legendre n (S m) (u s / rho s) * ((u1 * rho s - r1 * u s) / (rho s * rho s)) / rho s ^ k - INR k * legendre n m (u s / rho s) * r1 / rho s ^ (k + 1)).
Proof.
  intros N Du Dr.
  assert (D1 : derivable_pt_lim (fun v => u v / rho v) s ((u1 * rho s - r1 * u s) / (rho s)²)) by (apply (derivable_pt_lim_div u rho); auto).
  assert (D2 : derivable_pt_lim (fun v => legendre n m (u v / rho v)) s (legendre n (S m) (u s / rho s) * ((u1 * rho s - r1 * u s) / (rho s)²))).
  { apply (derivable_pt_lim_comp (fun v => u v / rho v) (legendre n m)); [exact D1|apply legendre_derivative]. }
  assert (D3 : derivable_pt_lim (fun v => rho v ^ k) s (INR k * rho s ^ pred k * r1)) by (apply (derivable_pt_lim_comp rho (fun w => w ^ k)); [exact Dr|apply derivable_pt_lim_pow]).
  assert (Nk : forall j, rho s ^ j <> 0) by (intros j; apply pow_nonzero; exact N).
  pose proof (derivable_pt_lim_div (fun v => legendre n m (u v / rho v)) (fun v => rho v ^ k) s _ _ D2 D3 (Nk k)) as D. cbv beta in D. unfold div_fct in D.
  match goal with |- derivable_pt_lim _ _ ?b => match type of D with derivable_pt_lim _ _ ?a => replace b with a; [exact D|] end end.
  unfold Rsqr. pose proof (Nk k) as Nk'. destruct k as [|k]; [cbn [INR pred pow Nat.add]; field; exact N|]. cbn [pred]. replace (S k + 1)%nat with (S (S k)) by lia. change (rho s ^ S (S k)) with (rho s * (rho s * rho s ^ k)). change (rho s ^ S k) with (rho s * rho s ^ k) in *.
  pose proof (Nk k). field. auto.
Qed.
Section At.
  Variables x y z : R.
  Hypothesis P : 0 < x * x + y * y + z * z.
  Let r := rad x y z.
  Local Lemma rp : 0 < r. Proof. apply rad_pos, P. Qed.
  Local Lemma rsq : r * r = x * x + y * y + z * z. Proof. apply rad_sq. Qed.
  Local Lemma rk k : r ^ k <> 0. Proof. apply pow_nonzero. pose proof rp. lra. Qed.
  Lemma radial_x n m : d_dx (radial n m) x y z (- x * radial (S n) (S m) x y z).
  Proof.
    unfold d_dx, radial. pose proof (radial_limit n m (n + m + 1) (fun _ => z) (fun s => rad s y z) x 0 (x / r)) as D. cbv beta in D. fold r in D |- *. pose proof rp as Rp. assert (N : r <> 0) by lra.
    specialize (D N (derivable_pt_lim_const z x) (rad_x x y z P)). match goal with |- derivable_pt_lim _ _ ?b => match type of D with derivable_pt_lim _ _ ?a => replace b with a; [exact D|] end end.
    rewrite next_both. replace (S n + S m + 1)%nat with (S (S (n + m + 1))) by lia. replace (n + m + 1 + 1)%nat with (S (n + m + 1)) by lia. cbn [pow]. set (k := (n + m + 1)%nat). pose proof (rk k). field. auto.
  Qed.
  Lemma radial_y n m : d_dy (radial n m) x y z (- y * radial (S n) (S m) x y z).
  Proof.
    unfold d_dy, radial. pose proof (radial_limit n m (n + m + 1) (fun _ => z) (fun s => rad x s z) y 0 (y / r)) as D. cbv beta in D. fold r in D |- *. pose proof rp as Rp. assert (N : r <> 0) by lra.
    specialize (D N (derivable_pt_lim_const z y) (rad_y x y z P)). match goal with |- derivable_pt_lim _ _ ?b => match type of D with derivable_pt_lim _ _ ?a => replace b with a; [exact D|] end end.
    rewrite next_both. replace (S n + S m + 1)%nat with (S (S (n + m + 1))) by lia. replace (n + m + 1 + 1)%nat with (S (n + m + 1)) by lia. cbn [pow]. set (k := (n + m + 1)%nat). pose proof (rk k). field. auto.
  Qed.
  Lemma radial_z n m : (m <= n)%nat -> d_dz (radial n m) x y z (- INR (S n - m) * radial (S n) m x y z).
  Proof.
    intros M. unfold d_dz, radial. pose proof (radial_limit n m (n + m + 1) (fun s => s) (fun s => rad x y s) z 1 (z / r)) as D. cbv beta in D. fold r in D |- *. pose proof rp as Rp. assert (N : r <> 0) by lra.
    specialize (D N (derivable_pt_lim_id z) (rad_z x y z P)). match goal with |- derivable_pt_lim _ _ ?b => match type of D with derivable_pt_lim _ _ ?a => replace b with a; [exact D|] end end.
    pose proof (next_degree n m (z / r) M) as E. replace (S n + m + 1)%nat with (S (n + m + 1)) by lia. replace (n + m + 1 + 1)%nat with (S (n + m + 1)) by lia. cbn [pow]. set (k := (n + m + 1)%nat) in *. pose proof (rk k).
    replace (- INR (S n - m) * (legendre (S n) m (z / r) / (r * r ^ k))) with (- INR (S n - m) * legendre (S n) m (z / r) / (r * r ^ k)) by (field; auto). rewrite <- E. field. auto.
  Qed.
  (** 2 (p+1) f(n, p+1) - (x^2 + y^2) f(n+1, p+2) = (n-p) (n-p+1) f(n+1, p) *)
  Lemma radial_lower n p : (p + 1 <= n)%nat -> 2 * INR (S p) * radial n (S p) x y z - (x * x + y * y) * radial (S n) (S (S p)) x y z = INR (n - p) * INR (n - p + 1) * radial (S n) p x y z.
  Proof.
    intros Q. unfold radial. fold r. pose proof (lower_order n p (z / r) Q) as E. pose proof rp as Rp. assert (N : r <> 0) by lra. pose proof rsq as S2.
    replace (S n + S (S p) + 1)%nat with (S (S (n + S p + 1))) by lia. replace (S n + p + 1)%nat with (n + S p + 1)%nat by lia. cbn [pow]. set (k := (n + S p + 1)%nat). pose proof (rk k).
    replace (x * x + y * y) with (r * r * (1 - (z / r) ^ 2)) by (replace (r * r * (1 - (z / r) ^ 2)) with (r * r - z * z) by (field; auto); lra).
    replace (INR (n - p) * INR (n - p + 1) * (legendre (S n) p (z / r) / r ^ k)) with (INR (n - p) * INR (n - p + 1) * legendre (S n) p (z / r) / r ^ k) by (field; auto). rewrite <- E. cbn [pow]. field. auto.
  Qed.
End At.

(** ** powers of x + i y *)
Lemma cpow_S m x y : cpow (S m) x y = (x * fst (cpow m x y) - y * snd (cpow m x y), y * fst (cpow m x y) + x * snd (cpow m x y)).
Proof. cbn [cpow]. destruct (cpow m x y). reflexivity. Qed.
Notation A m x y := (fst (cpow m x y)).
Notation B m x y := (snd (cpow m x y)).
Lemma A_S m x y : A (S m) x y = x * A m x y - y * B m x y. Proof. rewrite cpow_S. reflexivity. Qed.
Lemma B_S m x y : B (S m) x y = y * A m x y + x * B m x y. Proof. rewrite cpow_S. reflexivity. Qed.
Lemma cpow_x m x y : derivable_pt_lim (fun s => A m s y) x (INR m * A (pred m) x y) /\ derivable_pt_lim (fun s => B m s y) x (INR m * B (pred m) x y).
Proof.
  induction m as [|m (IA & IB)].
  - cbn. rewrite !Rmult_0_l. split; apply derivable_pt_lim_const.
  - cbn [pred]. split.
    + replace (INR (S m) * A m x y) with ((1 * A m x y + x * (INR m * A (pred m) x y)) - (0 * B m x y + y * (INR m * B (pred m) x y))).
      * apply (limit_ext (fun s => s * A m s y - y * B m s y)); [intros s; symmetry; apply A_S|].
        apply (derivable_pt_lim_minus (fun s => s * A m s y) (fun s => y * B m s y)).
        -- apply (derivable_pt_lim_mult (fun s => s) (fun s => A m s y)); [apply derivable_pt_lim_id|exact IA].
        -- apply (derivable_pt_lim_mult (fun _ => y) (fun s => B m s y)); [apply derivable_pt_lim_const|exact IB].
      * rewrite S_INR. destruct m; [cbn; ring|]. cbn [pred]. rewrite A_S. ring.
    + replace (INR (S m) * B m x y) with ((0 * A m x y + y * (INR m * A (pred m) x y)) + (1 * B m x y + x * (INR m * B (pred m) x y))).
      * apply (limit_ext (fun s => y * A m s y + s * B m s y)); [intros s; symmetry; apply B_S|].
        apply (derivable_pt_lim_plus (fun s => y * A m s y) (fun s => s * B m s y)).
        -- apply (derivable_pt_lim_mult (fun _ => y) (fun s => A m s y)); [apply derivable_pt_lim_const|exact IA].
        -- apply (derivable_pt_lim_mult (fun s => s) (fun s => B m s y)); [apply derivable_pt_lim_id|exact IB].
      * rewrite S_INR. destruct m; [cbn; ring|]. cbn [pred]. rewrite B_S. ring.
Qed.
Lemma cpow_y m x y : derivable_pt_lim (fun s => A m x s) y (- INR m * B (pred m) x y) /\ derivable_pt_lim (fun s => B m x s) y (INR m * A (pred m) x y).
Proof.
  induction m as [|m (IA & IB)].
  - cbn. rewrite Ropp_0, !Rmult_0_l. split; apply derivable_pt_lim_const.
  - cbn [pred]. split.
    + replace (- INR (S m) * B m x y) with ((0 * A m x y + x * (- INR m * B (pred m) x y)) - (1 * B m x y + y * (INR m * A (pred m) x y))).
      * apply (limit_ext (fun s => x * A m x s - s * B m x s)); [intros s; symmetry; apply A_S|].
        apply (derivable_pt_lim_minus (fun s => x * A m x s) (fun s => s * B m x s)).
        -- apply (derivable_pt_lim_mult (fun _ => x) (fun s => A m x s)); [apply derivable_pt_lim_const|exact IA].
        -- apply (derivable_pt_lim_mult (fun s => s) (fun s => B m x s)); [apply derivable_pt_lim_id|exact IB].
      * rewrite S_INR. destruct m; [cbn; ring|]. cbn [pred]. rewrite B_S. ring.
    + replace (INR (S m) * A m x y) with ((1 * A m x y + y * (- INR m * B (pred m) x y)) + (0 * B m x y + x * (INR m * A (pred m) x y))).
      * apply (limit_ext (fun s => s * A m x s + x * B m x s)); [intros s; symmetry; apply B_S|].
        apply (derivable_pt_lim_plus (fun s => s * A m x s) (fun s => x * B m x s)).
        -- apply (derivable_pt_lim_mult (fun s => s) (fun s => A m x s)); [apply derivable_pt_lim_id|exact IA].
        -- apply (derivable_pt_lim_mult (fun _ => x) (fun s => B m x s)); [apply derivable_pt_lim_const|exact IB].
      * rewrite S_INR. destruct m; [cbn; ring|]. cbn [pred]. rewrite A_S. ring.
Qed.

(** ** combinations of solid harmonics and their derivatives *)
Inductive kind := KV | KW.
Definition one (k : kind) (n m : nat) (x y z : R) : R := match k with KV => solid_v n m x y z | KW => solid_w n m x y z end.
Definition comb := list (R * (kind * nat * nat)).
Fixpoint ev (c : comb) (x y z : R) : R := match c with [] => 0 | (a, (k, n, m)) :: r => a * one k n m x y z + ev r x y z end.
Definition low (n p : nat) : R := INR (n - p) * INR (n - p + 1) / 2.
Definition dx1 (t : kind * nat * nat) : comb :=
  match t with
  | (KV, n, O) => [(-1, (KV, S n, 1%nat))]
  | (KW, n, O) => []
  | (k, n, S p) => [(low n p, (k, S n, p)); (- / 2, (k, S n, S (S p)))]
  end.
Definition dy1 (t : kind * nat * nat) : comb :=
  match t with
  | (KV, n, O) => [(-1, (KW, S n, 1%nat))]
  | (KW, n, O) => []
  | (KV, n, S p) => [(- low n p, (KW, S n, p)); (- / 2, (KW, S n, S (S p)))]
  | (KW, n, S p) => [(low n p, (KV, S n, p)); (/ 2, (KV, S n, S (S p)))]
  end.
Definition dz1 (t : kind * nat * nat) : comb := match t with (k, n, m) => [(- INR (S n - m), (k, S n, m))] end.
Definition scale_c (a : R) (c : comb) : comb := map (fun t => (a * fst t, snd t)) c.
Definition dc (d : kind * nat * nat -> comb) (c : comb) : comb := flat_map (fun t => scale_c (fst t) (d (snd t))) c.
Definition wfc (c : comb) : Prop := Forall (fun t => let '(_, (_, n, m)) := t in (m <= n)%nat) c.

Section Derivatives.
  Variables x y z : R.
  Hypothesis P : 0 < x * x + y * y + z * z.
  Lemma one_x k n m : (m <= n)%nat -> d_dx (one k n m) x y z (ev (dx1 (k, n, m)) x y z).
  Proof.
    intros M. destruct (cpow_x m x y) as (DA & DB). pose proof (radial_x x y z P n m) as DR. unfold d_dx in *. destruct k.
    - pose proof (derivable_pt_lim_mult (fun s => A m s y) (fun s => radial n m s y z) x _ _ DA DR) as D. unfold mult_fct in D. cbv beta in D. unfold one, solid_v.
      match goal with |- derivable_pt_lim _ _ ?b => match type of D with derivable_pt_lim _ _ ?a => replace b with a; [exact D|] end end.
      destruct m as [|p]; [cbn; unfold one, solid_v; cbn; ring|]. cbn [pred dx1 ev one]. unfold solid_v, low. pose proof (radial_lower x y z P n p ltac:(lia)) as L.
      replace (INR (n - p) * INR (n - p + 1) / 2 * (A p x y * radial (S n) p x y z)) with (A p x y / 2 * (INR (n - p) * INR (n - p + 1) * radial (S n) p x y z)) by field. rewrite <- L. rewrite !A_S, !B_S. field.
    - pose proof (derivable_pt_lim_mult (fun s => B m s y) (fun s => radial n m s y z) x _ _ DB DR) as D. unfold mult_fct in D. cbv beta in D. unfold one, solid_w.
      match goal with |- derivable_pt_lim _ _ ?b => match type of D with derivable_pt_lim _ _ ?a => replace b with a; [exact D|] end end.
      destruct m as [|p]; [cbn; ring|]. cbn [pred dx1 ev one]. unfold solid_w, low. pose proof (radial_lower x y z P n p ltac:(lia)) as L.
      replace (INR (n - p) * INR (n - p + 1) / 2 * (B p x y * radial (S n) p x y z)) with (B p x y / 2 * (INR (n - p) * INR (n - p + 1) * radial (S n) p x y z)) by field. rewrite <- L. rewrite !B_S, !A_S, ?B_S. field.
  Qed.
  Lemma one_y k n m : (m <= n)%nat -> d_dy (one k n m) x y z (ev (dy1 (k, n, m)) x y z).
  Proof.
    intros M. destruct (cpow_y m x y) as (DA & DB). pose proof (radial_y x y z P n m) as DR. unfold d_dy in *. destruct k.
    - pose proof (derivable_pt_lim_mult (fun s => A m x s) (fun s => radial n m x s z) y _ _ DA DR) as D. unfold mult_fct in D. cbv beta in D. unfold one, solid_v.
      match goal with |- derivable_pt_lim _ _ ?b => match type of D with derivable_pt_lim _ _ ?a => replace b with a; [exact D|] end end.
      destruct m as [|p]; [cbn; unfold one, solid_w; cbn; ring|]. cbn [pred dy1 ev one]. unfold solid_w, low. pose proof (radial_lower x y z P n p ltac:(lia)) as L.
      replace (- (INR (n - p) * INR (n - p + 1) / 2) * (B p x y * radial (S n) p x y z)) with (- B p x y / 2 * (INR (n - p) * INR (n - p + 1) * radial (S n) p x y z)) by field. rewrite <- L. rewrite !B_S, !A_S, ?B_S. field.
    - pose proof (derivable_pt_lim_mult (fun s => B m x s) (fun s => radial n m x s z) y _ _ DB DR) as D. unfold mult_fct in D. cbv beta in D. unfold one, solid_w.
      match goal with |- derivable_pt_lim _ _ ?b => match type of D with derivable_pt_lim _ _ ?a => replace b with a; [exact D|] end end.
      destruct m as [|p]; [cbn; ring|]. cbn [pred dy1 ev one]. unfold solid_v, low. pose proof (radial_lower x y z P n p ltac:(lia)) as L.
      replace (INR (n - p) * INR (n - p + 1) / 2 * (A p x y * radial (S n) p x y z)) with (A p x y / 2 * (INR (n - p) * INR (n - p + 1) * radial (S n) p x y z)) by field. rewrite <- L. rewrite !A_S, !B_S, ?A_S. field.
  Qed.
  Lemma one_z k n m : (m <= n)%nat -> d_dz (one k n m) x y z (ev (dz1 (k, n, m)) x y z).
  Proof.
    intros M. pose proof (radial_z x y z P n m M) as DR. unfold d_dz in *. destruct k; cbn [dz1 ev one]; unfold solid_v, solid_w.
    - replace (- INR (S n - m) * (A m x y * radial (S n) m x y z) + 0) with (A m x y * (- INR (S n - m) * radial (S n) m x y z)) by ring. apply derivable_pt_lim_scal. exact DR.
    - replace (- INR (S n - m) * (B m x y * radial (S n) m x y z) + 0) with (B m x y * (- INR (S n - m) * radial (S n) m x y z)) by ring. apply derivable_pt_lim_scal. exact DR.
  Qed.
End Derivatives.
Lemma wfc_scale a c : wfc c -> wfc (scale_c a c).
Proof. unfold wfc, scale_c. rewrite !Forall_forall. intros H t I. apply in_map_iff in I. destruct I as ((b & ((k & n) & m)) & <- & I). exact (H _ I). Qed.
Lemma wfc_dc (d : kind * nat * nat -> comb) c : (forall k n m, (m <= n)%nat -> wfc (d (k, n, m))) -> wfc c -> wfc (dc d c).
Proof.
  intros D Wf. induction c as [|(a, ((k, n), m)) c IH]; [constructor|]. inversion Wf; subst. cbn [dc flat_map fst snd]. apply Forall_app. split; [apply wfc_scale, D; assumption|apply IH; assumption].
Qed.
