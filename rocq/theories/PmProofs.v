From Coq Require Import Reals Lra.
From Verif Require Import Vec AlfMath PmModel PmSpec.
Open Scope R_scope.

Section Curve.
  Variables (c : R -> v3) (t : R) (u : v3).
  Hypothesis D : curve_lim c t u.
  Lemma dot_limit w : derivable_pt_lim (fun s => dot (c s) w) t (dot u w).
  Proof.
    destruct D as (D1 & D2 & D3). unfold dot.
    apply (derivable_pt_lim_plus (fun s => p1 (c s) * p1 w + p2 (c s) * p2 w) (fun s => p3 (c s) * p3 w)); [apply (derivable_pt_lim_plus (fun s => p1 (c s) * p1 w) (fun s => p2 (c s) * p2 w))|].
    - replace (p1 u * p1 w) with (p1 u * p1 w + p1 (c t) * 0) by ring. apply (derivable_pt_lim_mult (fun s => p1 (c s)) (fun _ => p1 w)); [exact D1|apply derivable_pt_lim_const].
    - replace (p2 u * p2 w) with (p2 u * p2 w + p2 (c t) * 0) by ring. apply (derivable_pt_lim_mult (fun s => p2 (c s)) (fun _ => p2 w)); [exact D2|apply derivable_pt_lim_const].
    - replace (p3 u * p3 w) with (p3 u * p3 w + p3 (c t) * 0) by ring. apply (derivable_pt_lim_mult (fun s => p3 (c s)) (fun _ => p3 w)); [exact D3|apply derivable_pt_lim_const].
  Qed.
  Lemma sq_limit : derivable_pt_lim (fun s => dot (c s) (c s)) t (2 * dot u (c t)).
  Proof.
    destruct D as (D1 & D2 & D3). unfold dot.
    replace (2 * (p1 u * p1 (c t) + p2 u * p2 (c t) + p3 u * p3 (c t))) with ((p1 u * p1 (c t) + p1 (c t) * p1 u) + (p2 u * p2 (c t) + p2 (c t) * p2 u) + (p3 u * p3 (c t) + p3 (c t) * p3 u)) by ring.
    apply (derivable_pt_lim_plus (fun s => p1 (c s) * p1 (c s) + p2 (c s) * p2 (c s)) (fun s => p3 (c s) * p3 (c s))); [apply (derivable_pt_lim_plus (fun s => p1 (c s) * p1 (c s)) (fun s => p2 (c s) * p2 (c s)))|].
    - apply (derivable_pt_lim_mult (fun s => p1 (c s)) (fun s => p1 (c s))); exact D1.
    - apply (derivable_pt_lim_mult (fun s => p2 (c s)) (fun s => p2 (c s))); exact D2.
    - apply (derivable_pt_lim_mult (fun s => p3 (c s)) (fun s => p3 (c s))); exact D3.
  Qed.
  Hypothesis N : c t <> v0.
  Lemma len_limit : derivable_pt_lim (fun s => len (c s)) t (dot u (c t) / len (c t)).
  Proof.
    unfold len at 1. replace (dot u (c t) / len (c t)) with (/ (2 * sqrt (dot (c t) (c t))) * (2 * dot u (c t))) by (unfold len; field; apply Rgt_not_eq, sqrt_lt_R0, dot_pos, N).
    apply (derivable_pt_lim_comp (fun s => dot (c s) (c s)) sqrt); [apply sq_limit|]. apply derivable_pt_lim_sqrt, dot_pos, N.
  Qed.
  Lemma cube_limit : derivable_pt_lim (fun s => dot (c s) (c s) * len (c s)) t (3 * len (c t) * dot u (c t)).
  Proof.
    replace (3 * len (c t) * dot u (c t)) with (2 * dot u (c t) * len (c t) + dot (c t) (c t) * (dot u (c t) / len (c t))).
    - apply (derivable_pt_lim_mult (fun s => dot (c s) (c s)) (fun s => len (c s))); [apply sq_limit|apply len_limit].
    - rewrite <- len_sq. field. apply Rgt_not_eq, len_pos, N.
  Qed.
  (** f / |c|^3 *)
  Lemma over_cube (f : R -> R) k v : derivable_pt_lim f t v ->
    derivable_pt_lim (fun s => k * (f s / (dot (c s) (c s) * len (c s)))) t (k * (v / (dot (c t) (c t) * len (c t)) - 3 * dot u (c t) * f t / (dot (c t) (c t) * len (c t) * dot (c t) (c t)))).
  Proof.
    intros F. pose proof (len_pos _ N) as P. pose proof (dot_pos _ N) as Q.
    pose proof (derivable_pt_lim_scal (fun s => f s / (dot (c s) (c s) * len (c s))) k t _ (derivable_pt_lim_div f (fun s => dot (c s) (c s) * len (c s)) t v _ F cube_limit ltac:(apply Rgt_not_eq, Rmult_lt_0_compat; assumption))) as L.
    unfold Rsqr in L. match type of L with derivable_pt_lim _ _ ?x => replace (k * (v / _ - _)) with x; [exact L|] end.
    f_equal. rewrite <- !len_sq. field. lra.
  Qed.
End Curve.

Lemma outer_dot a s u : dot (vmul a s) u = a * dot s u. Proof. unfold dot, vmul. cbn [p1 p2 p3]. ring. Qed.
Lemma shift_limit c t u b : curve_lim c t u -> curve_lim (fun s => vminus (c s) b) t u.
Proof.
  intros (D1 & D2 & D3). unfold vminus. repeat split; cbn [p1 p2 p3]; [replace (p1 u) with (p1 u - 0) by ring; apply (derivable_pt_lim_minus (fun s => p1 (c s)) (fun _ => p1 b))|replace (p2 u) with (p2 u - 0) by ring; apply (derivable_pt_lim_minus (fun s => p2 (c s)) (fun _ => p2 b))|replace (p3 u) with (p3 u - 0) by ring; apply (derivable_pt_lim_minus (fun s => p3 (c s)) (fun _ => p3 b))]; first [assumption|apply derivable_pt_lim_const].
Qed.
Lemma vminus_ne a b : a <> b -> vminus a b <> v0.
Proof. intros H E. apply H. destruct a, b. unfold vminus, v0 in E. cbn in E. injection E. intros. f_equal; lra. Qed.

Lemma jacobian c t u b GM : curve_lim c t u -> c t <> b -> curve_lim (fun s => pm_acceleration (c s) b GM) t (app3 (snd (pm_partials (c t) b GM)) u).
Proof.
  intros D N. pose proof (shift_limit c t u b D) as E. pose proof (vminus_ne _ _ N) as N'. pose proof (len_pos _ N') as P. pose proof (dot_pos _ N') as Q.
  destruct E as (E1 & E2 & E3) eqn:EE. clear EE.
  assert (X : forall f k w v, derivable_pt_lim f t v -> derivable_pt_lim (fun s => - GM * (f s / (dot (vminus (c s) b) (vminus (c s) b) * len (vminus (c s) b)) + k / w)) t (- GM * (v / (dot (vminus (c t) b) (vminus (c t) b) * len (vminus (c t) b)) - 3 * dot u (vminus (c t) b) * f t / (dot (vminus (c t) b) (vminus (c t) b) * len (vminus (c t) b) * dot (vminus (c t) b) (vminus (c t) b))))).
  { intros f k w v F. pose proof (over_cube (fun s => vminus (c s) b) t u (conj E1 (conj E2 E3)) N' f (- GM) v F) as L. cbn beta in L.
    apply (limit_ext (fun s => - GM * (f s / (dot (vminus (c s) b) (vminus (c s) b) * len (vminus (c s) b))) + - GM * (k / w))); [intros; ring|].
    match goal with |- derivable_pt_lim _ _ ?x => replace x with (x + 0) by ring end.
    apply (derivable_pt_lim_plus (fun s => - GM * (f s / (dot (vminus (c s) b) (vminus (c s) b) * len (vminus (c s) b)))) (fun _ => - GM * (k / w))); [exact L|apply derivable_pt_lim_const]. }
  repeat split.
  - pose proof (X _ (p1 b) (dot b b * len b) _ E1) as L. unfold pm_acceleration, pm_partials, app3, vmul, vplus, vdiv, mscale, mminus, mdiv, outer, ident, vminus. cbn -[dot len]. unfold vminus in L. cbn -[dot len] in L.
    match type of L with derivable_pt_lim _ _ ?x => match goal with |- derivable_pt_lim _ _ ?y => replace y with x; [exact L|] end end. clear - P Q. unfold vminus in *. set (l := len _) in *. unfold dot, vmul in *. cbn [p1 p2 p3] in *. field. lra.
  - pose proof (X _ (p2 b) (dot b b * len b) _ E2) as L. unfold pm_acceleration, pm_partials, app3, vmul, vplus, vdiv, mscale, mminus, mdiv, outer, ident, vminus. cbn -[dot len]. unfold vminus in L. cbn -[dot len] in L.
    match type of L with derivable_pt_lim _ _ ?x => match goal with |- derivable_pt_lim _ _ ?y => replace y with x; [exact L|] end end. clear - P Q. unfold vminus in *. set (l := len _) in *. unfold dot, vmul in *. cbn [p1 p2 p3] in *. field. lra.
  - pose proof (X _ (p3 b) (dot b b * len b) _ E3) as L. unfold pm_acceleration, pm_partials, app3, vmul, vplus, vdiv, mscale, mminus, mdiv, outer, ident, vminus. cbn -[dot len]. unfold vminus in L. cbn -[dot len] in L.
    match type of L with derivable_pt_lim _ _ ?x => match goal with |- derivable_pt_lim _ _ ?y => replace y with x; [exact L|] end end. clear - P Q. unfold vminus in *. set (l := len _) in *. unfold dot, vmul in *. cbn [p1 p2 p3] in *. field. lra.
Qed.
Lemma same_acceleration r b GM : fst (pm_partials r b GM) = pm_acceleration r b GM. Proof. reflexivity. Qed.
Lemma symmetric r b GM : transp (snd (pm_partials r b GM)) = snd (pm_partials r b GM).
Proof. unfold pm_partials, transp, mscale, mminus, mdiv, outer, ident, vmul, vminus, vdiv. cbn. f_equal; f_equal; f_equal; f_equal; unfold Rdiv; try ring. all: f_equal; ring. Qed.
Lemma traceless r b GM : r <> b -> trace (snd (pm_partials r b GM)) = 0.
Proof.
  intros N. pose proof (vminus_ne _ _ N) as N'. pose proof (len_pos _ N') as P. pose proof (dot_pos _ N') as Q. unfold pm_partials, trace, mscale, mminus, mdiv, outer, ident, vmul, vdiv. set (s := vminus r b) in *. set (l := len s) in *. unfold dot, vmul in *. cbn [row1 row2 row3 p1 p2 p3 snd vminus]. field. lra.
Qed.
Lemma cube_len a : len a ^ 3 = dot a a * len a. Proof. cbn. rewrite <- len_sq. ring. Qed.
Lemma len_opp a b : len (vminus a b) = len (vminus b a). Proof. unfold len. f_equal. unfold dot, vminus. cbn. ring. Qed.
Lemma newtonian r b GM : r <> b -> b <> v0 -> pm_acceleration r b GM = vminus (newton GM b r) (newton GM b v0).
Proof.
  intros N B. unfold pm_acceleration, newton. rewrite !cube_len. rewrite (len_opp b r). replace (vminus b v0) with b by (destruct b; unfold vminus, v0; cbn; f_equal; ring).
  replace (dot (vminus b r) (vminus b r)) with (dot (vminus r b) (vminus r b)) by (unfold dot, vminus; cbn; ring). pose proof (vminus_ne _ _ N) as N'. pose proof (len_pos _ N'). pose proof (dot_pos _ N'). pose proof (len_pos _ B). pose proof (dot_pos _ B).
  set (l := len _) in *. set (q := dot (vminus r b) _) in *. set (L := len b) in *. set (Q := dot b b) in *. unfold vmul, vplus, vdiv, vminus. cbn [p1 p2 p3]. f_equal; field; lra.
Qed.
Lemma potential_gradient c t u b GM : curve_lim c t u -> c t <> b -> b <> v0 -> derivable_pt_lim (fun s => disturbing GM b (c s)) t (dot (pm_acceleration (c t) b GM) u).
Proof.
  intros D N B. pose proof (shift_limit c t u b D) as E. pose proof (vminus_ne _ _ N) as N'. pose proof (len_pos _ N') as P. pose proof (len_pos _ B) as P'. unfold disturbing.
  assert (L1 : derivable_pt_lim (fun s => 1 / len (vminus (c s) b)) t (- (dot u (vminus (c t) b)) / (dot (vminus (c t) b) (vminus (c t) b) * len (vminus (c t) b)))).
  { pose proof (derivable_pt_lim_div (fun _ => 1) (fun s => len (vminus (c s) b)) t _ _ (derivable_pt_lim_const 1 t) (len_limit _ t u E N') ltac:(lra)) as L. match type of L with derivable_pt_lim _ _ ?x => match goal with |- derivable_pt_lim _ _ ?y => replace y with x; [exact L|] end end. unfold Rsqr. rewrite <- len_sq. field. lra. }
  assert (L2 : derivable_pt_lim (fun s => dot (c s) b / len b ^ 3) t (dot u b / len b ^ 3)).
  { pose proof (derivable_pt_lim_div (fun s => dot (c s) b) (fun _ => len b ^ 3) t _ _ (dot_limit c t u D b) (derivable_pt_lim_const _ t) ltac:(apply Rgt_not_eq, pow_lt, P')) as L. match type of L with derivable_pt_lim _ _ ?x => match goal with |- derivable_pt_lim _ _ ?y => replace y with x; [exact L|] end end. unfold Rsqr. field. lra. }
  pose proof (derivable_pt_lim_scal _ GM t _ (derivable_pt_lim_minus _ _ t _ _ L1 L2)) as L. match type of L with derivable_pt_lim _ _ ?x => match goal with |- derivable_pt_lim _ _ ?y => replace y with x; [exact L|] end end.
  rewrite cube_len. unfold pm_acceleration. pose proof (dot_pos _ N'). pose proof (dot_pos _ B). set (l := len (vminus _ _)) in *. set (k := len b) in *. set (q := dot (vminus _ _) (vminus _ _)) in *. set (Q := dot b b) in *. unfold dot, vmul, vplus, vdiv, vminus. cbn [p1 p2 p3]. field. lra.
Qed.
