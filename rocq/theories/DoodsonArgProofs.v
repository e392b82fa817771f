From Coq Require Import Reals ZArith Lra.
From Verif Require Import Angles DoodsonModel DoodsonArgModel DoodsonArgSpec.
Open Scope R_scope.

Lemma argument_eqm n f g : eqm (vtau f) (vtau g) -> eqm (vs f) (vs g) -> eqm (vh f) (vh g) -> eqm (vp f) (vp g) ->
  eqm (vn f) (vn g) -> eqm (vps f) (vps g) -> argument n f = argument n g.
Proof.
  intros. unfold argument. apply anp_eqm_iff. repeat apply eqm_add; apply eqm_scale; assumption.
Qed.

Lemma argument_iers n F gmst : argument n (delaunay2doodson F gmst) = anp (iers_argument n F gmst).
Proof.
  unfold argument. apply anp_eqm_iff. unfold delaunay2doodson. cbn [vtau vs vh vp vn vps].
  set (s := ef F + eom F).
  apply eqm_trans with ((gmst + PI - s) * IZR (n0 n) + s * IZR (n1 n) + (s - ed F) * IZR (n2 n) + (s - el F) * IZR (n3 n) +
    (- eom F) * IZR (n4 n) + (s - ed F - elp F) * IZR (n5 n)).
  - repeat apply eqm_add; apply eqm_scale; try apply anp_eqm.
    eapply eqm_trans; [apply anp_eqm|]. apply eqm_sub; [apply eqm_refl|apply anp_eqm].
  - apply eqm_eq. unfold s, iers_argument, nl, nlp, nF, nD, nOm.
    rewrite ?minus_IZR, ?plus_IZR, ?minus_IZR. ring.
Qed.

Lemma argument_additive n m f : eqm (argument (dadd n m) f) (argument n f + argument m f).
Proof.
  unfold argument. eapply eqm_trans; [apply anp_eqm|]. eapply eqm_trans; [|apply eqm_sym, eqm_add; apply anp_eqm].
  apply eqm_eq. unfold dadd. cbn [n0 n1 n2 n3 n4 n5]. rewrite !plus_IZR. ring.
Qed.

Lemma argument_range n f : 0 <= argument n f < 2 * PI.
Proof. apply anp_range. Qed.

Lemma variables_range F gmst : let v := delaunay2doodson F gmst in
  0 <= vtau v < 2 * PI /\ 0 <= vs v < 2 * PI /\ 0 <= vh v < 2 * PI /\ 0 <= vp v < 2 * PI /\ 0 <= vn v < 2 * PI /\ 0 <= vps v < 2 * PI.
Proof. repeat split; apply anp_range. Qed.
