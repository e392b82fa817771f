From Coq Require Import Reals Lra.
From Verif Require Import Vec PmModel PmSpec PmProofs.
Open Scope R_scope.

(** ** C40 *)
(** along every differentiable path of the satellite the acceleration changes at the rate J times velocity *)
Theorem c40_jacobian c t u b GM : curve_lim c t u -> c t <> b -> curve_lim (fun s => fst (pm_partials (c s) b GM)) t (app3 (snd (pm_partials (c t) b GM)) u).
Proof. exact (jacobian c t u b GM). Qed.
(** in particular column j holds the derivatives with respect to coordinate j *)
Theorem c40_columns x y z b GM : mk3 x y z <> b -> let J := snd (pm_partials (mk3 x y z) b GM) in
  curve_lim (fun s => pm_acceleration (mk3 s y z) b GM) x (mk3 (p1 (row1 J)) (p1 (row2 J)) (p1 (row3 J))) /\
  curve_lim (fun s => pm_acceleration (mk3 x s z) b GM) y (mk3 (p2 (row1 J)) (p2 (row2 J)) (p2 (row3 J))) /\
  curve_lim (fun s => pm_acceleration (mk3 x y s) b GM) z (mk3 (p3 (row1 J)) (p3 (row2 J)) (p3 (row3 J))).
Proof.
  intros N J. split; [|split].
  - replace (mk3 (p1 (row1 J)) (p1 (row2 J)) (p1 (row3 J))) with (app3 J (mk3 1 0 0)) by (unfold app3, dot; cbn [p1 p2 p3]; f_equal; ring). apply (jacobian (fun s => mk3 s y z) x (mk3 1 0 0) b GM); [|exact N]. repeat split; cbn [p1 p2 p3]; first [apply derivable_pt_lim_id|apply derivable_pt_lim_const].
  - replace (mk3 (p2 (row1 J)) (p2 (row2 J)) (p2 (row3 J))) with (app3 J (mk3 0 1 0)) by (unfold app3, dot; cbn [p1 p2 p3]; f_equal; ring). apply (jacobian (fun s => mk3 x s z) y (mk3 0 1 0) b GM); [|exact N]. repeat split; cbn [p1 p2 p3]; first [apply derivable_pt_lim_id|apply derivable_pt_lim_const].
  - replace (mk3 (p3 (row1 J)) (p3 (row2 J)) (p3 (row3 J))) with (app3 J (mk3 0 0 1)) by (unfold app3, dot; cbn [p1 p2 p3]; f_equal; ring). apply (jacobian (fun s => mk3 x y s) z (mk3 0 0 1) b GM); [|exact N]. repeat split; cbn [p1 p2 p3]; first [apply derivable_pt_lim_id|apply derivable_pt_lim_const].
Qed.
Theorem c40_symmetric r b GM : transp (snd (pm_partials r b GM)) = snd (pm_partials r b GM).
Proof. exact (symmetric r b GM). Qed.
Theorem c40_traceless r b GM : r <> b -> trace (snd (pm_partials r b GM)) = 0.
Proof. exact (traceless r b GM). Qed.
Theorem c40_overloads_agree r b GM : fst (pm_partials r b GM) = pm_acceleration r b GM.
Proof. exact (same_acceleration r b GM). Qed.
(** what the acceleration is: attraction of the satellite minus attraction of the origin *)
Theorem c40_newton r b GM : r <> b -> b <> v0 -> pm_acceleration r b GM = vminus (newton GM b r) (newton GM b v0).
Proof. exact (newtonian r b GM). Qed.
(** and the gradient of the disturbing potential *)
Theorem c40_potential c t u b GM : curve_lim c t u -> c t <> b -> b <> v0 -> derivable_pt_lim (fun s => disturbing GM b (c s)) t (dot (pm_acceleration (c t) b GM) u).
Proof. exact (potential_gradient c t u b GM). Qed.
Example c40_nonvacuous : curve_lim (fun s => mk3 s 0 0) 7 (mk3 1 0 0) /\ mk3 7 0 0 <> mk3 0 400 0 /\ mk3 0 400 0 <> v0.
Proof. split; [repeat split; cbn [p1 p2 p3]; first [apply derivable_pt_lim_id|apply derivable_pt_lim_const]|]. split; intros E; injection E; lra. Qed.
Print Assumptions c40_jacobian.
Print Assumptions c40_columns.
Print Assumptions c40_symmetric.
Print Assumptions c40_traceless.
Print Assumptions c40_overloads_agree.
Print Assumptions c40_newton.
Print Assumptions c40_potential.
