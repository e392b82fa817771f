(** C76: rounding errors of acceleration and gradient in src/lib/gravity/sh_cunningham_normalized_gradient.cpp. *)
From Coq Require Import Reals ZArith List Lia Lra.
From Verif Require Import Base FlModel FlProofs AlfSpec AlfMath CunSpec CunMath CunMath2 CunModel CunReady CunProofs CunProofs3 CunProofs4 CunProofs7 FlAlfModel FlAlfProofs FlCunModel FlGravModel FlGravSpec FlGravProofs2 FlGravProofs5.
Open Scope R_scope.

(** ** C76 *)
(** without rounding the terms are those of C62 *)
Theorem c76_terms_acceleration x y z C S i n m :
  exact (leaves C S (fun n m => Vn n m x y z) (fun n m => Wn n m x y z)) (part1 i (acc_ex n m)) = comp1 i (accP (onz C) (onz S) (VZ x y z) (WZ x y z) (n, m)).
Proof. apply acc_form. Qed.
Theorem c76_terms_gradient x y z C S i n m :
  exact (leaves C S (fun n m => Vn n m x y z) (fun n m => Wn n m x y z)) (part2 i (grad_ex n m)) = comp2 i (gradP (onz C) (onz S) (VZ x y z) (WZ x y z) (n, m)).
Proof. apply grad_form. Qed.
(** the acceleration, at Re/2 to 8 Re, however the operations round *)
Theorem c76_acceleration rx ry rz GM Re D O C S a : let r := rad (rx / Re) (ry / Re) (rz / Re) in let U := geopotential GM Re D O C S in
  / 2 <= r <= 8 -> (O <= D <= 198)%nat -> (1 <= O \/ D = 0)%nat -> / 2 ^ 60 <= GM -> 1 <= Re <= 2 ^ 30 -> acceleration_run rx ry rz GM Re D O C S a ->
  forall dx dy dz, d_dx U rx ry rz dx -> d_dy U rx ry rz dy -> d_dz U rx ry rz dz ->
    Rabs (a 0%nat - dx) <= / 2 ^ 53 * (GM / Re ^ 2) * acceleration_error r D O C S /\ Rabs (a 1%nat - dy) <= / 2 ^ 53 * (GM / Re ^ 2) * acceleration_error r D O C S /\
    Rabs (a 2%nat - dz) <= / 2 ^ 53 * (GM / Re ^ 2) * acceleration_error r D O C S.
Proof.
  intros r U Hr HD H1 HG HR RUN dx dy dz X Y Z. pose proof (away_of rx ry rz Re ltac:(lra) (proj1 Hr)) as A. assert (RE : Re <> 0) by lra.
  pose proof (fun i Hi => acceleration_bound rx ry rz GM Re D O C S Hr ltac:(lia) ltac:(lia) H1 HG HR a i Hi RUN) as B.
  rewrite (single_x _ _ _ _ _ _ A X (U_x C S GM Re D O RE rx ry rz A)), (single_y _ _ _ _ _ _ A Y (U_y C S GM Re D O RE rx ry rz A)), (single_z _ _ _ _ _ _ A Z (U_z C S GM Re D O RE rx ry rz A)).
  split; [|split]; [apply (B 0%nat)|apply (B 1%nat)|apply (B 2%nat)]; lia.
Qed.
(** the gradient, order = degree *)
Theorem c76_gradient rx ry rz GM Re D C S a : let r := rad (rx / Re) (ry / Re) (rz / Re) in let U := geopotential GM Re D D C S in
  / 2 <= r <= 8 -> (D <= 198)%nat -> / 2 ^ 60 <= GM -> 1 <= Re <= 2 ^ 30 -> gradient_run rx ry rz GM Re D D C S a ->
  forall g, second_derivatives U rx ry rz g ->
    let e := / 2 ^ 53 * (GM / Re ^ 3) * gradient_error r D D C S in
    Rabs (a 0%nat - gxx g) <= e /\ Rabs (a 1%nat - gxy g) <= e /\ Rabs (a 2%nat - gxz g) <= e /\ Rabs (a 3%nat - gyy g) <= e /\ Rabs (a 4%nat - gyz g) <= e /\ Rabs (a 5%nat - gzz g) <= e.
Proof.
  intros r U Hr HD HG HR RUN g (XX & XY & XZ & _ & YY & YZ & _ & _ & ZZ) e. pose proof (away_of rx ry rz Re ltac:(lra) (proj1 Hr)) as A. assert (RE : Re <> 0) by lra.
  pose proof (fun i Hi => gradient_bound rx ry rz GM Re D D C S Hr HD ltac:(lia) ltac:(lia) HG HR a i eq_refl Hi RUN) as B. destruct (U_2 C S GM Re D D RE rx ry rz A) as (Q1 & Q2 & Q3 & Q4 & Q5 & Q6).
  rewrite (single_then_x _ single_x _ _ _ _ _ _ A XX Q1), (single_then_y _ single_x _ _ _ _ _ _ A XY Q2), (single_then_z _ single_x _ _ _ _ _ _ A XZ Q3), (single_then_y _ single_y _ _ _ _ _ _ A YY Q4), (single_then_z _ single_y _ _ _ _ _ _ A YZ Q5), (single_then_z _ single_z _ _ _ _ _ _ A ZZ Q6).
  repeat match goal with |- _ /\ _ => split end; [apply (B 0%nat)|apply (B 1%nat)|apply (B 2%nat)|apply (B 3%nat)|apply (B 4%nat)|apply (B 5%nat)]; lia.
Qed.
(** the central term alone: relative error of the acceleration *)
Theorem c76_central rx ry rz GM Re S a : let r := rad (rx / Re) (ry / Re) (rz / Re) in let U := geopotential GM Re 0 0 (fun _ _ => 1) S in
  / 2 <= r <= 8 -> S 0%nat 0%nat = 0 -> / 2 ^ 60 <= GM -> 1 <= Re <= 2 ^ 30 -> acceleration_run rx ry rz GM Re 0 0 (fun _ _ => 1) S a ->
  forall dx, d_dx U rx ry rz dx -> Rabs (a 0%nat - dx) <= 1737 * / 2 ^ 53 * (GM / (Re * r) ^ 2).
Proof.
  intros r U Hr HS HG HR RUN dx X. pose proof (away_of rx ry rz Re ltac:(lra) (proj1 Hr)) as A. assert (RE : Re <> 0) by lra.
  destruct (c76_acceleration rx ry rz GM Re 0 0 _ S a Hr ltac:(lia) ltac:(lia) HG HR RUN dx _ _ X (U_y _ S GM Re 0 0 RE rx ry rz A) (U_z _ S GM Re 0 0 RE rx ry rz A)) as (B & _).
  eapply Rle_trans; [exact B|]. fold r. unfold acceleration_error, coefficient. cbn [upto_sum min]. rewrite HS, Rabs_R0, (Rabs_pos_eq 1) by lra. cbn [Nat.mul Nat.add INR]. rewrite sqrt_1.
  assert (T : / 2 ^ 199 <= / 10000). { apply Rinv_le_contravar; [lra|]. assert (E : 2 ^ 199 = IZR (2 ^ 199)) by exact (pow_IZR 2 199). rewrite E. apply IZR_le. vm_compute. discriminate. }
  assert (G0 : 0 <= GM) by (pose proof (Rinv_0_lt_compat _ (pow_lt 2 60 ltac:(lra))); lra).
  assert (P : 0 <= / 2 ^ 53 * (GM / Re ^ 2) * / r ^ 2). { repeat apply Rmult_le_pos; try assumption; left; apply Rinv_0_lt_compat; apply pow_lt; lra. }
  replace (1737 * / 2 ^ 53 * (GM / (Re * r) ^ 2)) with (1737 * (/ 2 ^ 53 * (GM / Re ^ 2) * / r ^ 2)) by (field; lra).
  match goal with |- ?l <= _ => replace l with (217 * 4 * 2 * (1 + / 2 ^ 199) * (/ 2 ^ 53 * (GM / Re ^ 2) * / r ^ 2)) end.
  - apply Rmult_le_compat_r; [exact P|]. lra.
  - generalize (/ 2 ^ 199) (/ 2 ^ 53). intros t w. field. lra.
Qed.

(** ** instances *)
Example c76_runs rx ry rz GM Re D O C S : 0 < rx / Re * (rx / Re) + ry / Re * (ry / Re) + rz / Re * (rz / Re) ->
  (exists a, acceleration_run rx ry rz GM Re D O C S a) /\ (exists g, gradient_run rx ry rz GM Re D O C S g).
Proof. intros P. split; [apply acceleration_exists|apply gradient_exists]; exact P. Qed.
Example c76_nonvacuous : exists a g dx dy dz h, let U := geopotential 398600 6378 120 120 (fun _ _ => 1) (fun _ _ => 1) in
  acceleration_run 3000 4000 12000 398600 6378 120 120 (fun _ _ => 1) (fun _ _ => 1) a /\ gradient_run 3000 4000 12000 398600 6378 120 120 (fun _ _ => 1) (fun _ _ => 1) g /\
  / 2 <= rad (3000 / 6378) (4000 / 6378) (12000 / 6378) <= 8 /\ / 2 ^ 60 <= 398600 /\ 1 <= 6378 <= 2 ^ 30 /\ d_dx U 3000 4000 12000 dx /\ d_dy U 3000 4000 12000 dy /\ d_dz U 3000 4000 12000 dz /\ second_derivatives U 3000 4000 12000 h.
Proof.
  destruct (c76_runs 3000 4000 12000 398600 6378 120 120 (fun _ _ => 1) (fun _ _ => 1) ltac:(lra)) as ((a & A) & (g & G)). assert (AW : away 3000 4000 12000) by (unfold away; lra). assert (RE : 6378 <> 0) by lra.
  exists a, g. eexists _, _, _, _. cbv zeta. split; [exact A|]. split; [exact G|]. split; [|split; [|split]].
  - replace (rad (3000 / 6378) (4000 / 6378) (12000 / 6378)) with (13000 / 6378); [lra|]. unfold rad. replace (3000 / 6378 * (3000 / 6378) + 4000 / 6378 * (4000 / 6378) + 12000 / 6378 * (12000 / 6378)) with (13000 / 6378 * (13000 / 6378)) by lra. symmetry. apply sqrt_square. lra.
  - apply Rle_trans with 1; [|lra]. rewrite <- Rinv_1. apply Rinv_le_contravar; [lra|]. apply pow_R1_Rle. lra.
  - cbn [pow]. lra.
  - split; [|split; [|split]]; [apply (U_x _ _ _ _ _ _ RE _ _ _ AW)|apply (U_y _ _ _ _ _ _ RE _ _ _ AW)|apply (U_z _ _ _ _ _ _ RE _ _ _ AW)|exact (true_gradient (V3 3000 4000 12000) 120 120 6378 398600 (fun _ _ => 1) (fun _ _ => 1) RE AW)].
Qed.
Print Assumptions c76_terms_acceleration.
Print Assumptions c76_terms_gradient.
Print Assumptions c76_acceleration.
Print Assumptions c76_gradient.
Print Assumptions c76_central.
