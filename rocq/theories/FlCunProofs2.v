From Coq Require Import Reals ZArith List Lia Lra Psatz.
From Verif Require Import FlModel FlProofs Poly AlfSpec AlfMath CunSpec FlAlfModel FlAlfProofs FlCunModel FlCunProofs.
Open Scope R_scope.

(** ** the position *)
Lemma square_run X s a : Rabs X <= 16 -> near X s -> near (s * s) a -> Rabs (a - X * X) <= 3.002 * u * (X * X) + 36 * tiny.
Proof.
  intros B S A. pose proof u_small as U. pose proof tiny_pos as T. pose proof tiny_small as T2. pose proof (Rabs_pos X) as X0.
  assert (M := fun C K => appr_mul 1 tiny 1 tiny X s X s C K (near_appr _ _ S) (near_appr _ _ S)). specialize (M ltac:(lra) ltac:(lra)).
  assert (TU : 0 <= tiny * u <= tiny * / 1000000000000000) by (split; [apply Rmult_le_pos|apply Rmult_le_compat_l]; lra). assert (TX : 0 <= tiny * Rabs X <= tiny * 16) by (split; [apply Rmult_le_pos|apply Rmult_le_compat_l]; lra).
  assert (TXU : tiny * Rabs X * u <= tiny * 16 * / 1000000000000000) by (apply Rmult_le_compat; lra). assert (TT : tiny * tiny <= tiny * 0.001) by (apply Rmult_le_compat_l; lra).
  apply (appr_le _ _ 2.001 (33 * tiny)) in M; [|lra|lra]. pose proof (appr_near _ _ _ _ _ M A) as N. apply (appr_le _ _ 3.002 (36 * tiny)) in N; [|lra|lra].
  unfold appr in N. rewrite (Rabs_right (X * X)) in N by (apply Rle_ge; nra). exact N.
Qed.
Lemma sum3_ok A B C a b c s r : 0 <= A -> 0 <= B -> 0 <= C -> / 4 <= A + B + C -> Rabs (a - A) <= r * u * A + 36 * tiny -> Rabs (b - B) <= r * u * B + 36 * tiny -> Rabs (c - C) <= r * u * C + 36 * tiny -> 3 <= r <= 4 ->
  sum3_run a b c s -> appr (r + 2.01) 0 (A + B + C) s.
Proof.
  intros A0 B0 C0 S0 Ea Eb Ec R1 Hs. pose proof u_small as U. pose proof tiny_pos as T. pose proof tiny_small as T2. unfold appr. rewrite (Rabs_right (A + B + C)) by lra.
  assert (TU : 0 <= tiny * u <= tiny * / 1000000000000000) by (split; [apply Rmult_le_pos|apply Rmult_le_compat_l]; lra).
  assert (ru : 0 <= r * u <= 4 * / 1000000000000000) by (split; [apply Rmult_le_pos|apply Rmult_le_compat]; lra).
  assert (G : forall A B C a b c d, 0 <= A -> 0 <= B -> 0 <= C -> / 4 <= A + B + C -> Rabs (a - A) <= r * u * A + 36 * tiny -> Rabs (b - B) <= r * u * B + 36 * tiny -> Rabs (c - C) <= r * u * C + 36 * tiny -> near (a + b) d -> near (d + c) s -> Rabs (s - (A + B + C)) <= (r + 2.01) * u * (A + B + C) + 0).
  { clear - U T T2 TU ru R1. intros A B C a b c d A0 B0 C0 S0 Ea Eb Ec D1 D2.
    assert (E1 : appr r (72 * tiny) (A + B) (a + b)). { unfold appr. rewrite (Rabs_right (A + B)) by lra. replace (a + b - (A + B)) with ((a - A) + (b - B)) by ring. eapply Rle_trans; [apply Rabs_triang|]. lra. }
    pose proof (appr_near _ _ _ _ _ E1 D1) as E2. apply (appr_le _ _ (r + 1.001) (74 * tiny)) in E2; [|lra|lra].
    assert (Cu : r * u * C <= (r + 1.001) * u * C) by (apply Rmult_le_compat_r; lra).
    assert (E3 : appr (r + 1.001) (110 * tiny) (A + B + C) (d + c)). { unfold appr in E2 |- *. rewrite (Rabs_right (A + B + C)) by lra. rewrite (Rabs_right (A + B)) in E2 by lra. replace (d + c - (A + B + C)) with ((d - (A + B)) + (c - C)) by ring. eapply Rle_trans; [apply Rabs_triang|]. lra. }
    pose proof (appr_near _ _ _ _ _ E3 D2) as E4. apply (appr_le _ _ (r + 2.003) (112 * tiny)) in E4; [|lra|lra]. unfold appr in E4. rewrite (Rabs_right (A + B + C)) in E4 by lra. eapply Rle_trans; [exact E4|].
    assert (u * / 4 <= u * (A + B + C)) by (apply Rmult_le_compat_l; lra). lra. }
  destruct Hs as (d & [(D1 & D2)|(D1 & D2)]).
  - exact (G A B C a b c d A0 B0 C0 S0 Ea Eb Ec D1 D2).
  - replace (A + B + C) with (B + C + A) by ring. apply (G B C A b c a d); try assumption; [lra|]. rewrite Rplus_comm. exact D2.
Qed.
Lemma coordinate_ok X s rr q v : Rabs X <= 16 -> 0 < q <= 2 -> near X s -> appr 11.3 0 (q * q) rr -> near (s * rr) v -> appr 13.4 (6 * tiny) (X * (q * q)) v.
Proof.
  intros B Q S R V. pose proof u_small as U. pose proof tiny_pos as T. assert (TU : 0 <= tiny * u <= tiny * / 1000000000000000) by (split; [apply Rmult_le_pos|apply Rmult_le_compat_l]; lra).
  assert (M := fun C K => appr_mul 1 tiny 11.3 0 X s (q * q) rr C K (near_appr _ _ S) R). specialize (M ltac:(lra) ltac:(lra)). rewrite (Rabs_right (q * q)) in M by (apply Rle_ge; nra).
  assert (Q2 : 0 <= q * q <= 4) by (split; nra). assert (TQ : tiny * (q * q * (1 + 11.3 * u) + 0) <= tiny * 4.1). { apply Rmult_le_compat_l; [lra|]. assert (q * q * u <= 4 * / 1000000000000000) by (apply Rmult_le_compat; lra). lra. }
  apply (appr_le _ _ 12.31 (4.1 * tiny)) in M; [|lra|lra]. pose proof (appr_near _ _ _ _ _ M V) as N. eapply appr_le; [exact N|lra|lra].
Qed.
Lemma position_ok rx ry rz Re rr x y z o : let X := rx / Re in let Y := ry / Re in let Z := rz / Re in let q := / rad X Y Z in
  / 2 <= rad X Y Z <= 16 -> position_run rx ry rz Re rr x y z o ->
  appr 4.6 0 q o /\ appr 11.3 0 (q * q) rr /\ appr 13.4 (6 * tiny) (X * (q * q)) x /\ appr 13.4 (6 * tiny) (Y * (q * q)) y /\ appr 13.4 (6 * tiny) (Z * (q * q)) z.
Proof.
  intros X Y Z q HR (sx & sy & sz & a & b & c & s & nrm & Sx & Sy & Sz & Ha & Hb & Hc & Hs & Hn & Ho & Hr & Hx & Hy & Hz). fold X in Sx. fold Y in Sy. fold Z in Sz.
  pose proof u_small as U. pose proof tiny_pos as T. pose proof tiny_small as T2. set (r := rad X Y Z) in *.
  assert (R2 : r * r = X * X + Y * Y + Z * Z) by (unfold r, rad; apply sqrt_sqrt; nra).
  assert (RM : r * r <= 16 * 16) by (apply Rmult_le_compat; lra). pose proof (Rle_0_sqr X) as X2. pose proof (Rle_0_sqr Y) as Y2. pose proof (Rle_0_sqr Z) as Z2. unfold Rsqr in X2, Y2, Z2.
  assert (AB : forall v, v * v <= 16 * 16 -> Rabs v <= 16) by (intros v V; rewrite <- (Rabs_right 16) by lra; apply Rsqr_le_abs_0; exact V).
  assert (XB : Rabs X <= 16) by (apply AB; lra). assert (YB : Rabs Y <= 16) by (apply AB; lra). assert (ZB : Rabs Z <= 16) by (apply AB; lra).
  assert (S1 : / 4 <= X * X + Y * Y + Z * Z) by (rewrite <- R2; nra).
  pose proof (sum3_ok (X * X) (Y * Y) (Z * Z) a b c s 3.002 X2 Y2 Z2 S1 (square_run _ _ _ XB Sx Ha) (square_run _ _ _ YB Sy Hb) (square_run _ _ _ ZB Sz Hc) ltac:(lra) Hs) as E.
  rewrite <- R2 in E, S1. apply appr_sqrt in E; [|lra|lra]. rewrite sqrt_square in E by lra.
  apply (appr_round _ _ _ nrm) in E; [|lra|rewrite Rabs_right; lra|exact Hn]. apply (appr_le _ _ 3.57 0) in E; [|lra|lra].
  assert (Q : 0.06 <= q <= 2). { unfold q. split; [apply Rle_trans with (/ 16); [lra|apply Rinv_le_contravar; lra]|]. replace 2 with (/ / 2) by field. apply Rinv_le_contravar; lra. }
  apply appr_inv in E; [|lra|lra]. fold q in E. apply (appr_round _ _ _ o) in E; [|lra|rewrite Rabs_right; lra|unfold Rdiv in Ho; rewrite Rmult_1_l in Ho; exact Ho]. apply (appr_le _ _ 4.6 0) in E; [|lra|lra].
  assert (O : 0 < o) by (pose proof (near_pos 4.6 q o ltac:(lra) E ltac:(lra)); lra).
  assert (Err : appr 11.3 0 (q * q) rr).
  { pose proof (appr_product 4.6 4.6 _ _ _ _ ltac:(lra) ltac:(lra) E E) as M. unfold pow2_run in Hr. pose proof (appr_abs _ _ _ _ M) as MA. unfold appr in M |- *. rewrite (Rabs_right (q * q)) in * by nra. rewrite (Rabs_right (o * o)) in MA by nra.
    replace (rr - q * q) with ((rr - o * o) + (o * o - q * q)) by ring. eapply Rle_trans; [apply Rabs_triang|]. assert (0.003 <= q * q) by nra. assert (u * 0.003 <= u * (q * q)) by (apply Rmult_le_compat_l; lra).
    assert (u * (o * o) <= u * ((1 + (4.6 + 4.6 + 0.001) * u) * (q * q) + 0)) by (apply Rmult_le_compat_l; lra). assert (u * u * (q * q) <= 0.0001 * (u * (q * q))) by (replace (u * u * (q * q)) with (u * (u * (q * q))) by ring; apply Rmult_le_compat_r; [apply Rmult_le_pos; nra|lra]). lra. }
  split; [exact E|]. split; [exact Err|]. repeat split; (eapply coordinate_ok; [eassumption|lra|eassumption|exact Err|assumption]).
Qed.
