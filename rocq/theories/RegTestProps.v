(** Theorems about the regularisation in binary64 and its test: claim C99. *)
From Coq Require Import Reals ZArith List Bool Lra.
From Flocq Require Import Core.Core IEEE754.BinarySingleNaN.
From Verif Require Import EopModel RegTestModel RegTestSpec RegTestProofs.
Import ListNotations.
Open Scope R_scope.

(** removing and adding a correction, in one operation or two *)
Theorem c99_round_trip fused x c : RegTestSpec.double x -> exists d, correction c d /\ Rabs (plus64 fused x c (factor (-1)) - (x - d)) <= / 2 ^ 53 * Rabs (x - d) + / 2 ^ 1074 /\
  Rabs (plus64 fused (plus64 fused x c (factor (-1))) c (factor 1) - x) <= 2 * (/ 2 ^ 53 * Rabs (x - d) + / 2 ^ 1074).
Proof. intros D. exists (part fused c). split; [apply part_correction|]. rewrite plus_minus, plus_plus. split; [apply rnd_near|apply round_trip, D]. Qed.
(** the test: the assertions after the round trip hold *)
Theorem c99_second_part T zonal fused l : Forall (fun r => usual (dut T r) (fst (zonal (rt T r))) /\ usual (lod T r) (snd (zonal (rt T r)))) l -> second_part T zonal fused l.
Proof. exact (test_second T zonal fused l). Qed.
(** the assertions that the values have changed hold unless a correction is below 1e-9 microseconds *)
Theorem c99_first_part T (zonal : T -> R * R) fused l : Forall (fun r => let (a, b) := zonal (rt T r) in usual (dut T r) a /\ usual (lod T r) b /\ / 10 ^ 9 <= Rabs a /\ / 10 ^ 9 <= Rabs b) l -> first_part T zonal fused l.
Proof.
  intros H. apply test_first. eapply Forall_impl; [|exact H]. intros r. cbv beta. destruct (zonal (rt T r)) as [a b]. intros (A & B & C & D). cbn [fst snd]. split; apply part_changes; assumption.
Qed.
Theorem c99_first_part_refuted : ~ forall T zonal fused l, Forall (fun r => usual (dut T r) (fst (zonal (rt T r))) /\ usual (lod T r) (snd (zonal (rt T r)))) l -> first_part T zonal fused l.
Proof.
  intros H. specialize (H unit (fun _ => (0, 0)) true [mkR unit tt 0 0 0 0 0 0 0 0 0]).
  assert (U : usual 0 0) by (split; [apply generic_format_0|]; rewrite Rabs_R0; cbn [pow]; lra).
  assert (F : first_part unit (fun _ => (0, 0)) true [mkR unit tt 0 0 0 0 0 0 0 0 0]) by (apply H; constructor; [split; exact U|constructor]).
  apply test_first in F. inversion F as [|a b (A & _) _]; subst. apply A. cbn [dut fst part]. rewrite Rmult_0_l, Rminus_0_r. apply rnd_id, generic_format_0.
Qed.
(** the values are not restored bit by bit: 2^-80 s and a correction of one microsecond *)
Theorem c99_restored_refuted : ~ forall fused x c, usual x c -> plus64 fused (plus64 fused x c (factor (-1))) c (factor 1) = x.
Proof.
  intros H. destruct lost as (A & B & C). specialize (H true (B2R small) 1). rewrite plus_minus, plus_plus in H. unfold part in H. rewrite Rmult_1_l, A in H.
  assert (S : B2R small <= 1) by exact small_le. assert (E : 0 = B2R small) by (apply H; split; [exact C|]; rewrite !Rabs_pos_eq by lra; cbn [pow]; lra). lra.
Qed.

Example c99_nonvacuous : usual 0.5 300 /\ / 10 ^ 9 <= Rabs 300.
Proof.
  rewrite (Rabs_pos_eq 300) by lra. split; [|cbn [pow]; lra]. split; [|rewrite !Rabs_pos_eq by lra; cbn [pow]; lra].
  replace 0.5 with (bpow radix2 (-1)) by (cbn; lra). apply double_bpow. discriminate.
Qed.
Print Assumptions c99_round_trip.
Print Assumptions c99_second_part.
Print Assumptions c99_first_part.
Print Assumptions c99_first_part_refuted.
Print Assumptions c99_restored_refuted.
