(** Claim C88: script/tables52ab.py makes arrays out of the published tables 5.2a and 5.2b such that the loop of xycip06a over the arrays
    adds up the Poisson series of the tables, whatever the tables; the arrays in the library are those it makes, and the series of the
    library are those of its tables. Tables with growing amplitudes stop it, and generating twice doubles the terms. *)
From Coq Require Import Reals ZArith List Bool Lia Lra Sorted.
From Verif Require Import Base PyModel CipRow CipSpec CipModel CipTabScript CipTabXY CipGenModel CipGenSpec CipGenProofs.
Import ListNotations.
Open Scope R_scope.

(** ** any tables *)
Theorem c88_sound : forall le lt l fs pl F t, proper l -> generate le lt l [] = Val (fs, pl) -> length F = 14%nat ->
  walk fs F (tpow t) pl 0 0 = Ok (poisson CX l F t, poisson CY l F t, []).
Proof. intros le lt l fs pl F t. apply generated. Qed.
(** Every lunisolar argument comes once, with at least one term; there is one term for each line. *)
Theorem c88_grouped : forall le lt l fs pl, proper l -> generate le lt l [] = Val (fs, pl) ->
  NoDup (map fmult fs) /\ Forall (fun f => (0 <= fnx f)%Z /\ (0 <= fny f)%Z /\ (0 < fnx f + fny f)%Z) fs /\ length pl = length (lines l).
Proof. intros le lt l fs pl. apply grouped. Qed.
(** The groups come by rising lowest power of time, those with the same lowest power by rising amplitude. *)
Theorem c88_order : forall le l fs pl, proper l -> generate le before l [] = Val (fs, pl) -> exists gs, (fs, pl) = arrays gs /\ ForallOrdPairs rises gs.
Proof. intros le l fs pl. apply in_order. Qed.
(** Tables with falling amplitudes are never refused. *)
Theorem c88_accepted : forall lt l, decreasing smaller l -> exists fs pl, generate amp_le lt l [] = Val (fs, pl).
Proof. intros lt l. apply never_asserts. Qed.

(** ** the tables of the script *)
Theorem c88_arrays : main = Val (XyLunSol, XyPln) /\ proper main_calls.
Proof. exact (conj main_arrays main_proper). Qed.
Theorem c88_tables : X_tables = map (@rev row) [xj0; xj1; xj2; xj3; xj4] /\ Y_tables = map (@rev row) [yj0; yj1; yj2; yj3; yj4].
Proof. exact (conj x_tables y_tables). Qed.
Theorem c88_series : forall F t, length F = 14%nat ->
  walk XyLunSol F (tpow t) XyPln 0 0 = Ok (series X_tables F t, series Y_tables F t, []) /\
  series X_tables F t = poisson CX main_calls F t /\ series Y_tables F t = poisson CY main_calls F t.
Proof. intros F t H. destruct (series_main F t) as [A B]. split; [rewrite A, B; exact (generated _ _ _ _ _ _ _ main_proper main_arrays H)|split; assumption]. Qed.
(** ten digits hold every coefficient: {:+12.9e} writes it exactly *)
Theorem c88_digits : Forall (fun x => let '(tab, _, _) := x in Forall (fun r => (Z.abs (csin r) < 10 ^ 10)%Z /\ (Z.abs (ccos r) < 10 ^ 10)%Z) tab) main_calls.
Proof. exact main_digits. Qed.

(** ** what it does not do *)
(** A second line of an argument with a larger amplitude is not inserted, and stops the program. *)
Theorem c88_growing_refuted : forall lt c r s p, firstn 5 (mult r) = firstn 5 (mult s) -> ~ smaller s r -> generate amp_le lt [([r; s], c, p)] [] = Raise AssertionError.
Proof.
  intros lt c r s p E S. unfold generate. cbn [calls str2dct]. unfold line2kv. rewrite <- E. assert (X : amp_le (snd (line2kv s p)) (snd (line2kv r p)) = false) by (unfold amp_le, amp2, line2kv; cbn [snd psin pcos]; apply Z.leb_gt; unfold smaller in S; lia).
  unfold line2kv in X. cbn [snd] in X. assert (Y : zs_same (firstn 5 (mult r)) (firstn 5 (mult r)) = true) by (apply zs_same_ok; reflexivity).
  destruct c; cbn [add append_to append_planetary gx gy pbind gls]; rewrite Y; cbn [append_to append_planetary gx gy pbind insert ppow ofopt]; rewrite Z.ltb_irrefl, Z.eqb_refl, X; reflexivity.
Qed.
(** The list of groups is a default argument, made once: a second generation in the same process has the terms of both. *)
Theorem c88_again_refuted : forall lt r, exists d fs pl, calls amp_le [([r], CX, 0%Z)] [] = Val d /\ generate amp_le lt [([r], CX, 0%Z)] d = Val (fs, pl) /\
  map fnx fs = [2%Z] /\ length pl = 2%nat.
Proof.
  intros lt r. eexists _, _, _. split; [reflexivity|]. unfold generate. cbn [calls str2dct]. unfold line2kv.
  assert (Y : zs_same (firstn 5 (mult r)) (firstn 5 (mult r)) = true) by (apply zs_same_ok; reflexivity). cbn [add gls]. rewrite Y. cbn [append_to append_planetary gx gy pbind insert ppow ofopt].
  rewrite Z.ltb_irrefl, Z.eqb_refl. unfold amp_le. rewrite Z.leb_refl. cbn [andb ofopt pbind]. split; [reflexivity|]. split; reflexivity.
Qed.

(** ** the hypotheses are met *)
Definition small : list (list row * component * Z) :=
  [([T 500 0 0 0 0 0 1 0 0 0 0 0 0 0 0 0; T 100 (-200) 0 0 0 0 1 0 0 1 0 0 0 0 0 0; T 100 0 0 0 2 0 0 0 0 0 0 0 0 0 0 0], CX, 0%Z); ([T 0 700 0 0 0 0 1 0 0 0 0 0 0 0 0 0], CY, 0%Z); ([T 900 0 0 0 0 0 1 0 0 0 0 0 0 0 0 0], CX, 1%Z)].
Example c88_nonvacuous : proper small /\ decreasing smaller small /\
  generate amp_le before small [] = Val ([mkFreq [0; 0; 2; 0; 0]%Z 1 0; mkFreq [0; 0; 0; 0; 1]%Z 3 1],
    [mkPl 0 [0; 0; 0; 0; 0; 0; 0; 0; 0]%Z 100 0 0; mkPl 0 [0; 0; 0; 0; 0; 0; 0; 0; 0]%Z 900 0 1; mkPl 1 [0; 0; 1; 0; 0; 0; 0; 0; 0]%Z 100 (-200) 0; mkPl 0 [0; 0; 0; 0; 0; 0; 0; 0; 0]%Z 500 0 0; mkPl 0 [0; 0; 0; 0; 0; 0; 0; 0; 0]%Z 0 700 0]) /\
  ~ smaller (T 2 0 0 0 0 0 1 0 0 0 0 0 0 0 0 0) (T 1 0 0 0 0 0 1 0 0 1 0 0 0 0 0 0).
Proof.
  split; [repeat constructor; cbn; lia|]. split; [|split; [reflexivity|unfold smaller; cbn; lia]].
  unfold decreasing, lines, small. cbn [flat_map map app]. repeat constructor; unfold follows, smaller; cbn; intros; try discriminate; lia.
Qed.
Print Assumptions c88_sound.
Print Assumptions c88_grouped.
Print Assumptions c88_order.
Print Assumptions c88_accepted.
Print Assumptions c88_arrays.
Print Assumptions c88_tables.
Print Assumptions c88_series.
Print Assumptions c88_digits.
Print Assumptions c88_growing_refuted.
Print Assumptions c88_again_refuted.
