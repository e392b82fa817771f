(** Proofs for ClockProps. *)
From Coq Require Import Reals ZArith List Bool Lia Lra.
From Verif Require Import Base CString Aod1bModel ClockModel ClockSpec.
Import ListNotations.
Open Scope Z_scope.

Lemma c_str_text t rest : no_zero t -> c_str (t ++ 0 :: rest) = Ok t.
Proof. induction 1 as [|c t H _ IH]; [reflexivity|]. cbn [app c_str]. replace (c =? 0) with false by (symmetry; apply Z.eqb_neq, H). rewrite IH. reflexivity. Qed.
Lemma strcpy_text buf t rest : no_zero t -> length buf = 24%nat -> (length t <= 23)%nat ->
  strcpy buf (t ++ 0 :: rest) = Ok (t ++ 0 :: skipn (S (length t)) buf).
Proof.
  intros N B L. unfold strcpy. rewrite c_str_text by exact N. cbn [bind]. unfold write_at. rewrite app_length, B. cbn [length].
  replace (Nat.leb _ 24) with true by (symmetry; apply Nat.leb_le; lia). cbn [firstn]. rewrite <- !app_assoc. cbn [app]. do 3 f_equal. f_equal. lia.
Qed.
Lemma strcpy_long buf t rest : no_zero t -> length buf = 24%nat -> (24 <= length t)%nat -> strcpy buf (t ++ 0 :: rest) = UB.
Proof.
  intros N B L. unfold strcpy. rewrite c_str_text by exact N. cbn [bind]. unfold write_at. rewrite app_length, B. cbn [length].
  replace (Nat.leb _ 24) with false by (symmetry; apply Nat.leb_gt; lia). reflexivity.
Qed.
Lemma strcpy_length buf (t : list Z) (rest : list Z) : length buf = 24%nat -> (length t <= 23)%nat -> length (t ++ 0 :: skipn (S (length t)) buf) = 24%nat.
Proof. intros B L. rewrite app_length. cbn [length]. rewrite skipn_length. lia. Qed.
Lemma named_short c t : named c t -> (length t <= 23)%nat.
Proof. intros (L & r & E). rewrite E, app_length in L. cbn [length] in L. lia. Qed.

Lemma measure_fields c l : total_duration (measure c l) = total_duration c + elapsed l /\ msamples (measure c l) = msamples c + Z.of_nat (length l) /\ mname (measure c l) = mname c.
Proof.
  revert c. induction l as [|p l IH]; intros c; cbn [measure fold_left elapsed fold_right length]; [repeat split; lia|].
  fold (measure (stop (start c (fst p)) (snd p)) l). destruct (IH (stop (start c (fst p)) (snd p))) as (A & B & D). unfold elapsed in *. rewrite A, B, D.
  unfold stop, start, get_elapsed_time. cbn [total_duration msamples mname start_time]. repeat split; lia.
Qed.
Lemma elapsed_nonneg l : ordered l -> 0 <= elapsed l.
Proof. induction 1; cbn [elapsed fold_right]; [lia|]. fold (elapsed l). lia. Qed.

(** quotients *)
Lemma average_floor unit e n : 0 < unit -> 0 < n -> 0 <= e -> let a := Z.quot (Z.quot e unit) n in (IZR a <= IZR e / IZR n / IZR unit < IZR a + 1)%R.
Proof.
  intros U N E a. assert (A : a * (unit * n) <= e < (a + 1) * (unit * n)).
  { unfold a. rewrite (Z.quot_div_nonneg e) by lia. rewrite Z.quot_div_nonneg by (try apply Z.div_pos; lia). rewrite Z.div_div by lia.
    pose proof (Z.mul_div_le e (unit * n)). pose proof (Z.mul_succ_div_gt e (unit * n)). nia. }
  assert (U' : (0 < IZR unit)%R) by (apply IZR_lt; lia). assert (N' : (0 < IZR n)%R) by (apply IZR_lt; lia).
  destruct A as [A1 A2]. apply IZR_le in A1. apply IZR_lt in A2. rewrite !mult_IZR in A1, A2. rewrite plus_IZR in A2.
  assert (Q : (IZR e / IZR n / IZR unit * (IZR unit * IZR n) = IZR e)%R) by (field; lra). set (q := (IZR e / IZR n / IZR unit)%R) in *.
  assert (P : (0 < IZR unit * IZR n)%R) by (apply Rmult_lt_0_compat; assumption). split.
  - apply (Rmult_le_reg_r (IZR unit * IZR n)); [exact P|lra].
  - apply (Rmult_lt_reg_r (IZR unit * IZR n)); [exact P|lra].
Qed.
Lemma average_mean unit c l : total_duration c = 0 -> msamples c = 0 -> 0 < unit -> l <> [] -> ordered l ->
  exists a, average_running_time unit (measure c l) = Ok a /\ (a <= mean unit l < a + 1)%R /\ exists z, a = IZR z.
Proof.
  intros T M U N O. destruct (measure_fields c l) as (A & B & _). unfold average_running_time, get_total_duration. rewrite A, B, T, M, !Z.add_0_l.
  assert (L : 0 < Z.of_nat (length l)) by (destruct l; [contradiction|cbn [length]; lia]).
  replace (_ =? 0) with false by (symmetry; apply Z.eqb_neq; lia). eexists. split; [reflexivity|]. split; [|eexists; reflexivity].
  unfold mean. rewrite INR_IZR_INZ. apply average_floor; [exact U|exact L|apply elapsed_nonneg, O].
Qed.
