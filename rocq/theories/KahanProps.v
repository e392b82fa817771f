From Coq Require Import Reals ZArith List Lia Lra.
From Flocq Require Import Core BinarySingleNaN.
From Verif Require Import KahanModel KahanSpec KahanProofs.
Import ListNotations.
Open Scope R_scope.

(** ** C51; [B2R] is the real number a finite double stands for *)
(** one step, the only condition being that the accumulator does not overflow: what is added to the compensation is a
    finite double, and exactly the part of the sum lost by the accumulator *)
Theorem c51_step k v : is_finite (msum (plus_assign k v)) = true -> exists c, is_finite c = true /\
  merr (plus_assign k v) = dadd (merr k) c /\ B2R (msum (plus_assign k v)) + B2R c = B2R (msum k) + B2R v.
Proof. intros F. exists (comp k v). destruct (step_exact k v F) as [A B]. split; [exact A|]. split; [rewrite step_parts; reflexivity|exact B]. Qed.
(** the accumulator is the rounded sum *)
Theorem c51_accumulator k v : is_finite (msum (plus_assign k v)) = true ->
  is_finite (msum k) = true /\ is_finite v = true /\ B2R (msum (plus_assign k v)) = round radix2 (FLT_exp (-1074) 53) ZnearestE (B2R (msum k) + B2R v).
Proof. rewrite step_parts. cbn [msum]. exact (dadd_finite (msum k) v). Qed.
(** any sequence: accumulator and (unrounded) compensations together are the exact sum; the compensation kept is their running sum *)
Theorem c51_sequence v l : is_finite (msum (total v l)) = true -> is_finite (merr (total v l)) = true -> exists cs, length cs = length l /\ Forall (fun c => is_finite c = true) cs /\
  merr (total v l) = fold_left dadd cs dzero /\ B2R (msum (total v l)) + exact_sum (map B2R cs) = exact_sum (map B2R (v :: l)).
Proof.
  intros F1 F2. exists (comps (start v) l). destruct (run_exact l (start v) (conj F1 F2)) as (A & B & C). split; [|split; [exact C|split; [exact B|exact A]]].
  clear. generalize (start v). induction l; intros k; cbn; [reflexivity|]. rewrite IHl. reflexivity.
Qed.
(** the number handed out, whenever it is finite (nothing overflowed on the way): one rounding of the exact sum plus a term of second order *)
Theorem c51_result v l : is_finite (to_double (total v l)) = true -> let n := INR (length l) in let u := / 2 ^ 53 in
  Rabs (B2R (to_double (total v l)) - exact_sum (map B2R (v :: l))) <=
  u * Rabs (exact_sum (map B2R (v :: l))) + n * n * (u * u) * (1 + u) ^ (2 * length l + 1) * abs_sum (map B2R (v :: l)).
Proof. exact (result_bound v l). Qed.
(** a finite result means that everything before was finite *)
Theorem c51_finite v l : is_finite (to_double (total v l)) = true -> is_finite v = true /\ Forall (fun x => is_finite x = true) l.
Proof.
  intros F. apply good_result in F. revert F. induction l as [|x l IH] using rev_ind; intros G.
  - split; [apply G|constructor].
  - rewrite total_snoc in G. apply good_before in G. destruct G as [G Fx]. destruct (IH G) as [A B]. split; [exact A|]. apply Forall_app. split; [exact B|]. constructor; [exact Fx|constructor].
Qed.

(** doubles for the examples *)
Definition dbl (m e : Z) : double := binary_normalize 53 1024 Hprec Hmax mode_NE m e false.
(** 1 + 2^300 + 1 - 2^300: plain addition gives 0, the compensated sum 2 *)
Example c51_nonvacuous : B2SF (to_double (total (dbl 1 0) [dbl 1 300; dbl 1 0; dbl (-1) 300])) = B2SF (dbl 2 0) /\
  B2SF (fold_left dadd [dbl 1 300; dbl 1 0; dbl (-1) 300] (dbl 1 0)) = B2SF dzero.
Proof. split; vm_compute; reflexivity. Qed.
(** the condition is needed: an intermediate overflow gives NaN although the exact sum is zero *)
Theorem c51_overflow_case : exists v l, is_finite v = true /\ Forall (fun x => is_finite x = true) l /\ exact_sum (map B2R (v :: l)) = 0 /\ is_nan (to_double (total v l)) = true.
Proof.
  exists (dbl 1 1023), [dbl 1 1023; dbl (-1) 1023; dbl (-1) 1023]. split; [vm_compute; reflexivity|]. split; [repeat constructor|]. split.
  - assert (E : B2R (dbl (-1) 1023) = - B2R (dbl 1 1023)). { assert (K : dbl (-1) 1023 = Bopp (dbl 1 1023)) by (apply B2SF_inj; vm_compute; reflexivity). rewrite K. apply B2R_Bopp. }
    unfold exact_sum. cbn [map fold_right]. rewrite E. ring.
  - vm_compute. reflexivity.
Qed.
(** and the compensation itself is rounded: the second order term cannot be dropped (1 + 2^100 + 2^200, minus the large ones) *)
Theorem c51_second_order_needed : exists v l, is_finite (to_double (total v l)) = true /\ exact_sum (map B2R (v :: l)) = B2R v /\ B2R v = 1 /\ B2R (to_double (total v l)) = 0.
Proof.
  exists (dbl 1 0), [dbl 1 100; dbl 1 200; dbl (-1) 100; dbl (-1) 200]. split; [vm_compute; reflexivity|].
  assert (E1 : B2R (dbl (-1) 100) = - B2R (dbl 1 100)). { assert (K : dbl (-1) 100 = Bopp (dbl 1 100)) by (apply B2SF_inj; vm_compute; reflexivity). rewrite K. apply B2R_Bopp. }
  assert (E2 : B2R (dbl (-1) 200) = - B2R (dbl 1 200)). { assert (K : dbl (-1) 200 = Bopp (dbl 1 200)) by (apply B2SF_inj; vm_compute; reflexivity). rewrite K. apply B2R_Bopp. }
  split; [unfold exact_sum; cbn [map fold_right]; rewrite E1, E2; ring|]. split.
  - assert (K : dbl 1 0 = @Bone 53 1024 Hprec Hmax) by (apply B2SF_inj; vm_compute; reflexivity). rewrite K. apply (Bone_correct 53 1024 Hprec Hmax).
  - assert (K : to_double (total (dbl 1 0) [dbl 1 100; dbl 1 200; dbl (-1) 100; dbl (-1) 200]) = dzero) by (apply B2SF_inj; vm_compute; reflexivity). rewrite K. reflexivity.
Qed.
Print Assumptions c51_step.
Print Assumptions c51_accumulator.
Print Assumptions c51_sequence.
Print Assumptions c51_result.
Print Assumptions c51_finite.
Print Assumptions c51_overflow_case.
Print Assumptions c51_second_order_needed.
