From Coq Require Import Reals ZArith List Bool Lia Lra.
From Verif Require Import Base FlModel FlProofs AlfSpec AlfMath CunSpec CunMath CunMath2 CunModel CunReady CunProofs CunProofs2 CunProofs3 CunProofs4 CunProofs5 CunProofs6 CunProofs7 FlAlfModel FlAlfProofs FlCunModel FlCunProofs6 FlGravModel FlGravProofs FlGravProofs2 FlGravProofs3.
Import ListNotations.
Open Scope R_scope.

(** ** how many additions follow *)
Lemma ranked_app g l1 l2 : ranked (fun p => g p - INR (length l2)) l1 -> ranked g l2 -> ranked g (l1 ++ l2).
Proof.
  induction l1 as [|p l1 IH]; intros A B; [exact B|]. destruct A as (A1 & A2). cbn [app ranked]. split; [|apply IH; assumption]. cbn [length] in *. rewrite app_length. rewrite S_INR in *. rewrite plus_INR. lra.
Qed.
Lemma length_zdown hi lo : (lo <= hi + 1)%Z -> IZR (hi - lo + 1) = INR (length (zdown hi lo)).
Proof. intros H. unfold zdown, zrange. rewrite map_length, map_length, seq_length. rewrite <- Z_INR. f_equal. lia. Qed.
Lemma ranked_row (g : Z * Z -> R) m lo hi : (forall n, (lo <= n <= hi)%Z -> IZR (n - lo + 1) <= g (n, m)) -> ranked g (map (fun n => (n, m)) (zdown hi lo)).
Proof.
  destruct (Z_lt_le_dec hi lo) as [L|L]; [intros _; rewrite zdown_nil by exact L; exact I|]. assert (A : forall k : nat, (forall n, (lo <= n <= lo + Z.of_nat k)%Z -> IZR (n - lo + 1) <= g (n, m)) -> ranked g (map (fun n => (n, m)) (zdown (lo + Z.of_nat k) lo))).
  2: { intros H. replace hi with (lo + Z.of_nat (Z.to_nat (hi - lo)))%Z by lia. apply A. intros n Hn. apply H. lia. }
  clear L. intros k. induction k as [|k IH]; intros H.
  - rewrite zdown_cons, zdown_nil by lia. cbn [map ranked length]. split; [|exact I]. specialize (H lo ltac:(lia)). replace (lo - lo + 1)%Z with 1%Z in H by lia. rewrite Z.add_0_r. cbn [INR]. exact H.
  - rewrite zdown_cons by lia. replace (lo + Z.of_nat (S k) - 1)%Z with (lo + Z.of_nat k)%Z by lia. cbn [map ranked]. split; [|apply IH; intros n Hn; apply H; lia].
    cbn [length]. rewrite map_length, S_INR, <- length_zdown by lia. eapply Rle_trans; [|apply H; lia]. rewrite <- plus_IZR. apply IZR_le. lia.
Qed.
Section Rank.
  Variable D : Z.
  Hypothesis HD : (0 <= D)%Z.
  Definition rank (p : Z * Z) : R := IZR (snd p * D + fst p + 1).
  Definition rows (O : Z) : list (Z * Z) := flat_map (fun m => map (fun n => (n, m)) (zdown D m)) (zdown O 2).
  Lemma rows_rank (O : nat) : (Z.of_nat O <= D)%Z -> IZR (Z.max 0 (Z.of_nat O - 1) * D) >= INR (length (rows (Z.of_nat O))) /\ ranked (fun p => rank p - IZR (2 * D + 1)) (rows (Z.of_nat O)).
  Proof.
    induction O as [|O IH]; intros HO; [unfold rows; rewrite zdown_nil by lia; cbn; lra|]. destruct O as [|O]; [unfold rows; rewrite zdown_nil by lia; cbn; lra|]. specialize (IH ltac:(lia)). destruct IH as (IH1 & IH2).
    unfold rows in *. rewrite zdown_cons by lia. replace (Z.of_nat (S (S O)) - 1)%Z with (Z.of_nat (S O)) by lia. cbn [flat_map]. replace (Z.max 0 (Z.of_nat (S O) - 1)) with (Z.of_nat O) in IH1 by lia. set (rest := flat_map _ (zdown (Z.of_nat (S O)) 2)) in *. split.
    - rewrite app_length, map_length, plus_INR, <- length_zdown by lia. apply Rle_ge. apply Rge_le in IH1. apply Rle_trans with (IZR (D - Z.of_nat (S (S O)) + 1) + IZR (Z.of_nat O * D)); [lra|]. rewrite <- plus_IZR. apply IZR_le. nia.
    - apply ranked_app; [|exact IH2]. apply ranked_row. intros n Hn. unfold rank. cbn [fst snd]. apply Rge_le in IH1. apply Rle_trans with (IZR (Z.of_nat (S (S O)) * D + n + 1) - IZR (2 * D + 1) - IZR (Z.of_nat O * D)); [|lra]. rewrite <- !minus_IZR. apply IZR_le. nia.
  Qed.
  Lemma positions_rank (O : nat) : (Z.of_nat O <= D)%Z -> ranked rank (positions D (Z.of_nat O)).
  Proof.
    intros HO. unfold positions. apply ranked_app; [|apply ranked_app].
    - rewrite app_length, !map_length, plus_INR, <- !length_zdown by lia. rewrite <- plus_IZR. replace (D - 1 + 1 + (D - 0 + 1))%Z with (2 * D + 1)%Z by lia. apply (rows_rank O HO).
    - rewrite map_length, <- length_zdown by lia. apply ranked_row. intros n Hn. unfold rank. cbn [fst snd]. rewrite <- minus_IZR. apply IZR_le. lia.
    - apply ranked_row. intros n Hn. unfold rank. cbn [fst snd]. apply IZR_le. lia.
  Qed.
End Rank.
Lemma origin D O : (0 <= D)%Z -> In (0, 0)%Z (positions D O).
Proof.
  intros H. unfold positions. apply in_or_app. right. apply in_or_app. right. apply in_map_iff. exists 0%Z. split; [reflexivity|]. unfold zdown. apply in_map_iff. exists D. split; [lia|]. apply in_zrange. lia.
Qed.

(** ** the factor in front *)
Lemma exact_bd B : 0 <= B -> bd 0 B B B.
Proof. intros H. split; [rewrite Rabs_right; lra|]. rewrite Rminus_diag_eq, Rabs_R0 by reflexivity. lra. Qed.
Lemma quotient_scale G B b k a : 0 < G -> 0 < B -> (a <= 1000)%nat -> (/ 2) ^ a <= G / B -> bd 4 B B b -> near (G / b) k -> bd 6 (G / B) (G / B) k.
Proof.
  intros HG HB Ha L (_ & E) N. pose proof u_small as U. assert (b1 : 0.99 * B <= b). { assert (u * B <= 0.001 * B) by (apply Rmult_le_compat_r; lra). unfold Rabs in E; destruct (Rcase_abs (b - B)); lra. }
  assert (Q : 0 < G / B) by (apply Rdiv_lt_0_compat; assumption). assert (D : Rabs (G / b - G / B) <= 4.5 * u * (G / B)).
  { replace (G / b - G / B) with (G / B * (B - b) * / b) by (field; lra). rewrite !Rabs_mult, (Rabs_right (G / B)), Rabs_inv, (Rabs_right b) by lra. rewrite (Rabs_minus_sym B b). apply Rmult_le_reg_r with b; [lra|]. rewrite Rmult_assoc, Rinv_l, Rmult_1_r by lra.
    apply Rle_trans with (G / B * (4 * u * B)); [apply Rmult_le_compat_l; lra|]. apply Rle_trans with (4.5 * u * (G / B) * (0.99 * B)); [|apply Rmult_le_compat_l; [apply Rmult_le_pos; lra|exact b1]].
    assert (0 <= u * (G / B * B)) by (apply Rmult_le_pos; [lra|apply Rmult_le_pos; lra]). generalize dependent (G / B). intros; lra. }
  apply (bd_le (4.5 + 1.01)); [lra|]. apply (bd_near 4.5 _ _ (G / b) k a); [split; [rewrite Rabs_right; lra|exact D]|lra|exact Ha|exact L|exact N].
Qed.
Lemma two_exp : 2 ^ 60 * 2 ^ 92 = 2 ^ 152. Proof. rewrite <- pow_add. reflexivity. Qed.
Lemma factor_low GM B : / 2 ^ 60 <= GM -> 0 < B <= 2 ^ 92 -> (/ 2) ^ 152 <= GM / B.
Proof.
  intros G (B0 & B1). pose proof (pow_lt 2 60 ltac:(lra)) as A1. pose proof (pow_lt 2 92 ltac:(lra)) as A2. rewrite pow_inv, <- two_exp, Rinv_mult. unfold Rdiv. apply Rmult_le_compat; [left; apply Rinv_0_lt_compat; lra|left; apply Rinv_0_lt_compat; lra|exact G|apply Rinv_le_contravar; lra].
Qed.
Lemma re_powers Re : 1 <= Re <= 2 ^ 30 -> 2 <= 2 * Re * Re <= 2 ^ 92 /\ 4 <= 4 * Re * Re * Re <= 2 ^ 92.
Proof.
  intros (A & B). assert (P : 0 < 2 ^ 30) by (apply pow_lt; lra). assert (S1 : 1 <= Re * Re) by nra. assert (S2 : Re * Re <= 2 ^ 30 * 2 ^ 30) by (apply Rmult_le_compat; lra). assert (S3 : 1 <= Re * Re * Re) by nra. assert (S4 : Re * Re * Re <= 2 ^ 30 * 2 ^ 30 * 2 ^ 30) by (apply Rmult_le_compat; lra).
  assert (E : 2 ^ 92 = 4 * (2 ^ 30 * 2 ^ 30 * 2 ^ 30)) by (replace 4 with (2 ^ 2) by lra; rewrite <- !pow_add; reflexivity). assert (E2 : 2 * (2 ^ 30 * 2 ^ 30) <= 2 ^ 92). { rewrite E. assert (1 <= 2 ^ 30) by lra. set (x := 2 ^ 30) in *. assert (x * x * 1 <= x * x * x) by (apply Rmult_le_compat_l; [apply Rmult_le_pos; lra|lra]). assert (0 <= x * x) by (apply Rmult_le_pos; lra). lra. }
  split; split; lra.
Qed.
Lemma scale2_bd GM Re k : / 2 ^ 60 <= GM -> 1 <= Re <= 2 ^ 30 -> scale2_run GM Re k -> bd 6 (GM / (2 * Re * Re)) (GM / (2 * Re * Re)) k /\ (/ 2) ^ 152 <= GM / (2 * Re * Re).
Proof.
  intros G H (a & b & A & B & N). destruct (re_powers Re H) as (P & _). pose proof (factor_low GM (2 * Re * Re) G ltac:(lra)) as L. split; [|exact L]. assert (G0 : 0 < GM) by (pose proof (Rinv_0_lt_compat _ (pow_lt 2 60 ltac:(lra))); lra).
  apply (quotient_scale GM (2 * Re * Re) b k 152 G0 ltac:(lra) ltac:(lia) L); [|exact N]. apply (bd_le (1.01 + 0 + 0.5 + 1.01)); [lra|]. apply (bd_near _ _ _ (a * Re) b 0); [apply bd_mul; [lra|lra|apply near_one; [lra|exact A]|apply exact_bd; lra]|lra|lia|rewrite pow_O; lra|exact B].
Qed.
Lemma scale3_bd GM Re k : / 2 ^ 60 <= GM -> 1 <= Re <= 2 ^ 30 -> scale3_run GM Re k -> bd 6 (GM / (4 * Re * Re * Re)) (GM / (4 * Re * Re * Re)) k /\ (/ 2) ^ 152 <= GM / (4 * Re * Re * Re).
Proof.
  intros G H (a & b & c & A & B & Cc & N). destruct (re_powers Re H) as (P0 & P). pose proof (factor_low GM (4 * Re * Re * Re) G ltac:(lra)) as L. split; [|exact L]. assert (G0 : 0 < GM) by (pose proof (Rinv_0_lt_compat _ (pow_lt 2 60 ltac:(lra))); lra).
  assert (A' : bd 1.01 (4 * Re) (4 * Re) a) by (apply near_one; [lra|exact A]).
  assert (B' : bd 2.05 (4 * Re * Re) (4 * Re * Re) b).
  { apply (bd_le (1.03 + 1.01)); [lra|]. apply (bd_near _ _ _ (a * Re) b 0); [|lra|lia|rewrite pow_O; lra|exact B]. destruct A' as (A1 & A2). assert (0 <= 4 * Re * Re) by lra. split; [rewrite Rabs_right; lra|]. replace (a * Re - 4 * Re * Re) with ((a - 4 * Re) * Re) by ring. rewrite Rabs_mult, (Rabs_right Re) by lra. pose proof u_pos. pose proof (Rmult_le_compat_r Re _ _ ltac:(lra) A2). assert (0 <= u * (4 * Re * Re)) by (apply Rmult_le_pos; lra). lra. }
  apply (quotient_scale GM (4 * Re * Re * Re) c k 152 G0 ltac:(lra) ltac:(lia) L); [|exact N]. apply (bd_le (2.05 + 0 + 0.5 + 1.01)); [lra|]. apply (bd_near _ _ _ (b * Re) c 0); [apply bd_mul; [lra|lra|exact B'|apply exact_bd; lra]|lra|lia|rewrite pow_O; lra|exact Cc].
Qed.

(** ** one component *)
Lemma rs_scal {T} (F : T -> R) a l : rs (fun p => a * F p) l = a * rs F l.
Proof. induction l as [|p l IH]; cbn [rs]; [ring|]. rewrite IH. ring. Qed.
Lemma rs_plus {T} (F G : T -> R) l : rs (fun p => F p + G p) l = rs F l + rs G l.
Proof. induction l as [|p l IH]; cbn [rs]; [ring|]. rewrite IH. ring. Qed.
Lemma rs_member (F : Z * Z -> R) l p : (forall q, In q l -> 0 <= F q) -> In p l -> F p <= rs F l.
Proof.
  intros H I. assert (N : forall l', (forall q, In q l' -> 0 <= F q) -> 0 <= rs F l') by (induction l' as [|q l' IH]; intros HH; cbn [rs]; [lra|]; apply Rplus_le_le_0_compat; [apply HH; left; reflexivity|apply IH; intros; apply HH; right; assumption]).
  induction l as [|q l IH]; [destruct I|]. cbn [rs]. destruct I as [-> | I]; [assert (0 <= rs F l) by (apply N; intros; apply H; right; assumption); lra|]. assert (0 <= F q) by (apply H; left; reflexivity). assert (F p <= rs F l) by (apply IH; [intros; apply H; right; assumption|exact I]). lra.
Qed.
Lemma component val f e B k Q g l k0 kv v p0 : Forall (element val f e B k Q) l -> ranked g l -> (Q + 1.01 * INR (length l)) * u <= / 10000 -> (forall p, In p l -> 0 <= g p /\ k p + 1.01 * g p <= 10000000) -> In p0 l ->
  bd 6 k0 k0 kv -> (/ 2) ^ 152 <= k0 -> component_run val kv f l v -> Rabs (v - rs e l * k0) <= u * k0 * rs (fun p => (k p + 1.01 * g p + 7.6) * B p) l.
Proof.
  intros G Hg HQ HK I0 HS K0 (s & H & N). pose proof u_small as U. pose proof (sum_result val f e B k Q g l s G Hg HQ H) as E. pose proof (sum_size val f e B k Q l G) as SZ. pose proof (half_pos 152) as HP.
  assert (GB : forall p, In p l -> (/ 2) ^ 806 <= B p /\ 0 <= k p). { intros p I. pose proof (proj1 (Forall_forall _ _) G p I) as ((a & A1 & A2) & Kp & _). split; [|lra]. eapply Rle_trans; [apply (half_pow a 806 A1)|exact A2]. }
  pose proof (half_pos 806) as HP8. assert (XB : (/ 2) ^ 806 <= rs B l) by (eapply Rle_trans; [apply (GB p0 I0)|apply rs_member; [intros q Iq; pose proof (GB q Iq); lra|exact I0]]).
  set (x := rs e l) in *. set (X := rs B l) in *. set (Et := rs (fun p => (k p + 1.01 * g p) * B p) l) in *.
  assert (E0 : 0 <= Et <= 10000000 * X).
  { split.
    - eapply Rle_trans; [|apply (rs_member (fun p => (k p + 1.01 * g p) * B p) l p0); [|exact I0]]; [|intros q Iq]; cbv beta.
      + destruct (GB p0 I0). destruct (HK p0 I0). apply Rmult_le_pos; lra.
      + destruct (GB q Iq). destruct (HK q Iq). apply Rmult_le_pos; lra.
    - unfold Et, X. rewrite <- rs_scal. apply rs_le. intros p Ip. destruct (GB p Ip). destruct (HK p Ip). apply Rmult_le_compat_r; lra. }
  assert (BX : bd (Et / X) X x s). { split; [exact SZ|]. replace (Et / X * u * X) with (u * Et) by (field; lra). exact E. }
  assert (EQ : 0 <= Et / X <= 10000000). { split; [apply Rmult_le_pos; [lra|left; apply Rinv_0_lt_compat; lra]|]. apply Rmult_le_reg_r with X; [lra|]. unfold Rdiv. rewrite Rmult_assoc, Rinv_l by lra. lra. }
  pose proof (bd_mul (Et / X) 6 X k0 x k0 s kv ltac:(lra) ltac:(lra) BX HS) as PM.
  assert (LL : (/ 2) ^ 958 <= X * k0). { replace 958%nat with (806 + 152)%nat by lia. rewrite pow_add. apply Rmult_le_compat; lra. }
  pose proof (bd_near _ _ _ _ v 958 PM ltac:(lra) ltac:(lia) LL N) as (_ & R1). eapply Rle_trans; [exact R1|].
  assert (TT : rs (fun p => (k p + 1.01 * g p + 7.6) * B p) l = Et + 7.6 * X). { unfold Et, X. rewrite <- rs_scal, <- rs_plus. apply rs_ext. intros; ring. }
  rewrite TT. replace ((Et / X + 6 + 0.5 + 1.01) * u * (X * k0)) with (u * k0 * (Et / X * X + 7.51 * X)) by lra. replace (Et / X * X) with Et by (field; lra). apply Rmult_le_compat_l; [apply Rmult_le_pos; lra|lra].
Qed.
