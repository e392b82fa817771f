(** Proofs about FlEtvModel. *)
From Coq Require Import Reals ZArith List Bool Lia Lra.
From Flocq Require Import Core.Core IEEE754.BinarySingleNaN.
From Verif Require Import Angles PiBound KahanModel DoodsonModel DoodsonArgModel DoodsonArgSpec DoodsonArgProofs EtvModel EtvSpec EtvProofs EtvProofs2 FlModel FlProofs FlFloatModel FlFloatProofs FlFast FlCipProofs FlCipProofs2 FlEraModel FlEraProofs FlEtvModel.
From Verif Require FlCip64Proofs.
Import ListNotations.
Open Scope R_scope.

(** computed and exact value *)
Definition closeto (m d : R) (c e : R) : Prop := Rabs e <= m /\ Rabs (c - e) <= d.
Lemma weaken m d d' C E : d <= d' -> Forall2 (closeto m d) C E -> Forall2 (closeto m d') C E.
Proof. intros H. induction 1 as [|c e C E (A & B) K IH]; constructor; [split; [exact A|lra]|exact IH]. Qed.
(** bounds m and n/k for every variable *)
Definition ub (m n k : Z) (_ : nat) : Z * Z := (m * one120, n * one120 / k + 1)%Z.
Lemma fits_list m n k C E : (0 <= m)%Z -> (0 <= n)%Z -> (0 < k)%Z -> Forall2 (closeto (IZR m) (IZR n / IZR k)) C E -> fits (lenv E) (lenv C) (ub m n k).
Proof.
  intros Hm Hn Hk H i. unfold ub. cbn [fst snd]. pose proof (scaled_up n k Hk) as S. pose proof unit_inv as U. pose proof unit_pos as P.
  assert (W : IZR (m * one120) * unit120 = IZR m) by (rewrite mult_IZR; unfold one120; rewrite Rmult_assoc, U; ring). rewrite W.
  assert (Z0 : 0 <= IZR n / IZR k) by (apply Rmult_le_pos; [apply IZR_le, Hn|apply Rlt_le, Rinv_0_lt_compat, IZR_lt, Hk]).
  revert i. induction H as [|c e C E (A & B) H IH]; intros i.
  - unfold lenv. destruct i; cbn [nth]; rewrite Rminus_diag_eq, Rabs_R0 by reflexivity; (split; [apply IZR_le, Hm|lra]).
  - destruct i as [|i]; [unfold lenv; cbn [nth]; split; [exact A|lra]|exact (IH i)].
Qed.
Lemma reduced_error vb E C e v (M er : R) : fits E C vb -> reduced_run C e v -> IZR (fst (bnd vb e)) * unit120 <= M -> IZR (snd (bnd vb e)) * unit120 <= er -> er <= 1 ->
  exists a, eqm a (eval E e) /\ Rabs v <= 7 /\ Rabs (v - a) <= er + ((M + 1) / 6 + 2) * / 2 ^ 50.
Proof.
  intros F (p & Rp & A) HM He H1. destruct (bnd_sound _ _ _ F e p Rp) as [X Y]. assert (D : Rabs (p - eval E e) <= er) by lra.
  destruct (anp_error (eval E e) p v er (M + 1) A D) as (a & Ea & Ha). { eapply Rle_trans; [apply (near_close (eval E e)); lra|lra]. }
  exists a. split; [exact Ea|]. split; [apply A|exact Ha].
Qed.
(** the checks of an expression: magnitude n/1, error i/k *)
Definition checked (vb : nat -> Z * Z) (m i k : Z) (e : expr) : Prop := (fst (bnd vb e) <= m * one120)%Z /\ (snd (bnd vb e) <= i * one120 / k)%Z /\ snd (bnds vb e) = true.
Lemma checked_fast vb fv m i k e : (forall j, above (fst (vb j)) (fst (fv j)) /\ above (snd (vb j)) (snd (fv j))) -> (0 <= m)%Z -> (0 <= i)%Z -> (0 < k)%Z ->
  fcheck fv (m * one120) (i * one120 / k) e = true -> checked vb m i k e.
Proof.
  intros H Hm Hi Hk C. assert (O : (0 < one120)%Z) by (apply Z.ltb_lt; reflexivity). apply (fcheck_ok vb fv H _ _ e C); [apply Z.mul_nonneg_nonneg; lia|apply Z.div_pos; [apply Z.mul_nonneg_nonneg; lia|lia]].
Qed.
Lemma checked_real vb m i k e : (0 < k)%Z -> checked vb m i k e -> IZR (fst (bnd vb e)) * unit120 <= IZR m /\ IZR (snd (bnd vb e)) * unit120 <= IZR i / IZR k.
Proof.
  intros Hk (A & B & _). pose proof unit_pos as P. split.
  - apply Rle_trans with (IZR (m * one120) * unit120); [apply Rmult_le_compat_r; [lra|apply IZR_le, A]|]. rewrite mult_IZR. unfold one120. rewrite Rmult_assoc, unit_inv. lra.
  - apply units; [apply Z.leb_le, B|exact Hk].
Qed.
Lemma reduced_list vb E C es A m i k (d : R) : fits E C vb -> (0 < k)%Z -> (0 <= m <= 66)%Z -> IZR i / IZR k + 1.2e-14 <= d -> d <= 1e-3 -> Forall (checked vb m i k) es -> Forall2 (reduced_run C) es A ->
  exists B, Forall2 (closeto 8 d) A B /\ Forall2 (fun e b => eqm b (eval E e)) es B.
Proof.
  intros F Hk Hm Hd Hd1 Ck H. induction H as [|e v es A Hv H IH]; [exists []; split; constructor|]. inversion Ck as [|? ? C1 C2]; subst. destruct (IH C2) as (B & HB1 & HB2).
  destruct (checked_real _ _ _ _ _ Hk C1) as [R1 R2]. assert (M58 : 0 <= IZR m <= 66) by (split; apply IZR_le; lia). pose proof p50 as P5.
  destruct (reduced_error vb E C e v (IZR m) (IZR i / IZR k) F Hv R1 R2 ltac:(lra)) as (a & Ea & V7 & Va).
  exists (a :: B). split; constructor; try assumption. assert (Va' : Rabs (v - a) <= d) by nra. split; [|exact Va']. apply Rabs_le_inv in Va', V7. apply Rabs_le. lra.
Qed.

(** ** checks *)
Definition fub (m : Z) (q : num) (_ : nat) : num * num := (cut m 120, q).
Lemma fub_above m n k q : (0 <= m)%Z -> ((0 <=? n * one120 / k + 1) && (n * one120 / k + 1 <=? den q) && (0 <=? fst q) && (0 <=? snd q))%Z = true ->
  forall j, above (fst (ub m n k j)) (fst (fub m q j)) /\ above (snd (ub m n k j)) (snd (fub m q j)).
Proof.
  intros Hm H j. apply andb_prop in H as [H H4]. apply andb_prop in H as [H H3]. apply andb_prop in H as [H1 H2]. apply Z.leb_le in H1, H2, H3, H4. unfold ub, fub. cbn [fst snd].
  assert (O : (0 < one120)%Z) by (apply Z.ltb_lt; reflexivity). split; [|split; auto]. apply cut_above; [exact Hm|lia|]. fold one120. split; [apply Z.mul_nonneg_nonneg; lia|lia].
Qed.
(** Delaunay arguments below 7 known to 10^-11 *)
Definition fvF := fub 7 (11529216, 60)%Z.
Lemma fvF_above j : above (fst (ub 7 1 (10 ^ 11) j)) (fst (fvF j)) /\ above (snd (ub 7 1 (10 ^ 11) j)) (snd (fvF j)).
Proof. apply fub_above; [lia|vm_compute; reflexivity]. Qed.
Lemma doodson_checks : Forall (checked (ub 7 1 (10 ^ 11)) 29 41 (10 ^ 12)) doodsone.
Proof. repeat (apply Forall_cons; [apply (checked_fast _ fvF); [exact fvF_above|lia|lia|lia|vm_compute; reflexivity]|]). apply Forall_nil. Qed.
(** gmst, pi and s *)
Definition vbt (i : nat) : Z * Z := nth i [(8 * one120, one120 / 10 ^ 12 + 1); (4 * one120, one120 / 2 ^ 50 + 1); (8 * one120, 42 * one120 / 10 ^ 12 + 1)]%Z (0, 0)%Z.
Lemma tau_check : checked vbt 21 44 (10 ^ 12) taue.
Proof. split; [apply Z.leb_le; vm_compute; reflexivity|]. split; [apply Z.leb_le; vm_compute; reflexivity|vm_compute; reflexivity]. Qed.
(** Doodson variables below 8 known to 45 10^-12 *)
Definition vbD := ub 8 45 (10 ^ 12).
Definition fvD := fub 8 (12970367, 62)%Z.
Lemma fvD_above j : above (fst (vbD j)) (fst (fvD j)) /\ above (snd (vbD j)) (snd (fvD j)).
Proof. apply fub_above; [lia|vm_compute; reflexivity]. Qed.
Definition args_fast (tab : list wave) : bool := forallb (fun w => fcheck fvD (65 * one120) (361 * one120 / 10 ^ 12) (argumente (dn w))) tab.
Lemma args_checks tab : args_fast tab = true -> Forall (checked vbD 65 361 (10 ^ 12)) (map (fun w => argumente (dn w)) tab).
Proof.
  unfold args_fast. intros H. rewrite forallb_forall in H. apply Forall_forall. intros e I. apply in_map_iff in I as (w & <- & I). apply (checked_fast _ fvD); [exact fvD_above|lia|lia|lia|exact (H w I)].
Qed.
Lemma args5 : args_fast Table5NoLongTides = true.
Proof. vm_compute. reflexivity. Qed.
Lemma args8 : args_fast Table8 = true.
Proof. vm_compute. reflexivity. Qed.
Definition ksi_fast : bool := forallb (fun w => fcheck fvF (57 * one120) (81 * one120 / 10 ^ 12) (ksie w)) Table81.
Lemma ksi_checks : Forall (checked (ub 7 1 (10 ^ 11)) 57 81 (10 ^ 12)) (map ksie Table81).
Proof.
  assert (H : ksi_fast = true) by (vm_compute; reflexivity). unfold ksi_fast in H. rewrite forallb_forall in H. apply Forall_forall. intros e I. apply in_map_iff in I as (w & <- & I).
  apply (checked_fast _ fvF); [exact fvF_above|lia|lia|lia|exact (H w I)].
Qed.
(** arguments of the waves known to 37 10^-11, 82 10^-12 *)
Definition vbA := ub 8 37 (10 ^ 11).
Definition fvA := fub 8 (13330655, 65)%Z.
Lemma fvA_above j : above (fst (vbA j)) (fst (fvA j)) /\ above (snd (vbA j)) (snd (fvA j)).
Proof. apply fub_above; [lia|vm_compute; reflexivity]. Qed.
Definition vbZ := ub 8 82 (10 ^ 12).
Definition fvZ := fub 8 (11817447, 63)%Z.
Lemma fvZ_above j : above (fst (vbZ j)) (fst (fvZ j)) /\ above (snd (vbZ j)) (snd (fvZ j)).
Proof. apply fub_above; [lia|vm_compute; reflexivity]. Qed.
Definition columns (tab : list wave) : list expr := map (fun c => seriese c 0 tab (Int 0)) [cx; cy; cu; cl].
Lemma columns5 : Forall (checked vbA 100 25 (10 ^ 9)) (columns Table5NoLongTides).
Proof. repeat (apply Forall_cons; [apply (checked_fast _ fvA); [exact fvA_above|lia|lia|lia|vm_compute; reflexivity]|]). apply Forall_nil. Qed.
Lemma columns8 : Forall (checked vbA 1500 56 (10 ^ 8)) (columns Table8).
Proof. repeat (apply Forall_cons; [apply (checked_fast _ fvA); [exact fvA_above|lia|lia|lia|vm_compute; reflexivity]|]). apply Forall_nil. Qed.
Lemma columns81 : checked vbZ 200000 15 (10 ^ 6) zut1e /\ checked vbZ 2000 12 (10 ^ 8) zlode /\ checked vbZ 200 1 (10 ^ 8) zomegae.
Proof. (split; [|split]); (apply (checked_fast _ fvZ); [exact fvZ_above|lia|lia|lia|vm_compute; reflexivity]). Qed.

(** ** exact values *)
Lemma lenv_app P b B : lenv (P ++ b :: B) (length P) = b.
Proof. unfold lenv. rewrite app_nth2 by lia. rewrite Nat.sub_diag. reflexivity. Qed.
Lemma series_link c F g tab : forall P B acc, Forall2 (fun w b => eqm b (iers_argument (dn w) F g)) tab B ->
  eval (lenv (P ++ B)) (seriese c (length P) tab acc) = eval (lenv (P ++ B)) acc + waves c tab F g.
Proof.
  induction tab as [|w tab IH]; intros P B acc H; inversion H as [|? b ? B' Hb H']; subst; cbn [seriese]; [unfold waves; cbn; ring|].
  replace (P ++ b :: B') with ((P ++ [b]) ++ B') by (rewrite <- app_assoc; reflexivity). replace (S (length P)) with (length (P ++ [b])) by (rewrite app_length; cbn; lia).
  rewrite IH by exact H'. rewrite <- app_assoc. cbn [app eval]. rewrite lenv_app, (eqm_sin _ _ Hb), (eqm_cos _ _ Hb). unfold waves. cbn [map]. rewrite sum_cons. unfold wave_at at 2. cbn [pow]. lra.
Qed.
Definition zwaves (sc : bool) (c : zwave -> Z * Z) (t : list zwave) (F : delaunay) : R :=
  sum (map (fun w => let x := zonal_argument (zlist w) F in IZR (fst (c w)) / 10000 * (if sc then sin x else cos x) + IZR (snd (c w)) / 10000 * (if sc then cos x else sin x)) t).
Lemma zonal_link sc c F tab : forall P B acc, Forall2 (fun w b => eqm b (zonal_argument (zlist w) F)) tab B ->
  eval (lenv (P ++ B)) (zonale sc c (length P) tab acc) = eval (lenv (P ++ B)) acc + zwaves sc c tab F.
Proof.
  induction tab as [|w tab IH]; intros P B acc H; inversion H as [|? b ? B' Hb H']; subst; cbn [zonale]; [unfold zwaves; cbn; ring|].
  replace (P ++ b :: B') with ((P ++ [b]) ++ B') by (rewrite <- app_assoc; reflexivity). replace (S (length P)) with (length (P ++ [b])) by (rewrite app_length; cbn; lia).
  rewrite IH by exact H'. rewrite <- app_assoc. cbn [app eval]. unfold zwaves. cbn [map]. rewrite sum_cons. cbv zeta.
  destruct sc; cbn [eval]; rewrite lenv_app, (eqm_sin _ _ Hb), (eqm_cos _ _ Hb); cbn [pow]; lra.
Qed.
Lemma zonal_values F B : Forall2 (fun w b => eqm b (zonal_argument (zlist w) F)) Table81 B ->
  eval (lenv B) zut1e = zut1 (deop_zonal_tide F) /\ eval (lenv B) zlode = zlod (deop_zonal_tide F) /\ eval (lenv B) zomegae = zomega (deop_zonal_tide F).
Proof.
  intros H. unfold zut1e, zlode, zomegae. rewrite zonal_sums. cbn [zut1 zlod zomega eval].
  pose proof (zonal_link true (fun w => (dut1B w, dut1C w)) F Table81 [] B (Int 0) H) as L1. pose proof (zonal_link false (fun w => (dlodB w, dlodC w)) F Table81 [] B (Int 0) H) as L2.
  pose proof (zonal_link false (fun w => (domegaB w, domegaC w)) F Table81 [] B (Int 0) H) as L3. cbn [app length eval] in L1, L2, L3. rewrite L1, L2, L3, !Rplus_0_l.
  replace 1e2 with 100 by lra. replace 1e1 with 10 by lra. unfold zwaves, zsum.
  repeat split; [f_equal|f_equal|]; apply sum_ext; intros w _; unfold zterm, zu, zl, zo; cbn [fst snd]; cbv zeta; lra.
Qed.
Lemma deop_values tab F g B : Forall2 (fun w b => eqm b (iers_argument (dn w) F g)) tab B ->
  map (eval (lenv B)) (columns tab) = [dxp (deop tab F g); dyp (deop tab F g); dut1 (deop tab F g); dlod (deop tab F g)].
Proof.
  intros H. rewrite deop_eq. cbn [dxp dyp dut1 dlod]. unfold columns. cbn [map].
  pose proof (series_link cx F g tab [] B (Int 0) H) as L1. pose proof (series_link cy F g tab [] B (Int 0) H) as L2. pose proof (series_link cu F g tab [] B (Int 0) H) as L3. pose proof (series_link cl F g tab [] B (Int 0) H) as L4.
  cbn [app length eval] in L1, L2, L3, L4. rewrite L1, L2, L3, L4, !Rplus_0_l. reflexivity.
Qed.

(** ** errors *)
Definition delaunay_of (G : list R) : delaunay := mkDel (nth 0 G 0) (nth 1 G 0) (nth 2 G 0) (nth 3 G 0) (nth 4 G 0).
Definition fargs_close (F G : list R) : Prop := Forall2 (closeto 7 (1 / IZR (10 ^ 11))) F G /\ length G = 5%nat.
Lemma firstn_close n F : forall G, Forall2 (close (1 / 10 ^ 11)) F G -> Forall2 (closeto 7 (1 / IZR (10 ^ 11))) (firstn n F) (firstn n G).
Proof.
  assert (E : 1 / 10 ^ 11 <= 1 / IZR (10 ^ 11)) by (change (10 ^ 11)%Z with 100000000000%Z; lra). revert E. generalize (1 / 10 ^ 11) (1 / IZR (10 ^ 11)). intros d d' E.
  revert n. induction F as [|f F IH]; intros n G H; inversion H as [|? g ? G' (P & Q) H']; subst; destruct n; cbn [firstn]; constructor; [split; [exact P|lra]|exact (IH n G' H')].
Qed.
Lemma argumente_eqm n D F g : length D = 6%nat -> eqm (nth 0 D 0) (vtau (delaunay2doodson F g)) -> eqm (nth 1 D 0) (vs (delaunay2doodson F g)) -> eqm (nth 2 D 0) (vh (delaunay2doodson F g)) ->
  eqm (nth 3 D 0) (vp (delaunay2doodson F g)) -> eqm (nth 4 D 0) (vn (delaunay2doodson F g)) -> eqm (nth 5 D 0) (vps (delaunay2doodson F g)) -> eqm (eval (lenv D) (argumente n)) (iers_argument n F g).
Proof.
  intros L H0 H1 H2 H3 H4 H5. pose proof (argument_eqm n (mkVar (nth 0 D 0) (nth 1 D 0) (nth 2 D 0) (nth 3 D 0) (nth 4 D 0) (nth 5 D 0)) (delaunay2doodson F g) H0 H1 H2 H3 H4 H5) as E.
  rewrite argument_iers in E. unfold argument in E. apply anp_eqm_iff in E. cbn [vtau vs vh vp vn vps] in E. exact E.
Qed.
Section Errors.
  Variables (F G : list R) (gm g dpi : R).
  Hypotheses (HF : fargs_close (firstn 5 F) G) (Hg : Rabs g <= 8) (Hgm : Rabs (gm - g) <= / IZR (10 ^ 12)) (Hp : Rabs (dpi - PI) <= / 2 ^ 50).
  Lemma fits_fargs : fits (lenv G) (lenv (firstn 5 F)) (ub 7 1 (10 ^ 11)).
  Proof. apply fits_list; [lia|lia|lia|]. exact (proj1 HF). Qed.
  Lemma fits_tau s s' : closeto 8 (42 / 10 ^ 12) s s' -> fits (lenv [g; PI; s']) (lenv [gm; dpi; s]) vbt.
  Proof.
    intros (A & B) i. pose proof unit_inv as U. pose proof unit_pos as P. pose proof pi_bounds as PB.
    assert (W : forall n : Z, IZR (n * one120) * unit120 = IZR n) by (intros n; rewrite mult_IZR; unfold one120; rewrite Rmult_assoc, U; ring).
    unfold lenv, vbt. destruct i as [|[|[|i]]]; cbn [nth fst snd].
    - rewrite W. split; [exact Hg|]. pose proof (scaled_up 1 (10 ^ 12) ltac:(lia)) as S. rewrite Z.mul_1_l in S. unfold Rdiv in S. rewrite Rmult_1_l in S. lra.
    - rewrite W. split; [rewrite Rabs_pos_eq; lra|]. pose proof (pow2_up 50) as S. change (2 ^ Z.of_nat 50)%Z with (2 ^ 50)%Z in S. lra.
    - rewrite W. split; [exact A|]. pose proof (scaled_up 42 (10 ^ 12) ltac:(lia)) as S. change (IZR (10 ^ 12)) with 1000000000000 in S. lra.
    - destruct i; cbn [nth fst snd]; rewrite Rminus_diag_eq, Rabs_R0 by reflexivity; split; lra.
  Qed.
  Notation d0 := (delaunay_of G).
  Lemma doodson_error D : doodson_run F gm dpi D -> exists D', length D' = 6%nat /\ Forall2 (closeto 8 (45 / IZR (10 ^ 12))) D D' /\ forall n, eqm (eval (lenv D') (argumente n)) (iers_argument n d0 g).
  Proof.
    intros (t0 & s & Dr & -> & HD & Ht). change (10 ^ 12)%Z with 1000000000000%Z. change (10 ^ 11)%Z with 100000000000%Z in *.
    destruct (reduced_list _ _ _ _ _ 29 41 (10 ^ 12) (42 / 10 ^ 12) fits_fargs ltac:(lia) ltac:(lia) ltac:(change (10 ^ 12)%Z with 1000000000000%Z; lra) ltac:(lra) doodson_checks HD) as (B & HB & EB).
    inversion HB as [|? s' ? B' Cs HB']; subst. destruct tau_check as (T1 & T2 & T3).
    destruct (checked_real vbt 21 44 (10 ^ 12) taue ltac:(lia) tau_check) as [R1 R2]. change (10 ^ 12)%Z with 1000000000000%Z in R2.
    destruct (reduced_error vbt _ _ taue t0 21 (44 / 1000000000000) (fits_tau s s' Cs) Ht R1 R2 ltac:(lra)) as (t1 & E1 & V7 & V1). pose proof p50 as P5.
    assert (V1' : Rabs (t0 - t1) <= 45 / 1000000000000) by (eapply Rle_trans; [exact V1|]; nra).
    exists (t1 :: s' :: B').
    unfold doodsone in EB. cbv zeta in EB. inversion EB as [|? ? ? ? Q1 EB1]; subst. inversion EB1 as [|? b2 ? ? Q2 EB2]; subst. inversion EB2 as [|? b3 ? ? Q3 EB3]; subst. inversion EB3 as [|? b4 ? ? Q4 EB4]; subst.
    inversion EB4 as [|? b5 ? ? Q5 EB5]; subst. inversion EB5; subst. cbn [eval lenv] in Q1, Q2, Q3, Q4, Q5. unfold lenv in Q1, Q2, Q3, Q4, Q5. split; [reflexivity|]. split.
    - constructor; [split; [apply Rabs_le_inv in V1', V7; apply Rabs_le; lra|exact V1']|]. apply (weaken _ (42 / 10 ^ 12)); [lra|exact HB].
    - intros n. unfold taue in E1. cbn [eval] in E1. unfold lenv in E1. cbn [nth] in E1.
      apply argumente_eqm; [reflexivity|..]; cbn [nth delaunay2doodson vtau vs vh vp vn vps delaunay_of el elp ef ed eom]; (eapply eqm_trans; [|apply eqm_sym, anp_eqm]); try assumption.
      eapply eqm_trans; [exact E1|]. apply eqm_sub; [apply eqm_refl|]. eapply eqm_trans; [exact Q1|apply eqm_sym, anp_eqm].
  Qed.
  Lemma args_error tab D A : args_fast tab = true -> doodson_run F gm dpi D -> Forall2 (reduced_run (lenv D)) (map (fun w => argumente (dn w)) tab) A ->
    exists B, Forall2 (closeto 8 (37 / IZR (10 ^ 11))) A B /\ Forall2 (fun w b => eqm b (iers_argument (dn w) d0 g)) tab B.
  Proof.
    intros K HD HA. destruct (doodson_error D HD) as (D' & L & CD & ED).
    destruct (reduced_list vbD (lenv D') (lenv D) _ A 65 361 (10 ^ 12) (37 / IZR (10 ^ 11)) (fits_list 8 45 (10 ^ 12) D D' ltac:(lia) ltac:(lia) ltac:(lia) CD) ltac:(lia) ltac:(lia)
      ltac:(change (10 ^ 12)%Z with 1000000000000%Z; change (10 ^ 11)%Z with 100000000000%Z; lra) ltac:(change (10 ^ 11)%Z with 100000000000%Z; lra) (args_checks tab K) HA) as (B & CB & EB).
    exists B. split; [exact CB|]. clear -EB ED. revert B EB. induction tab as [|w tab IH]; intros B EB; inversion EB; subst; constructor; [|apply IH; assumption].
    eapply eqm_trans; [eassumption|apply ED].
  Qed.
  Lemma deop_error tab m i k r : (0 < k)%Z -> args_fast tab = true -> Forall (checked vbA m i k) (columns tab) -> deop_run tab F gm dpi r ->
    let e := deop tab d0 g in Rabs (dxp r - dxp e) <= IZR i / IZR k /\ Rabs (dyp r - dyp e) <= IZR i / IZR k /\ Rabs (dut1 r - dut1 e) <= IZR i / IZR k /\ Rabs (dlod r - dlod e) <= IZR i / IZR k.
  Proof.
    intros Hk K C (D & A & HD & HA & R1 & R2 & R3 & R4) e. destruct (args_error tab D A K HD HA) as (B & CB & EB).
    pose proof (fits_list 8 37 (10 ^ 11) A B ltac:(lia) ltac:(lia) ltac:(lia) CB) as Ft. pose proof (deop_values tab d0 g B EB) as V. fold e in V. unfold columns in V, C. cbn [map] in V, C. injection V as V1 V2 V3 V4.
    assert (Q : forall c v x, checked vbA m i k c -> run (lenv A) c v -> eval (lenv B) c = x -> Rabs (v - x) <= IZR i / IZR k).
    { intros c v x Cc Rv <-. eapply Rle_trans; [exact (proj2 (bnd_sound _ _ _ Ft c v Rv))|]. exact (proj2 (checked_real vbA m i k c Hk Cc)). }
    inversion C as [|? ? C1 Ca]; subst. inversion Ca as [|? ? C2 Cb]; subst. inversion Cb as [|? ? C3 Cc]; subst. inversion Cc as [|? ? C4 Cd]; subst.
    split; [exact (Q _ _ _ C1 R1 V1)|]. split; [exact (Q _ _ _ C2 R2 V2)|]. split; [exact (Q _ _ _ C3 R3 V3)|exact (Q _ _ _ C4 R4 V4)].
  Qed.
  Lemma zonal_error r : zonal_run F r -> let e := deop_zonal_tide d0 in Rabs (zut1 r - zut1 e) <= 1.5e-5 /\ Rabs (zlod r - zlod e) <= 1.2e-7 /\ Rabs (zomega r - zomega e) <= 1e-8.
  Proof.
    intros (A & HA & R1 & R2 & R3) e.
    destruct (reduced_list _ _ _ _ A 57 81 (10 ^ 12) (82 / IZR (10 ^ 12)) fits_fargs ltac:(lia) ltac:(lia) ltac:(change (10 ^ 12)%Z with 1000000000000%Z; lra) ltac:(change (10 ^ 12)%Z with 1000000000000%Z; lra) ksi_checks HA) as (B & CB & EB).
    assert (EB' : Forall2 (fun w b => eqm b (zonal_argument (zlist w) d0)) Table81 B).
    { clear -EB. revert B EB. generalize Table81. intros tab. induction tab as [|w tab IH]; intros B EB; inversion EB; subst; constructor; [|apply IH; assumption].
      eapply eqm_trans; [eassumption|]. apply eqm_eq. unfold ksie, zonal_argument, zlist, delaunay_of. cbn [eval nth el elp ef ed eom]. unfold lenv. ring. }
    pose proof (fits_list 8 82 (10 ^ 12) A B ltac:(lia) ltac:(lia) ltac:(lia) CB) as Ft. destruct (zonal_values d0 B EB') as (V1 & V2 & V3). fold e in V1, V2, V3. destruct columns81 as (C1 & C2 & C3).
    assert (Q : forall m i k c v x, (0 < k)%Z -> checked vbZ m i k c -> run (lenv A) c v -> eval (lenv B) c = x -> Rabs (v - x) <= IZR i / IZR k).
    { intros m i k c v x Hk Cc Rv <-. eapply Rle_trans; [exact (proj2 (bnd_sound _ _ _ Ft c v Rv))|]. exact (proj2 (checked_real vbZ m i k c Hk Cc)). }
    pose proof (Q _ _ (10 ^ 6)%Z _ _ _ ltac:(lia) C1 R1 V1) as Q1. pose proof (Q _ _ (10 ^ 8)%Z _ _ _ ltac:(lia) C2 R2 V2) as Q2. pose proof (Q _ _ (10 ^ 8)%Z _ _ _ ltac:(lia) C3 R3 V3) as Q3.
    change (10 ^ 6)%Z with 1000000%Z in Q1. change (10 ^ 8)%Z with 100000000%Z in Q2, Q3. repeat split; lra.
  Qed.
End Errors.

(** ** binary64 *)
Section Doubles.
  Variables dsin dcos dsec danp : double -> double.
  Hypotheses (As : accurate dsin sin) (Ac : accurate dcos cos) (Ax : accurate_sec dsec) (An : accurate_anp danp).
  Notation ex := (exec dsin dcos dsec).
  Notation red := (reduced64 dsin dcos dsec danp).
  Lemma denv_val l i : B2R (denv l i) = lenv (map (fun x : double => B2R x) l) i.
  Proof. unfold denv, lenv. change 0 with (B2R dzero) at 1. symmetry. apply (map_nth (fun x : double => B2R x)). Qed.
  Lemma denv_fin l i : Forall fin l -> fin (denv l i).
  Proof.
    intros H. unfold denv. destruct (Nat.lt_ge_cases i (length l)) as [L|L]; [|rewrite nth_overflow by exact L; reflexivity]. apply (proj1 (Forall_forall _ _) H). apply nth_In, L.
  Qed.
  Notation vals l := (map (fun x : double => B2R x) l).
  Lemma exec_list l E vb e : Forall fin l -> fits E (lenv (vals l)) vb -> snd (bnds vb e) = true -> fin (ex (denv l) e) /\ run (lenv (vals l)) e (B2R (ex (denv l) e)) /\ Rabs (B2R (ex (denv l) e)) <= big.
  Proof.
    intros Fl Ft S. assert (Ft' : fits E (fun i => B2R (denv l i)) vb) by (intros i; rewrite denv_val; apply Ft).
    destruct (exec_run dsin dcos dsec (denv l) E vb As Ac Ax (fun i => denv_fin l i Fl) Ft' e S) as [A B]. split; [exact A|].
    destruct (bnd_sound _ _ _ Ft' e _ B) as [X Y]. split; [|apply (small_big (bnd vb e) (eval E e)); [apply bnds_small, S|exact X|exact Y]].
    exact (FlCip64Proofs.run_ext _ _ (denv_val l) e _ B).
  Qed.
  Lemma reduced_ok l E vb e : Forall fin l -> fits E (lenv (vals l)) vb -> snd (bnds vb e) = true -> fin (red (denv l) e) /\ reduced_run (lenv (vals l)) e (B2R (red (denv l) e)).
  Proof. intros Fl Ft S. destruct (exec_list l E vb e Fl Ft S) as (A & B & C). destruct (An _ A C) as [F1 R1]. split; [exact F1|]. exists (B2R (ex (denv l) e)). split; [exact B|exact R1]. Qed.
  Lemma reduced_oks l E vb m i k es : Forall fin l -> fits E (lenv (vals l)) vb -> Forall (checked vb m i k) es -> Forall fin (map (red (denv l)) es) /\ Forall2 (reduced_run (lenv (vals l))) es (vals (map (red (denv l)) es)).
  Proof.
    intros Fl Ft C. apply FlCip64Proofs.map_run. eapply Forall_impl; [|exact C]. intros e (_ & _ & S). exact (reduced_ok l E vb e Fl Ft S).
  Qed.
  Variables (F : list double) (G : list R) (gm dpi : double) (g : R).
  Hypotheses (FF : Forall fin F) (Fg : fin gm) (Fp : fin dpi).
  Hypotheses (HF : fargs_close (firstn 5 (vals F)) G) (Hg : Rabs g <= 8) (Hgm : Rabs (B2R gm - g) <= / IZR (10 ^ 12)) (Hp : Rabs (B2R dpi - PI) <= / 2 ^ 50).
  Lemma firstn_fin : Forall fin (firstn 5 F).
  Proof. apply Forall_forall. intros x I. apply (proj1 (Forall_forall _ _) FF). revert I. generalize 5%nat. clear. intros n. revert n. induction F as [|y l IH]; intros [|n] I; cbn in *; try tauto. destruct I as [<-|I]; [left; reflexivity|right; exact (IH n I)]. Qed.
  Lemma doodson64_run : Forall fin (doodson64 dsin dcos dsec danp F gm dpi) /\ doodson_run (vals F) (B2R gm) (B2R dpi) (vals (doodson64 dsin dcos dsec danp F gm dpi)).
  Proof.
    pose proof (fits_fargs (vals F) G HF) as Ft. rewrite firstn_map in Ft. destruct (reduced_oks (firstn 5 F) (lenv G) _ 29 41 (10 ^ 12)%Z doodsone firstn_fin Ft doodson_checks) as [A B].
    unfold doodson64. set (D := map (red (denv (firstn 5 F))) doodsone) in *.
    destruct (reduced_list _ _ _ _ _ 29 41 (10 ^ 12) (42 / 10 ^ 12) Ft ltac:(lia) ltac:(lia) ltac:(change (10 ^ 12)%Z with 1000000000000%Z; lra) ltac:(lra) doodson_checks B) as (S & HS & _).
    assert (LD : exists s D', D = s :: D') by (unfold D, doodsone; cbv zeta; cbn [map]; eauto). destruct LD as (s & D' & ED). rewrite ED in *. cbn [nth map] in *.
    inversion HS as [|? s' ? S' Cs HS']; subst. inversion A as [|? ? As1 As2]; subst.
    destruct (reduced_ok [gm; dpi; s] (lenv [g; PI; s']) vbt taue) as [Ft0 Rt0]; [repeat constructor; assumption|cbn [map]; exact (fits_tau (B2R gm) g (B2R dpi) Hg Hgm Hp (B2R s) s' Cs)|exact (proj2 (proj2 tau_check))|].
    split; [constructor; assumption|]. exists (B2R (red (denv [gm; dpi; s]) taue)), (B2R s), (vals D'). split; [reflexivity|]. split; [|exact Rt0]. rewrite firstn_map. exact B.
  Qed.
  Definition eop_vals (r : eop64) : eop := mkEop (B2R (bxp r)) (B2R (byp r)) (B2R (but1 r)) (B2R (blod r)).
  Definition eop_fin (r : eop64) : Prop := fin (bxp r) /\ fin (byp r) /\ fin (but1 r) /\ fin (blod r).
  Lemma deop64_run tab m i k : args_fast tab = true -> Forall (checked vbA m i k) (columns tab) ->
    eop_fin (deop64 dsin dcos dsec danp tab F gm dpi) /\ deop_run tab (vals F) (B2R gm) (B2R dpi) (eop_vals (deop64 dsin dcos dsec danp tab F gm dpi)).
  Proof.
    intros K C. destruct doodson64_run as [FD RD]. destruct (doodson_error (vals F) G (B2R gm) g (B2R dpi) HF Hg Hgm Hp _ RD) as (D' & L & CD & _).
    pose proof (fits_list 8 45 (10 ^ 12) _ D' ltac:(lia) ltac:(lia) ltac:(lia) CD) as FtD.
    destruct (reduced_oks _ (lenv D') vbD 65 361 (10 ^ 12)%Z _ FD FtD (args_checks tab K)) as [FA RA]. rewrite (map_map (fun w => argumente (dn w)) (red (denv (doodson64 dsin dcos dsec danp F gm dpi)))) in FA, RA.
    destruct (args_error (vals F) G (B2R gm) g (B2R dpi) HF Hg Hgm Hp tab _ _ K RD RA) as (B & CB & _).
    pose proof (fits_list 8 37 (10 ^ 11) _ B ltac:(lia) ltac:(lia) ltac:(lia) CB) as FtA.
    unfold deop64. cbv zeta. set (A := map (fun w : wave => red (denv (doodson64 dsin dcos dsec danp F gm dpi)) (argumente (dn w))) tab) in *. unfold columns in C. cbn [map] in C.
    inversion C as [|? ? C1 Ca]; subst. inversion Ca as [|? ? C2 Cb]; subst. inversion Cb as [|? ? C3 Cc]; subst. inversion Cc as [|? ? C4 Cd]; subst.
    destruct (exec_list A (lenv B) vbA _ FA FtA (proj2 (proj2 C1))) as (F1 & R1 & _). destruct (exec_list A (lenv B) vbA _ FA FtA (proj2 (proj2 C2))) as (F2 & R2 & _).
    destruct (exec_list A (lenv B) vbA _ FA FtA (proj2 (proj2 C3))) as (F3 & R3 & _). destruct (exec_list A (lenv B) vbA _ FA FtA (proj2 (proj2 C4))) as (F4 & R4 & _).
    split; [repeat split; assumption|]. exists (vals (doodson64 dsin dcos dsec danp F gm dpi)), (vals A). split; [exact RD|]. split; [exact RA|]. cbn [eop_vals bxp byp but1 blod dxp dyp dut1 dlod].
    split; [exact R1|]. split; [exact R2|]. split; [exact R3|exact R4].
  Qed.
  Definition zeop_vals (r : zeop64) : zeop := mkZeop (B2R (bzut1 r)) (B2R (bzlod r)) (B2R (bzomega r)).
  Definition zeop_fin (r : zeop64) : Prop := fin (bzut1 r) /\ fin (bzlod r) /\ fin (bzomega r).
  Lemma zonal64_run : zeop_fin (zonal64 dsin dcos dsec danp F) /\ zonal_run (vals F) (zeop_vals (zonal64 dsin dcos dsec danp F)).
  Proof.
    pose proof (fits_fargs (vals F) G HF) as Ft. rewrite firstn_map in Ft. destruct (reduced_oks (firstn 5 F) (lenv G) _ 57 81 (10 ^ 12)%Z _ firstn_fin Ft ksi_checks) as [FA RA]. rewrite (map_map ksie (red (denv (firstn 5 F)))) in FA, RA.
    destruct (reduced_list _ _ _ _ _ 57 81 (10 ^ 12) (82 / IZR (10 ^ 12)) Ft ltac:(lia) ltac:(lia) ltac:(change (10 ^ 12)%Z with 1000000000000%Z; lra) ltac:(change (10 ^ 12)%Z with 1000000000000%Z; lra) ksi_checks RA) as (B & CB & _).
    pose proof (fits_list 8 82 (10 ^ 12) _ B ltac:(lia) ltac:(lia) ltac:(lia) CB) as FtA. unfold zonal64. cbv zeta. set (A := map (fun w : zwave => red (denv (firstn 5 F)) (ksie w)) Table81) in *.
    destruct columns81 as (C1 & C2 & C3).
    destruct (exec_list A (lenv B) vbZ _ FA FtA (proj2 (proj2 C1))) as (F1 & R1 & _). destruct (exec_list A (lenv B) vbZ _ FA FtA (proj2 (proj2 C2))) as (F2 & R2 & _). destruct (exec_list A (lenv B) vbZ _ FA FtA (proj2 (proj2 C3))) as (F3 & R3 & _).
    split; [repeat split; assumption|]. exists (vals A). split; [rewrite firstn_map; exact RA|]. split; [exact R1|]. split; [exact R2|exact R3].
  Qed.
End Doubles.
