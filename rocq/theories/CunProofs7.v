From Coq Require Import Reals ZArith List Bool Lia Lra.
From Verif Require Import Base StorageModel StorageSpec MatrixModel MatrixSpec MatrixProofs TideSpec TideProofs TideProofs2 TideProofs3 PoleModel PoleProofs PoleProofs2 Poly AlfSpec AlfMath AlfProofs CunSpec CunMath CunMath2 CunModel CunReady CunProofs CunProofs2 CunProofs3 CunProofs4 CunProofs5 CunProofs6.
Import ListNotations.
Open Scope Z_scope.

(** ** values *)
Section Values.
  Variables (cs : stokes) (r : vec3) (D O : nat) (Re GM : R) (M W : mat) (d e : Z) (C S : Z -> Z -> R).
  Hypothesis HRe : Re <> 0%R.
  Hypothesis A : away (vx r) (vy r) (vz r).
  Let degree := Z.of_nat D. Let order := Z.of_nat O.
  Let sx := (vx r / Re)%R. Let sy := (vy r / Re)%R. Let sz := (vz r / Re)%R.
  Notation U := (geopotential GM Re D O (natf C) (natf S)).
  Notation ms := (MS r degree order Re d).
  Notation wsn := (WS r degree order Re e).
  Lemma A' : away sx sy sz. Proof. apply away_scaled; assumption. Qed.
  Lemma value_acceleration : (O <= D)%nat -> 1 <= order \/ degree = 0 -> degree <= 198 -> degree + 1 <= d -> degree + 1 <= e ->
    let a := vscale (GM / (2 * Re * Re)) (vsum (accP C S ms wsn) (positions degree order)) in
    d_dx U (vx r) (vy r) (vz r) (vx a) /\ d_dy U (vx r) (vy r) (vz r) (vy a) /\ d_dz U (vx r) (vy r) (vz r) (vz a).
  Proof.
    intros H1 H2 H3 H4 H5. cbv zeta. unfold degree, order in *. rewrite (acc_sum r D O Re d e C S) by assumption. unfold vscale. cbn [vx vy vz].
    assert (X : forall q, (2 * q * (GM / (2 * Re * Re)) = GM / Re / Re * q)%R) by (intros; field; assumption). rewrite !X.
    split; [|split]; [apply (U_x (natf C) (natf S) GM Re D O HRe)|apply (U_y (natf C) (natf S) GM Re D O HRe)|apply (U_z (natf C) (natf S) GM Re D O HRe)]; exact A.
  Qed.
  Lemma true_gradient : second_derivatives U (vx r) (vy r) (vz r) (Sy (GM / Re / Re / Re * evn (dc dxn (dc dxn (field_c (natf C) (natf S) D O))) sx sy sz) (GM / Re / Re / Re * evn (dc dyn (dc dxn (field_c (natf C) (natf S) D O))) sx sy sz) (GM / Re / Re / Re * evn (dc dzn (dc dxn (field_c (natf C) (natf S) D O))) sx sy sz)
       (GM / Re / Re / Re * evn (dc dyn (dc dyn (field_c (natf C) (natf S) D O))) sx sy sz) (GM / Re / Re / Re * evn (dc dzn (dc dyn (field_c (natf C) (natf S) D O))) sx sy sz) (GM / Re / Re / Re * evn (dc dzn (dc dzn (field_c (natf C) (natf S) D O))) sx sy sz)).
  Proof.
    destruct (U_2 (natf C) (natf S) GM Re D O HRe _ _ _ A) as (Q1 & Q2 & Q3 & Q4 & Q5 & Q6). destruct (U_mixed (natf C) (natf S) GM Re D O HRe _ _ _ A) as (P1 & P2 & P3).
    destruct (field_sym D O C S (vx r / Re) (vy r / Re) (vz r / Re)) as (S1 & S2 & S3). unfold sf in *. rewrite S1 in P1. rewrite S2 in P2. rewrite S3 in P3.
    exact (conj Q1 (conj Q2 (conj Q3 (conj P1 (conj Q4 (conj Q5 (conj P2 (conj P3 Q6)))))))).
  Qed.
  Lemma value_gradient : O = D -> degree <= 198 -> degree + 2 <= d -> degree + 2 <= e ->
    second_derivatives U (vx r) (vy r) (vz r) (sscale (GM / (4 * Re * Re * Re)) (ssum (gradP C S ms wsn) (positions degree order))).
  Proof.
    intros H1 H2 H3 H4. unfold degree, order in *. rewrite (grad_sum r D O Re d e C S) by assumption. unfold sscale. cbn [gxx gxy gxz gyy gyz gzz].
    assert (X : forall q, (4 * q * (GM / (4 * Re * Re * Re)) = GM / Re / Re / Re * q)%R) by (intros; field; assumption). rewrite !X. apply true_gradient.
  Qed.
  (** the terms with the functions themselves *)
  Lemma exact_terms n m : 0 <= m <= n -> gradP C S (VZ sx sy sz) (WZ sx sy sz) (n, m) = grad_of sx sy sz (C n m) (S n m) (Z.to_nat n) (Z.to_nat m).
  Proof.
    intros I. unfold gradP. cbn [fst snd].
    assert (RM : forall lo hi, reads (okf (VZ sx sy sz)) (fun n k => Vn n k sx sy sz) (n + 2) lo hi) by (intros lo hi k Hk; unfold okf, VZ; rewrite Nat2Z.id; reflexivity).
    assert (RW : forall lo hi, reads (okf (WZ sx sy sz)) (fun n k => Wn n k sx sy sz) (n + 2) lo hi) by (intros lo hi k Hk; unfold okf, WZ; rewrite Nat2Z.id; reflexivity).
    destruct (Z.eqb_spec m 0) as [-> |].
    - pose proof (grad_term0_ok sx sy sz (okf C) (okf (VZ sx sy sz)) (okf (WZ sx sy sz)) (Z.to_nat n) (C n 0) (S n 0)) as Q. cbv zeta in Q. rewrite Z2Nat.id in Q by lia. rewrite Q; [reflexivity|reflexivity|apply RM|apply RW].
    - destruct (Z.eqb_spec m 1) as [-> |].
      + pose proof (grad_term1_ok sx sy sz (okf C) (okf S) (okf (VZ sx sy sz)) (okf (WZ sx sy sz)) (Z.to_nat n) (C n 1) (S n 1) ltac:(lia)) as Q. cbv zeta in Q. rewrite Z2Nat.id in Q by lia. rewrite Q; [reflexivity|reflexivity|reflexivity|apply RM|apply RW].
      + pose proof (grad_term_ok sx sy sz (okf C) (okf S) (okf (VZ sx sy sz)) (okf (WZ sx sy sz)) (Z.to_nat n) (Z.to_nat (m - 2)) (C n m) (S n m)) as Q. cbv zeta in Q. replace (Datatypes.S (Datatypes.S (Z.to_nat (m - 2)))) with (Z.to_nat m) in Q by lia. rewrite !Z2Nat.id in Q by lia. rewrite Q; [reflexivity|lia|reflexivity|reflexivity|apply RM|apply RW].
  Qed.
  Lemma exact_sum (g : sym3 -> R) (dd dd' : kind * nat * nat -> comb) : 1 <= order \/ degree = 0 -> (forall c s n m, g (grad_of sx sy sz c s n m) = (4 * d2 sx sy sz dd dd' c s n m)%R) ->
    rs (fun p => g (gradP C S (VZ sx sy sz) (WZ sx sy sz) p)) (positions degree order) = (4 * evn (dc dd' (dc dd (field_c (natf C) (natf S) D O))) sx sy sz)%R.
  Proof.
    intros H1 Hg. rewrite field_d2, <- upto_scal. unfold degree, order in *. rewrite (sum_as D O _ (fun n m => 4 * d2 sx sy sz dd dd' (natf C n m) (natf S n m) n m)%R H1).
    - apply upto_ext. intros n _. apply upto_scal.
    - intros n m I. apply in_positions in I. rewrite exact_terms by lia. rewrite Hg. rewrite !Nat2Z.id. reflexivity.
  Qed.
End Values.

(** single coefficients *)
Definition only (a b : Z) (n m : Z) : R := if (n =? a) && (m =? b) then 1%R else 0%R.
Definition zero (n m : Z) : R := 0%R.
Lemma w4_pos a b c d : 0 < a -> 0 < b -> 0 < c -> 0 < d -> (0 < w4 a b c d)%R.
Proof. intros. unfold w4. apply sqrt_lt_R0. repeat apply Rmult_lt_0_compat; apply IZR_lt; assumption. Qed.
Lemma w2_pos a b : 0 < a -> 0 < b -> (0 < w2 a b)%R.
Proof. intros. unfold w2. apply sqrt_lt_R0. repeat apply Rmult_lt_0_compat; apply IZR_lt; assumption. Qed.
Lemma ratio_pos a b : (0 < a)%R -> (0 < b)%R -> (0 < sqrt (a / b))%R.
Proof. intros. apply sqrt_lt_R0. apply Rdiv_lt_0_compat; assumption. Qed.

(** degree 2, order 1, C(2,1) only, at (1, 0, 1) *)
Lemma order_loss d e : 4 <= d -> 4 <= e ->
  (sscale (1 / (4 * 1 * 1 * 1)) (ssum (gradP (only 2 1) zero (MS (V3 1 0 1) 2 1 1 d) (WS (V3 1 0 1) 2 1 1 e)) (positions 2 1))).(gxx) <>
  (1 / 1 / 1 / 1 * evn (dc dxn (dc dxn (field_c (natf (only 2 1)) (natf zero) 2 1))) (1 / 1) (0 / 1) (1 / 1))%R.
Proof.
  intros Hd He E. pose proof (exact_sum (V3 1 0 1) 2 1 1 (only 2 1) zero gxx dxn dxn ltac:(cbn; lia) (fun _ _ _ _ => eq_refl)) as Q. cbn [vx vy vz] in Q.
  unfold sscale, ssum in E. cbn [gxx] in E. cbn [Z.of_nat Pos.of_succ_nat Pos.succ] in Q.
  change (positions 2 1) with [(2, 1); (1, 1); (2, 0); (1, 0); (0, 0)] in *. cbn [rs] in E, Q.
  assert (X : forall M W n m, (n, m) <> (2, 1) -> gxx (gradP (only 2 1) zero M W (n, m)) = 0%R).
  { intros M W n m N. unfold gradP, grad_term0, grad_term1, grad_term, okf. cbn [fst snd]. assert (O : only 2 1 n m = 0%R). { unfold only. destruct (Z.eqb_spec n 2), (Z.eqb_spec m 1); cbn [andb]; try reflexivity. exfalso. apply N. congruence. }
    destruct (Z.eqb_spec m 0) as [-> |]; [|destruct (Z.eqb_spec m 1) as [-> |]]; cbn [bind sscale gxx]; rewrite O; unfold zero; ring. }
  rewrite (X _ _ 1 1), (X _ _ 2 0), (X _ _ 1 0), (X _ _ 0 0) in E by congruence. rewrite (X _ _ 1 1), (X _ _ 2 0), (X _ _ 1 0), (X _ _ 0 0) in Q by congruence. set (v := evn _ _ _ _) in *.
  assert (V43 : MS (V3 1 0 1) 2 1 1 d 4 3 = 0%R). { unfold MS, seen. destruct (at_inside d 4 3 ltac:(lia)) as (-> & ->). unfold fin. reflexivity. }
  assert (V41 : MS (V3 1 0 1) 2 1 1 d 4 1 = VZ (1 / 1) (0 / 1) (1 / 1) 4 1). { unfold MS. cbn [vx vy vz]. apply seen_V; lia. }
  assert (S1 : gxx (gradP (only 2 1) zero (MS (V3 1 0 1) 2 1 1 d) (WS (V3 1 0 1) 2 1 1 e) (2, 1)) = (sqrt ((2 * 2 + 1) / (2 * 2 + 5)) * (-3 * (w4 2 3 4 5 * VZ (1 / 1) (0 / 1) (1 / 1) 4 1)))%R).
  { unfold gradP, grad_term1, okf. cbn [fst snd]. cbn -[w4 sqrt MS WS only zero IZR]. change (only 2 1 2 1) with 1%R. rewrite V43, V41. unfold zero. ring. }
  assert (S2 : gxx (gradP (only 2 1) zero (VZ (1 / 1) (0 / 1) (1 / 1)) (WZ (1 / 1) (0 / 1) (1 / 1)) (2, 1)) = (sqrt ((2 * 2 + 1) / (2 * 2 + 5)) * (-3 * (w4 2 3 4 5 * VZ (1 / 1) (0 / 1) (1 / 1) 4 1) + w4 4 5 6 7 * VZ (1 / 1) (0 / 1) (1 / 1) 4 3))%R).
  { unfold gradP, grad_term1, okf. cbn [fst snd]. cbn -[w4 sqrt VZ WZ only zero IZR]. change (only 2 1 2 1) with 1%R. unfold zero. ring. }
  rewrite S1 in E. rewrite S2 in Q.
  assert (P : (0 < VZ (1 / 1) (0 / 1) (1 / 1) 4 3)%R). { unfold VZ. change (Z.to_nat 4) with 4%nat. change (Z.to_nat 3) with 3%nat. replace (1 / 1)%R with 1%R by field. replace (0 / 1)%R with 0%R by field. apply (V_subdiag_pos 3 1 1); lra. }
  pose proof (ratio_pos (2 * 2 + 1) (2 * 2 + 5) ltac:(lra) ltac:(lra)) as P1. pose proof (w4_pos 4 5 6 7 ltac:(lia) ltac:(lia) ltac:(lia) ltac:(lia)) as P2.
  pose proof (Rmult_lt_0_compat _ _ P1 (Rmult_lt_0_compat _ _ P2 P)) as P3. set (s := sqrt _) in *. set (w := w4 2 3 4 5) in *. set (y := VZ _ _ _ 4 1) in *. set (p := (w4 4 5 6 7 * _)%R) in *. 
  replace (1 / (4 * 1 * 1 * 1))%R with (/ 4)%R in E by field. replace (1 / 1 / 1 / 1)%R with 1%R in E by field. lra.
Qed.
(** degree 3, order 1, C(3,0) only, at the pole, scratch with degree + 2 rows *)
Lemma shared_cell e : 4 <= e ->
  (sscale (1 / (4 * 1 * 1 * 1)) (ssum (gradP (only 3 0) zero (MS (V3 0 0 1) 3 1 1 4) (WS (V3 0 0 1) 3 1 1 e)) (positions 3 1))).(gzz) <>
  (1 / 1 / 1 / 1 * evn (dc dzn (dc dzn (field_c (natf (only 3 0)) (natf zero) 3 1))) (0 / 1) (0 / 1) (1 / 1))%R.
Proof.
  intros He E. pose proof (exact_sum (V3 0 0 1) 3 1 1 (only 3 0) zero gzz dzn dzn ltac:(cbn; lia) (fun _ _ _ _ => eq_refl)) as Q. cbn [vx vy vz] in Q.
  unfold sscale, ssum in E. cbn [gzz] in E. cbn [Z.of_nat Pos.of_succ_nat Pos.succ] in Q.
  change (positions 3 1) with [(3, 1); (2, 1); (1, 1); (3, 0); (2, 0); (1, 0); (0, 0)] in *. cbn [rs] in E, Q.
  assert (X : forall M W n m, (n, m) <> (3, 0) -> gzz (gradP (only 3 0) zero M W (n, m)) = 0%R).
  { intros M W n m N. unfold gradP, grad_term0, grad_term1, grad_term, okf. cbn [fst snd]. assert (O : only 3 0 n m = 0%R). { unfold only. destruct (Z.eqb_spec n 3), (Z.eqb_spec m 0); cbn [andb]; try reflexivity. exfalso. apply N. congruence. }
    destruct (Z.eqb_spec m 0) as [-> |]; [|destruct (Z.eqb_spec m 1) as [-> |]]; cbn [bind sscale gzz]; rewrite O; unfold zero; ring. }
  rewrite (X _ _ 3 1), (X _ _ 2 1), (X _ _ 1 1), (X _ _ 2 0), (X _ _ 1 0), (X _ _ 0 0) in E by congruence. rewrite (X _ _ 3 1), (X _ _ 2 1), (X _ _ 1 1), (X _ _ 2 0), (X _ _ 1 0), (X _ _ 0 0) in Q by congruence. set (v := evn _ _ _ _) in *. replace (0 / 1)%R with 0%R in * by field. replace (1 / 1)%R with 1%R in * by field.
  assert (V50 : MS (V3 0 0 1) 3 1 1 4 5 0 = 0%R). { unfold MS, seen. change (at_i 4 5 0) with 1. change (at_j 4 5 0) with 1. unfold fin. cbn. replace (0 / 1)%R with 0%R by field. replace (1 / 1)%R with 1%R by field. apply (pole_m 1 0). }
  assert (S1 : gzz (gradP (only 3 0) zero (MS (V3 0 0 1) 3 1 1 4) (WS (V3 0 0 1) 3 1 1 e) (3, 0)) = 0%R).
  { unfold gradP, grad_term0, okf. cbn [fst snd]. cbn -[w4 sqrt MS WS only zero IZR]. change (only 3 0 3 0) with 1%R. rewrite V50. ring. }
  assert (S2 : gzz (gradP (only 3 0) zero (VZ 0 0 1) (WZ 0 0 1) (3, 0)) = (sqrt ((2 * 3 + 1) / (2 * 3 + 5)) * (4 * (w4 4 5 4 5 * VZ 0 0 1 5 0)))%R).
  { unfold gradP, grad_term0, okf. cbn [fst snd]. cbn -[w4 sqrt VZ WZ only zero IZR]. change (only 3 0 3 0) with 1%R. ring. }
  rewrite S1 in E. rewrite S2 in Q.
  assert (P : (0 < VZ 0 0 1 5 0)%R) by apply (pole_0 5).
  pose proof (ratio_pos (2 * 3 + 1) (2 * 3 + 5) ltac:(lra) ltac:(lra)) as P1. pose proof (w4_pos 4 5 4 5 ltac:(lia) ltac:(lia) ltac:(lia) ltac:(lia)) as P2.
  pose proof (Rmult_lt_0_compat _ _ P1 (Rmult_lt_0_compat _ _ P2 P)) as P3. set (s := sqrt _) in *. set (p := (w4 4 5 4 5 * _)%R) in *.
  replace (1 / (4 * 1 * 1 * 1))%R with (/ 4)%R in E by field. lra.
Qed.
(** degree 1, order 0 at the pole: C(1,1) enters *)
Lemma order_zero d e : 2 <= d -> 2 <= e ->
  (vscale (1 / (2 * 1 * 1)) (vsum (accP (only 1 1) zero (MS (V3 0 0 1) 1 0 1 d) (WS (V3 0 0 1) 1 0 1 e)) (positions 1 0))).(vx) <>
  (vscale (1 / (2 * 1 * 1)) (vsum (accP zero zero (MS (V3 0 0 1) 1 0 1 d) (WS (V3 0 0 1) 1 0 1 e)) (positions 1 0))).(vx).
Proof.
  intros Hd He. change (positions 1 0) with [(1, 1); (1, 0); (0, 0)]. unfold vscale, vsum. cbn [rs vx]. unfold accP. cbn [fst snd]. cbn -[acc_term acc_term0]. unfold acc_term, acc_term0, okf.
  cbn -[w2 sqrt MS WS only zero IZR]. change (only 1 1 1 1) with 1%R. change (only 1 1 1 0) with 0%R. change (only 1 1 0 0) with 0%R. unfold zero.
  assert (V20 : MS (V3 0 0 1) 1 0 1 d 2 0 = VZ 0 0 1 2 0). { unfold MS. cbn [vx vy vz]. replace (0 / 1)%R with 0%R by field. replace (1 / 1)%R with 1%R by field. apply seen_V; lia. }
  assert (V22 : MS (V3 0 0 1) 1 0 1 d 2 2 = 0%R). { unfold MS, seen. destruct (at_inside d 2 2 ltac:(lia)) as (-> & ->). unfold fin. rewrite orb_comm. cbn. replace (0 / 1)%R with 0%R by field. replace (1 / 1)%R with 1%R by field. apply (pole_m 2 1). }
  rewrite V20, V22. assert (P : (0 < VZ 0 0 1 2 0)%R) by apply (pole_0 2).
  pose proof (ratio_pos (2 * 1 + 1) (2 * 1 + 3) ltac:(lra) ltac:(lra)) as P1. pose proof (w2_pos 1 2 ltac:(lia) ltac:(lia)) as P2. assert (P0 : (0 < sqrt 2)%R) by (apply sqrt_lt_R0; lra).
  pose proof (Rmult_lt_0_compat _ _ (Rmult_lt_0_compat _ _ (Rmult_lt_0_compat _ _ P2 P0) P) P1) as P3. set (s := sqrt ((2 * 1 + 1) / (2 * 1 + 3))) in *. set (y := VZ 0 0 1 2 0) in *. set (w := (w2 1 2 * sqrt 2)%R) in *.
  intros E. replace (1 / (2 * 1 * 1))%R with (/ 2)%R in E by field. ring_simplify in E. lra.
Qed.
