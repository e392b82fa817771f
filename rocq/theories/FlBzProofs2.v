(** The derivative matrix, and both functions for an epoch. *)
From Coq Require Import Reals ZArith List Permutation Lra Lia.
From Verif Require Import Base Angles PiBound Vec RotModel RotSpec RotProofs FundModel FundSpec FundProofs CipSpec FlModel FlProofs FlCipModel FlEraModel FlEraProofs FlRotModel FlRotSpec FlRotProofs FlRotProofs2 FlRotProofs4 FlRotProofs5 FlBzModel FlBzSpec FlBzProofs.
From Verif Require FlCipProps FlEraProps.
Import ListNotations.
Open Scope R_scope.

Lemma ulow : 1.11e-16 <= u.
Proof. unfold u. apply (Rmult_le_reg_l (2 ^ 53)); [apply pow_lt; lra|]. rewrite Rinv_r by (apply pow_nonzero; lra). replace (2 ^ 53) with 9007199254740992 by (cbn [pow]; lra). lra. Qed.

(** ** matrices of values off by k units, of size m *)
Definition vab (k m : R) (a b : v3) : Prop := ab k m (p1 a) (p1 b) /\ ab k m (p2 a) (p2 b) /\ ab k m (p3 a) (p3 b).
Definition mab (k m : R) (A B : m33) : Prop := vab k m (row1 A) (row1 B) /\ vab k m (row2 A) (row2 B) /\ vab k m (row3 A) (row3 B).
Lemma qcomp q b k : unit_q b -> 0 <= k -> qdist q b <= k * u -> ab k 1 (qw q) (qw b) /\ ab k 1 (qx q) (qx b) /\ ab k 1 (qy q) (qy b) /\ ab k 1 (qz q) (qz b).
Proof.
  intros U K D. pose proof usmall as (US & _). assert (S : qsq b = 1) by (rewrite <- qlen_sq, (qlen_unit b U); ring).
  assert (Q : qsq (qminus q b) <= (k * u) * (k * u)). { rewrite <- qlen_sq. fold (qdist q b). pose proof (qdist_nonneg q b). apply Rmult_le_compat; assumption. }
  unfold qsq, qminus in *; cbn [qw qx qy qz] in *. assert (KU : 0 <= k * u) by (apply Rmult_le_pos; lra).
  assert (A : forall x c, 0 <= c -> x * x <= c * c -> Rabs x <= c). { intros x c C H. apply Rabs_le. split; nra. }
  pose proof (Rle_0_sqr (qw b)). pose proof (Rle_0_sqr (qx b)). pose proof (Rle_0_sqr (qy b)). pose proof (Rle_0_sqr (qz b)).
  pose proof (Rle_0_sqr (qw q - qw b)). pose proof (Rle_0_sqr (qx q - qx b)). pose proof (Rle_0_sqr (qy q - qy b)). pose proof (Rle_0_sqr (qz q - qz b)). unfold Rsqr in *.
  repeat split; apply A; lra.
Qed.
Lemma twice_ab k m x x0 : ab k m x x0 -> ab (2 * k) (2 * m) (2 * x) (2 * x0).
Proof. intros [A B]. pose proof usmall as (US & _). split; [replace (2 * x - 2 * x0) with (2 * (x - x0)) by ring|]; rewrite Rabs_mult, (Rabs_pos_eq 2) by lra; lra. Qed.
Lemma qmat_ab q b k A : unit_q b -> 0 <= k <= 1000 -> qdist q b <= k * u -> qmat_run q A -> mab (8 * k + 20.1) 1 A (qmat b).
Proof.
  intros U K D (A11 & A12 & A13 & A21 & A22 & A23 & A31 & A32 & A33). destruct (qcomp q b k U ltac:(lra) D) as (W & X & Y & Z).
  pose proof (twice_ab _ _ _ _ X) as X2. pose proof (twice_ab _ _ _ _ Y) as Y2. pose proof (twice_ab _ _ _ _ Z) as Z2.
  pose proof (ab_opp _ _ _ _ X2) as X3. pose proof (ab_opp _ _ _ _ Y2) as Y3. pose proof (ab_opp _ _ _ _ Z2) as Z3.
  assert (O : ab 0 1 1 1) by (apply ab_self; rewrite Rabs_pos_eq; lra).
  assert (S : qw b * qw b + qx b * qx b + qy b * qy b + qz b * qz b = 1) by (pose proof (qlen_sq b) as E; rewrite (qlen_unit b U) in E; unfold qsq in E; lra).
  assert (R1 : ab (8 * k + 20.1) 5 (p1 (row1 A)) (1 * 1 + - (2 * qy b) * qy b + - (2 * qz b) * qz b)) by (eapply dot3_ab; [..|exact O|exact O|exact Y3|exact Y|exact Z3|exact Z|exact A11| |]; lra).
  assert (R2 : ab (8 * k + 20.1) 5 (p2 (row1 A)) (2 * qy b * qx b + - (2 * qz b) * qw b)) by (eapply dot2_ab; [..|exact Y2|exact X|exact Z3|exact W|exact A12| |]; lra).
  assert (R3 : ab (8 * k + 20.1) 5 (p3 (row1 A)) (2 * qz b * qx b + 2 * qy b * qw b)) by (eapply dot2_ab; [..|exact Z2|exact X|exact Y2|exact W|exact A13| |]; lra).
  assert (R4 : ab (8 * k + 20.1) 5 (p1 (row2 A)) (2 * qy b * qx b + 2 * qz b * qw b)) by (eapply dot2_ab; [..|exact Y2|exact X|exact Z2|exact W|exact A21| |]; lra).
  assert (R5 : ab (8 * k + 20.1) 5 (p2 (row2 A)) (1 * 1 + - (2 * qx b) * qx b + - (2 * qz b) * qz b)) by (eapply dot3_ab; [..|exact O|exact O|exact X3|exact X|exact Z3|exact Z|exact A22| |]; lra).
  assert (R6 : ab (8 * k + 20.1) 5 (p3 (row2 A)) (2 * qz b * qy b + - (2 * qx b) * qw b)) by (eapply dot2_ab; [..|exact Z2|exact Y|exact X3|exact W|exact A23| |]; lra).
  assert (R7 : ab (8 * k + 20.1) 5 (p1 (row3 A)) (2 * qz b * qx b + - (2 * qy b) * qw b)) by (eapply dot2_ab; [..|exact Z2|exact X|exact Y3|exact W|exact A31| |]; lra).
  assert (R8 : ab (8 * k + 20.1) 5 (p2 (row3 A)) (2 * qz b * qy b + 2 * qx b * qw b)) by (eapply dot2_ab; [..|exact Z2|exact Y|exact X2|exact W|exact A32| |]; lra).
  assert (R9 : ab (8 * k + 20.1) 5 (p3 (row3 A)) (1 * 1 + - (2 * qx b) * qx b + - (2 * qy b) * qy b)) by (eapply dot3_ab; [..|exact O|exact O|exact X3|exact X|exact Y3|exact Y|exact A33| |]; lra).
  assert (G : forall x x0 y0, ab (8 * k + 20.1) 5 x x0 -> x0 = y0 -> Rabs y0 <= 1 -> ab (8 * k + 20.1) 1 x y0). { intros x x0 y0 [A' B'] -> H. split; assumption. }
  unfold qmat; cbn [row1 row2 row3 p1 p2 p3]; unfold mab, vab; cbn [row1 row2 row3 p1 p2 p3].
  assert (H : forall x y, - (x * x + y * y) <= 2 * (x * y) <= x * x + y * y) by (intros x y; pose proof (Rle_0_sqr (x - y)); pose proof (Rle_0_sqr (x + y)); unfold Rsqr in *; lra).
  pose proof (Rle_0_sqr (qw b)) as Q1. pose proof (Rle_0_sqr (qx b)) as Q2. pose proof (Rle_0_sqr (qy b)) as Q3. pose proof (Rle_0_sqr (qz b)) as Q4. unfold Rsqr in Q1, Q2, Q3, Q4.
  pose proof (H (qx b) (qy b)). pose proof (H (qx b) (qz b)). pose proof (H (qy b) (qz b)). pose proof (H (qw b) (qx b)). pose proof (H (qw b) (qy b)). pose proof (H (qw b) (qz b)). clear H.
  refine (conj (conj (G _ _ _ R1 _ _) (conj (G _ _ _ R2 _ _) (G _ _ _ R3 _ _))) (conj (conj (G _ _ _ R4 _ _) (conj (G _ _ _ R5 _ _) (G _ _ _ R6 _ _))) (conj (G _ _ _ R7 _ _) (conj (G _ _ _ R8 _ _) (G _ _ _ R9 _ _))))); first [ring|apply Rabs_le; lra].
Qed.
Lemma row_ab v v' B B' r k m l n K M : 0 <= k <= 1e4 -> m <= 10 -> 0 <= l <= 1e4 -> n <= 10 -> vab k m v v' -> mab l n B B' -> row_run v B r ->
  3 * (k * n + l * m) + 12.003 * (m * n) + 1e-4 <= K -> 3 * (m * n) <= M -> vab K M r (rowapp v' B').
Proof.
  intros HK HM HL HN (V1 & V2 & V3) ((B11 & B12 & B13) & (B21 & B22 & B23) & (B31 & B32 & B33)) (R1 & R2 & R3) H1 H2.
  assert (G : forall w1 w2 w3 w1' w2' w3' x, ab l n w1 w1' -> ab l n w2 w2' -> ab l n w3 w3' -> dot_run [(p1 v, w1); (p2 v, w2); (p3 v, w3)] x -> ab K M x (p1 v' * w1' + p2 v' * w2' + p3 v' * w3')).
  { intros w1 w2 w3 w1' w2' w3' x A1 A2 A3 R. eapply dot3_ab; [..|exact V1|exact A1|exact V2|exact A2|exact V3|exact A3|exact R| |]; lra. }
  assert (C : forall x a b, ab K M x a -> a = b -> ab K M x b) by (intros x a b H <-; exact H).
  split; [|split]; (eapply C; [eapply G; [..|first [exact R1|exact R2|exact R3]]; eassumption|unfold rowapp, app3, transp, dot; cbn [p1 p2 p3 row1 row2 row3]; ring]).
Qed.
Lemma mmul_ab A A' B B' P k m l n K M : 0 <= k <= 1e4 -> m <= 10 -> 0 <= l <= 1e4 -> n <= 10 -> mab k m A A' -> mab l n B B' -> mmul_run A B P ->
  3 * (k * n + l * m) + 12.003 * (m * n) + 1e-4 <= K -> 3 * (m * n) <= M -> mab K M P (mmul A' B').
Proof.
  intros HK HM HL HN (A1 & A2 & A3) HB (R1 & R2 & R3) H1 H2. unfold mmul, mab; cbn [row1 row2 row3].
  split; [|split]; eapply (row_ab _ _ _ _ _ k m l n); eassumption.
Qed.
Lemma mab_close k m A B : mab k m A B -> mclose (k * u) A B.
Proof. intros ((A1 & A2 & A3) & (A4 & A5 & A6) & (A7 & A8 & A9)). unfold mclose, vclose. repeat split; first [apply A1|apply A2|apply A3|apply A4|apply A5|apply A6|apply A7|apply A8|apply A9]. Qed.
Lemma close_app k A B v : 0 <= k -> mclose k A B -> vdist (app3 A v) (app3 B v) <= 4 * k * len v.
Proof.
  intros K (R1 & R2 & R3). pose proof (len_nonneg v) as V. assert (S : Rabs (p1 v) + Rabs (p2 v) + Rabs (p3 v) <= 2 * len v).
  { assert (Q : (Rabs (p1 v) + Rabs (p2 v) + Rabs (p3 v)) * (Rabs (p1 v) + Rabs (p2 v) + Rabs (p3 v)) <= (2 * len v) * (2 * len v)).
    { replace ((2 * len v) * (2 * len v)) with (4 * (len v * len v)) by ring. rewrite len_sq. unfold dot. rewrite <- (Rabs_pos_eq (p1 v * p1 v)), <- (Rabs_pos_eq (p2 v * p2 v)), <- (Rabs_pos_eq (p3 v * p3 v)) by apply Rle_0_sqr. rewrite !Rabs_mult.
      assert (Z : forall a b c, (a + b + c) * (a + b + c) <= 4 * (a * a + b * b + c * c)) by (intros a b c; pose proof (Rle_0_sqr (a - b)); pose proof (Rle_0_sqr (a - c)); pose proof (Rle_0_sqr (b - c)); pose proof (Rle_0_sqr a); pose proof (Rle_0_sqr b); pose proof (Rle_0_sqr c); unfold Rsqr in *; lra). apply Z. }
    pose proof (Rabs_pos (p1 v)). pose proof (Rabs_pos (p2 v)). pose proof (Rabs_pos (p3 v)). apply Rsqr_incr_0_var; [exact Q|lra]. }
  assert (G : forall a b, vclose k a b -> Rabs (dot a v - dot b v) <= k * (2 * len v)).
  { intros a b (C1 & C2 & C3). unfold dot. replace (p1 a * p1 v + p2 a * p2 v + p3 a * p3 v - (p1 b * p1 v + p2 b * p2 v + p3 b * p3 v)) with ((p1 a - p1 b) * p1 v + ((p2 a - p2 b) * p2 v + (p3 a - p3 b) * p3 v)) by ring.
    eapply Rle_trans; [apply Rabs_triang|]. eapply Rle_trans; [apply Rplus_le_compat_l, Rabs_triang|]. rewrite !Rabs_mult.
    pose proof (Rmult_le_compat_r _ _ _ (Rabs_pos (p1 v)) C1). pose proof (Rmult_le_compat_r _ _ _ (Rabs_pos (p2 v)) C2). pose proof (Rmult_le_compat_r _ _ _ (Rabs_pos (p3 v)) C3). nra. }
  unfold vdist. replace (4 * k * len v) with (2 * (k * (2 * len v))) by ring. apply len_comp; [nra| | |]; unfold vminus, app3; cbn [p1 p2 p3]; apply G; assumption.
Qed.

(** ** the rate of rotation *)
Lemma rate_ab lod w : Rabs lod <= 86 -> rate_run lod w -> ab 1e-3 7.4e-5 w (angular_velocity lod).
Proof.
  intros HL (O & a & b & NO & NA & NB & NW). unfold angular_velocity.
  assert (AO : ab 8e-5 7.3e-5 O 7.2921151467064e-5) by (eapply (near_ab 0 7.3e-5 OmegaEarth); [lra|lra|apply ab_self; unfold OmegaEarth; rewrite Rabs_pos_eq; lra|exact NO|lra]).
  assert (AA : ab 1.1e-3 1e-3 a (lod / 86400)) by (eapply (near_ab 0 1e-3 (lod / 86400)); [lra|lra|apply ab_self; apply abs_inv in HL; apply Rabs_le; lra|exact NA|lra]).
  assert (AB : ab 1.1 1.001 b (1 - lod / 86400)). { eapply (near_ab 1.1e-3 1.001 (1 - a)); [lra|lra| |exact NB|lra]. destruct AA as [E S]. split; [replace (1 - a - (1 - lod / 86400)) with (- (a - lod / 86400)) by ring; rewrite Rabs_Ropp; exact E|apply abs_inv in S; apply Rabs_le; lra]. }
  eapply mul_ab; [..|exact AO|exact AB|exact NW| |]; lra.
Qed.
Lemma dRdt_ab era a lod w D : Rabs lod <= 86 -> Rabs (era - a) <= 8e-13 -> rate_run lod w -> dRdt_run era w D ->
  exists os oc, D = mkM (mk3 (- os) oc 0) (mk3 (- oc) (- os) 0) (mk3 0 0 0) /\ ab 0.55 7.4e-5 os (angular_velocity lod * sin a) /\ ab 0.55 7.4e-5 oc (angular_velocity lod * cos a).
Proof.
  intros HL HE RW (si & co & os & oc & S & C & NS & NC & ->). pose proof usmall as (U & _). pose proof ulow as UL. rewrite p52 in S, C. pose proof (rate_ab lod w HL RW) as AW.
  assert (AS : ab 7220 1 si (sin a)). { split; [|apply sin_size]. replace (si - sin a) with ((si - sin era) + (sin era - sin a)) by ring. eapply Rle_trans; [apply Rabs_triang|]. pose proof (sin_lip era a). lra. }
  assert (AC : ab 7220 1 co (cos a)). { split; [|apply cos_size]. replace (co - cos a) with ((co - cos era) + (cos era - cos a)) by ring. eapply Rle_trans; [apply Rabs_triang|]. pose proof (cos_lip era a). lra. }
  exists os, oc. split; [reflexivity|]. split; [eapply mul_ab; [..|exact AW|exact AS|exact NS| |]; lra|eapply mul_ab; [..|exact AW|exact AC|exact NC| |]; lra].
Qed.
Lemma zero_ab : ab 0 0 0 0. Proof. apply ab_self. rewrite Rabs_R0. lra. Qed.
Lemma product_ab A A' B B' D D' P M k l os oc os' oc' : 0 <= k <= 250 -> 0 <= l <= 490 -> mab k 1 A A' -> mab l 1 B B' -> ab 0.55 7.4e-5 os os' -> ab 0.55 7.4e-5 oc oc' ->
  D = mkM (mk3 (- os) oc 0) (mk3 (- oc) (- os) 0) (mk3 0 0 0) -> D' = mkM (mk3 (- os') oc' 0) (mk3 (- oc') (- os') 0) (mk3 0 0 0) -> mmul_run A D P -> mmul_run P B M -> mclose (2.6 * u) M (mmul (mmul A' D') B').
Proof.
  intros HK HL HA HB OS OC -> -> RP RM. pose proof (ab_opp _ _ _ _ OS) as OS'. pose proof (ab_opp _ _ _ _ OC) as OC'.
  assert (G1 : forall v v' r, vab k 1 v v' -> row_run v (mkM (mk3 (- os) oc 0) (mk3 (- oc) (- os) 0) (mk3 0 0 0)) r ->
    ab 1.2 1.5e-4 (p1 r) (p1 (rowapp v' (mkM (mk3 (- os') oc' 0) (mk3 (- oc') (- os') 0) (mk3 0 0 0)))) /\ ab 1.2 1.5e-4 (p2 r) (p2 (rowapp v' (mkM (mk3 (- os') oc' 0) (mk3 (- oc') (- os') 0) (mk3 0 0 0)))) /\
    ab 0.001 0 (p3 r) (p3 (rowapp v' (mkM (mk3 (- os') oc' 0) (mk3 (- oc') (- os') 0) (mk3 0 0 0))))).
  { intros v v' r (V1 & V2 & V3) (R1 & R2 & R3). unfold rowapp, app3, transp, dot; cbn [p1 p2 p3 row1 row2 row3] in *.
    assert (C : forall K N x a b, ab K N x a -> a = b -> ab K N x b) by (intros K N x a b H <-; exact H).
    split; [|split].
    - eapply C; [eapply dot3_ab; [..|exact V1|exact OS'|exact V2|exact OC'|exact V3|exact zero_ab|exact R1| |]; lra|ring].
    - eapply C; [eapply dot3_ab; [..|exact V1|exact OC|exact V2|exact OS'|exact V3|exact zero_ab|exact R2| |]; lra|ring].
    - eapply C; [eapply dot3_ab; [..|exact V1|exact zero_ab|exact V2|exact zero_ab|exact V3|exact zero_ab|exact R3| |]; lra|ring]. }
  assert (G2 : forall w w' r, ab 1.2 1.5e-4 (p1 w) (p1 w') -> ab 1.2 1.5e-4 (p2 w) (p2 w') -> ab 0.001 0 (p3 w) (p3 w') -> row_run w B r -> vclose (2.6 * u) r (rowapp w' B')).
  { intros w w' r W1 W2 W3 (R1 & R2 & R3). destruct HB as ((B11 & B12 & B13) & (B21 & B22 & B23) & (B31 & B32 & B33)). unfold vclose, rowapp, app3, transp, dot; cbn [p1 p2 p3 row1 row2 row3].
    assert (C : forall K N x a b, ab K N x a -> a = b -> Rabs (x - b) <= K * u) by (intros K N x a b [H _] <-; exact H).
    split; [|split].
    - eapply (C _ 1); [eapply dot3_ab; [..|exact W1|exact B11|exact W2|exact B21|exact W3|exact B31|exact R1| |]; lra|ring].
    - eapply (C _ 1); [eapply dot3_ab; [..|exact W1|exact B12|exact W2|exact B22|exact W3|exact B32|exact R2| |]; lra|ring].
    - eapply (C _ 1); [eapply dot3_ab; [..|exact W1|exact B13|exact W2|exact B23|exact W3|exact B33|exact R3| |]; lra|ring]. }
  destruct HA as (A1 & A2 & A3), RP as (P1 & P2 & P3), RM as (M1 & M2 & M3). unfold mmul, mclose; cbn [row1 row2 row3].
  destruct (G1 _ _ _ A1 P1) as (X1 & X2 & X3). destruct (G1 _ _ _ A2 P2) as (Y1 & Y2 & Y3). destruct (G1 _ _ _ A3 P3) as (Z1 & Z2 & Z3).
  split; [exact (G2 _ _ _ X1 X2 X3 M1)|split; [exact (G2 _ _ _ Y1 Y2 Y3 M2)|exact (G2 _ _ _ Z1 Z2 Z3 M3)]].
Qed.

(** ** for an epoch *)
Lemma C_rot X Y s : Rabs X <= 0.2 -> Rabs Y <= 0.2 -> C X Y s = rot 0 s 0 X Y 0 0.
Proof.
  intros A B. rewrite <- rot_spherical by assumption. unfold C. destruct (xycip2spherical X Y) as [d e]. rewrite <- c2tirs_c2i. unfold c2tirs. replace (- 0 + e + s) with (e + s) by ring. reflexivity.
Qed.
Lemma C_off X Y s q : Rabs s <= 1 -> Rabs X <= 0.2 -> Rabs Y <= 0.2 -> C_run X Y s q -> off 43.5 q (C X Y s).
Proof.
  intros Hs HX HY (d & e & t & a & b & c & q1 & S & N & A & B & D & Q1 & Q2). rewrite C_rot by assumption.
  apply (c2tirs_pole 0 s d e q X Y); try assumption; [rewrite Rabs_R0; lra|]. exists e, t, a, b, c, q1. split; [replace (- 0 + e) with e by ring; apply near_self|]. repeat (split; [assumption|]). assumption.
Qed.
Lemma dRdt_turns a b w : eqm a b -> dRdt a w = dRdt b w.
Proof. intros E. unfold dRdt. rewrite (eqm_sin _ _ E), (eqm_cos _ _ E). reflexivity. Qed.
Section Epoch.
  Variables (tt ut1 : epoch) (T : times) (o : eop).
  Hypotheses (HC : in_century tt ut1) (HO : handed_out tt ut1 T) (HE : ordinary o).
  Let t : R := centuries (julian_date (mjd tt)).
  Let X0 : R := series_x tt + arcsec (e_dX o).
  Let Y0 : R := series_y tt + arcsec (e_dY o).
  Let s0 : R := locator_s tt.
  Let T0 : quat := tirs2i (arcsec (e_xp o)) (arcsec (e_yp o)) (arcsec (-47e-6 * t)).
  Lemma sp_size sp : sp00_run T sp -> Rabs (sp - arcsec (-47e-6 * t)) <= 4e-25 /\ Rabs sp <= 1.
  Proof.
    intros R. pose proof (sp00_error tt ut1 T HC HO sp R) as ESP. change (centuries (julian_date (mjd tt))) with t in ESP. split; [exact ESP|].
    destruct (the_time tt ut1 T HC HO) as (Ht & _). change (centuries (julian_date (mjd tt))) with t in Ht. assert (Rabs (arcsec (-47e-6 * t)) <= 0.1). { rewrite <- FundProofs.sec2rad_arcsec. eapply Rle_trans; [apply (sec_size _ 1)|lra]. apply abs_inv in Ht. apply Rabs_le. lra. }
    replace sp with ((sp - arcsec (-47e-6 * t)) + arcsec (-47e-6 * t)) by ring. eapply Rle_trans; [apply Rabs_triang|]. lra.
  Qed.
  Lemma bz_epoch q : c2i06a_bz_run T o q -> exists era, eqm era (earth_rotation_angle (julian_date (mjd ut1))) /\ Rabs X0 <= 0.2 /\ Rabs Y0 <= 0.2 /\
    qdist q (rot era s0 (arcsec (-47e-6 * t)) X0 Y0 (arcsec (e_xp o)) (arcsec (e_yp o))) <= 4.3e-13.
  Proof.
    destruct HE as (Hdx & Hdy & Hxp & Hyp). intros (X & Y & s & era & sp & xp & yp & RP & RE & RSP & RX & RY & RQ). destruct (pole_run_error tt ut1 T o HC HO Hdx Hdy X Y s RP) as (EX & EY & ES & BX0 & BY0 & BX & BY & BS).
    fold X0 in EX, BX0. fold Y0 in EY, BY0. fold s0 in ES.
    destruct (era_error tt ut1 T HC HO era RE) as (E7 & a & Ea & Da). destruct (sp_size sp RSP) as [ESP SP]. pose proof usmall as (U & Ti & TU).
    destruct (sec_run_error _ _ 0.005 ltac:(lra) ltac:(eapply Rle_trans; [apply sec_size, Hxp|lra]) RX) as (Dx & _). destruct (sec_run_error _ _ 0.005 ltac:(lra) ltac:(eapply Rle_trans; [apply sec_size, Hyp|lra]) RY) as (Dy & _).
    pose proof (bz_off era s sp X Y xp yp q E7 ltac:(lra) SP ltac:(lra) ltac:(lra) RQ) as O.
    exists a. split; [exact Ea|]. split; [lra|]. split; [lra|]. eapply Rle_trans; [apply (qdist_tri _ (rot era s sp X Y xp yp))|].
    pose proof (rot_lip era s sp X Y xp yp a s0 (arcsec (-47e-6 * t)) X0 Y0 (arcsec (e_xp o)) (arcsec (e_yp o)) ltac:(lra) ltac:(lra) ltac:(lra) ltac:(lra)) as L.
    unfold off in O. fold u in O. lra.
  Qed.
  Lemma dM_epoch M : Rabs (e_lod o) <= 86 -> dM_run T o M -> exists era, eqm era (earth_rotation_angle (julian_date (mjd ut1))) /\ Rabs X0 <= 0.2 /\ Rabs Y0 <= 0.2 /\
    mclose (2.6 * u) M (mmul (mmul (qmat T0) (dRdt era (angular_velocity (e_lod o)))) (qmat (C X0 Y0 s0))).
  Proof.
    destruct HE as (Hdx & Hdy & Hxp & Hyp). intros HL (X & Y & s & era & sp & xp & yp & w & qt & qc & A & D & B & P & RP & RE & RSP & RX & RY & RW & RT & RC & RA & RD & RB & R1 & R2).
    destruct (pole_run_error tt ut1 T o HC HO Hdx Hdy X Y s RP) as (EX & EY & ES & BX0 & BY0 & BX & BY & BS). fold X0 in EX, BX0. fold Y0 in EY, BY0. fold s0 in ES.
    destruct (era_error tt ut1 T HC HO era RE) as (E7 & a & Ea & Da). destruct (sp_size sp RSP) as [ESP SP]. pose proof usmall as (U & Ti & TU). pose proof ulow as UL.
    destruct (sec_run_error _ _ 0.005 ltac:(lra) ltac:(eapply Rle_trans; [apply sec_size, Hxp|lra]) RX) as (Dx & _). destruct (sec_run_error _ _ 0.005 ltac:(lra) ltac:(eapply Rle_trans; [apply sec_size, Hyp|lra]) RY) as (Dy & _).
    assert (QT : qdist qt T0 <= 26 * u). { eapply Rle_trans; [apply (qdist_tri _ (tirs2i xp yp sp))|]. pose proof (tirs2i_lip xp yp sp (arcsec (e_xp o)) (arcsec (e_yp o)) (arcsec (-47e-6 * t))) as L. fold T0 in L. pose proof (tirs2i_off _ _ _ _ RT) as OT. unfold off in OT. fold u in OT. lra. }
    assert (QC : qdist qc (C X0 Y0 s0) <= 58 * u). { eapply Rle_trans; [apply (qdist_tri _ (C X Y s))|]. pose proof (C_off X Y s qc ltac:(lra) ltac:(lra) ltac:(lra) RC) as OC. unfold off in OC. fold u in OC. rewrite !C_rot in * by lra.
      pose proof (rot_lip 0 s 0 X Y 0 0 0 s0 0 X0 Y0 0 0 ltac:(lra) ltac:(lra) ltac:(lra) ltac:(lra)) as L. rewrite !(Rminus_diag_eq 0 0) in L by reflexivity. rewrite !Rabs_R0 in L. lra. }
    assert (UC : unit_q (C X0 Y0 s0)) by (rewrite C_rot by lra; apply rot_unit; lra).
    pose proof (qmat_ab _ _ 26 _ (unit_tirs2i _ _ _) ltac:(lra) QT RA) as MA. pose proof (qmat_ab _ _ 58 _ UC ltac:(lra) QC RB) as MB.
    destruct (dRdt_ab era a (e_lod o) w D HL Da RW RD) as (os & oc & ED & AS & AC).
    exists a. split; [exact Ea|]. split; [lra|]. split; [lra|]. eapply product_ab; [| |exact MA|exact MB|exact AS|exact AC|exact ED|reflexivity|exact R1|exact R2]; lra.
  Qed.
  (** the exact matrix is the derivative *)
  Lemma turned_lim d e era x : pole_at tt o d e -> Rabs X0 <= 0.2 -> Rabs Y0 <= 0.2 -> derivable_pt_lim era x (angular_velocity (e_lod o)) ->
    mat_lim (fun y => turned tt o d e (era y)) x (mmul (mmul (qmat T0) (dRdt (era x) (angular_velocity (e_lod o)))) (qmat (C X0 Y0 s0))).
  Proof.
    intros (D & EX & EY) BX BY L. eapply mat_fun; [|apply (c2i_rate era x _ X0 Y0 s0 (arcsec (-47e-6 * t)) (arcsec (e_xp o)) (arcsec (e_yp o)) L)]. intros y. cbv beta.
    transitivity (qmat (rot (era y) s0 (arcsec (-47e-6 * t)) X0 Y0 (arcsec (e_xp o)) (arcsec (e_yp o)))); [f_equal; apply rot_spherical; assumption|].
    unfold turned. change (centuries (julian_date (mjd tt))) with t. fold s0. rewrite <- mat_c2i, c2i_polar by exact D. unfold rot, X0, Y0. rewrite EX, EY. reflexivity.
  Qed.
End Epoch.

(** ** runs exist *)
Lemma dot3_self a b c : dot_run [a; b; c] (fst a * snd a + fst b * snd b + fst c * snd c).
Proof.
  exists [fst a * snd a; fst b * snd b; fst c * snd c]. split; [apply Forall2_cons; [apply near_self|]; apply Forall2_cons; [apply near_self|]; apply Forall2_cons; [apply near_self|]; apply Forall2_nil|].
  apply (sum_two _ [fst a * snd a; fst b * snd b] [fst c * snd c] (fst a * snd a + fst b * snd b) (fst c * snd c)); [apply Permutation_refl| |constructor|apply near_self].
  apply (sum_two _ [fst a * snd a] [fst b * snd b] (fst a * snd a) (fst b * snd b)); [apply Permutation_refl|constructor|constructor|apply near_self].
Qed.
Lemma dot2_self a b : dot_run [a; b] (fst a * snd a + fst b * snd b).
Proof.
  exists [fst a * snd a; fst b * snd b]. split; [apply Forall2_cons; [apply near_self|]; apply Forall2_cons; [apply near_self|]; apply Forall2_nil|].
  apply (sum_two _ [fst a * snd a] [fst b * snd b] (fst a * snd a) (fst b * snd b)); [apply Permutation_refl|constructor|constructor|apply near_self].
Qed.
Lemma dot_eq l v w : v = w -> dot_run l v -> dot_run l w. Proof. intros ->. trivial. Qed.
Lemma qmat_self q : qmat_run q (qmat q).
Proof. repeat split; (eapply dot_eq; [|first [apply dot3_self|apply dot2_self]]); cbn; ring. Qed.
Lemma mmul_self A B : mmul_run A B (mmul A B).
Proof. repeat split; (eapply dot_eq; [|apply dot3_self]); unfold mmul, rowapp, app3, transp, dot; cbn [p1 p2 p3 row1 row2 row3 fst snd]; ring. Qed.
Lemma exact52 x : Rabs (x - x) <= / 2 ^ 52.
Proof. rewrite Rminus_diag_eq, Rabs_R0 by reflexivity. apply Rlt_le, Rinv_0_lt_compat, pow_lt. lra. Qed.
Lemma C_self X Y s : C_run X Y s (C X Y s).
Proof.
  pose proof (spherical_self X Y) as S. unfold C. destruct (xycip2spherical X Y) as [d e]. exists d, e, (e + s), (aaZ (e + s)), (aaY (- d)), (aaZ (- e)), (qmul (aaZ (e + s)) (aaY (- d))).
  split; [exact S|]. split; [apply near_self|]. split; [apply aaZ_self|]. split; [apply aaY_self|]. split; [apply aaZ_self|]. split; apply qmul_self.
Qed.
Lemma tirs2i_self xp yp sp : tirs2i_run xp yp sp (tirs2i xp yp sp).
Proof. exists (aaX yp), (aaY xp), (aaZ (- sp)), (qmul (aaX yp) (aaY xp)). split; [apply aaX_self|]. split; [apply aaY_self|]. split; [apply aaZ_self|]. split; apply qmul_self. Qed.
Lemma rate_self lod : rate_run lod (angular_velocity lod).
Proof. exists OmegaEarth, (lod / 86400), (1 - lod / 86400). repeat split; apply near_self. Qed.
Lemma component_self f c s a1 a2 a3 a4 a5 a6 : component_run f c s [a1; a2; a3] [a4; a5; a6]
  (f * (c * (fst a1 * snd a1 + fst a2 * snd a2 + fst a3 * snd a3) + s * (fst a4 * snd a4 + fst a5 * snd a5 + fst a6 * snd a6))).
Proof. do 3 eexists. split; [apply dot3_self|]. split; [apply dot3_self|]. split; [apply dot2_self|]. apply near_self. Qed.
Lemma bz_self era s sp X Y xp yp : bz_run era s sp X Y xp yp (gcrs2itrs_quaternion era s sp X Y xp yp).
Proof.
  pose proof (spherical_self X Y) as S. unfold xycip2spherical in S. unfold gcrs2itrs_quaternion. cbv zeta. set (d := atan _) in *. set (e := if Rlt_dec _ _ then _ else _) in *.
  do 24 eexists. split; [apply half_self|]. split; [apply half_self|]. do 4 (split; [apply near_self|]). split; [apply near_self|]. split; [apply near_self|]. split; [apply half_self|]. split; [exact S|].
  do 4 (split; [apply exact52|]). do 6 (split; [apply near_self|]). assert (E : forall f c s l1 l2 v w, v = w -> component_run f c s l1 l2 v -> component_run f c s l1 l2 w) by (intros f c s' l1 l2 v w ->; trivial).
  split; [|split; [|split]]; (eapply E; [|apply component_self]); cbn [fst snd qw qx qy qz]; ring.
Qed.
Lemma bz_exists tt ut1 o : in_century tt ut1 -> exists q, c2i06a_bz_run (exact_times tt ut1) o q.
Proof.
  intros C. destruct (pole_exists (exact_times tt ut1) o) as (X & Y & s & P). destruct (FlEraProps.c71_nonvacuous tt ut1 C) as (_ & era & E).
  eexists. exists X, Y, s, era. do 3 eexists. split; [exact P|]. split; [exact E|]. split; [apply FlCipProps.c70_exact_run|]. split; [apply sec_self|]. split; [apply sec_self|]. apply bz_self.
Qed.
Lemma dM_exists tt ut1 o : in_century tt ut1 -> exists M, dM_run (exact_times tt ut1) o M.
Proof.
  intros H. destruct (pole_exists (exact_times tt ut1) o) as (X & Y & s & P). destruct (FlEraProps.c71_nonvacuous tt ut1 H) as (_ & era & E).
  eexists. exists X, Y, s, era. do 10 eexists. split; [exact P|]. split; [exact E|]. split; [apply FlCipProps.c70_exact_run|]. split; [apply sec_self|]. split; [apply sec_self|]. split; [apply rate_self|].
  split; [apply tirs2i_self|]. split; [apply C_self|]. split; [apply qmat_self|]. split; [|split; [apply qmat_self|split; apply mmul_self]].
  do 4 eexists. split; [apply exact52|]. split; [apply exact52|]. split; [apply near_self|]. split; [apply near_self|]. reflexivity.
Qed.
Lemma vdist_swap a b : vdist a b = vdist b a.
Proof. unfold vdist, len, dot. f_equal. cbn. ring. Qed.
