From Coq Require Import Reals ZArith List Bool Lia Lra.
From Verif Require Import Base FlModel FlProofs Poly EopModel EopSpec EopProofs EopProps FlAlfProofs FlCunProofs7 FlGravProofs FlEopModel FlEopSpec FlEopProofs.
Import ListNotations.
Open Scope R_scope.

(** ** evaluation without rounding *)
Section Exact.
  Variables (T : Type) (ltb : T -> T -> bool) (days leap : T -> R) (c g : R).
  Hypothesis Hc : 0 <= c.
  Hypothesis Hg : 0 <= g.
  Notation rec := (rec T).
  Lemma diff_exact a b : diff_run T days c g a b (days a - days b).
  Proof. unfold diff_run. rewrite Rminus_diag_eq, Rabs_R0 by reflexivity. pose proof u_pos. apply Rmult_le_pos; [apply Rmult_le_pos; lra|]. eapply Rle_trans; [apply Hg|apply Rmax_r]. Qed.
  Lemma product_exact (diff : rec -> R -> Prop) (f : rec -> R) j l : (forall r, diff r (f r)) -> forall i p, product_run T diff j i l p (p * skip f j i l).
  Proof.
    intros H. induction l as [|r l IH]; intros i p; cbn [product_run skip]; [ring|]. destruct (Nat.eqb j i); [rewrite Rmult_1_l; apply IH|].
    exists (f r), (p * f r). split; [apply H|]. split; [apply near_exact|]. rewrite <- Rmult_assoc. apply IH.
  Qed.
  Lemma factor_exact l t j r : factor_run T days c g l t j r (factor T days l t j r).
  Proof.
    eexists _, _. split; [apply (product_exact _ (fun k => days t - days (rt T k))); intros; apply diff_exact|]. split; [apply (product_exact _ (fun k => days (rt T r) - days (rt T k))); intros; apply diff_exact|].
    apply near_eq. unfold factor, product. rewrite (skip_fold (fun k => days t - days (rt T k))), (skip_fold (fun k => days (rt T r) - days (rt T k))). reflexivity.
  Qed.
  Lemma sums_exact all t (yr : rec -> R -> Prop) y l : (forall r, yr r (y r)) -> forall i s,
    sums_run T days c g all t yr i l s (fold_left (fun a (jr : nat * rec) => a + y (snd jr) * factor T days all t (fst jr) (snd jr)) (combine (seq i (length l)) l) s).
  Proof.
    intros H. induction l as [|r l IH]; intros i s; cbn [sums_run length seq combine fold_left fst snd]; [reflexivity|].
    exists (y r), (factor T days all t i r), (y r * factor T days all t i r), (s + y r * factor T days all t i r). split; [apply H|]. split; [apply factor_exact|]. split; [apply near_exact|]. split; [apply near_exact|apply IH].
  Qed.
  Lemma accumulate_exact l t (yr : rec -> R -> Prop) y : (forall r, yr r (y r)) -> accumulate_run T days c g l t yr (accumulate T days l t y).
  Proof. intros H. apply sums_exact, H. Qed.
  Lemma linear_exact a b t (yr : rec -> R -> Prop) y : (forall r, yr r (y r)) -> linear_run T days c g a b t yr (linear T days a b t y).
  Proof.
    intros H. exists (days (rt T b) - days (rt T a)), (days (rt T b) - days t), (days t - days (rt T a)). eexists _, _, (y a), (y b), _, _. repeat (split; [first [apply diff_exact|apply H|apply near_exact]|]). apply near_eq. reflexivity.
  Qed.
  Lemma fill_exact e t (rr : (rec -> R -> Prop) -> R -> Prop) rule : (forall (yr : rec -> R -> Prop) y, (forall r, yr r (y r)) -> rr yr (rule y)) -> fill_run T leap e t rr (fill T leap e t rule).
  Proof.
    intros H. unfold fill_run, fill. cbn. split; [reflexivity|]. repeat (split; [first [apply H; reflexivity|reflexivity|idtac]|]); try reflexivity.
    exists (rule (fun r => dut T r - rdat T r)). split; [apply H; intros; apply near_exact|apply near_exact].
  Qed.
  Lemma interpolate_exact s t e d st r s' : interpolate T ltb days leap s t e d = Ok (st, r, s') -> interpolate_run T ltb days leap c g s t e d st r s'.
  Proof.
    unfold interpolate, interpolate_run. destruct (Z.ltb_spec MAX_DEGREE d); [discriminate|]. intros H0. split; [exact H|]. destruct (hunt T ltb s t) as [it| | |]; cbn [bind] in H0; try discriminate. exists it. split; [reflexivity|].
    destruct (Nat.eqb it 0). { destruct (nth_error (mvec T s) 0) as [q|]; [|discriminate]. injection H0 as <- <- <-. split; [reflexivity|]. exists q. auto. }
    destruct (Nat.eqb it (length (mvec T s))). { destruct (nth_error (mvec T s) (it - 1)) as [q|]; [|discriminate]. injection H0 as <- <- <-. split; [reflexivity|]. exists q. auto. }
    cbv zeta. set (ndp := points _ _ _) in *. destruct (Z.eqb_spec ndp 1).
    - destruct (nth_error (mvec T s) (it - 1)) as [a|]; [|discriminate]. destruct (nth_error (mvec T s) it) as [b|]; [|discriminate]. injection H0 as <- <- <-. split; [reflexivity|]. exists a, b. repeat (split; [reflexivity|]). apply fill_exact. intros. apply linear_exact. assumption.
    - destruct (Z.ltb_spec ndp 0); [discriminate|]. destruct (Z.ltb_spec (MAX_DEGREE + 1) (2 * ndp)); [discriminate|]. injection H0 as <- <- <-. split; [reflexivity|]. split; [assumption|]. split; [assumption|]. split; [reflexivity|]. apply fill_exact. intros. apply accumulate_exact. assumption.
  Qed.
  Lemma approx_exact s t st v s' : approx_dut1 T ltb days leap s t = Ok (st, v, s') -> approx_dut1_run T ltb days leap c g s t st v s'.
  Proof.
    unfold approx_dut1, approx_dut1_run. intros H0. destruct (hunt T ltb s t) as [it| | |]; cbn [bind] in H0; try discriminate. exists it. split; [reflexivity|].
    destruct (Nat.eqb it 0). { destruct (nth_error (mvec T s) 0) as [q|]; [|discriminate]. injection H0 as <- <- <-. split; [reflexivity|]. exists q. auto. }
    destruct (Nat.eqb it (length (mvec T s))). { destruct (nth_error (mvec T s) (it - 1)) as [q|]; [|discriminate]. injection H0 as <- <- <-. split; [reflexivity|]. exists q. auto. }
    destruct (nth_error (mvec T s) (it - 1)) as [a|]; [|discriminate]. destruct (nth_error (mvec T s) it) as [b|]; [|discriminate]. injection H0 as <- <- <-. split; [reflexivity|]. exists a, b. repeat (split; [reflexivity|]). eexists. split; [apply (linear_exact a b t (ut1 T) (fun r => dut T r - rdat T r)); intros; apply near_exact|apply near_exact].
  Qed.
End Exact.

(** ** errors *)
Section Errors.
  Variables (T : Type) (ltb : T -> T -> bool) (days leap : T -> R) (c g : R).
  Hypothesis Hc : 0 <= c <= 1000.
  Hypothesis Hg : / 2 ^ 40 <= g.
  Notation rec := (rec T).
  Notation day r := (days (rt T r)).
  Definition sound (yr : rec -> R -> Prop) (y : rec -> R) : Prop := forall r q, yr r q -> bd 1.01 (Rabs (y r) + / 2 ^ 199) (y r) q.
  Lemma sound_stored f : sound (stored T f) f.
  Proof. intros r q ->. pose proof (Rinv_0_lt_compat _ (pow_lt 2 199 ltac:(lra))). pose proof (Rabs_pos (f r)). pose proof u_pos. split; [lra|]. rewrite Rminus_diag_eq, Rabs_R0 by reflexivity. apply Rmult_le_pos; [apply Rmult_le_pos|]; lra. Qed.
  Lemma sound_ut1 : sound (ut1 T) (fun r => dut T r - rdat T r).
  Proof.
    intros r q N. pose proof (Rinv_0_lt_compat _ (pow_lt 2 199 ltac:(lra))) as P. set (x := dut T r - rdat T r) in *. unfold ut1, near in N. fold x in N. pose proof (Rabs_pos x) as X. pose proof u_pos as U.
    pose proof (tiny_mag 199 (/ 2 ^ 199) ltac:(lia) ltac:(rewrite pow_inv; lra)) as TM. split; [lra|]. set (s := / 2 ^ 199) in *. assert (0 <= u * Rabs x) by (apply Rmult_le_pos; lra). assert (0 <= u * s) by (apply Rmult_le_pos; lra). nra.
  Qed.
  Lemma linear_bd a b t yr y v : sound yr y -> sorted days [a; b] -> spaced days g [a; b] t -> linear_run T days c g a b t yr v ->
    bd (20 * c + 34) (condition days g [a; b] t y) (linear T days a b t y) v.
  Proof.
    intros SY (SO & _) (P1 & P2) (d10 & d1 & d0 & f0 & f1 & ya & yb & p & q & D10 & D1 & D0 & F0 & F1 & YA & YB & NP & NQ & NV). apply Forall_inv in SO.
    pose proof (g_low g Hg) as GL. pose proof (half_pos 40) as H40. pose proof (half_pos 200) as H200. pose proof (half_pos 60) as H60. destruct (P1 b a (or_intror (or_introl eq_refl)) (or_introl eq_refl) ltac:(lra)) as (G1 & G2).
    apply diff_bd in D10, D1, D0. rewrite Rmax_left in D10 by exact G1. set (x := day b - day a) in *. assert (NX : x <> 0) by (unfold x; lra). pose proof (Rabs_pos_lt x NX) as PX. pose proof (Rinv_0_lt_compat _ PX) as IX.
    assert (LX : (/ 2) ^ 20 <= / Rabs x) by (rewrite pow_inv; apply Rinv_le_contravar; [lra|exact G2]). pose proof (half_pos 20) as H20.
    pose proof (bd_quot c c _ _ x d1 d10 ltac:(lra) ltac:(lra) NX D1 D10) as Q1. pose proof (bd_quot c c _ _ x d0 d10 ltac:(lra) ltac:(lra) NX D0 D10) as Q0.
    assert (WA : weight days g [a; b] t a = Rmax (Rabs (days (rt T b) - days t)) g / Rabs x). { unfold weight. cbn [fold_right]. destruct (Req_EM_T (day a) (day a)); [|contradiction]. destruct (Req_EM_T (day b) (day a)); [lra|]. rewrite (Rabs_minus_sym (days t)), (Rabs_minus_sym (day a)). unfold x. ring. }
    assert (WB : weight days g [a; b] t b = Rmax (Rabs (days t - day a)) g / Rabs x). { unfold weight. cbn [fold_right]. destruct (Req_EM_T (day b) (day b)); [|contradiction]. destruct (Req_EM_T (day a) (day b)); [lra|]. unfold x. ring. }
    rewrite <- WA in Q1. rewrite <- WB in Q0.
    assert (LA : (/ 2) ^ 60 <= weight days g [a; b] t a). { rewrite WA. replace 60%nat with (40 + 20)%nat by reflexivity. rewrite pow_add. unfold Rdiv. apply Rmult_le_compat; try lra. eapply Rle_trans; [exact GL|apply Rmax_r]. }
    assert (LB : (/ 2) ^ 60 <= weight days g [a; b] t b). { rewrite WB. replace 60%nat with (40 + 20)%nat by reflexivity. rewrite pow_add. unfold Rdiv. apply Rmult_le_compat; try lra. eapply Rle_trans; [exact GL|apply Rmax_r]. }
    pose proof (bd_near _ _ _ _ f0 60 Q1 ltac:(lra) ltac:(lia) LA F0) as B0. pose proof (bd_near _ _ _ _ f1 60 Q0 ltac:(lra) ltac:(lia) LB F1) as B1.
    pose proof (bd_prod 1.01 (c + c + 0.01 + 1.01) _ _ _ _ _ _ ltac:(lra) ltac:(lra) (SY a ya YA) B0) as T0. pose proof (bd_prod 1.01 (c + c + 0.01 + 1.01) _ _ _ _ _ _ ltac:(lra) ltac:(lra) (SY b yb YB) B1) as T1.
    assert (LL : forall r, (/ 2) ^ 60 <= weight days g [a; b] t r -> (/ 2) ^ 260 <= (Rabs (y r) + / 2 ^ 199) * weight days g [a; b] t r). { intros r L. replace 260%nat with (200 + 60)%nat by reflexivity. rewrite pow_add. apply Rmult_le_compat; try lra. pose proof (Rabs_pos (y r)). rewrite <- pow_inv. pose proof (half_pow 199 200 ltac:(lia)). lra. }
    pose proof (bd_near _ _ _ _ p 260 T0 ltac:(lra) ltac:(lia) (LL a LA) NP) as U0. pose proof (bd_near _ _ _ _ q 260 T1 ltac:(lra) ltac:(lia) (LL b LB) NQ) as U1.
    pose proof (bd_add _ _ _ _ _ _ _ _ U0 U1) as S. rewrite Rmax_left in S by lra. pose proof (LL a LA) as L1. pose proof (LL b LB) as L2. pose proof (half_pos 260) as H260.
    pose proof (bd_near _ _ _ _ v 260 S ltac:(lra) ltac:(lia) ltac:(lra) NV) as V. unfold condition. cbn [fold_right]. rewrite Rplus_0_r. eapply bd_le; [|exact V]. lra.
  Qed.
  (** the result, and UT1-UTC *)
  Notation close := (close days g c). Notation close_ut1 := (close_ut1 days g c).
  Lemma plus_leap E x s lp v : (/ 2) ^ 1000 <= E -> bd (20 * c + 34) E x s -> near (s + lp) v -> Rabs (v - (x + lp)) <= (20 * c + 35) * u * E + u * Rabs (x + lp).
  Proof.
    intros L (_ & B) N. unfold near in N. pose proof (half_pos 1000) as HP. pose proof u_small as U. pose proof (tiny_mag 1000 E ltac:(lia) L) as TM. set (k := 20 * c + 34) in *.
    assert (S : Rabs (s + lp) <= Rabs (x + lp) + k * u * E). { replace (s + lp) with ((x + lp) + (s - x)) by ring. eapply Rle_trans; [apply Rabs_triang|]. lra. }
    assert (UE : 0 <= u * E) by (apply Rmult_le_pos; lra). assert (KU : k * u <= / 1000). { unfold k. apply Rle_trans with (50000 * / 1000000000000000); [apply Rmult_le_compat; lra|lra]. }
    pose proof (Rmult_le_compat_r _ _ _ UE KU) as P. assert (US : u * Rabs (s + lp) <= u * (Rabs (x + lp) + k * u * E)) by (apply Rmult_le_compat_l; lra).
    replace (v - (x + lp)) with ((v - (s + lp)) + (s - x)) by ring. eapply Rle_trans; [apply Rabs_triang|]. replace ((20 * c + 35) * u * E) with (k * u * E + u * E) by (unfold k; ring). replace (u * (Rabs (x + lp) + k * u * E)) with (u * Rabs (x + lp) + k * u * (u * E)) in US by ring. lra.
  Qed.
  Lemma condition_low nodes t y : nodes <> [] -> (length nodes <= 10)%nat -> sorted days nodes -> spaced days g nodes t -> (/ 2) ^ 1000 <= condition days g nodes t y.
  Proof.
    intros NE HL HS HP. pose proof (fun j r J => factor_bd T days c g Hc Hg nodes t HS HP HL j r _ J (factor_exact T days c g ltac:(lra) ltac:(pose proof (g_low g Hg); pose proof (half_pos 40); lra) nodes t j r)) as F.
    assert (W : forall r, In r nodes -> (/ 2) ^ 600 <= weight days g nodes t r). { intros r I. apply In_nth_error in I as (j & J). destruct (F j r J) as (_ & L). rewrite (weight_skip T days g nodes t HS HL j r J) in L. exact L. }
    assert (M : forall r, In r nodes -> (/ 2) ^ 800 <= (Rabs (y r) + / 2 ^ 199) * weight days g nodes t r). { intros r I. replace 800%nat with (200 + 600)%nat by reflexivity. rewrite pow_add. pose proof (half_pos 200). pose proof (half_pos 600). apply Rmult_le_compat; try lra; [|apply W, I]. pose proof (Rabs_pos (y r)). rewrite <- pow_inv. pose proof (half_pow 199 200 ltac:(lia)). lra. }
    pose proof (half_pos 800) as H8. assert (G : forall l, (forall r, In r l -> In r nodes) -> 0 <= fold_right (fun r s => (Rabs (y r) + / 2 ^ 199) * weight days g nodes t r + s) 0 l). { induction l as [|r l IH]; intros H; cbn [fold_right]; [lra|]. pose proof (M r (H r (or_introl eq_refl))). specialize (IH (fun q I => H q (or_intror I))). lra. }
    destruct nodes as [|r l]; [contradiction|]. unfold condition. cbn [fold_right]. pose proof (M r (or_introl eq_refl)) as M0. pose proof (G l (fun q I => or_intror I)) as G0. pose proof (half_pow 800 1000 ltac:(lia)). lra.
  Qed.
  Lemma fill_close nodes e t (rr : (rec -> R -> Prop) -> R -> Prop) rule o : nodes <> [] -> (length nodes <= 10)%nat -> sorted days nodes -> spaced days g nodes t ->
    (forall yr y v, sound yr y -> rr yr v -> bd (20 * c + 34) (condition days g nodes t y) (rule y) v) -> fill_run T leap e t rr o ->
    let r := fill T leap e t rule in
    rt T o = t /\ rdat T o = rdat T e /\ xrt T o = 0 /\ yrt T o = 0 /\ close nodes t (xp T) (xp T o) (xp T r) /\ close nodes t (yp T) (yp T o) (yp T r) /\ close nodes t (lod T) (lod T o) (lod T r) /\
    close nodes t (dX T) (dX T o) (dX T r) /\ close nodes t (dY T) (dY T o) (dY T r) /\ close_ut1 nodes t (dut T o) (dut T r).
  Proof.
    intros NE HL HS HP H (E1 & X & Y & (s & S & N) & L & DX & DY & E2 & E3 & E4). cbv zeta. unfold fill. cbn [xp yp dut lod dX dY]. repeat (split; [assumption|]).
    split; [apply (H _ _ _ (sound_stored _) X)|]. split; [apply (H _ _ _ (sound_stored _) Y)|]. split; [apply (H _ _ _ (sound_stored _) L)|]. split; [apply (H _ _ _ (sound_stored _) DX)|]. split; [apply (H _ _ _ (sound_stored _) DY)|].
    apply (plus_leap _ _ s); [apply condition_low; assumption|apply (H _ _ _ sound_ut1 S)|exact N].
  Qed.
  Hypothesis HE : epochs ltb days.
  Notation sort := (sorted days).
  Lemma inside s t e d b a st o s' : sort (mvec T s) -> ready s -> (1 <= d <= 9)%Z -> cut days (mvec T s) t b a -> b <> [] -> a <> [] -> spaced days g (nearest b a (usable b a d)) t ->
    interpolate_run T ltb days leap c g s t e d st o s' ->
    exists r, interpolate T ltb days leap s t e d = Ok (st, r, s') /\ interpolated days (nearest b a (usable b a d)) t (leap t) r /\
      let nodes := nearest b a (usable b a d) in
      rt T o = t /\ rdat T o = rdat T e /\ xrt T o = 0 /\ yrt T o = 0 /\ close nodes t (xp T) (xp T o) (xp T r) /\ close nodes t (yp T) (yp T o) (yp T r) /\ close nodes t (lod T) (lod T o) (lod T r) /\
      close nodes t (dX T) (dX T o) (dX T r) /\ close nodes t (dY T) (dY T o) (dY T r) /\ close_ut1 nodes t (dut T o) (dut T r).
  Proof.
    intros S Rd D C Nb Na SP R. destruct (c14_inside T ltb days leap HE s t e d b a S Rd D C Nb Na) as (r & s1 & Q). cbv zeta in Q. destruct Q as (EI & II & _ & _ & N1 & LN & _ & _). set (n := usable b a d) in *. set (nodes := nearest b a n) in *.
    destruct R as (_ & it & HT & -> & R). pose proof HT as HT'. rewrite (hunt_upper ltb days HE), (cut_upper ltb days HE _ _ _ _ C) in HT by assumption. injection HT as <-. pose proof EI as EI'. unfold interpolate in EI. rewrite HT' in EI. cbn [bind] in EI.
    destruct (Z.ltb_spec MAX_DEGREE d); [discriminate|]. destruct C as (E & _ & _).
    assert (Lb : (0 < length b)%nat) by (destruct b; [congruence|simpl; lia]). assert (La : (0 < length a)%nat) by (destruct a; [congruence|simpl; lia]).
    assert (Hd : (1 <= (d + 1) / 2 <= 5)%Z) by (split; [apply Z.div_le_lower_bound; lia|apply Z.lt_succ_r, Z.div_lt_upper_bound; lia]). assert (Hn : n = Nat.min (Z.to_nat ((d + 1) / 2)) (Nat.min (length b) (length a))) by reflexivity.
    assert (SN : sort nodes) by (apply (nearest_sorted days); [rewrite <- E; exact S|lia|lia]). assert (NE : nodes <> []) by (intros X; rewrite X in LN; cbn in LN; lia). assert (LL : (length nodes <= 10)%nat) by lia.
    assert (ELEN : length (mvec T s) = (length b + length a)%nat) by (rewrite E; apply app_length). cbv zeta in R, EI. rewrite ELEN in *.
    destruct (Nat.eqb_spec (length b) 0); [lia|]. destruct (Nat.eqb_spec (length b) (length b + length a)); [lia|]. rewrite points_min in * by lia.
    replace (Z.min ((d + 1) / 2) (Z.min (Z.of_nat (length b)) (Z.of_nat (length b + length a) - Z.of_nat (length b)))) with (Z.of_nat n) in * by lia.
    destruct (Z.eqb_spec (Z.of_nat n) 1) as [E1|E1].
    - destruct R as (p & q & Ep & Eq & -> & F). rewrite Ep, Eq in EI. injection EI as _ <- <-. eexists. split; [rewrite EI'; destruct (Nat.eqb_spec n 1); [reflexivity|lia]|]. split; [exact II|]. cbv zeta.
      assert (N2 : nodes = [p; q]). { unfold nodes. rewrite <- nodes_nearest by lia. rewrite <- E. replace n with 1%nat by lia. apply nth_error_split in Ep as (l1 & l2 & X1 & X2). rewrite X1. rewrite X1 in Eq. rewrite <- X2. rewrite skipn_app, skipn_all, Nat.sub_diag. cbn [skipn app]. 
        rewrite nth_error_app2 in Eq by lia. replace (length b - length l1)%nat with 1%nat in Eq by lia. cbn [nth_error] in Eq. destruct l2 as [|q' l2]; [discriminate|]. injection Eq as ->. reflexivity. }
      apply (fill_close nodes e t (linear_run T days c g p q t) (linear T days p q t) o NE LL SN SP); [|exact F]. rewrite N2 in *. intros yr y v SY RV. apply (linear_bd p q t yr y v SY SN SP RV).
    - destruct R as (_ & _ & -> & F). destruct (Z.ltb_spec (Z.of_nat n) 0); [lia|]. destruct (Z.ltb_spec (MAX_DEGREE + 1) (2 * Z.of_nat n)); [discriminate|]. rewrite Nat2Z.id in *. rewrite E, nodes_nearest in * by lia. fold nodes in EI, F. injection EI as _ <- <-. eexists. split; [rewrite EI'; destruct (Nat.eqb_spec n 1); [lia|]; rewrite (Z.mul_comm (Z.of_nat n) 2), ?E; reflexivity|]. split; [exact II|]. cbv zeta.
      apply (fill_close nodes e t (accumulate_run T days c g nodes t) (accumulate T days nodes t) o NE LL SN SP); [|exact F]. intros yr y v SY RV. apply (accumulate_bd T days c g Hc Hg nodes t SN SP LL yr y SY v RV).
  Qed.
  Lemma outside s t e d st o s' : interpolate_run T ltb days leap c g s t e d st o s' -> st = Prior \/ st = Later -> interpolate T ltb days leap s t e d = Ok (st, o, s').
  Proof.
    intros (D & it & HT & -> & R) ST. unfold interpolate. rewrite HT. destruct (Z.ltb_spec MAX_DEGREE d); [lia|]. cbn [bind]. cbv zeta in R.
    destruct (Nat.eqb it 0); [destruct R as (r & -> & -> & ->); reflexivity|]. destruct (Nat.eqb it (length (mvec T s))); [destruct R as (r & -> & -> & ->); reflexivity|].
    exfalso. destruct (points _ _ _ =? 1)%Z; [destruct R as (? & ? & _ & _ & -> & _); destruct ST; discriminate|]. destruct R as (_ & _ & -> & _). destruct (_ =? _)%Z; destruct ST; discriminate.
  Qed.
  Lemma approx_inside s t b p q a st o s' : sort (mvec T s) -> ready s -> cut days (mvec T s) t (b ++ [p]) (q :: a) -> spaced days g [p; q] t -> approx_dut1_run T ltb days leap c g s t st o s' ->
    exists r, approx_dut1 T ltb days leap s t = Ok (st, r, s') /\ st = Linear /\ interpolates days [p; q] (fun r => dut T r - rdat T r) (days t) (r - leap t) /\ close_ut1 [p; q] t o r.
  Proof.
    intros S Rd C SP (it & HT & -> & R). pose proof HT as HT'. rewrite (hunt_upper ltb days HE), (cut_upper ltb days HE _ _ _ _ C) in HT by assumption. injection HT as <-. destruct C as (E & _ & _).
    unfold approx_dut1. rewrite HT'. cbn [bind]. rewrite E, !app_length in *. cbn [length] in *. destruct (Nat.eqb_spec (length b + 1) 0); [lia|]. destruct (Nat.eqb_spec (length b + 1) (length b + 1 + Datatypes.S (length a))); [lia|].
    destruct R as (p' & q' & Ep & Eq & -> & w & W & NV). assert (Xp : nth_error ((b ++ [p]) ++ q :: a) (length b + 1 - 1) = Some p). { rewrite <- app_assoc, nth_error_app2 by lia. replace (length b + 1 - 1 - length b)%nat with O by lia. reflexivity. }
    assert (Xq : nth_error ((b ++ [p]) ++ q :: a) (length b + 1) = Some q). { rewrite nth_error_app2 by (rewrite app_length; cbn; lia). rewrite app_length. cbn [length]. replace (length b + 1 - (length b + 1))%nat with O by lia. reflexivity. }
    rewrite Xp in *. rewrite Xq in *. injection Ep as <-. injection Eq as <-. assert (SN : sort [p; q]). { pose proof (nearest_sorted days (b ++ [p]) (q :: a) 1 S ltac:(rewrite app_length; cbn; lia) ltac:(cbn; lia)) as X. unfold nearest in X. rewrite app_length in X. cbn [length firstn] in X. replace (length b + 1 - 1)%nat with (length b) in X by lia. rewrite skipn_app, skipn_all, Nat.sub_diag in X. exact X. }
    eexists. split; [reflexivity|]. split; [reflexivity|]. split; [replace (linear T days p q t (fun r => dut T r - rdat T r) + leap t - leap t) with (linear T days p q t (fun r => dut T r - rdat T r)) by ring; apply linear_interpolates; exact SN|].
    apply (plus_leap _ _ w); [apply condition_low; try assumption; [discriminate|cbn; lia]|apply (linear_bd p q t (ut1 T) _ w sound_ut1 SN SP W)|exact NV].
  Qed.
End Errors.
