From Coq Require Import Reals ZArith List Lia Lra.
From Flocq Require Import Core Plus_error Relative BinarySingleNaN Pff2Flocq.
From Verif Require Import KahanModel KahanSpec.
Import ListNotations.
Open Scope R_scope.

Notation val := (@B2R 53 1024).
Notation fin := (@is_finite 53 1024).
Notation fx := (FLT_exp (-1074) 53).
Notation rn := (round radix2 fx ZnearestE).
Notation fmt := (generic_format radix2 fx).
Local Instance prec53 : Prec_gt_0 53 := eq_refl.
Lemma fmt_val x : fmt (val x). Proof. apply (generic_format_B2R 53 1024). Qed.
Lemma val_lt x : Rabs (val x) < bpow radix2 1024. Proof. apply abs_B2R_lt_emax. Qed.

(** ** finite results *)
Lemma dadd_finite x y : fin (dadd x y) = true -> fin x = true /\ fin y = true /\ val (dadd x y) = rn (val x + val y).
Proof.
  intros F. assert (A : fin x = true /\ fin y = true).
  { destruct x as [|s| |], y as [|s'| |]; try (split; reflexivity); cbn in F; try discriminate. destruct (Bool.eqb s s'); discriminate. }
  destruct A as [A B]. split; [exact A|]. split; [exact B|]. pose proof (Bplus_correct 53 1024 Hprec Hmax mode_NE x y A B) as C.
  destruct (Rlt_bool _ _); [apply C|]. destruct C as [C _]. exfalso. unfold dadd in F. rewrite <- is_finite_SF_B2SF, C in F. discriminate.
Qed.
Lemma dadd_value x y : fin x = true -> fin y = true -> Rabs (rn (val x + val y)) < bpow radix2 1024 -> fin (dadd x y) = true /\ val (dadd x y) = rn (val x + val y).
Proof.
  intros A B L. pose proof (Bplus_correct 53 1024 Hprec Hmax mode_NE x y A B) as C. rewrite Rlt_bool_true in C by exact L. destruct C as (V & F & _). split; assumption.
Qed.
Lemma dsub_value x y : fin x = true -> fin y = true -> Rabs (rn (val x - val y)) < bpow radix2 1024 -> fin (dsub x y) = true /\ val (dsub x y) = rn (val x - val y).
Proof.
  intros A B L. pose proof (Bminus_correct 53 1024 Hprec Hmax mode_NE x y A B) as C. rewrite Rlt_bool_true in C by exact L. destruct C as (V & F & _). split; assumption.
Qed.
Lemma dge_correct x y : fin x = true -> fin y = true -> dge (dabs x) (dabs y) = true <-> Rabs (val y) <= Rabs (val x).
Proof.
  intros A B. unfold dge, dabs. rewrite Bcompare_correct by (rewrite is_finite_Babs; assumption). rewrite !B2R_Babs.
  destruct (Rcompare_spec (Rabs (val x)) (Rabs (val y))); split; intros; try reflexivity; try discriminate; try lra.
Qed.

(** ** the error of an addition *)
Lemma rn_opp x : rn (- x) = - rn x. Proof. apply round_NE_opp. Qed.
Lemma rn_le x y : x <= y -> rn x <= rn y. Proof. apply round_le; [apply FLT_exp_valid; reflexivity|apply valid_rnd_N]. Qed.
Lemma rn_id x : fmt x -> rn x = x. Proof. apply round_generic, valid_rnd_N. Qed.
Lemma rn_between x m : fmt m -> Rabs x <= m -> Rabs (rn x) <= m.
Proof.
  intros F H. apply Rabs_le. assert (A : - m <= x <= m) by (unfold Rabs in H; destruct (Rcase_abs x); lra). split.
  - rewrite <- (rn_id (- m)) by (apply generic_format_opp, F). apply rn_le, A.
  - rewrite <- (rn_id m) by exact F. apply rn_le, A.
Qed.
Lemma same_side x a m : 0 <= x <= m -> 0 <= a <= m -> Rabs (x - a) <= m. Proof. intros. apply Rabs_le. lra. Qed.
(** no overflow in the difference *)
Lemma difference_small x y : Rabs (val y) <= Rabs (val x) -> forall a, val a = rn (val x + val y) -> Rabs (rn (val x - val a)) < bpow radix2 1024.
Proof.
  intros H a Ea. destruct (Rle_dec 0 (val x)) as [P|P].
  - assert (A : 0 <= val a). { rewrite Ea, <- (round_0 radix2 fx ZnearestE). apply rn_le. unfold Rabs in H. destruct (Rcase_abs (val y)), (Rcase_abs (val x)); lra. }
    pose proof (val_lt x) as Lx. pose proof (val_lt a) as La. rewrite Rabs_right in Lx, La by lra.
    destruct (Rle_dec (val x) (val a)) as [Q|Q].
    + eapply Rle_lt_trans; [apply (rn_between _ (val a)); [apply fmt_val|apply same_side; lra]|exact La].
    + eapply Rle_lt_trans; [apply (rn_between _ (val x)); [apply fmt_val|apply same_side; lra]|exact Lx].
  - assert (A : val a <= 0). { rewrite Ea, <- (round_0 radix2 fx ZnearestE). apply rn_le. unfold Rabs in H. destruct (Rcase_abs (val y)), (Rcase_abs (val x)); lra. }
    pose proof (val_lt x) as Lx. pose proof (val_lt a) as La. rewrite Rabs_left1 in Lx, La by lra.
    rewrite <- Rabs_Ropp, <- rn_opp. replace (- (val x - val a)) with (- val x - - val a) by ring.
    destruct (Rle_dec (- val x) (- val a)) as [Q|Q].
    + eapply Rle_lt_trans; [apply (rn_between _ (- val a)); [apply generic_format_opp, fmt_val|apply same_side; lra]|exact La].
    + eapply Rle_lt_trans; [apply (rn_between _ (- val x)); [apply generic_format_opp, fmt_val|apply same_side; lra]|exact Lx].
Qed.
Lemma ne_sym x : negb (Z.even x) = negb (negb (Z.even (- (x + 1)))).
Proof. rewrite Z.even_opp, Z.even_add. cbn. destruct (Z.even x); reflexivity. Qed.
(** the larger first *)
Lemma fast_two_sum x y : fin (dadd x y) = true -> Rabs (val y) <= Rabs (val x) ->
  fin (dadd (dsub x (dadd x y)) y) = true /\ val (dadd x y) + val (dadd (dsub x (dadd x y)) y) = val x + val y.
Proof.
  intros F H. destruct (dadd_finite x y F) as (Fx & Fy & Va). set (a := dadd x y) in *.
  destruct (dsub_value x a Fx F (difference_small x y H a Va)) as [Fd Vd].
  pose proof (Fast2Sum_correct (-1074) 53 (fun x => negb (Z.even x)) ltac:(lia) ltac:(lia) ne_sym (val x) (val y) (fmt_val x) (fmt_val y) H) as C.
  rewrite <- Va, <- Vd, (Rplus_comm (val y)) in C.
  assert (L : Rabs (rn (val (dsub x a) + val y)) < bpow radix2 1024).
  { replace (rn (val (dsub x a) + val y)) with (- (val a - (val x + val y))) by lra. rewrite Rabs_Ropp, Va. eapply Rle_lt_trans; [apply plus_error_le_r; try apply fmt_val; apply FLT_exp_valid; reflexivity|apply val_lt]. }
  destruct (dadd_value _ y Fd Fy L) as [Fe Ve]. split; [exact Fe|]. rewrite Ve. exact C.
Qed.
Lemma dadd_comm x y : fin (dadd x y) = true -> fin (dadd y x) = true /\ val (dadd y x) = val (dadd x y).
Proof.
  intros F. destruct (dadd_finite x y F) as (A & B & V). rewrite V, Rplus_comm. apply dadd_value; auto. rewrite Rplus_comm, <- V. apply val_lt.
Qed.
(** the smaller first: val of the sum is the same, hence also of what follows *)
Lemma fast_two_sum' x y : fin (dadd x y) = true -> Rabs (val x) <= Rabs (val y) ->
  fin (dadd (dsub y (dadd x y)) x) = true /\ val (dadd x y) + val (dadd (dsub y (dadd x y)) x) = val x + val y.
Proof.
  intros F H. destruct (dadd_finite x y F) as (Fx & Fy & Va). set (a := dadd x y) in *. rewrite (Rplus_comm (val x)) in *.
  destruct (dsub_value y a Fy F (difference_small y x H a Va)) as [Fd Vd].
  pose proof (Fast2Sum_correct (-1074) 53 (fun x => negb (Z.even x)) ltac:(lia) ltac:(lia) ne_sym (val y) (val x) (fmt_val y) (fmt_val x) H) as C.
  rewrite <- Va, <- Vd, (Rplus_comm (val x)) in C.
  assert (L : Rabs (rn (val (dsub y a) + val x)) < bpow radix2 1024).
  { replace (rn (val (dsub y a) + val x)) with (- (val a - (val y + val x))) by lra. rewrite Rabs_Ropp, Va. eapply Rle_lt_trans; [apply plus_error_le_r; try apply fmt_val; apply FLT_exp_valid; reflexivity|apply val_lt]. }
  destruct (dadd_value _ x Fd Fx L) as [Fe Ve]. split; [exact Fe|]. rewrite Ve. exact C.
Qed.

(** ** one step *)
Definition comp (k : kahan) (v : double) : double :=
  let t := dadd (msum k) v in if dge (dabs (msum k)) (dabs v) then dadd (dsub (msum k) t) v else dadd (dsub v t) (msum k).
Lemma step_parts k v : plus_assign k v = mkK (dadd (msum k) v) (dadd (merr k) (comp k v)).
Proof. unfold plus_assign, comp. destruct (dge _ _); reflexivity. Qed.
Lemma step_exact k v : fin (msum (plus_assign k v)) = true -> fin (comp k v) = true /\ val (msum (plus_assign k v)) + val (comp k v) = val (msum k) + val v.
Proof.
  rewrite step_parts. cbn [msum]. intros F. destruct (dadd_finite _ _ F) as (A & B & _). unfold comp. destruct (dge _ _) eqn:G.
  - apply fast_two_sum; [exact F|]. apply dge_correct; auto.
  - apply fast_two_sum'; [exact F|]. destruct (Rle_dec (Rabs (val v)) (Rabs (val (msum k)))) as [Q|Q]; [|lra].
    exfalso. apply (dge_correct (msum k) v A B) in Q. congruence.
Qed.
(** ** relative errors *)
Notation u := unit_roundoff.
Lemma u_eq : u_ro radix2 53 = u.
Proof.
  unfold u_ro, unit_roundoff. change (bpow radix2 (-53 + 1)) with (/ IZR (2 ^ 52)%Z). replace (2 ^ 53) with (2 * 2 ^ 52) by (simpl; ring).
  rewrite (pow_IZR 2 52). change (Z.of_nat 52) with 52%Z. rewrite Rinv_mult. reflexivity.
Qed.
Lemma u_pos : 0 < u. Proof. unfold unit_roundoff. apply Rinv_0_lt_compat, pow_lt. lra. Qed.
Lemma add_error x y : Rabs (rn (val x + val y) - (val x + val y)) <= u * Rabs (val x + val y).
Proof.
  destruct (FLT_plus_error_N_ex radix2 (-1074) 53 (fun x => negb (Z.even x)) (val x) (val y) (fmt_val x) (fmt_val y)) as (e & B & E). rewrite E.
  replace ((val x + val y) * (1 + e) - (val x + val y)) with (e * (val x + val y)) by ring. rewrite Rabs_mult. apply Rmult_le_compat_r; [apply Rabs_pos|].
  eapply Rle_trans; [exact B|]. rewrite <- u_eq. apply u_rod1pu_ro_le_u_ro.
Qed.
Definition good (k : kahan) : Prop := fin (msum k) = true /\ fin (merr k) = true.
Lemma good_before k v : good (plus_assign k v) -> good k /\ fin v = true.
Proof.
  rewrite step_parts. intros [A B]. cbn in A, B. destruct (dadd_finite _ _ A) as (P & Q & _). destruct (dadd_finite _ _ B) as (S & _). repeat split; assumption.
Qed.
Lemma step_bound k v n A E : good (plus_assign k v) -> let g := 1 + u in let i := INR n in 0 <= A ->
  Rabs (val (msum k)) <= g ^ n * A -> Rabs (val (merr k)) <= i * u * g ^ (2 * n) * A -> Rabs (val (msum k) + val (merr k) - E) <= i * i * (u * u) * g ^ (2 * n) * A ->
  let A' := A + Rabs (val v) in let i' := INR (S n) in let k' := plus_assign k v in
  Rabs (val (msum k')) <= g ^ (S n) * A' /\ Rabs (val (merr k')) <= i' * u * g ^ (2 * S n) * A' /\ Rabs (val (msum k') + val (merr k') - (E + val v)) <= i' * i' * (u * u) * g ^ (2 * S n) * A'.
Proof.
  intros G g i PA HS HE HX A' i' k'. pose proof u_pos as PU. destruct (good_before k v G) as [_ Fv].
  destruct G as [G1 G2]. destruct (step_exact k v G1) as [Fc EX]. fold k' in G1, G2, EX. unfold k' in G1, G2, EX. rewrite step_parts in G1, G2, EX. cbn [msum merr] in G1, G2, EX.
  unfold k'. rewrite step_parts. cbn [msum merr]. destruct (dadd_finite _ _ G1) as (_ & _ & V1). destruct (dadd_finite _ _ G2) as (_ & _ & V2).
  pose proof (add_error (msum k) v) as R1. pose proof (add_error (merr k) (comp k v)) as R2. rewrite <- V1 in R1. rewrite <- V2 in R2.
  set (s := val (msum k)) in *. set (e := val (merr k)) in *. set (x := val v) in *. set (t := val (dadd (msum k) v)) in *. set (c := val (comp k v)) in *. set (e' := val (dadd (merr k) (comp k v))) in *.
  clearbody s e x t c e'. clear V1 V2 G1 G2 Fc Fv k k'.
  assert (Gp : 1 <= g) by (unfold g; lra). assert (Gn : 1 <= g ^ n) by (apply pow_R1_Rle, Gp).
  replace (2 * S n)%nat with (2 * n + 2)%nat by lia. rewrite pow_add. assert (G2n : g ^ (2 * n) = g ^ n * g ^ n) by (replace (2 * n)%nat with (n + n)%nat by lia; apply pow_add).
  rewrite G2n in *. set (p := g ^ n) in *. replace (g ^ S n) with (g * p) by (unfold p; simpl; ring). replace (g ^ 2) with (g * g) by (simpl; ring).
  assert (I0 : 0 <= i) by apply pos_INR. assert (I' : i' = i + 1) by (unfold i', i; rewrite S_INR; ring). rewrite I'. clearbody i i' p.
  assert (AX : Rabs (s + x) <= p * A'). { eapply Rle_trans; [apply Rabs_triang|]. unfold A'. pose proof (Rabs_pos x). nra. }
  assert (PA' : 0 <= A') by (unfold A'; pose proof (Rabs_pos x); lra). assert (AA : A <= A') by (unfold A'; pose proof (Rabs_pos x); lra).
  assert (AT : Rabs t <= g * (p * A')).
  { replace t with ((t - (s + x)) + (s + x)) by ring. eapply Rle_trans; [apply Rabs_triang|]. unfold g. nra. }
  assert (AC : Rabs c <= u * (p * A')). { replace c with (- (t - (s + x))) by lra. rewrite Rabs_Ropp. nra. }
  assert (PP : p <= p * p) by nra. assert (PPA : p * A' <= p * p * A') by nra. assert (AEC : Rabs (e + c) <= (i + 1) * u * (p * p) * A').
  { eapply Rle_trans; [apply Rabs_triang|]. assert (B1 : Rabs e <= i * u * (p * p) * A') by (eapply Rle_trans; [exact HE|]; apply Rmult_le_compat_l; [repeat apply Rmult_le_pos; lra|exact AA]).
    assert (B2 : u * (p * A') <= u * (p * p * A')) by (apply Rmult_le_compat_l; [lra|exact PPA]).
    replace ((i + 1) * u * (p * p) * A') with (i * u * (p * p) * A' + u * (p * p * A')) by ring. lra. }
  set (M := p * p * A') in *. assert (PM : 0 <= M) by (unfold M; repeat apply Rmult_le_pos; lra). split; [replace (g * p * A') with (g * (p * A')) by ring; exact AT|].
  assert (Q0 : 0 <= (i + 1) * u * M) by (repeat apply Rmult_le_pos; lra).
  assert (AEC' : Rabs (e + c) <= (i + 1) * u * M) by (unfold M; replace ((i + 1) * u * (p * p * A')) with ((i + 1) * u * (p * p) * A') by ring; exact AEC). split.
  - replace e' with ((e' - (e + c)) + (e + c)) by ring. eapply Rle_trans; [apply Rabs_triang|].
    apply (Rle_trans _ (g * ((i + 1) * u * M))); [unfold g; nra|]. replace ((i + 1) * u * (p * p * (g * g)) * A') with (g * (g * ((i + 1) * u * M))) by (unfold M; ring). set (Z := (i + 1) * u * M) in *. apply Rmult_le_compat_l; nra.
  - replace (t + e' - (E + x)) with ((e' - (e + c)) + (s + e - E)) by lra. eapply Rle_trans; [apply Rabs_triang|].
    assert (B1 : Rabs (s + e - E) <= i * i * (u * u) * M).
    { eapply Rle_trans; [exact HX|]. unfold M. replace (i * i * (u * u) * (p * p) * A) with (i * i * (u * u) * (p * p * A)) by ring. apply Rmult_le_compat_l; [repeat apply Rmult_le_pos; lra|]. apply Rmult_le_compat_l; [nra|exact AA]. }
    assert (B2 : Rabs (e' - (e + c)) <= (i + 1) * (u * u) * M) by nra.
    apply (Rle_trans _ ((i + 1) * (i + 1) * (u * u) * M)).
    + assert (0 <= i * (u * u) * M) by (repeat apply Rmult_le_pos; lra). nra.
    + replace ((i + 1) * (i + 1) * (u * u) * (p * p * (g * g)) * A') with (g * (g * ((i + 1) * (i + 1) * (u * u) * M))) by (unfold M; ring).
      assert (QQ : 0 <= (i + 1) * (i + 1) * (u * u) * M) by (repeat apply Rmult_le_pos; lra). set (Z := (i + 1) * (i + 1) * (u * u) * M) in *. assert (Z <= g * Z) by nra. nra.
Qed.
Lemma total_snoc v l x : total v (l ++ [x]) = plus_assign (total v l) x.
Proof. unfold total. rewrite fold_left_app. reflexivity. Qed.
Lemma exact_sum_app a b : exact_sum (a ++ b) = exact_sum a + exact_sum b.
Proof. unfold exact_sum. induction a; simpl; [ring|]. rewrite IHa. ring. Qed.
Lemma total_bound v l : good (total v l) -> let n := length l in let g := 1 + u in let A := abs_sum (map val (v :: l)) in
  Rabs (val (msum (total v l))) <= g ^ n * A /\ Rabs (val (merr (total v l))) <= INR n * u * g ^ (2 * n) * A /\
  Rabs (val (msum (total v l)) + val (merr (total v l)) - exact_sum (map val (v :: l))) <= INR n * INR n * (u * u) * g ^ (2 * n) * A.
Proof.
  induction l as [|x l IH] using rev_ind; intros G n g A.
  - unfold n, A, total, abs_sum, exact_sum. cbn [length fold_left start msum merr map fold_right INR]. change (val dzero) with 0. rewrite !Rplus_0_r, Rabs_R0. unfold Rminus. rewrite Rplus_opp_r, Rabs_R0. simpl. lra.
  - rewrite total_snoc in *. destruct (good_before _ _ G) as [G0 Fx]. destruct (IH G0) as (B1 & B2 & B3).
    assert (PA : 0 <= abs_sum (map val (v :: l))).
    { unfold abs_sum. generalize (map val (v :: l)). clear. induction l; unfold exact_sum in *; simpl; [lra|]. pose proof (Rabs_pos a). lra. }
    pose proof (step_bound (total v l) x (length l) _ (exact_sum (map val (v :: l))) G PA B1 B2 B3) as S. cbv zeta in S.
    assert (EA : A = abs_sum (map val (v :: l)) + Rabs (val x)). { unfold A, abs_sum. rewrite app_comm_cons, !map_app, exact_sum_app. f_equal. unfold exact_sum. cbn [map fold_right]. ring. }
    assert (EE : exact_sum (map val (v :: l ++ [x])) = exact_sum (map val (v :: l)) + val x). { rewrite app_comm_cons, map_app, exact_sum_app. f_equal. unfold exact_sum. cbn [map fold_right]. ring. }
    rewrite EE, EA. unfold n. rewrite app_length. cbn [length]. rewrite Nat.add_1_r. exact S.
Qed.
Lemma good_result k : fin (to_double k) = true -> good k.
Proof. unfold to_double. intros F. destruct (dadd_finite _ _ F) as (A & B & _). split; assumption. Qed.
Lemma result_bound v l : fin (to_double (total v l)) = true -> let n := INR (length l) in
  Rabs (val (to_double (total v l)) - exact_sum (map val (v :: l))) <=
  u * Rabs (exact_sum (map val (v :: l))) + n * n * (u * u) * (1 + u) ^ (2 * length l + 1) * abs_sum (map val (v :: l)).
Proof.
  intros F n. pose proof (total_bound v l (good_result _ F)) as (_ & _ & B). cbv zeta in B. unfold to_double in *. destruct (dadd_finite _ _ F) as (_ & _ & V).
  pose proof (add_error (msum (total v l)) (merr (total v l))) as R. rewrite <- V in R. set (r := val (dadd _ _)) in *. set (se := val (msum (total v l)) + val (merr (total v l))) in *. set (E := exact_sum (map val (v :: l))) in *.
  rewrite pow_add, pow_1. fold n in B. pose proof u_pos as PU.
  replace (r - E) with ((r - se) + (se - E)) by ring. eapply Rle_trans; [apply Rabs_triang|].
  assert (Q : Rabs se <= Rabs E + Rabs (se - E)) by (replace se with (E + (se - E)) at 1 by ring; apply Rabs_triang).
  set (W := n * n * (u * u) * (1 + u) ^ (2 * length l) * abs_sum (map val (v :: l))) in *.
  replace (n * n * (u * u) * ((1 + u) ^ (2 * length l) * (1 + u)) * abs_sum (map val (v :: l))) with ((1 + u) * W) by (unfold W; ring). nra.
Qed.
(** the compensations of a run *)
Fixpoint comps (k : kahan) (l : list double) : list double := match l with [] => [] | v :: t => comp k v :: comps (plus_assign k v) t end.
Lemma good_fold l k : good (fold_left plus_assign l k) -> good k.
Proof. revert k; induction l as [|v l IH]; intros k G; [exact G|]. cbn in G. apply IH in G. apply good_before in G. apply G. Qed.
Lemma run_exact l k : good (fold_left plus_assign l k) ->
  val (msum (fold_left plus_assign l k)) + exact_sum (map val (comps k l)) = val (msum k) + exact_sum (map val l) /\ merr (fold_left plus_assign l k) = fold_left dadd (comps k l) (merr k) /\ Forall (fun c => fin c = true) (comps k l).
Proof.
  revert k; induction l as [|v l IH]; intros k G; cbn [fold_left comps].
  - cbn. split; [ring|]. split; [reflexivity|constructor].
  - cbn [fold_left] in G. destruct (IH _ G) as (A & B & C). destruct (step_exact k v) as [Fc EX]; [apply (good_fold l _ G)|]. split; [|split].
    + unfold exact_sum in *. cbn [map fold_right]. lra.
    + rewrite B. rewrite step_parts. reflexivity.
    + constructor; assumption.
Qed.
