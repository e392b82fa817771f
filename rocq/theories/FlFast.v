(** The bounds of FlModel with short numbers: m 2^k with m below 2^26, always rounded up. Cheap to check. *)
From Coq Require Import ZArith List Bool Lia.
From Verif Require Import FlModel FlFloatModel FlFloatProofs.
Open Scope Z_scope.

Definition num : Type := Z * Z.
Definition den (x : num) : Z := fst x * 2 ^ snd x.
Definition cut (m k : Z) : num :=
  if m <? 67108864 then if (m <? 1048576) && (0 <? k) then let s := Z.min k (24 - Z.log2 m) in (Z.shiftl m s, k - s) else (m, k)
  else let s := Z.log2 m - 22 in (Z.shiftr m s + 1, k + s).
Definition inc (x : num) : num := (fst x + 1, snd x).
Definition fadd (x y : num) : num :=
  let (m, k) := x in let (n, l) := y in
  if k =? l then cut (m + n) k else if k <? l then cut (Z.shiftr m (l - k) + 1 + n) l else cut (m + (Z.shiftr n (k - l) + 1)) k.
(** the quotient by 2^s and one more *)
Definition shr (s : Z) (m k : Z) : num := if s <=? k then inc (cut m (k - s)) else cut (Z.shiftr m (s - k) + 1) 0.
Definition fmul (x y : num) : num := shr 120 (fst x * fst y) (snd x + snd y).
Definition furel (x : num) : num := shr 53 (fst x) (snd x).
Definition fround (m i : num) : num * num := (m, inc (fadd i (furel (fadd m i)))).
Definition fassec (x : num) : num := shr 40 (fst x * 5330583) (snd x).
Definition fquo (x : num) (d : Z) : num := let (m, k) := x in if 30 <=? k then cut (Z.shiftl m 30 / d + 1) (k - 30) else cut (Z.shiftl m k / d + 1) 0.
Definition fsmall (m i : num) : bool := let (a, k) := fadd m i in Z.log2 a + k <? 180.
Definition ffit (n : Z) : bool := Z.abs n <? 9007199254740992.
Section Fast.
  Variable fv : nat -> num * num.
  Definition fboth (p : num * num) (b : bool) : (num * num) * bool := (p, b && fsmall (fst p) (snd p)).
  Fixpoint fb (e : expr) : (num * num) * bool :=
    match e with
    | Var i => fboth (fv i) true
    | Int n => fboth (cut (Z.abs n) 120, (0, 0)) (ffit n)
    | Dec n k => fboth (fround (cut (Z.shiftl (Z.abs n) 90 / 10 ^ Z.of_nat k + 1) 30) (0, 0)) (ffit n && ffit (5 ^ Z.of_nat k))
    | Neg a => fb a
    | Add a b | Sub a b => let '(ma, ea, sa) := fb a in let '(mb, eb, sb) := fb b in fboth (fround (fadd ma mb) (fadd ea eb)) (sa && sb)
    | Mul a b => let '(ma, ea, sa) := fb a in let '(mb, eb, sb) := fb b in fboth (fround (fmul ma mb) (fadd (fadd (fmul ea mb) (fmul ma eb)) (fmul ea eb))) (sa && sb)
    | Quo a d => let '(ma, ea, sa) := fb a in fboth (fround (fquo ma (Zpos d)) (fquo ea (Zpos d))) (sa && ffit (Zpos d))
    | Sin a | Cos a => let '(_, ea, sa) := fb a in fboth ((1, 120), fadd ea (1, 68)) sa
    | Sec a => let '(ma, ea, sa) := fb a in let m := fassec ma in let i := fassec ea in let w := furel (fadd m i) in fboth (m, inc (fadd i (cut (4 * fst w) (snd w)))) sa
    end.
End Fast.
Definition fle (x : num) (goal : Z) : bool := fst x <=? Z.shiftr goal (snd x).

(** ** soundness *)
Definition above (z : Z) (x : num) : Prop := 0 <= z <= den x /\ 0 <= fst x /\ 0 <= snd x.
Lemma pow2_pos k : 0 <= k -> 0 < 2 ^ k.
Proof. intros. apply Z.pow_pos_nonneg; lia. Qed.
Lemma shiftr_up m s : 0 <= m -> 0 <= s -> 0 <= Z.shiftr m s /\ m + 1 <= (Z.shiftr m s + 1) * 2 ^ s.
Proof.
  intros Hm Hs. rewrite Z.shiftr_div_pow2 by exact Hs. pose proof (pow2_pos s Hs). split; [apply Z.div_pos; lia|].
  pose proof (Z.div_mod m (2 ^ s) ltac:(lia)). pose proof (Z.mod_pos_bound m (2 ^ s) ltac:(lia)). nia.
Qed.
Lemma cut_above z m k : 0 <= m -> 0 <= k -> 0 <= z <= m * 2 ^ k -> above z (cut m k).
Proof.
  intros Hm Hk Hz. unfold cut. destruct (m <? 67108864) eqn:E.
  { destruct ((m <? 1048576) && (0 <? k)) eqn:E'; [|split; [exact Hz|cbn; lia]]. apply andb_prop in E' as [E1 _]. apply Z.ltb_lt in E1. cbv zeta.
    assert (L : Z.log2 m <= 20) by (change 20 with (Z.log2 1048576); apply Z.log2_le_mono; lia). set (s := Z.min k (24 - Z.log2 m)). assert (Hs : 0 <= s <= k) by (unfold s; lia).
    rewrite Z.shiftl_mul_pow2 by lia. pose proof (pow2_pos s ltac:(lia)). split; [|cbn [fst snd]; lia]. unfold den. cbn [fst snd]. rewrite <- Z.mul_assoc, <- Z.pow_add_r by lia. replace (s + (k - s)) with k by lia. exact Hz. }
  apply Z.ltb_ge in E.
  assert (L : 22 <= Z.log2 m) by (change 22 with (Z.log2 4194304); apply Z.log2_le_mono; lia).
  set (s := Z.log2 m - 22). assert (Hs : 0 <= s) by (unfold s; lia). destruct (shiftr_up m s Hm Hs) as [A B]. split; [|cbn [fst snd]; lia]. unfold den. cbn [fst snd]. rewrite Z.pow_add_r by lia.
  pose proof (pow2_pos k Hk). split; [lia|]. replace ((Z.shiftr m s + 1) * (2 ^ k * 2 ^ s)) with ((Z.shiftr m s + 1) * 2 ^ s * 2 ^ k) by ring. nia.
Qed.
Lemma inc_above z x : above z x -> above (z + 1) (inc x).
Proof. intros ((A & B) & C & D). unfold inc. unfold den in B. pose proof (pow2_pos (snd x) D). split; [unfold den; cbn [fst snd]; nia|cbn [fst snd]; lia]. Qed.
Lemma fadd_above y z a b : above y a -> above z b -> above (y + z) (fadd a b).
Proof.
  destruct a as [m k], b as [n l]. intros ((A & B) & C & D) ((A' & B') & C' & D'). unfold den, fadd in *. cbn [fst snd] in *.
  pose proof (pow2_pos k D). pose proof (pow2_pos l D'). destruct (k =? l) eqn:E; [apply Z.eqb_eq in E; subst l; apply cut_above; nia|]. apply Z.eqb_neq in E. destruct (k <? l) eqn:F.
  - apply Z.ltb_lt in F. destruct (shiftr_up m (l - k) C ltac:(lia)) as [G H']. apply cut_above; [lia|lia|]. split; [lia|]. replace l with (l - k + k) at 2 by lia. rewrite Z.pow_add_r by lia.
    replace (2 ^ l) with (2 ^ (l - k) * 2 ^ k) in B' by (rewrite <- Z.pow_add_r by lia; f_equal; lia). nia.
  - apply Z.ltb_ge in F. destruct (shiftr_up n (k - l) C' ltac:(lia)) as [G H']. apply cut_above; [lia|lia|]. split; [lia|]. replace k with (k - l + l) at 2 by lia. rewrite Z.pow_add_r by lia.
    replace (2 ^ k) with (2 ^ (k - l) * 2 ^ l) in B by (rewrite <- Z.pow_add_r by lia; f_equal; lia). nia.
Qed.
Lemma shr_above z s m k : 0 <= s -> 0 <= m -> 0 <= k -> 0 <= z <= m * 2 ^ k -> above (Z.shiftr z s + 1) (shr s m k).
Proof.
  intros Hs Hm Hk Hz. assert (P : 0 <= Z.shiftr z s) by (apply Z.shiftr_nonneg; lia). rewrite Z.shiftr_div_pow2 in * by exact Hs. pose proof (pow2_pos s Hs). unfold shr. destruct (s <=? k) eqn:E.
  - apply Z.leb_le in E. pose proof (pow2_pos (k - s) ltac:(lia)). apply inc_above, cut_above; [lia|lia|]. split; [lia|].
    apply Z.div_le_upper_bound; [lia|]. replace (2 ^ s * (m * 2 ^ (k - s))) with (m * (2 ^ s * 2 ^ (k - s))) by ring. rewrite <- Z.pow_add_r by lia. replace (s + (k - s)) with k by lia. lia.
  - apply Z.leb_gt in E. destruct (shiftr_up m (s - k) Hm ltac:(lia)) as [G H']. apply cut_above; [lia|lia|]. split; [lia|]. rewrite Z.pow_0_r, Z.mul_1_r. apply Z.add_le_mono_r. rewrite Z.shiftr_div_pow2 by lia.
    replace (2 ^ s) with (2 ^ k * 2 ^ (s - k)) by (rewrite <- Z.pow_add_r by lia; f_equal; lia). pose proof (pow2_pos k Hk). pose proof (pow2_pos (s - k) ltac:(lia)). rewrite <- Z.div_div by lia.
    apply Z.div_le_mono; [lia|]. apply Z.div_le_upper_bound; lia.
Qed.
Lemma fmul_above y z a b : above y a -> above z b -> above (upmul y z) (fmul a b).
Proof.
  intros ((A & B) & C & D) ((A' & B') & C' & D'). unfold upmul, fmul. unfold den in *. apply shr_above; [lia|nia|lia|]. split; [nia|]. rewrite Z.pow_add_r by lia.
  replace (fst a * fst b * (2 ^ snd a * 2 ^ snd b)) with (fst a * 2 ^ snd a * (fst b * 2 ^ snd b)) by ring. nia.
Qed.
Lemma furel_above z x : above z x -> above (urel z) (furel x).
Proof. intros ((A & B) & C & D). apply shr_above; unfold den in *; lia. Qed.
Lemma fround_above m i x y : above m x -> above i y -> above (fst (rounded m i)) (fst (fround x y)) /\ above (snd (rounded m i)) (snd (fround x y)).
Proof. intros A B. split; [exact A|]. apply inc_above, fadd_above; [exact B|]. apply furel_above, fadd_above; assumption. Qed.
Lemma fassec_above z x : above z x -> above (assec z) (fassec x).
Proof.
  intros ((A & B) & C & D). unfold assec, fassec. unfold den in B. set (w := fst x * 5330583).
  assert (H : above (Z.shiftr (z * 5330583) 40 + 1) (shr 40 w (snd x))). { apply shr_above; unfold w; [lia|lia|lia|]. split; [lia|]. replace (fst x * 5330583 * 2 ^ snd x) with (fst x * 2 ^ snd x * 5330583) by ring. nia. }
  destruct H as ((P & Q) & S). split; [|exact S]. assert (U : z * 4848136812 / 10 ^ 15 <= Z.shiftr (z * 5330583) 40).
  { rewrite Z.shiftr_div_pow2 by lia. apply Z.div_le_lower_bound; [lia|]. pose proof (Z.div_mod (z * 4848136812) (10 ^ 15) ltac:(lia)). pose proof (Z.mod_pos_bound (z * 4848136812) (10 ^ 15) ltac:(lia)). lia. }
  assert (0 <= z * 4848136812 / 10 ^ 15) by (apply Z.div_pos; lia). lia.
Qed.
Lemma fquo_above z x d : 0 < d -> above z x -> above (z / d + 1) (fquo x d).
Proof.
  intros Hd ((A & B) & C & D). destruct x as [m k]. unfold fquo, den in *. cbn [fst snd] in *. assert (0 <= z / d) by (apply Z.div_pos; lia). destruct (30 <=? k) eqn:E.
  - apply Z.leb_le in E. rewrite Z.shiftl_mul_pow2 by lia. pose proof (pow2_pos (k - 30) ltac:(lia)). assert (0 <= m * 2 ^ 30 / d) by (apply Z.div_pos; lia). apply cut_above; [lia|lia|]. split; [lia|].
    assert (z / d < (m * 2 ^ 30 / d + 1) * 2 ^ (k - 30)); [|lia]. apply Z.div_lt_upper_bound; [lia|].
    pose proof (Z.div_mod (m * 2 ^ 30) d ltac:(lia)). pose proof (Z.mod_pos_bound (m * 2 ^ 30) d ltac:(lia)).
    assert (z <= m * 2 ^ 30 * 2 ^ (k - 30)). { rewrite <- Z.mul_assoc, <- Z.pow_add_r by lia. replace (30 + (k - 30)) with k by lia. lia. } nia.
  - apply Z.leb_gt in E. rewrite Z.shiftl_mul_pow2 by lia. assert (z / d <= m * 2 ^ k / d) by (apply Z.div_le_mono; lia). apply cut_above; [lia|lia|]. lia.
Qed.
Lemma fsmall_ok m i x y : above m x -> above i y -> fsmall x y = true -> small (m, i) = true.
Proof.
  intros A B S. pose proof (fadd_above _ _ _ _ A B) as ((P & Q) & C & D). unfold fsmall in S. destruct (fadd x y) as [a k]. apply Z.ltb_lt in S. unfold den in Q. cbn [fst snd] in *. unfold small. cbn [fst snd].
  destruct A as ((A1 & _) & _), B as ((B1 & _) & _). apply andb_true_intro. split; [apply andb_true_intro; split; apply Z.leb_le; assumption|]. apply Z.leb_le.
  destruct (Z.eq_dec a 0) as [->|N]; [rewrite Z.mul_0_l in Q; lia|]. destruct (Z.log2_spec a ltac:(lia)) as [_ L]. pose proof (Z.log2_nonneg a) as LN. pose proof (pow2_pos k D).
  assert (2 ^ (Z.succ (Z.log2 a) + k) <= 2 ^ 180) by (apply Z.pow_le_mono_r; lia). rewrite Z.pow_add_r in H0 by lia. nia.
Qed.
Lemma zero_above : above 0 (0, 0).
Proof. split; cbn; lia. Qed.
Lemma below_above z y x : 0 <= z <= y -> above y x -> above z x.
Proof. intros H (A & B). split; [lia|exact B]. Qed.
Section Sound.
  Variables (vb : nat -> Z * Z) (fv : nat -> num * num).
  Hypothesis Hv : forall i, above (fst (vb i)) (fst (fv i)) /\ above (snd (vb i)) (snd (fv i)).
  Definition covers (p : (Z * Z) * bool) (q : (num * num) * bool) : Prop :=
    above (fst (fst p)) (fst (fst q)) /\ above (snd (fst p)) (snd (fst q)) /\ (snd q = true -> snd p = true).
  Lemma both_covers p b q c : above (fst p) (fst q) -> above (snd p) (snd q) -> (c = true -> b = true) -> covers (both p b) (fboth q c).
  Proof.
    destruct p as [m i], q as [x y]. cbn [fst snd]. intros A B C. unfold both, fboth. split; [exact A|]. split; [exact B|]. cbn [fst snd]. intros H. apply andb_prop in H as [H1 H2].
    apply andb_true_intro. split; [auto|]. exact (fsmall_ok m i x y A B H2).
  Qed.
  Lemma both2 a b c d : (a = true -> b = true) -> (c = true -> d = true) -> a && c = true -> b && d = true.
  Proof. intros H1 H2 H. apply andb_prop in H as [A B]. rewrite H1, H2 by assumption. reflexivity. Qed.
  Lemma ffit_ok n : ffit n = true -> fit53 n = true.
  Proof. exact (fun H => H). Qed.
  Lemma fb_covers e : covers (bnds vb e) (fb fv e).
  Proof.
    induction e; cbn [bnds fb].
    - apply both_covers; [apply Hv|apply Hv|auto].
    - apply both_covers; [apply cut_above; [lia|lia|]; cbn [fst]; split; [apply Z.mul_nonneg_nonneg; lia|apply Z.le_refl]|exact zero_above|auto].
    - assert (P : 0 < 10 ^ Z.of_nat k) by (apply Z.pow_pos_nonneg; lia).
      assert (A : above (Z.abs n * 2 ^ 120 / 10 ^ Z.of_nat k + 1) (cut (Z.shiftl (Z.abs n) 90 / 10 ^ Z.of_nat k + 1) 30)).
      { rewrite Z.shiftl_mul_pow2 by lia. set (d := 10 ^ Z.of_nat k) in *. assert (0 <= Z.abs n * 2 ^ 90 / d) by (apply Z.div_pos; lia). assert (0 <= Z.abs n * 2 ^ 120 / d) by (apply Z.div_pos; lia). apply cut_above; [lia|lia|]. split; [lia|].
        assert (Z.abs n * 2 ^ 120 / d < (Z.abs n * 2 ^ 90 / d + 1) * 2 ^ 30); [|lia]. apply Z.div_lt_upper_bound; [lia|]. pose proof (Z.div_mod (Z.abs n * 2 ^ 90) d ltac:(lia)). pose proof (Z.mod_pos_bound (Z.abs n * 2 ^ 90) d ltac:(lia)).
        change (2 ^ 120) with (2 ^ 90 * 2 ^ 30). nia. }
      destruct (fround_above _ _ _ _ A zero_above) as [B C]. apply both_covers; [exact B|exact C|auto].
    - exact IHe.
    - destruct (bnds vb e1) as [[ma ea] sa], (bnds vb e2) as [[mb eb] sb], (fb fv e1) as [[xa ya] ca], (fb fv e2) as [[xb yb] cb], IHe1 as (A1 & B1 & C1), IHe2 as (A2 & B2 & C2). cbn [fst snd] in *.
      destruct (fround_above _ _ _ _ (fadd_above _ _ _ _ A1 A2) (fadd_above _ _ _ _ B1 B2)) as [D E]. apply both_covers; [exact D|exact E|apply both2; assumption].
    - destruct (bnds vb e1) as [[ma ea] sa], (bnds vb e2) as [[mb eb] sb], (fb fv e1) as [[xa ya] ca], (fb fv e2) as [[xb yb] cb], IHe1 as (A1 & B1 & C1), IHe2 as (A2 & B2 & C2). cbn [fst snd] in *.
      destruct (fround_above _ _ _ _ (fadd_above _ _ _ _ A1 A2) (fadd_above _ _ _ _ B1 B2)) as [D E]. apply both_covers; [exact D|exact E|apply both2; assumption].
    - destruct (bnds vb e1) as [[ma ea] sa], (bnds vb e2) as [[mb eb] sb], (fb fv e1) as [[xa ya] ca], (fb fv e2) as [[xb yb] cb], IHe1 as (A1 & B1 & C1), IHe2 as (A2 & B2 & C2). cbn [fst snd] in *.
      destruct (fround_above _ _ _ _ (fmul_above _ _ _ _ A1 A2) (fadd_above _ _ _ _ (fadd_above _ _ _ _ (fmul_above _ _ _ _ B1 A2) (fmul_above _ _ _ _ A1 B2)) (fmul_above _ _ _ _ B1 B2))) as [D E].
      apply both_covers; [exact D|exact E|apply both2; assumption].
    - destruct (bnds vb e) as [[ma ea] sa], (fb fv e) as [[xa ya] ca], IHe as (A1 & B1 & C1). cbn [fst snd] in *.
      destruct (fround_above _ _ _ _ (fquo_above _ _ (Zpos d) eq_refl A1) (fquo_above _ _ (Zpos d) eq_refl B1)) as [D E]. apply both_covers; [exact D|exact E|exact (both2 _ _ _ _ C1 (ffit_ok (Zpos d)))].
    - destruct (bnds vb e) as [[ma ea] sa], (fb fv e) as [[xa ya] ca], IHe as (A1 & B1 & C1). cbn [fst snd] in *. apply both_covers; [split; cbn; lia|apply fadd_above; [exact B1|split; cbn; lia]|exact C1].
    - destruct (bnds vb e) as [[ma ea] sa], (fb fv e) as [[xa ya] ca], IHe as (A1 & B1 & C1). cbn [fst snd] in *. apply both_covers; [split; cbn; lia|apply fadd_above; [exact B1|split; cbn; lia]|exact C1].
    - destruct (bnds vb e) as [[ma ea] sa], (fb fv e) as [[xa ya] ca], IHe as (A1 & B1 & C1). cbn [fst snd] in *. pose proof (fassec_above _ _ A1) as A. pose proof (fassec_above _ _ B1) as B.
      cbv zeta. apply both_covers; [exact A| |exact C1]. cbn [fst snd]. apply inc_above, fadd_above; [exact B|]. pose proof (furel_above _ _ (fadd_above _ _ _ _ A B)) as ((P & Q) & S & T). unfold den in Q. pose proof (pow2_pos _ T). apply cut_above; nia.
  Qed.
  Lemma fle_ok x goal z : above z x -> 0 <= goal -> fle x goal = true -> z <= goal.
  Proof.
    intros ((A & B) & C & D) G H. apply Z.leb_le in H. rewrite Z.shiftr_div_pow2 in H by exact D. unfold den in B. pose proof (pow2_pos _ D). pose proof (Z.mul_div_le goal (2 ^ snd x) ltac:(lia)). nia.
  Qed.
  (** value, error and size at once *)
  Definition fcheck (m i : Z) (e : expr) : bool := let '(a, b, s) := fb fv e in s && fle a m && fle b i.
  Lemma fcheck_ok m i e : fcheck m i e = true -> 0 <= m -> 0 <= i -> fst (bnd vb e) <= m /\ snd (bnd vb e) <= i /\ snd (bnds vb e) = true.
  Proof.
    intros H Hm Hi. unfold fcheck in H. pose proof (fb_covers e) as C. rewrite <- bnds_bnd. destruct (bnds vb e) as [[x y] s], (fb fv e) as [[a b] c], C as (A & B & D). cbn [fst snd] in *.
    apply andb_prop in H as [H H3]. apply andb_prop in H as [H1 H2]. split; [exact (fle_ok _ _ _ A Hm H2)|]. split; [exact (fle_ok _ _ _ B Hi H3)|auto].
  Qed.
  Lemma fcheck_error i e : (let '(_, b, s) := fb fv e in s && fle b i) = true -> 0 <= i -> snd (bnd vb e) <= i /\ snd (bnds vb e) = true.
  Proof.
    intros H Hi. pose proof (fb_covers e) as C. rewrite <- bnds_bnd. destruct (bnds vb e) as [[x y] s], (fb fv e) as [[a b] c], C as (A & B & D). cbn [fst snd] in *.
    apply andb_prop in H as [H1 H3]. split; [exact (fle_ok _ _ _ B Hi H3)|auto].
  Qed.
End Sound.
