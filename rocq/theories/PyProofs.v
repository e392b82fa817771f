(** Proofs about the string functions of PyModel. *)
From Coq Require Import Ascii String ZArith List Bool Lia Zify.
From Verif Require Import Base CString FromChars PlanetModel PyModel AodMergeSpec.
Import ListNotations.
Open Scope Z_scope.

Lemma text_eqb_eq a b : text_eqb a b = true <-> a = b.
Proof.
  revert b. induction a as [|x a IH]; intros [|y b]; cbn; split; try discriminate; try reflexivity.
  - intros H. apply andb_true_iff in H as [H1 H2]. apply Z.eqb_eq in H1. apply IH in H2. subst. reflexivity.
  - intros H. injection H as -> ->. rewrite Z.eqb_refl. cbn. apply IH. reflexivity.
Qed.
Lemma text_eqb_refl a : text_eqb a a = true. Proof. apply text_eqb_eq. reflexivity. Qed.
Lemma text_eqb_neq a b : a <> b -> text_eqb a b = false.
Proof. intros N. destruct (text_eqb a b) eqn:E; [apply text_eqb_eq in E; contradiction|reflexivity]. Qed.
Lemma text_eqb_spec a b : reflect (a = b) (text_eqb a b).
Proof. destruct (text_eqb a b) eqn:E; constructor; [apply text_eqb_eq, E|]. intros ->. rewrite text_eqb_refl in E. discriminate. Qed.
Lemma isspace_white c : isspace c = true <-> white c.
Proof. unfold isspace, white. rewrite !orb_true_iff, !andb_true_iff, Z.eqb_eq, !Z.leb_le. tauto. Qed.
Lemma isspace_solid c : ~ white c -> isspace c = false.
Proof. intros N. destruct (isspace c) eqn:E; [apply isspace_white in E; contradiction|reflexivity]. Qed.

(** ** strip *)
Lemma lstrip_white b s : Forall white b -> lstrip (b ++ s) = lstrip s.
Proof. induction 1 as [|c b W _ IH]; [reflexivity|]. cbn. rewrite (proj2 (isspace_white c) W). exact IH. Qed.
Lemma lstrip_solid s : begins_solid s -> lstrip s = s.
Proof. destruct s as [|c s]; [reflexivity|]. intros B. cbn. rewrite isspace_solid by (apply (B c s eq_refl)). reflexivity. Qed.
Lemma lstrip_begins s : begins_solid (lstrip s).
Proof. induction s as [|c s IH]; [intros c r H; discriminate|]. cbn. destruct (isspace c) eqn:E; [exact IH|]. intros c' r H. injection H as <- <-. intros W. apply isspace_white in W. congruence. Qed.
Lemma ends_rev s : ends_solid s <-> begins_solid (rev s).
Proof.
  split.
  - intros E c r H. apply (E (rev r) c). rewrite <- (rev_involutive s), H. reflexivity.
  - intros B r c ->. apply (B c (rev r)). rewrite rev_app_distr. reflexivity.
Qed.
Lemma rstrip_white s b : Forall white b -> rstrip (s ++ b) = rstrip s.
Proof. intros W. unfold rstrip. rewrite rev_app_distr, lstrip_white; [reflexivity|]. apply Forall_rev, W. Qed.
Lemma rstrip_solid s : ends_solid s -> rstrip s = s.
Proof. intros E. unfold rstrip. rewrite lstrip_solid by (apply ends_rev, E). apply rev_involutive. Qed.
Lemma strip_between b1 s b2 : Forall white b1 -> Forall white b2 -> begins_solid s -> ends_solid s -> strip (b1 ++ s ++ b2) = s.
Proof.
  intros W1 W2 B E. unfold strip. rewrite lstrip_white by exact W1. destruct s as [|c s].
  - cbn. rewrite <- (app_nil_r b2), lstrip_white by exact W2. reflexivity.
  - rewrite lstrip_solid by (intros c' r H; injection H as <- _; apply (B c s eq_refl)). rewrite rstrip_white by exact W2. apply rstrip_solid, E.
Qed.
Lemma lstrip_suffix s : exists b, s = b ++ lstrip s /\ Forall white b.
Proof.
  induction s as [|c s (b & E & W)]; [exists []; split; [reflexivity|constructor]|]. cbn. destruct (isspace c) eqn:I; [|exists []; split; [reflexivity|constructor]].
  exists (c :: b). split; [cbn; rewrite <- E; reflexivity|]. constructor; [apply isspace_white, I|exact W].
Qed.
Lemma strip_parts s : exists b1 b2, s = b1 ++ strip s ++ b2 /\ Forall white b1 /\ Forall white b2.
Proof.
  destruct (lstrip_suffix s) as (b1 & E1 & W1). destruct (lstrip_suffix (rev (lstrip s))) as (b2 & E2 & W2). exists b1, (rev b2). unfold strip, rstrip.
  split; [|split; [exact W1|apply Forall_rev, W2]]. rewrite E1 at 1. f_equal. rewrite <- rev_app_distr, <- E2, rev_involutive. reflexivity.
Qed.
Lemma strip_in c s : In c s -> ~ white c -> In c (strip s).
Proof.
  intros I N. destruct (strip_parts s) as (b1 & b2 & E & W1 & W2). rewrite E in I. rewrite Forall_forall in W1, W2. rewrite !in_app_iff in I. destruct I as [I|[I|I]]; [exfalso; apply N, W1, I|exact I|exfalso; apply N, W2, I].
Qed.
Lemma strip_begins s : begins_solid (strip s).
Proof.
  unfold strip, rstrip. intros c r H W. pose proof (lstrip_begins s) as B. destruct (lstrip_suffix (rev (lstrip s))) as (b & E & _).
  assert (L : lstrip s = (c :: r) ++ rev b) by (rewrite <- H, <- rev_app_distr, <- E, rev_involutive; reflexivity). exact (B c (r ++ rev b) L W).
Qed.
Lemma gap_white s : gap s -> Forall white s. Proof. intros G. eapply Forall_impl; [|exact G]. cbn. tauto. Qed.
Lemma gap_line s : gap s -> one_line s. Proof. intros G. eapply Forall_impl; [|exact G]. cbn. tauto. Qed.
Lemma newline_white : white 10. Proof. right. left. lia. Qed.

(** ** lines *)
Lemma lines_concat s : concat (lines s) = s.
Proof.
  induction s as [|c s IH]; [reflexivity|]. cbn. destruct (c =? 10) eqn:E; [apply Z.eqb_eq in E; cbn; rewrite IH, E; reflexivity|].
  destruct (lines s) as [|l r]; cbn in *; [rewrite <- IH; reflexivity|rewrite IH; reflexivity].
Qed.
Lemma lines_cons l t : one_line l -> lines (l ++ 10 :: t) = (l ++ [10]) :: lines t.
Proof. induction 1 as [|c l N _ IH]; [reflexivity|]. cbn. rewrite (proj2 (Z.eqb_neq c 10) N), IH. reflexivity. Qed.
Lemma text_lines_cons l t : one_line l -> text_lines (l ++ 10 :: t) = l :: text_lines t.
Proof. induction 1 as [|c l N _ IH]; [reflexivity|]. cbn. rewrite (proj2 (Z.eqb_neq c 10) N), IH. reflexivity. Qed.

(** ** split, dict *)
Lemma split1_first c k v : Forall (fun x => x <> c) k -> split1 c (k ++ c :: v) = Some (k, v).
Proof. induction 1 as [|x k N _ IH]; cbn; [rewrite Z.eqb_refl; reflexivity|]. rewrite (proj2 (Z.eqb_neq x c) N), IH. reflexivity. Qed.
Lemma dset_new d k v : ~ In k (map fst d) -> dset d k v = d ++ [(k, v)].
Proof. induction d as [|[k' w] d IH]; [reflexivity|]. cbn. intros N. rewrite text_eqb_neq by (intros ->; apply N; left; reflexivity). rewrite IH by tauto. reflexivity. Qed.
Lemma dset_keys d k v : In k (map fst d) -> map fst (dset d k v) = map fst d.
Proof.
  induction d as [|[k' w] d IH]; [intros []|]. cbn. destruct (text_eqb_spec k k') as [->|N]; [reflexivity|]. intros [E|I]; [congruence|]. cbn. rewrite (IH I). reflexivity.
Qed.
Lemma dset_in d k v k' v' : NoDup (map fst d) -> In k (map fst d) -> In (k', v') (dset d k v) <-> (k' = k /\ v' = v) \/ (k' <> k /\ In (k', v') d).
Proof.
  induction d as [|[a w] d IH]; [intros _ []|]. cbn. intros ND I. inversion ND as [|? ? NI ND']; subst. destruct (text_eqb_spec k a) as [->|N].
  - cbn. split.
    + intros [E|E]; [injection E as <- <-; left; split; reflexivity|]. right. split; [intros ->; apply NI; apply in_map_iff; exists (a, v'); split; [reflexivity|exact E]|right; exact E].
    + intros [[-> ->]|[X [E|E]]]; [left; reflexivity|congruence|right; exact E].
  - destruct I as [E|I]; [congruence|]. cbn. rewrite (IH ND' I). split.
    + intros [E|[X|[X Y]]]; [injection E as <- <-; right; split; [congruence|left; reflexivity]|left; exact X|right; split; [exact X|right; exact Y]].
    + intros [X|[X [E|Y]]]; [right; left; exact X|left; exact E|right; right; split; assumption].
Qed.
Lemma dget_in d k v : NoDup (map fst d) -> dget d k = Some v <-> In (k, v) d.
Proof.
  induction d as [|[a w] d IH]; cbn; [split; [discriminate|intros []]|]. intros ND. inversion ND as [|? ? NI ND']; subst. destruct (text_eqb_spec k a) as [->|N].
  - split; [intros E; injection E as ->; left; reflexivity|]. intros [E|E]; [injection E as ->; reflexivity|]. exfalso. apply NI. apply in_map_iff. exists (a, v). split; [reflexivity|exact E].
  - rewrite (IH ND'). split; [intros E; right; exact E|]. intros [E|E]; [congruence|exact E].
Qed.
Lemma dget_set d k v : dget (dset d k v) k = Some v.
Proof. induction d as [|[a w] d IH]; cbn; [rewrite text_eqb_refl; reflexivity|]. destruct (text_eqb_spec k a) as [E|N]; cbn; [rewrite E, text_eqb_refl; reflexivity|]. rewrite text_eqb_neq by exact N. exact IH. Qed.
Lemma dget_set_other d k k' v : k' <> k -> dget (dset d k v) k' = dget d k'.
Proof.
  intros N. induction d as [|[a w] d IH]; cbn; [rewrite text_eqb_neq by exact N; reflexivity|]. destruct (text_eqb_spec k a) as [->|E]; cbn; [rewrite (text_eqb_neq k' a) by exact N; reflexivity|].
  destruct (text_eqb k' a); [reflexivity|exact IH].
Qed.
Lemma dget_some d k v : dget d k = Some v -> In (k, v) d.
Proof. induction d as [|[a w] d IH]; cbn; [discriminate|]. destruct (text_eqb_spec k a) as [->|N]; [intros E; injection E as ->; left; reflexivity|intros E; right; exact (IH E)]. Qed.

(** ** numbers *)
Lemma dig_digit c : is_dig c = true <-> digit c.
Proof. unfold is_dig, digit. rewrite andb_true_iff, !Z.leb_le. tauto. Qed.
Lemma digit_solid c : digit c -> ~ white c. Proof. unfold digit, white. lia. Qed.
Lemma digits_begins w : w <> [] -> Forall digit w -> begins_solid w /\ ends_solid w.
Proof.
  intros _ F. split; [intros c r ->; inversion F; subst; apply digit_solid; assumption|]. intros r c ->. apply Forall_app in F as [_ F]. inversion F; subst. apply digit_solid. assumption.
Qed.
Lemma parse_decimal w n b1 b2 : decimal_text w n -> Forall white b1 -> Forall white b2 -> parse_int (b1 ++ w ++ b2) = Some n.
Proof.
  intros (N & F & V) W1 W2. unfold parse_int. destruct (digits_begins w N F) as [B E]. rewrite strip_between by assumption.
  assert (T : take_digits w = (w, [])). { rewrite <- (app_nil_r w) at 1. apply take_digits_app; [|exact I]. eapply Forall_impl; [|exact F]. intros c D. apply dig_digit, D. }
  destruct w as [|c w]; [contradiction|]. assert (D : digit c) by (inversion F; assumption). unfold digit in D.
  rewrite (proj2 (Z.eqb_neq c 45)), (proj2 (Z.eqb_neq c 43)) by lia. cbn [orb]. rewrite T, V. reflexivity.
Qed.
Lemma parse_signed w n b1 b2 : decimal_text w n -> Forall white b1 -> Forall white b2 -> parse_int (b1 ++ (45 :: w) ++ b2) = Some (- n) /\ parse_int (b1 ++ (43 :: w) ++ b2) = Some n.
Proof.
  intros (N & F & V) W1 W2. destruct (digits_begins w N F) as [B E].
  assert (T : take_digits w = (w, [])). { rewrite <- (app_nil_r w) at 1. apply take_digits_app; [|exact I]. eapply Forall_impl; [|exact F]. intros c D. apply dig_digit, D. }
  assert (X : forall s, s = 45 \/ s = 43 -> begins_solid (s :: w) /\ ends_solid (s :: w)).
  { intros s S. split; [intros c r H; injection H as <- <-; unfold white; lia|]. intros r c H. destruct r as [|y r]; [injection H as _ H; contradiction|]. injection H as _ H. exact (E r c H). }
  destruct (X 45 (or_introl eq_refl)) as [B1 E1], (X 43 (or_intror eq_refl)) as [B2 E2]. unfold parse_int. rewrite !strip_between by assumption. cbn [tl]. change (45 =? 45) with true. change (43 =? 43) with true. change (43 =? 45) with false. change (45 =? 43) with false. cbn [orb].
  rewrite T. destruct w as [|c w]; [contradiction|]. rewrite V. split; reflexivity.
Qed.
Lemma digits_val_app a b : digits_val (a ++ b) = digits_val a * 10 ^ Z.of_nat (length b) + digits_val b.
Proof.
  unfold digits_val. rewrite fold_left_app. generalize (fold_left (fun a c => 10 * a + (c - 48)) a 0) as x. clear a. induction b as [|c b IH]; intros x; cbn [fold_left length]; [change (10 ^ Z.of_nat 0) with 1; lia|].
  rewrite IH. rewrite (IH (10 * 0 + (c - 48))). rewrite Nat2Z.inj_succ, Z.pow_succ_r by lia. lia.
Qed.
Lemma digits_spec k n after : 0 <= n < 2 ^ Z.of_nat k -> (0 < k)%nat -> exists w, digits k n after = w ++ after /\ decimal_text w n.
Proof.
  revert n after. induction k as [|k IH]; intros n after H K; [lia|]. cbn [digits]. destruct (n <? 10) eqn:E.
  - apply Z.ltb_lt in E. exists [48 + n]. split; [reflexivity|]. split; [discriminate|]. split; [constructor; [unfold digit; lia|constructor]|]. unfold digits_val. cbn [fold_left]. lia.
  - apply Z.ltb_ge in E. rewrite Nat2Z.inj_succ, Z.pow_succ_r in H by lia. assert (K' : (0 < k)%nat) by (destruct k; [change (2 ^ Z.of_nat 0) with 1 in H; lia|lia]).
    assert (D : n = 10 * (n / 10) + n mod 10) by (apply Z_div_mod_eq_full). pose proof (Z.mod_pos_bound n 10 ltac:(lia)) as M.
    destruct (IH (n / 10) (48 + n mod 10 :: after)) as (w & -> & N & F & V); [split; [apply Z.div_pos; lia|apply Z.div_lt_upper_bound; lia]|exact K'|]. exists (w ++ [48 + n mod 10]). split; [rewrite <- app_assoc; reflexivity|].
    split; [destruct w; discriminate|]. split; [apply Forall_app; split; [exact F|constructor; [unfold digit; lia|constructor]]|]. rewrite digits_val_app, V. cbn [length]. change (10 ^ Z.of_nat 1) with 10. unfold digits_val. cbn [fold_left]. lia.
Qed.
Lemma str_int_decimal n : 0 <= n -> decimal_text (str_int n) n.
Proof.
  intros H. unfold str_int. rewrite (proj2 (Z.ltb_ge n 0) H), Z.abs_eq by exact H. destruct (digits_spec (S (Z.to_nat (Z.log2 n))) n []) as (w & E & D); [|lia|rewrite E, app_nil_r; exact D].
  split; [exact H|]. rewrite Nat2Z.inj_succ, Z2Nat.id by apply Z.log2_nonneg. destruct (Z.eq_dec n 0) as [->|N]; [reflexivity|]. apply Z.log2_spec. lia.
Qed.
