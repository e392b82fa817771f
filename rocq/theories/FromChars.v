(** std::from_chars on a character range, given as the list of its characters. A scanner returns the value, if
    there is one, and the characters from the returned pointer on. *)
From Coq Require Import Reals ZArith List Bool Lia Lra.
From Verif Require Import Base.
Import ListNotations.
Open Scope Z_scope.

Definition is_dig (c : Z) : bool := (48 <=? c) && (c <=? 57).
Fixpoint take_digits (s : list Z) : list Z * list Z :=
  match s with
  | c :: t => if is_dig c then let (d, r) := take_digits t in (c :: d, r) else ([], s)
  | [] => ([], [])
  end.
Definition digits_val (d : list Z) : Z := fold_left (fun a c => 10 * a + (c - 48)) d 0.

(** integer types with values in [lo, hi]: '-' digits; no blanks, no '+' *)
Definition scan_int (lo hi : Z) (s : list Z) : option Z * list Z :=
  let neg := match s with c :: _ => c =? 45 | [] => false end in
  let (d, r) := take_digits (if neg then tl s else s) in
  match d with
  | [] => (None, s)
  | _ => let v := if neg then - digits_val d else digits_val d in
         (if (lo <=? v) && (v <=? hi) then Some v else None, r)
  end.
Definition scan_i32 := scan_int (- 2 ^ 31) (2 ^ 31 - 1).
Definition scan_i64 := scan_int (- 2 ^ 63) (2 ^ 63 - 1).

(** double, general format: '-' digits '.' digits exponent. The value is the decimal number itself (rounding to
    double and range errors are left out), inf and nan are not read. *)
Definition take_fraction (s : list Z) : list Z * list Z :=
  match s with c :: t => if c =? 46 then take_digits t else ([], s) | [] => ([], []) end.
Definition take_exponent (s : list Z) : Z * list Z :=
  match s with
  | c :: t =>
      if (c =? 101) || (c =? 69) then
        let neg := match t with c :: _ => c =? 45 | [] => false end in
        let sgn := neg || match t with c :: _ => c =? 43 | [] => false end in
        let (d, r) := take_digits (if sgn then tl t else t) in
        match d with [] => (0, s) | _ => (if neg then - digits_val d else digits_val d, r) end
      else (0, s)
  | [] => (0, [])
  end.
Definition pow10 (e : Z) : R := powerRZ 10 e.
Definition scan_dbl (s : list Z) : option R * list Z :=
  let neg := match s with c :: _ => c =? 45 | [] => false end in
  let (d, r) := take_digits (if neg then tl s else s) in
  let (f, r2) := take_fraction r in
  match d ++ f with
  | [] => (None, s)
  | df => let (e, r3) := take_exponent r2 in
          let v := (IZR (digits_val df) * pow10 (e - Z.of_nat (length f)))%R in
          (Some (if neg then (- v)%R else v), r3)
  end.

(** ** words: blank-separated *)
(** skip blanks *)
Fixpoint skip_blanks (s : list Z) : list Z :=
  match s with c :: t => if c =? 32 then skip_blanks t else s | [] => [] end.
(** the text after a word: empty or starting with a blank *)
Definition at_blank (s : list Z) : Prop := match s with [] => True | c :: _ => c = 32 end.
Definition word (w : list Z) : Prop := w <> [] /\ Forall (fun c => c <> 32) w.

Lemma take_digits_spec s d r : take_digits s = (d, r) -> s = d ++ r /\ Forall (fun c => is_dig c = true) d /\ match r with c :: _ => is_dig c = false | [] => True end.
Proof.
  revert d r; induction s as [|c s IH]; intros d r; simpl.
  - intros H; injection H as <- <-. repeat split; constructor.
  - destruct (is_dig c) eqn:E.
    + destruct (take_digits s) as (d', r') eqn:E'. intros H; injection H as <- <-. destruct (IH _ _ eq_refl) as (-> & F & X). repeat split; [constructor; assumption|exact X].
    + intros H; injection H as <- <-. repeat split; [constructor|exact E].
Qed.
Lemma take_digits_app d r : Forall (fun c => is_dig c = true) d -> match r with c :: _ => is_dig c = false | [] => True end -> take_digits (d ++ r) = (d, r).
Proof.
  induction 1 as [|c d Hc F IH]; simpl; intros X.
  - destruct r as [|c r]; [reflexivity|]. simpl. rewrite X. reflexivity.
  - rewrite Hc, IH by exact X. reflexivity.
Qed.
(** appending a blank-led rest does not change what is scanned *)
Lemma take_digits_blank s rest d r : at_blank rest -> take_digits s = (d, r) -> take_digits (s ++ rest) = (d, r ++ rest).
Proof.
  intros B H. apply take_digits_spec in H as (-> & F & X). rewrite <- app_assoc. apply take_digits_app; [exact F|].
  destruct r; simpl; [|exact X]. destruct rest; [exact I|]. simpl in B. subst. reflexivity.
Qed.
Lemma digit_not_minus s c : is_dig c = true -> (match c :: s with c :: _ => c =? 45 | [] => false end) = false.
Proof. unfold is_dig. rewrite andb_true_iff, !Z.leb_le. intros. apply Z.eqb_neq. lia. Qed.

(** a scanner that reads a whole word reads it in any context where a blank or the end follows *)
Definition word_scanner {A} (scan : list Z -> option A * list Z) : Prop :=
  forall w v, scan w = (Some v, []) -> forall rest, at_blank rest -> scan (w ++ rest) = (Some v, rest).

Lemma scan_int_word lo hi : word_scanner (scan_int lo hi).
Proof.
  intros w v H rest B. unfold scan_int in *. destruct w as [|c w]; [discriminate|]. cbn [app tl] in *.
  set (neg := c =? 45) in *. destruct (take_digits (if neg then w else c :: w)) as (d, r) eqn:E.
  assert (r = []) by (destruct d; [discriminate H|injection H; auto]). subst r.
  apply (take_digits_blank _ rest) in E; [|exact B]. cbn [app] in E.
  replace (if neg then w ++ rest else c :: w ++ rest) with ((if neg then w else c :: w) ++ rest) by (destruct neg; reflexivity).
  rewrite E. destruct d; [discriminate|]. injection H as H. rewrite H. reflexivity.
Qed.

Lemma take_fraction_blank s rest f r : at_blank rest -> take_fraction s = (f, r) -> take_fraction (s ++ rest) = (f, r ++ rest).
Proof.
  intros B. destruct s as [|c s]; simpl.
  - intros H; injection H as <- <-. destruct rest as [|x rest]; [reflexivity|]. simpl in B. subst. reflexivity.
  - destruct (c =? 46); [apply take_digits_blank, B|]. intros H; injection H as <- <-. reflexivity.
Qed.
Lemma take_exponent_blank s rest e : at_blank rest -> take_exponent s = (e, []) -> take_exponent (s ++ rest) = (e, rest).
Proof.
  intros B. destruct s as [|c s]; simpl.
  - intros H; injection H as <-. destruct rest as [|x rest]; [reflexivity|]. simpl in B. subst. reflexivity.
  - destruct ((c =? 101) || (c =? 69)); [|discriminate]. destruct s as [|c' s]; [discriminate|]. cbn [app tl].
    set (sgn := (c' =? 45) || (c' =? 43)). destruct (take_digits (if sgn then s else c' :: s)) as (d, r) eqn:E. intros H.
    assert (r = []) by (destruct d; [discriminate H|injection H; auto]). subst r.
    apply (take_digits_blank _ rest) in E; [|exact B]. cbn [app] in E.
    replace (if sgn then s ++ rest else c' :: s ++ rest) with ((if sgn then s else c' :: s) ++ rest) by (destruct sgn; reflexivity).
    rewrite E. destruct d; [discriminate|]. injection H as <-. reflexivity.
Qed.
Lemma take_exponent_nonempty s e c t : s = c :: t -> take_exponent s = (e, []) -> (c = 101 \/ c = 69)%Z.
Proof.
  intros -> H. simpl in H. destruct ((c =? 101) || (c =? 69)) eqn:E; [|discriminate]. apply orb_true_iff in E as [E|E]; apply Z.eqb_eq in E; auto.
Qed.
Lemma scan_dbl_word : word_scanner scan_dbl.
Proof.
  intros w v H rest B. unfold scan_dbl in *. destruct w as [|c w]; [discriminate|]. cbn [app tl] in *.
  set (neg := c =? 45) in *. destruct (take_digits (if neg then w else c :: w)) as (d, r) eqn:E.
  apply (take_digits_blank _ rest) in E; [|exact B].
  replace (if neg then w ++ rest else c :: w ++ rest) with ((if neg then w else c :: w) ++ rest) by (destruct neg; reflexivity).
  rewrite E. destruct (take_fraction r) as (f, r2) eqn:F. apply (take_fraction_blank _ rest) in F; [|exact B]. rewrite F.
  destruct (d ++ f); [discriminate|]. destruct (take_exponent r2) as (e, r3) eqn:X. injection H as H ->.
  rewrite (take_exponent_blank _ _ _ B X). rewrite H. reflexivity.
Qed.

Lemma skip_blanks_repeat n s : (match s with c :: _ => c <> 32 | [] => True end) -> skip_blanks (repeat 32 n ++ s) = s.
Proof. intros H. induction n; simpl; [|exact IHn]. destruct s as [|c s]; [reflexivity|]. simpl. destruct (Z.eqb_spec c 32); [congruence|reflexivity]. Qed.
Lemma skip_blanks_word n w s : word w -> skip_blanks (repeat 32 n ++ w ++ s) = w ++ s.
Proof. intros (N & F). apply skip_blanks_repeat. destruct w as [|c w]; [congruence|]. inversion F; subst. assumption. Qed.

(** decimal notation of integers, to state examples and round trips *)
Lemma digits_val_app a b : digits_val (a ++ b) = fold_left (fun a c => 10 * a + (c - 48)) b (digits_val a).
Proof. unfold digits_val. apply fold_left_app. Qed.

(** "%d" of a nonnegative integer *)
Fixpoint dec_aux (fuel : nat) (n : Z) (acc : list Z) : list Z :=
  match fuel with
  | O => acc
  | S k => if n <? 10 then (48 + n) :: acc else dec_aux k (n / 10) ((48 + n mod 10) :: acc)
  end.
Definition dec (n : Z) : list Z := dec_aux (S (Z.to_nat (Z.log2 n))) n [].

Lemma dec_aux_val fuel n acc : 0 <= n < 10 ^ Z.of_nat fuel ->
  fold_left (fun a c => 10 * a + (c - 48)) (dec_aux fuel n acc) 0 = fold_left (fun a c => 10 * a + (c - 48)) acc n.
Proof.
  revert n acc; induction fuel as [|k IH]; intros n acc H.
  - simpl in H. assert (n = 0) by lia. subst. reflexivity.
  - cbn [dec_aux]. destruct (Z.ltb_spec n 10).
    + cbn [fold_left]. f_equal. lia.
    + rewrite IH. 2:{ rewrite Nat2Z.inj_succ, Z.pow_succ_r in H by lia. split; [apply Z.div_pos; lia|apply Z.div_lt_upper_bound; lia]. }
      cbn [fold_left]. f_equal. pose proof (Z.div_mod n 10). lia.
Qed.
Lemma dec_aux_digits fuel n acc : 0 <= n -> Forall (fun c => is_dig c = true) acc -> Forall (fun c => is_dig c = true) (dec_aux fuel n acc).
Proof.
  assert (D : forall x, 0 <= x < 10 -> is_dig (48 + x) = true) by (intros; unfold is_dig; apply andb_true_iff; rewrite !Z.leb_le; lia).
  revert n acc; induction fuel as [|k IH]; intros n acc H F; [exact F|]. cbn [dec_aux]. destruct (Z.ltb_spec n 10).
  - constructor; [apply D; lia|exact F].
  - apply IH; [apply Z.div_pos; lia|]. constructor; [apply D, Z.mod_pos_bound; lia|exact F].
Qed.
Lemma dec_val n : 0 <= n -> digits_val (dec n) = n.
Proof.
  intros H. unfold digits_val, dec. rewrite dec_aux_val; [reflexivity|]. split; [lia|]. rewrite Nat2Z.inj_succ, Z2Nat.id by apply Z.log2_nonneg.
  destruct (Z.eq_dec n 0) as [->|N]; [cbn; lia|]. pose proof (Z.log2_spec n ltac:(lia)) as (_ & L).
  eapply Z.lt_le_trans; [exact L|]. apply Z.pow_le_mono_l. lia.
Qed.
Lemma dec_digits n : 0 <= n -> Forall (fun c => is_dig c = true) (dec n).
Proof. intros H. apply dec_aux_digits; [exact H|constructor]. Qed.
Lemma dec_aux_nonempty fuel n acc : (acc <> [] \/ fuel <> O) -> dec_aux fuel n acc <> [].
Proof.
  revert n acc; induction fuel as [|k IH]; intros n acc H; cbn [dec_aux]; [tauto|]. destruct (n <? 10); [discriminate|]. apply IH. left. discriminate.
Qed.
Lemma dec_nonempty n : dec n <> [].
Proof. apply dec_aux_nonempty. right. discriminate. Qed.
Lemma dec_small n : 0 <= n < 10 -> dec n = [48 + n].
Proof. intros H. unfold dec. cbn [dec_aux]. destruct (Z.ltb_spec n 10); [reflexivity|lia]. Qed.
Lemma dec_two n : 10 <= n < 100 -> dec n = [48 + n / 10; 48 + n mod 10].
Proof.
  intros H. unfold dec. assert (1 <= Z.log2 n) by (apply (Z.log2_le_mono 2); lia). assert (exists k, Z.to_nat (Z.log2 n) = S k) as (k & ->) by (exists (Z.to_nat (Z.log2 n - 1)); lia).
  cbn [dec_aux]. destruct (Z.ltb_spec n 10); [lia|]. assert (n / 10 < 10) by (apply Z.div_lt_upper_bound; lia). destruct (Z.ltb_spec (n / 10) 10); [reflexivity|lia].
Qed.
Lemma scan_int_digits lo hi d rest : d <> [] -> Forall (fun c => is_dig c = true) d -> (match rest with c :: _ => is_dig c = false | [] => True end) ->
  lo <= digits_val d <= hi -> scan_int lo hi (d ++ rest) = (Some (digits_val d), rest).
Proof.
  intros N F X B. destruct d as [|c d]; [congruence|]. unfold scan_int. cbn [app]. inversion F; subst. rewrite (digit_not_minus [] c H1).
  change (c :: d ++ rest) with ((c :: d) ++ rest). rewrite take_digits_app by assumption.
  replace ((lo <=? digits_val (c :: d)) && (digits_val (c :: d) <=? hi)) with true; [reflexivity|]. symmetry. apply andb_true_iff. rewrite !Z.leb_le. exact B.
Qed.
(** reading what was written *)
Lemma scan_dec lo hi n rest : 0 <= n -> lo <= n <= hi -> (match rest with c :: _ => is_dig c = false | [] => True end) ->
  scan_int lo hi (dec n ++ rest) = (Some n, rest).
Proof.
  intros H B X. rewrite <- (dec_val n H) at 2. apply scan_int_digits; [apply dec_nonempty|apply dec_digits, H|exact X|rewrite dec_val by exact H; exact B].
Qed.
