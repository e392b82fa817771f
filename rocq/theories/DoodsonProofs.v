From Coq Require Import Ascii String ZArith List Bool Lia.
From Verif Require Import Base CString DoodsonModel DoodsonSpec.
Import ListNotations.
Open Scope Z_scope.

Ltac bz := repeat match goal with
  | H : (_ && _)%bool = true |- _ => apply andb_true_iff in H; destruct H
  | H : (_ <=? _) = true |- _ => apply Z.leb_le in H
  | H : (_ <=? _) = false |- _ => apply Z.leb_gt in H
  end.

(** ** single characters *)
Lemma denotes_sweep (P : Z -> Z -> bool) : forallb (fun p => P (fst p) (snd p)) alphabet = true ->
  forall c v, denotes c v -> P c v = true.
Proof. intros H c v D. rewrite forallb_forall in H. exact (H _ D). Qed.

Lemma denotes_range c v : denotes c v -> -13 <= v <= 22 /\ 0 < c < 128.
Proof.
  intros D. pose proof (denotes_sweep (fun c v => (-13 <=? v) && (v <=? 22) && (0 <? c) && (c <? 128)) eq_refl c v D) as H.
  simpl in H. rewrite !andb_true_iff, !Z.leb_le, !Z.ltb_lt in H. lia.
Qed.

Lemma char2int_sound c v : denotes c v -> char2int c = Ok (Some v).
Proof.
  intros D. assert (H := denotes_sweep (fun c v => match char2int c with Ok (Some w) => v =? w | _ => false end)
    ltac:(vm_compute; reflexivity) c v D).
  simpl in H. destruct (char2int c) as [[w|]| | |]; try discriminate. apply Z.eqb_eq in H. congruence.
Qed.

Lemma char2int_bound c v : char2int c = Ok (Some v) -> 0 <= c < 128.
Proof.
  unfold char2int, isdigit, tolower. destruct (ctype_ok c); [|discriminate]. cbn [bind].
  destruct ((48 <=? c) && (c <=? 57)) eqn:E; [intros _; bz; lia|]. cbn [bind].
  destruct ((65 <=? c) && (c <=? 90)) eqn:E1; [intros _; bz; lia|]. cbn [bind].
  destruct ((97 <=? c) && (c <=? 109)) eqn:E2; [intros _; bz; lia|].
  destruct ((110 <=? c) && (c <=? 122)) eqn:E3; [intros _; bz; lia|]. discriminate.
Qed.

Definition known (c v : Z) : bool := existsb (fun p => (fst p =? c) && (snd p =? v)) alphabet.
Lemma known_denotes c v : known c v = true -> denotes c v.
Proof.
  unfold known. rewrite existsb_exists. intros ([x y] & Hin & E). simpl in E. bz.
  apply andb_true_iff in E || idtac. repeat match goal with H : (_ =? _) = true |- _ => apply Z.eqb_eq in H end. subst. exact Hin.
Qed.

Lemma char2int_complete c v : char2int c = Ok (Some v) -> denotes c v.
Proof.
  intros H. pose proof (char2int_bound c v H) as B.
  assert (S : forallb (fun c => match char2int c with Ok (Some w) => known c w | _ => true end) (zrange2 0 128) = true)
    by (vm_compute; reflexivity).
  rewrite forallb_forall in S. specialize (S c ltac:(apply in_zrange2; lia)). rewrite H in S. apply known_denotes, S.
Qed.

Lemma char2int_total c : -1 <= c -> char2int c = Ok None \/ exists v, char2int c = Ok (Some v).
Proof.
  intros H. unfold char2int, isdigit, tolower, ctype_ok. destruct (Z.leb_spec (-1) c); [|lia]. cbn [bind].
  repeat match goal with |- context [if ?b then _ else _] => destruct b; cbn [bind] end; eauto.
Qed.

Lemma denotes_fun c v w : denotes c v -> denotes c w -> v = w.
Proof. intros D E. apply char2int_sound in D, E. congruence. Qed.

Lemma int2char_denotes d : -13 <= d <= 22 -> denotes (int2char d) d.
Proof.
  intros H. apply known_denotes.
  assert (S : forallb (fun d => known (int2char d) d) (zrange2 (-13) 23) = true) by (vm_compute; reflexivity).
  rewrite forallb_forall in S. apply S, in_zrange2. lia.
Qed.

Lemma int2char_of_denotes c v : denotes c v -> int2char v = fold_case c.
Proof.
  intros D. apply Z.eqb_eq. exact (denotes_sweep (fun c v => int2char v =? fold_case c) ltac:(vm_compute; reflexivity) c v D).
Qed.

(** ** from_chars *)
Definition seven (a b c p e f g : Z) (rest : list Z) : list Z := a :: b :: c :: p :: e :: f :: g :: rest.

Lemma rd_seven a b c p e f g rest : let s := seven a b c p e f g rest in
  rd s 0 = Ok a /\ rd s 1 = Ok b /\ rd s 2 = Ok c /\ rd s 3 = Ok p /\ rd s 4 = Ok e /\ rd s 5 = Ok f /\ rd s 6 = Ok g.
Proof. repeat split. Qed.

Lemma from_chars_accepts s d : text_denotes s d -> from_chars s = Ok (Some d).
Proof.
  intros (a & b & c & p & e & f & g & rest & -> & -> & D0 & D1 & D2 & D3 & D4 & D5 & Hp).
  unfold from_chars, field. pose proof (rd_seven a b c 46 e f g rest) as (R0 & R1 & R2 & R3 & R4 & R5 & R6).
  fold (seven a b c 46 e f g rest). rewrite R0, R1, R2, R4, R5, R6, R3. cbn [bind].
  rewrite (char2int_sound _ _ D0), (char2int_sound _ _ D1), (char2int_sound _ _ D2), (char2int_sound _ _ D3),
    (char2int_sound _ _ D4), (char2int_sound _ _ D5). cbn [bind].
  destruct d; simpl in *. subst. repeat f_equal; lia.
Qed.

Lemma rd_six s g : rd s 6 = Ok g -> exists a b c p e f rest, s = seven a b c p e f g rest.
Proof.
  destruct s as [|a [|b [|c [|p [|e' [|f [|g' rest]]]]]]]; unfold rd, znth; simpl; try discriminate.
  intros H. inversion H; subst. do 7 eexists. reflexivity.
Qed.

Ltac one H := match type of H with (bind (rd ?s ?i) _ = _) =>
  let c := fresh "x" in let E := fresh "R" in destruct (rd s i) as [c| | |] eqn:E; cbn [bind] in H; try discriminate H end.
Ltac two H := match type of H with (bind (char2int ?c) _ = _) =>
  let v := fresh "v" in let E := fresh "C" in destruct (char2int c) as [[v|]| | |] eqn:E; cbn [bind] in H; try discriminate H end.

Lemma from_chars_sound s d : from_chars s = Ok (Some d) -> text_denotes s d.
Proof.
  unfold from_chars, field. intros H.
  one H; two H. one H; two H. one H; two H. one H; two H. one H; two H. one H; two H. one H.
  match type of H with context [negb (?x =? 46)] => destruct (Z.eqb_spec x 46); cbn [negb] in H; [|destruct (c_str s); discriminate] end.
  inversion H; subst d; clear H.
  destruct (rd_six _ _ R4) as (a & b & c & p & e' & f & rest & ->).
  destruct (rd_seven a b c p e' f x4 rest) as (Q0 & Q1 & Q2 & Q3 & Q4 & Q5 & Q6).
  assert (x = a) by congruence. assert (x0 = b) by congruence. assert (x1 = c) by congruence. assert (x2 = e') by congruence.
  assert (x3 = f) by congruence. assert (x5 = p) by congruence. subst.
  do 8 eexists. split; [reflexivity|]. cbn [n0 n1 n2 n3 n4 n5 pifac]. rewrite Z.sub_0_r, !Z.sub_add.
  repeat split; apply char2int_complete; assumption.
Qed.

(** what happens on other texts *)
Lemma c_str_ok s : In 0 s -> exists t, c_str s = Ok t.
Proof.
  induction s as [|c s IH]; intros H; [destruct H|]. simpl. destruct (Z.eqb_spec c 0); [eauto|].
  destruct H as [H|H]; [congruence|]. destruct (IH H) as (t & ->). cbn [bind]. eauto.
Qed.

Lemma from_chars_total s : (7 <= length s)%nat -> Forall (fun c => -1 <= c) s -> In 0 s ->
  from_chars s = Ok None \/ exists d, from_chars s = Ok (Some d).
Proof.
  intros L F Z0. destruct (c_str_ok s Z0) as (t & Ht).
  destruct s as [|a [|b [|c [|p [|e' [|f [|g rest]]]]]]]; try (simpl in L; lia).
  set (s := a :: b :: c :: p :: e' :: f :: g :: rest) in *.
  destruct (rd_seven a b c p e' f g rest) as (Q0 & Q1 & Q2 & Q3 & Q4 & Q5 & Q6). unfold seven in *. fold s in Q0, Q1, Q2, Q3, Q4, Q5, Q6.
  unfold from_chars, field. rewrite Q0, Q1, Q2, Q3, Q4, Q5, Q6. cbn [bind].
  assert (T : forall c, In c s -> char2int c = Ok None \/ exists v, char2int c = Ok (Some v)).
  { intros x Hx. apply char2int_total. rewrite Forall_forall in F. apply F, Hx. }
  assert (I : forall x, In x [a; b; c; e'; f; g] -> In x s) by (unfold s; simpl; tauto).
  destruct (T a) as [->|(v0 & ->)]; [apply I; simpl; tauto|left; reflexivity|]. cbn [bind].
  destruct (T b) as [->|(v1 & ->)]; [apply I; simpl; tauto|left; reflexivity|]. cbn [bind].
  destruct (T c) as [->|(v2 & ->)]; [apply I; simpl; tauto|left; reflexivity|]. cbn [bind].
  destruct (T e') as [->|(v3 & ->)]; [apply I; simpl; tauto|left; reflexivity|]. cbn [bind].
  destruct (T f) as [->|(v4 & ->)]; [apply I; simpl; tauto|left; reflexivity|]. cbn [bind].
  destruct (T g) as [->|(v5 & ->)]; [apply I; simpl; tauto|left; reflexivity|]. cbn [bind].
  destruct (p =? 46); cbn [negb]; [right; eauto|]. left. rewrite Ht. reflexivity.
Qed.

Lemma from_chars_iff s d : from_chars s = Ok (Some d) <-> text_denotes s d.
Proof. split; [apply from_chars_sound|apply from_chars_accepts]. Qed.

Lemma from_chars_rejects s : (7 <= length s)%nat -> Forall (fun c => -1 <= c) s -> In 0 s ->
  (~ exists d, text_denotes s d) -> from_chars s = Ok None.
Proof.
  intros L F Z0 N. destruct (from_chars_total s L F Z0) as [H|(d & H)]; [exact H|].
  exfalso. apply N. exists d. apply from_chars_sound, H.
Qed.

(** ** round trips *)
Lemma str_denotes d rest : representable d -> text_denotes (str_bytes d true ++ rest) (no_pi d).
Proof.
  intros (H0 & H1 & H2 & H3 & H4 & H5). unfold str_bytes. simpl app. do 8 eexists. split; [reflexivity|].
  split; [reflexivity|]. cbn [no_pi n0 n1 n2 n3 n4 n5 pifac]. repeat split; apply int2char_denotes; lia.
Qed.

Lemma text_representable s d : text_denotes s d -> representable d.
Proof.
  intros (a & b & c & p & e & f & g & rest & _ & _ & D0 & D1 & D2 & D3 & D4 & D5 & _).
  apply denotes_range in D0, D1, D2, D3, D4, D5. unfold representable. lia.
Qed.

Lemma roundtrip d rest : representable d -> from_chars (str_bytes d true ++ rest) = Ok (Some (no_pi d)).
Proof. intros H. apply from_chars_accepts, str_denotes, H. Qed.

Lemma roundtrip_iff d rest : from_chars (str_bytes d true ++ rest) = Ok (Some (no_pi d)) <-> representable d.
Proof.
  split; [|apply roundtrip]. intros H. apply from_chars_sound, text_representable in H. exact H.
Qed.

Lemma text_roundtrip s d : from_chars s = Ok (Some d) -> str_bytes d true = map fold_case (firstn 7 s).
Proof.
  intros H. apply from_chars_sound in H. destruct H as (a & b & c & p & e & f & g & rest & -> & -> & D0 & D1 & D2 & D3 & D4 & D5 & _).
  unfold str_bytes. simpl. rewrite (int2char_of_denotes _ _ D0), (int2char_of_denotes _ _ D1), (int2char_of_denotes _ _ D2),
    (int2char_of_denotes _ _ D3), (int2char_of_denotes _ _ D4), (int2char_of_denotes _ _ D5). reflexivity.
Qed.

Lemma str_injective d d' : representable d -> representable d' -> str_bytes d true = str_bytes d' true -> no_pi d = no_pi d'.
Proof.
  intros H H' E. pose proof (roundtrip d [] H) as A. pose proof (roundtrip d' [] H') as B. rewrite E in A. congruence.
Qed.

Lemma str_buffer buf d fives : (8 <= length buf)%nat ->
  str buf d fives = Ok (str_bytes d fives ++ [0] ++ skipn 8 buf).
Proof.
  intros H. unfold str. assert (E : length (str_bytes d fives ++ [0]) = 8%nat) by reflexivity.
  rewrite E. apply Nat.leb_le in H. rewrite H, <- app_assoc. reflexivity.
Qed.
Lemma str_overflow buf d fives : (length buf < 8)%nat -> str buf d fives = UB.
Proof.
  intros H. unfold str. assert (E : length (str_bytes d fives ++ [0]) = 8%nat) by reflexivity.
  rewrite E. apply Nat.leb_gt in H. rewrite H. reflexivity.
Qed.

(** ** the IERS-2010 resolver *)
Lemma blanks_spec k s c : c <> 32 -> blanks (repeat 32 k ++ c :: s) = Ok (Z.of_nat k).
Proof.
  intros Hc. induction k as [|k IH]; simpl.
  - destruct (Z.eqb_spec c 32); [congruence|]. rewrite andb_false_r. reflexivity.
  - rewrite IH. cbn [bind]. f_equal. lia.
Qed.

Lemma rd_shift k s i : 0 <= i -> rd (repeat 32 k ++ s) (Z.of_nat k + i) = rd s i.
Proof.
  intros H. unfold rd, znth. destruct (Z.ltb_spec (Z.of_nat k + i) 0); [lia|]. destruct (Z.ltb_spec i 0); [lia|].
  rewrite nth_error_app2 by (rewrite repeat_length; lia). rewrite repeat_length.
  replace (Z.to_nat (Z.of_nat k + i) - k)%nat with (Z.to_nat i) by lia. reflexivity.
Qed.

Lemma resolve_reads k a b c p e f g rest : a <> 32 ->
  resolve_iers10 (repeat 32 k ++ seven a b c p e f g rest) =
  if (p =? 46) && forallb (fun i => (-9 <=? i) && (i <=? 9)) [a - 48; b - 53; c - 53; e - 53; f - 53; g - 53]
  then Ok (Some (mkD (a - 48) (b - 53) (c - 53) (e - 53) (f - 53) (g - 53) 0))
  else _ <- c_str (repeat 32 k ++ seven a b c p e f g rest) ;; Ok None.
Proof.
  intros Ha. unfold resolve_iers10. unfold seven at 1. rewrite blanks_spec by assumption. cbn [bind].
  fold (seven a b c p e f g rest). destruct (rd_seven a b c p e f g rest) as (Q0 & Q1 & Q2 & Q3 & Q4 & Q5 & Q6).
  rewrite <- (Z.add_0_r (Z.of_nat k)) at 1. rewrite !rd_shift by lia. rewrite Q0, Q1, Q2, Q3, Q4, Q5, Q6. cbn [bind].
  assert (E : forall i, (if (i <? -9) || (9 <? i) then 1 else 0) = if (-9 <=? i) && (i <=? 9) then 0 else 1).
  { intros i. destruct (Z.ltb_spec i (-9)), (Z.ltb_spec 9 i), (Z.leb_spec (-9) i), (Z.leb_spec i 9); simpl; lia || reflexivity. }
  simpl map. rewrite !E. replace (b - 48 - 5) with (b - 53) by lia. replace (c - 48 - 5) with (c - 53) by lia.
  replace (e - 48 - 5) with (e - 53) by lia. replace (f - 48 - 5) with (f - 53) by lia. replace (g - 48 - 5) with (g - 53) by lia.
  simpl forallb. simpl fold_right.
  repeat match goal with |- context [?b1 && ?b2] => match b1 with (-9 <=? _) => let B := fresh "B" in set (B := b1 && b2) end end.
  destruct (p =? 46), B, B0, B1, B2, B3, B4; reflexivity.
Qed.

Lemma digit_char c v : digit c v -> c = v + 48 /\ 0 <= v <= 9.
Proof.
  unfold digit. intros H. assert (S : forallb (fun p => (fst p =? snd p + 48) && (0 <=? snd p) && (snd p <=? 9))
    (combine (chars "0123456789") (zrange2 0 10)) = true) by (vm_compute; reflexivity).
  rewrite forallb_forall in S. specialize (S _ H). simpl in S. rewrite !andb_true_iff, Z.eqb_eq, !Z.leb_le in S. lia.
Qed.

Lemma resolve_digits k a b c e f g va vb vc ve vf vg rest :
  digit a va -> digit b vb -> digit c vc -> digit e ve -> digit f vf -> digit g vg ->
  resolve_iers10 (repeat 32 k ++ seven a b c 46 e f g rest) =
  Ok (Some (mkD va (vb - 5) (vc - 5) (ve - 5) (vf - 5) (vg - 5) 0)).
Proof.
  intros Da Db Dc De Df Dg. apply digit_char in Da, Db, Dc, De, Df, Dg.
  destruct Da as [-> Da], Db as [-> Db], Dc as [-> Dc], De as [-> De], Df as [-> Df], Dg as [-> Dg].
  rewrite resolve_reads by lia.
  assert (E : forallb (fun i => (-9 <=? i) && (i <=? 9)) [va + 48 - 48; vb + 48 - 53; vc + 48 - 53; ve + 48 - 53; vf + 48 - 53; vg + 48 - 53] = true).
  { rewrite forallb_forall. intros i Hi. simpl in Hi. apply andb_true_iff. rewrite !Z.leb_le. lia. }
  rewrite E. cbn [andb Z.eqb Pos.eqb]. do 2 f_equal. f_equal; lia.
Qed.

(** exactly which characters pass *)
Lemma resolve_accepts_iff k a b c p e f g rest : a <> 32 ->
  (exists d, resolve_iers10 (repeat 32 k ++ seven a b c p e f g rest) = Ok (Some d)) <->
  p = 46 /\ 39 <= a <= 57 /\ (forall x, In x [b; c; e; f; g] -> 44 <= x <= 62).
Proof.
  intros Ha. rewrite resolve_reads by assumption.
  assert (T : forall A (r : res A), (exists d : doodson, (_ <- r ;; Ok None) = Ok (Some d)) -> False).
  { intros A r (d & Hd). destruct r; discriminate. }
  destruct (Z.eqb_spec p 46) as [->|Hp].
  2:{ cbn [andb]. split; [intros H; destruct (T _ _ H)|intros (H & _); congruence]. }
  cbn [andb]. destruct (forallb _ _) eqn:E.
  - split; [intros _|eauto]. split; [reflexivity|]. rewrite forallb_forall in E.
    assert (B : forall i, In i [a - 48; b - 53; c - 53; e - 53; f - 53; g - 53] -> -9 <= i <= 9).
    { intros i Hi. specialize (E i Hi). apply andb_true_iff in E. rewrite !Z.leb_le in E. exact E. }
    split; [assert (-9 <= a - 48 <= 9) by (apply B; left; reflexivity); lia|]. intros x Hx. specialize (B (x - 53)).
    assert (In (x - 53) [a - 48; b - 53; c - 53; e - 53; f - 53; g - 53]) by (simpl in *; intuition (subst; auto)).
    specialize (B H). lia.
  - split; [intros H; destruct (T _ _ H)|]. intros (_ & H1 & H2). exfalso. apply not_true_iff_false in E. apply E.
    apply forallb_forall. intros i Hi. apply andb_true_iff. rewrite !Z.leb_le. simpl in Hi.
    destruct Hi as [<-|[<-|[<-|[<-|[<-|[<-|[]]]]]]]; [lia|..];
      match goal with |- _ <= ?x - 53 <= _ => assert (44 <= x <= 62) by (apply H2; simpl; tauto); lia end.
Qed.

(** ** comparison *)
Lemma eqb_true a b : eqb a b = true <-> a = b.
Proof.
  unfold eqb. rewrite !andb_true_iff, !Z.eqb_eq. split.
  - intros ((((((? & ?) & ?) & ?) & ?) & ?) & ?). destruct a, b; simpl in *; congruence.
  - intros ->. tauto.
Qed.
Lemma same_constituent_iff a b : same_constituent a b = true <-> n0 a = n0 b /\ n1 a = n1 b /\ n2 a = n2 b.
Proof. unfold same_constituent, same_group, same_species. rewrite !andb_true_iff, !Z.eqb_eq. tauto. Qed.

(** ** tables *)
Lemma list_eqb_true a b : list_eqb a b = true <-> a = b.
Proof.
  revert b; induction a as [|x a IH]; destruct b as [|y b]; simpl; split; try discriminate; try reflexivity.
  - rewrite andb_true_iff, Z.eqb_eq, IH. intros [-> ->]. reflexivity.
  - intros H. inversion H; subst. rewrite andb_true_iff, Z.eqb_eq, IH. tauto.
Qed.

Fixpoint distinct {X} (eq : X -> X -> bool) (l : list X) : bool :=
  match l with [] => true | x :: l => forallb (fun y => negb (eq x y)) l && distinct eq l end.
Lemma distinct_inj {X} (eq : X -> X -> bool) l : (forall x y, eq x y = eq y x) -> distinct eq l = true ->
  forall x y, In x l -> In y l -> eq x y = true -> x = y.
Proof.
  intros Sym. induction l as [|a l IH]; simpl; intros D x y Hx Hy E; [destruct Hx|].
  apply andb_true_iff in D. destruct D as [D1 D2]. rewrite forallb_forall in D1.
  destruct Hx as [<-|Hx], Hy as [<-|Hy]; auto.
  - specialize (D1 y Hy). rewrite E in D1. discriminate.
  - specialize (D1 x Hx). rewrite Sym, E in D1. discriminate.
Qed.

Lemma find_unique {X} (f : X -> bool) l x : In x l -> f x = true -> (forall y, In y l -> f y = true -> y = x) -> find f l = Some x.
Proof.
  intros Hx Hf U. destruct (find f l) as [y|] eqn:E.
  - apply find_some in E. destruct E as [E1 E2]. f_equal. apply U; assumption.
  - apply find_none with (x := x) in E; [congruence|assumption].
Qed.

Lemma list_eqb_sym a b : list_eqb a b = list_eqb b a.
Proof.
  apply eq_true_iff_eq. rewrite !list_eqb_true. split; congruence.
Qed.

Lemma ocean_name_found w n : In w oceanic -> map fold_case n = map fold_case (nm w) -> match_ocean_name n = Some w.
Proof.
  intros Hw E. unfold match_ocean_name. apply find_unique; [assumption|rewrite E; apply list_eqb_true; reflexivity|].
  intros y Hy E2. rewrite E in E2.
  apply (distinct_inj (fun x y => list_eqb (map fold_case (nm x)) (map fold_case (nm y))) oceanic); try assumption.
  - intros. apply list_eqb_sym.
  - vm_compute; reflexivity.
Qed.
Lemma ocean_name_sound n w : match_ocean_name n = Some w -> In w oceanic /\ map fold_case n = map fold_case (nm w).
Proof.
  unfold match_ocean_name. intros H. apply find_some in H. destruct H as [H1 H2]. apply list_eqb_true in H2. split; congruence.
Qed.

Lemma eqb_sym a b : eqb a b = eqb b a.
Proof. apply eq_true_iff_eq. rewrite !eqb_true. split; congruence. Qed.
Lemma ocean_doodson_found w d : In w oceanic -> (match_ocean_doodson (dn w) = Some w) /\ (no_pi d = no_pi (dn w) -> pifac d <> pifac (dn w) -> match_ocean_doodson d = None).
Proof.
  intros Hw. split.
  - unfold match_ocean_doodson. apply find_unique; [assumption|apply eqb_true; reflexivity|].
    intros y Hy E. apply (distinct_inj (fun x y => eqb (dn x) (dn y)) oceanic); try assumption.
    + intros. apply eqb_sym.
    + vm_compute; reflexivity.
    + rewrite eqb_sym. exact E.
  - intros E Hp. unfold match_ocean_doodson. destruct (find _ _) as [y|] eqn:F; [|reflexivity]. exfalso.
    apply find_some in F. destruct F as [Hy F]. apply eqb_true in F. subst d.
    assert (y = w).
    { apply (distinct_inj (fun x y => eqb (no_pi (dn x)) (no_pi (dn y))) oceanic); try assumption.
      - intros. apply eqb_sym.
      - vm_compute; reflexivity.
      - apply eqb_true. exact E. }
    congruence.
Qed.

Lemma atmospheric_found w : In w atmospheric -> find_wave_entry (nm w) = Some w.
Proof.
  intros Hw. unfold find_wave_entry. apply find_unique; [assumption|apply list_eqb_true; reflexivity|].
  intros y Hy E. apply (distinct_inj (fun x y => list_eqb (nm x) (nm y)) atmospheric); try assumption.
  - intros. apply list_eqb_sym.
  - vm_compute; reflexivity.
Qed.
Lemma atmospheric_sound n w : find_wave_entry n = Some w -> In w atmospheric /\ nm w = n.
Proof.
  unfold find_wave_entry. intros H. apply find_some in H. destruct H as [H1 H2]. apply list_eqb_true in H2. auto.
Qed.

Lemma table_names_fit w : In w (atmospheric ++ oceanic) -> 0 < Z.of_nat (length (nm w)) < MAX_CHARS_TIDAL_WAVE /\ ~ In 0 (nm w).
Proof.
  intros H. assert (S : forallb (fun w => (0 <? Z.of_nat (length (nm w))) && (Z.of_nat (length (nm w)) <? 16) &&
    forallb (fun c => negb (c =? 0)) (nm w)) (atmospheric ++ oceanic) = true) by (vm_compute; reflexivity).
  rewrite forallb_forall in S. specialize (S _ H). rewrite !andb_true_iff, !Z.ltb_lt in S. destruct S as [S1 S2].
  split; [exact S1|]. intros Z0. rewrite forallb_forall in S2. specialize (S2 _ Z0). discriminate.
Qed.

Lemma strncpy_terminated n : ~ In 0 n -> (In 0 (strncpy16 n) <-> (length n < 16)%nat).
Proof.
  intros H. unfold strncpy16. rewrite firstn_app. split.
  - intros Hi. apply in_app_or in Hi. destruct Hi as [Hi|Hi].
    + exfalso. apply H. rewrite <- (firstn_skipn 16 n). apply in_or_app. left. exact Hi.
    + destruct (Nat.ltb_spec (length n) 16); [assumption|]. replace (16 - length n)%nat with 0%nat in Hi by lia. destruct Hi.
  - intros Hl. apply in_or_app. right. destruct (16 - length n)%nat eqn:E; [lia|]. left. reflexivity.
Qed.

Lemma table_speeds w : In w atmospheric -> nm w <> chars "L2" -> Z.abs (10 * speed (dn w) - per w) <= 10000.
Proof.
  intros H Hn. assert (S : forallb (fun w => list_eqb (nm w) (chars "L2") || (Z.abs (10 * speed (dn w) - per w) <=? 10000)) atmospheric = true)
    by (vm_compute; reflexivity).
  rewrite forallb_forall in S. specialize (S _ H). apply orb_true_iff in S. destruct S as [S|S]; [|apply Z.leb_le, S].
  apply list_eqb_true in S. congruence.
Qed.
