From Coq Require Import Ascii String Reals ZArith List Bool Lia Lra Sorted.
From Verif Require Import Base CString FromChars IcgemModel IcgemSpec AtlasModel AtlasSpec AtlasProofs AtlasProofs2 GridModel GridProofs PoleModel FcnModel FcnSpec.
Import ListNotations.
Open Scope R_scope.

(** ** choice of the interval *)
Lemma Rleb_false a b : b < a -> Rleb a b = false.
Proof. intros H. destruct (Rleb a b) eqn:E; [|reflexivity]. apply Rleb_true in E. lra. Qed.
Lemma Rltb_false a b : b <= a -> Rltb a b = false.
Proof. intros H. destruct (Rltb a b) eqn:E; [|reflexivity]. apply Rltb_true in E. lra. Qed.
Lemma interval_here t p a b q : Forall (fun e => t < lt e) (p ++ [b]) -> lt a <= t -> interval t (p ++ b :: a :: q) = Some (a, b).
Proof.
  induction p as [|x p IH]; intros F A.
  - cbn [app interval]. inversion F; subst. rewrite (proj2 (Rleb_true _ _)), (proj2 (Rltb_true _ _)) by lra. reflexivity.
  - inversion F as [|? ? Hx F']; subst. destruct p as [|y p]; cbn [app] in *.
    + cbn [interval]. inversion F'; subst. rewrite (Rleb_false (lt b)) by lra. cbn [andb]. apply IH; auto.
    + change (interval t (x :: y :: p ++ b :: a :: q)) with (if Rleb (lt y) t && Rltb t (lt x) then Some (y, x) else interval t (y :: p ++ b :: a :: q)).
      inversion F'; subst. rewrite (Rleb_false (lt y)) by lra. cbn [andb]. apply IH; auto.
Qed.
Lemma interval_after t l : Forall (fun e => lt e <= t) l -> interval t l = None.
Proof.
  induction 1 as [|x l Hx F IH]; [reflexivity|]. destruct l as [|y l]; [reflexivity|].
  change (interval t (x :: y :: l)) with (if Rleb (lt y) t && Rltb t (lt x) then Some (y, x) else interval t (y :: l)). rewrite (Rltb_false t) by lra. rewrite andb_false_r. exact IH.
Qed.
Lemma interval_before t l : Forall (fun e => t < lt e) l -> interval t l = None.
Proof.
  induction 1 as [|x l Hx F IH]; [reflexivity|]. destruct l as [|y l]; [reflexivity|].
  change (interval t (x :: y :: l)) with (if Rleb (lt y) t && Rltb t (lt x) then Some (y, x) else interval t (y :: l)). inversion F; subst. rewrite (Rleb_false (lt y)) by lra. exact IH.
Qed.
Lemma ascending_tail l r : ascending (l ++ r) -> ascending r.
Proof. induction l; cbn [app]; auto. intros H. inversion H; auto. Qed.
Lemma ascending_head l a : ascending (l ++ [a]) -> Forall (fun e => lt e <= lt a) (l ++ [a]).
Proof.
  induction l as [|x l IH]; cbn [app]; intros H; [constructor; [lra|constructor]|]. inversion H as [|? ? S F]; subst. constructor; [|apply IH; auto].
  rewrite Forall_forall in F. specialize (F a ltac:(apply in_or_app; right; left; reflexivity)). unfold earlier in F. lra.
Qed.
Lemma rev_nonempty (l r : list lcoef) a : exists b q, rev (l ++ a :: r) = b :: q /\ last (l ++ a :: r) b.
Proof.
  destruct (rev (l ++ a :: r)) as [|b q] eqn:E; [apply (f_equal (@rev lcoef)) in E; rewrite rev_involutive in E; destruct l; discriminate|].
  exists b, q. split; [reflexivity|]. exists (rev q). rewrite <- (rev_involutive (l ++ a :: r)), E. reflexivity.
Qed.
Lemma Forall_rev' {A} (P : A -> Prop) l : Forall P l -> Forall P (rev l).
Proof. rewrite !Forall_forall. intros H x Hx. apply H. apply in_rev. exact Hx. Qed.

Lemma amplitudes_between v a b t : ascending v -> neighbours v a b -> lt a <= t < lt b -> amplitudes t v = Ok (interpolated t a b).
Proof.
  intros S (l & r & ->) T. unfold amplitudes. destruct (rev_nonempty l (b :: r) a) as (e & q & E & _). rewrite E.
  assert (I : interval t (e :: q) = Some (a, b)).
  { rewrite <- E. rewrite rev_app_distr. cbn [rev]. rewrite <- !app_assoc. cbn [app]. apply interval_here; [|lra].
    apply ascending_tail in S. inversion S as [|? ? S1 _]; subst. inversion S1 as [|? ? S2 F]; subst.
    apply Forall_app. split; [apply Forall_rev'; eapply Forall_impl; [|exact F]; unfold earlier; intros; lra|constructor; [lra|constructor]]. }
  rewrite I. destruct (l ++ a :: b :: r)%list eqn:Z; [destruct l; discriminate|reflexivity].
Qed.
Lemma amplitudes_last v a t : ascending v -> last v a -> lt a <= t -> amplitudes t v = Ok (extrapolated t a).
Proof.
  intros S (l & ->) T. unfold amplitudes. pose proof (ascending_head l a S) as F. rewrite rev_unit.
  replace (interval t (a :: rev l)) with (@None (lcoef * lcoef)).
  - destruct (l ++ [a])%list eqn:Z; [destruct l; discriminate|]. rewrite (proj2 (Rleb_true _ _)) by lra. reflexivity.
  - symmetry. apply interval_after. rewrite <- rev_unit. apply Forall_rev'. eapply Forall_impl; [|exact F]. cbv beta. intros; lra.
Qed.
Lemma amplitudes_first v a t : ascending v -> first v a -> t < lt a -> amplitudes t v = Ok (extrapolated t a).
Proof.
  intros S (r & ->) T. unfold amplitudes. destruct (rev_nonempty [] r a) as (e & q & E & (l & L)). cbn [app] in *. rewrite E.
  assert (F : Forall (fun e => t < lt e) (a :: r)). { inversion S as [|? ? S1 F]; subst. constructor; [lra|]. eapply Forall_impl; [|exact F]. unfold earlier. intros; lra. }
  replace (interval t (e :: q)) with (@None (lcoef * lcoef)); [|symmetry; apply interval_before; rewrite <- E; apply Forall_rev'; exact F].
  rewrite (Rleb_false (lt e)); [reflexivity|]. rewrite L in F. apply Forall_app in F as (_ & F). inversion F; auto.
Qed.
Lemma neighbours_earlier v a b : ascending v -> neighbours v a b -> lt a < lt b.
Proof. intros S (l & r & ->). apply ascending_tail in S. inversion S as [|? ? _ F]; subst. inversion F; auto. Qed.

(** ** results *)
Lemma phase_phi t : phase t = phi t.
Proof.
  unfold phase, phi. generalize 51544.5. intros j. assert (N : 430.21 <> 0) by lra. replace (-430.21) with (- (430.21)) by lra. revert N. generalize 430.21. intros p N. field. exact N.
Qed.
Definition sure (s : R) : R := 2 * s.
Lemma says_extrapolated t e : says (combined t (extrapolated t e)) t (lre e) (lim e) (2 * (lsg e + 0.3 * (t - lt e))).
Proof. unfold says, combined, extrapolated, turned. rewrite phase_phi. cbn. unfold yc, ys, sy, sx, xc, xs. refine (conj _ (conj _ _)); [f_equal; lra|lra|lra]. Qed.
Lemma says_interpolated t a b : lt a < lt b ->
  let on f := line (lt a) (lt b) (f a) (f b) t in
  says (combined t (interpolated t a b)) t (on lre) (on lim) (2 * Rabs (on lsg)).
Proof.
  intros L on. assert (E : forall f, f a + (f b - f a) / (lt b - lt a) * (t - lt a) = on f) by (intros f; unfold on, line; field; lra).
  unfold says, combined, interpolated, turned. rewrite phase_phi. cbn. rewrite !(E xc), !(E xs), !(E yc), !(E ys), !(E sx), !(E sy).
  replace (on ys) with (- on lre) by (unfold on, line, ys, xc; field; lra). change (on sx) with (on lsg). change (on sy) with (on lsg). change (on xc) with (on lre). change (on yc) with (on lim). change (on xs) with (on lim). refine (conj _ (conj _ _)); [f_equal; lra|lra|lra].
Qed.
Lemma line_at_end t0 t1 p q : t0 < t1 -> line t0 t1 p q t1 = q.
Proof. intros. unfold line. field. lra. Qed.
Lemma line_at_start t0 t1 p q : t0 < t1 -> line t0 t1 p q t0 = p.
Proof. intros. unfold line. field. lra. Qed.
Lemma line_between t0 t1 p q t lo hi : t0 <= t <= t1 -> t0 < t1 -> lo <= p <= hi -> lo <= q <= hi -> lo <= line t0 t1 p q t <= hi.
Proof.
  intros T L P Q. unfold line. set (u := (t - t0) / (t1 - t0)). assert (E : u * (t1 - t0) = t - t0) by (unfold u; field; lra).
  replace ((p * (t1 - t) + q * (t - t0)) / (t1 - t0)) with (p * (1 - u) + q * u) by (unfold u; field; lra).
  assert (0 <= u <= 1) by (split; apply Rmult_le_reg_r with (t1 - t0); lra). split; nra.
Qed.
Lemma fcn_between v a b t : ascending v -> neighbours v a b -> lt a <= t <= lt b -> 0 <= lsg b ->
  exists r, lambert_fcn t v = Ok r /\ let on f := line (lt a) (lt b) (f a) (f b) t in says r t (on lre) (on lim) (2 * Rabs (on lsg)).
Proof.
  intros S N T G. pose proof (neighbours_earlier v a b S N) as L. unfold lambert_fcn. destruct (Rle_lt_or_eq_dec t (lt b) (proj2 T)) as [H|H].
  - rewrite (amplitudes_between v a b t S N ltac:(lra)). cbn [bind]. eexists. split; [reflexivity|]. apply says_interpolated. exact L.
  - subst t. cbv zeta. rewrite !line_at_end by exact L. rewrite (Rabs_pos_eq (lsg b)) by exact G. destruct N as (l & r & ->). destruct r as [|c r].
    + assert (LA : last (l ++ [a; b]) b) by (exists (l ++ [a])%list; rewrite <- app_assoc; reflexivity).
      rewrite (amplitudes_last _ b (lt b) S LA ltac:(lra)). cbn [bind]. eexists. split; [reflexivity|]. pose proof (says_extrapolated (lt b) b) as Q.
      replace (lsg b + 0.3 * (lt b - lt b)) with (lsg b) in Q by lra. exact Q.
    + assert (N2 : neighbours (l ++ a :: b :: c :: r) b c) by (exists (l ++ [a])%list, r; rewrite <- app_assoc; reflexivity).
      pose proof (neighbours_earlier _ b c S N2) as L2.
      rewrite (amplitudes_between _ b c (lt b) S N2 ltac:(lra)). cbn [bind]. eexists. split; [reflexivity|].
      pose proof (says_interpolated (lt b) b c L2) as Q. cbv beta zeta in Q. rewrite !line_at_start in Q by exact L2. rewrite (Rabs_pos_eq (lsg b)) in Q by exact G. exact Q.
Qed.
Lemma turned_size a b p : fst (turned a b p) ^ 2 + snd (turned a b p) ^ 2 = a ^ 2 + b ^ 2.
Proof. unfold turned. cbn [fst snd]. pose proof (sin2_cos2 p) as H. unfold Rsqr in H. replace (a ^ 2 + b ^ 2) with ((a ^ 2 + b ^ 2) * 1) by ring. rewrite <- H. ring. Qed.

(** where an epoch can lie *)
Lemma located v t : ascending v -> v <> [] ->
  (exists e, first v e /\ t < lt e) \/ (exists a b, neighbours v a b /\ lt a <= t < lt b) \/ (exists e, last v e /\ lt e <= t).
Proof.
  destruct v as [|e v]; [contradiction|]. intros S _. destruct (Rlt_le_dec t (lt e)) as [H|H]; [left; exists e; split; [exists v; reflexivity|exact H]|]. right.
  revert e S H. induction v as [|f v IH]; intros e S H.
  - right. exists e. split; [exists []; reflexivity|exact H].
  - destruct (Rlt_le_dec t (lt f)) as [G|G]; [left; exists e, f; split; [exists [], v; reflexivity|lra]|].
    inversion S as [|? ? S1 _]; subst. destruct (IH f S1 G) as [(a & b & (l & r & E) & T)|(a & (l & E) & T)].
    + left. exists a, b. split; [exists (e :: l), r; rewrite E; reflexivity|exact T].
    + right. exists a. split; [exists (e :: l); rewrite E; reflexivity|exact T].
Qed.

(** ** the file *)
Open Scope Z_scope.
Lemma trunc_range x : (-2147483649 < x < 2147483648)%R -> - 2 ^ 31 <= truncZ x < 2 ^ 31.
Proof.
  intros H. unfold truncZ. destruct (Rleb 0 x) eqn:E.
  - apply Rleb_true in E. destruct (base_Int_part x). assert (-1 < Int_part x < 2147483648) by (split; apply lt_IZR; lra). lia.
  - assert (~ (0 <= x)%R) by (intros G; apply Rleb_true in G; congruence). destruct (base_Int_part (- x)). assert (-1 < Int_part (- x) < 2147483649) by (split; apply lt_IZR; lra). lia.
Qed.
Lemma trunc_out x : (x <= -2147483649 \/ 2147483648 <= x)%R -> ~ (- 2 ^ 31 <= truncZ x < 2 ^ 31).
Proof.
  intros H. unfold truncZ. destruct (Rleb 0 x) eqn:E.
  - apply Rleb_true in E. destruct (base_Int_part x). intros (_ & G). apply IZR_lt in G. change (2 ^ 31) with 2147483648 in G. assert (Int_part x <= 2147483647) by (change (2 ^ 31) with 2147483648 in G; apply Z.lt_succ_r, lt_IZR; exact G). apply IZR_le in H2. lra.
  - assert (~ (0 <= x)%R) by (intros G; apply Rleb_true in G; congruence). destruct (base_Int_part (- x)). intros (G & _). assert (Int_part (- x) <= 2147483648) by lia. apply IZR_le in H3. lra.
Qed.
Lemma selects_unique {A} (P : A -> Prop) l s s' : selects P l s -> selects P l s' -> s = s'.
Proof. intros H. revert s'. induction H; intros s' G; inversion G; subst; try contradiction; [reflexivity|f_equal; auto|auto]. Qed.
Lemma selects_in {A} (P : A -> Prop) l s x : selects P l s -> In x s <-> In x l /\ P x.
Proof.
  induction 1; cbn [In]; [tauto| |].
  - rewrite IHselects. split; [intros [<- | ?]; tauto|]. tauto.
  - rewrite IHselects. split; [tauto|]. intros ([<- | ?] & ?); tauto.
Qed.
Lemma selects_ascending P l s : selects P l s -> ascending l -> ascending s.
Proof.
  induction 1 as [|a l s Pa S IH|a l s Pa S IH]; intros H; [constructor| |inversion H; auto]. inversion H as [|? ? H1 F]; subst. constructor; [apply IH; exact H1|].
  rewrite Forall_forall in *. intros x Hx. apply F. apply (selects_in P l s x S) in Hx. tauto.
Qed.
Section File.
  Variable sdbl : list Z -> option R * list Z.
  Lemma row_line_reads line r : word_scanner sdbl -> row_line sdbl line r -> row_reads sdbl line r.
  Proof. intros W (L & N). split; [exact L|]. exact (numbers_ok sdbl W _ line N). Qed.
  Lemma push_ok from to (y : R) e acc : (wanted from to e -> in_int e) ->
    push from to [Some y; Some (lt e); Some (lre e); Some (lim e); Some (lsg e)] acc = Ok (acc ++ if Rleb from (lt e) && Rltb (lt e) to then [e] else [])%list.
  Proof.
    intros H. unfold push. destruct (Rleb from (lt e) && Rltb (lt e) to) eqn:E; [|rewrite app_nil_r; reflexivity].
    apply andb_true_iff in E as (E1 & E2). apply Rleb_true in E1. apply Rltb_true in E2. destruct (trunc_range (lt e)) as (T1 & T2); [apply H; split; auto|].
    rewrite (proj2 (Z.leb_le _ _) T1), (proj2 (Z.ltb_lt _ _) T2). destruct e; reflexivity.
  Qed.
  Lemma rows_ok from to lines rs : Forall2 (row_reads sdbl) lines rs -> Forall (fun r => wanted from to (snd r) -> in_int (snd r)) rs ->
    forall d nr acc, length d = 5%nat -> 0 <= nr -> nr + Z.of_nat (length lines) <= 999 ->
    exists s, rows sdbl from to lines d 0 nr acc = Ok ((acc ++ s)%list, 0) /\ selects (wanted from to) (map snd rs) s.
  Proof.
    induction 1 as [|line r lines rs (L & Q) F IH]; intros G d nr acc D N M.
    - exists []. rewrite app_nil_r. split; [reflexivity|constructor].
    - cbn [rows]. cbn [length] in M. rewrite (proj2 (Z.ltb_ge _ _)) by lia. cbn [Z.eqb negb]. rewrite (proj2 (Z.ltb_lt _ _)) by lia. cbn [negb]. rewrite Q.
      inversion G as [|? ? Gr G']; subst. do 6 (destruct d as [|? d]; try discriminate). cbn [keep_cells combine map fst snd].
      unfold keep_cells. cbn [combine map fst snd]. rewrite (push_ok from to _ (snd r) acc Gr). cbn [bind map snd].
      destruct (IH G' [Some (fst r); Some (lt (snd r)); Some (lre (snd r)); Some (lim (snd r)); Some (lsg (snd r))] (nr + 1) (acc ++ if Rleb from (lt (snd r)) && Rltb (lt (snd r)) to then [snd r] else [])%list eq_refl ltac:(lia) ltac:(lia)) as (s & E & S).
      rewrite E. destruct (Rleb from (lt (snd r)) && Rltb (lt (snd r)) to) eqn:B.
      + exists (snd r :: s). split; [rewrite <- app_assoc; reflexivity|]. apply andb_true_iff in B as (B1 & B2). apply Rleb_true in B1. apply Rltb_true in B2. apply sel_in; [split; auto|exact S].
      + exists s. split; [rewrite app_nil_r; reflexivity|]. apply sel_out; [|exact S]. intros (W1 & W2). apply Rleb_true in W1. apply Rltb_true in W2. rewrite W1, W2 in B. discriminate.
  Qed.
  Lemma keep_length vs d : length vs = length d -> length (keep_cells vs d) = length d.
  Proof. intros H. unfold keep_cells. rewrite map_length, combine_length. lia. Qed.
  Lemma rows_sound from to lines : forall d nr acc v error, length d = 5%nat -> rows sdbl from to lines d error nr acc = Ok (v, 0) ->
    0 <= nr <= 999 -> error = 0 /\ nr + Z.of_nat (length lines) <= 999 /\ exists rs, Forall2 (row_reads sdbl) lines rs.
  Proof.
    induction lines as [|line lines IH]; intros d nr acc v error D E N; cbn [rows] in E.
    - destruct (Z.eqb_spec error 0); [|discriminate]. cbn [length]. split; [auto|]. split; [lia|]. exists []. constructor.
    - destruct (Z.ltb_spec 127 (Z.of_nat (length line))); [destruct (error =? 0); discriminate|]. destruct (Z.eqb_spec error 0) as [->|]; [|discriminate]. cbn [negb] in E.
      destruct (Z.ltb_spec (nr + 1) 1000); [|discriminate]. cbn [negb] in E. pose proof (numbers_length sdbl 5 line) as NL. pose proof (numbers_error sdbl 5 line) as NE.
      destruct (numbers sdbl 5 line) as (vs, e) eqn:Q. cbn [fst snd] in *. destruct (push from to (keep_cells vs d) acc) as [acc'| | |]; try discriminate. cbn [bind] in E.
      destruct (IH (keep_cells vs d) (nr + 1) acc' v e) as (-> & L & rs & F); [rewrite keep_length; [exact D|]; exact (eq_trans NL (eq_sym D))|exact E|lia|].
      cbn [length]. split; [reflexivity|]. split; [lia|]. destruct NE as (_ & NE). specialize (NE eq_refl).
      do 6 (destruct vs as [|? vs]; try discriminate). repeat match goal with H : Forall _ (_ :: _) |- _ => inversion H; clear H; subst end.
      repeat match goal with H : ?o <> None |- _ => destruct o; [|congruence]; clear H end.
      eexists ((_, mkL _ _ _ _) :: rs). constructor; [|exact F]. split; [lia|]. cbn [fst snd lt lre lim lsg]. rewrite Q. reflexivity.
  Qed.
  Lemma header_percent head : header head -> exists t, skip_blanks head = 37 :: t.
  Proof. intros (_ & n & rest & ->). exists rest. induction n; [reflexivity|exact IHn]. Qed.
  Lemma percent_header head t : (length head <= 127)%nat -> skip_blanks head = 37 :: t -> header head.
  Proof.
    intros L E. split; [exact L|]. clear L. induction head as [|c h IH]; [discriminate|]. cbn [skip_blanks] in E. destruct (Z.eqb_spec c 32) as [-> |].
    - destruct (IH E) as (n & r & ->). exists (S n), r. reflexivity.
    - injection E as -> ->. exists O, t. reflexivity.
  Qed.
  Lemma parse_ok from to head lines rs old : (from <= to)%R -> header head -> Forall2 (row_reads sdbl) lines rs -> Forall (fun r => wanted from to (snd r) -> in_int (snd r)) rs -> (length lines <= 999)%nat ->
    exists s, parse_lambert sdbl from to (Some (head :: lines)) old = Ok (s, 0) /\ selects (wanted from to) (map snd rs) s.
  Proof.
    intros T H F G L. unfold parse_lambert. rewrite (Rltb_false to) by exact T. destruct (header_percent head H) as (t & E). destruct H as (HL & _). rewrite (proj2 (Z.ltb_ge _ _)) by lia.
    rewrite E. cbn [Z.eqb Pos.eqb]. destruct (rows_ok from to lines rs F G (repeat None 5) 0 [] eq_refl ltac:(lia) ltac:(lia)) as (s & Q & S). exists s. split; [exact Q|exact S].
  Qed.
  Lemma parse_sound from to ls old v : parse_lambert sdbl from to (Some ls) old = Ok (v, 0) ->
    (from <= to)%R /\ exists head lines rs, ls = head :: lines /\ header head /\ (length lines <= 999)%nat /\ Forall2 (row_reads sdbl) lines rs.
  Proof.
    unfold parse_lambert. destruct (Rltb to from) eqn:T; [discriminate|]. destruct ls as [|head lines]; [discriminate|]. destruct (Z.ltb_spec 127 (Z.of_nat (length head))); [discriminate|].
    destruct (skip_blanks head) as [|c t] eqn:S; [discriminate|]. destruct (Z.eqb_spec c 37) as [->|]; [|discriminate]. intros E. split.
    { apply Rnot_lt_le. intros X. apply Rltb_true in X. congruence. }
    destruct (rows_sound from to lines (repeat None 5) 0 [] v 0 eq_refl E ltac:(lia)) as (_ & L & rs & F). exists head, lines, rs. split; [reflexivity|]. split; [apply (percent_header head t); [lia|exact S]|]. split; [lia|exact F].
  Qed.
End File.
