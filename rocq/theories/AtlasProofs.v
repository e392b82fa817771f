From Coq Require Import Ascii String Reals ZArith List Bool Lia.
From Verif Require Import Base CString FromChars DoodsonModel DoodsonSpec DoodsonProofs IcgemModel IcgemSpec IcgemProofs IcgemLoop AtlasModel AtlasSpec.
Import ListNotations.
Open Scope Z_scope.

(** ** appending *)
Lemma find_le a d : (find_tidal_wave a d <= length a)%nat.
Proof. induction a as [|w a IH]; simpl; [lia|]. destruct (eqb (wd w) d); lia. Qed.
Lemma find_absent a d : find_tidal_wave a d = length a <-> ~ In d (map wd a).
Proof.
  induction a as [|w a IH]; simpl; [tauto|]. pose proof (find_le a d). destruct (eqb (wd w) d) eqn:E.
  - apply eqb_true in E. split; [lia|tauto].
  - assert (wd w <> d) by (intros X; apply eqb_true in X; congruence). split; [intros; intros [?|?]; [tauto|apply IH; [lia|assumption]]|]. intros. f_equal. apply IH. tauto.
Qed.
Lemma find_present a d : In d (map wd a) -> exists w, nth_error a (find_tidal_wave a d) = Some w /\ wd w = d.
Proof.
  induction a as [|w a IH]; simpl; [tauto|]. destruct (eqb (wd w) d) eqn:E.
  - exists w. split; [reflexivity|]. apply eqb_true, E.
  - intros [H|H]; [apply eqb_true in H; congruence|]. exact (IH H).
Qed.
Lemma find_found a w : NoDup (map wd a) -> In w a -> nth_error a (find_tidal_wave a (wd w)) = Some w.
Proof.
  induction a as [|v a IH]; simpl; [tauto|]. intros N [->|H].
  - replace (eqb (wd w) (wd w)) with true by (symmetry; apply eqb_true; reflexivity). reflexivity.
  - inversion N; subst. destruct (eqb (wd v) (wd w)) eqn:E; [|apply IH; assumption].
    apply eqb_true in E. exfalso. apply H2. rewrite E. apply in_map, H.
Qed.
Lemma find_app a b d : In d (map wd a) -> find_tidal_wave (a ++ b) d = find_tidal_wave a d.
Proof.
  induction a as [|w a IH]; simpl; [tauto|]. destruct (eqb (wd w) d) eqn:E; [reflexivity|]. intros [H|H]; [apply eqb_true in H; congruence|]. f_equal. exact (IH H).
Qed.
Lemma append_spec a w : append_wave a w = if in_dec doodson_dec (wd w) (map wd a) then None else Some ((a ++ [w])%list, length a).
Proof.
  unfold append_wave. destruct in_dec as [H|H].
  - destruct (Nat.eqb_spec (find_tidal_wave a (wd w)) (length a)) as [E|E]; [apply find_absent in E; contradiction|reflexivity].
  - apply find_absent in H. rewrite H, Nat.eqb_refl. cbn [negb]. rewrite app_length. simpl. repeat f_equal. lia.
Qed.
Lemma append_new_spec a d n x y : append_new a d n x y = append_wave a (new_wave d n x y).
Proof. reflexivity. Qed.
Lemma append_some a w a' i : append_wave a w = Some (a', i) <-> ~ In (wd w) (map wd a) /\ a' = (a ++ [w])%list /\ i = length a.
Proof.
  rewrite append_spec. destruct in_dec as [H|H]; [split; [discriminate|tauto]|]. split; [intros E; injection E as <- <-; tauto|]. intros (_ & -> & ->). reflexivity.
Qed.
Lemma append_none a w : append_wave a w = None <-> In (wd w) (map wd a).
Proof. rewrite append_spec. destruct in_dec; split; try tauto; discriminate. Qed.
Lemma requests_firsts l a : fold_left request l a = (a ++ firsts (map wd a) l)%list.
Proof.
  revert a; induction l as [|w l IH]; intros a; cbn [fold_left firsts]; [symmetry; apply app_nil_r|]. rewrite IH.
  unfold request. rewrite append_spec. destruct in_dec; [reflexivity|]. rewrite <- app_assoc. cbn [app]. f_equal. f_equal.
  assert (X : forall l s s', (forall d, In d s <-> In d s') -> firsts s l = firsts s' l).
  { clear. induction l as [|w l IH]; intros s s' E; cbn [firsts]; [reflexivity|].
    destruct in_dec as [H|H]; destruct in_dec as [K|K]; rewrite E in H; try contradiction; [apply IH, E|]. f_equal. apply IH. intros d. simpl. rewrite E. tauto. }
  apply X. intros d. rewrite map_app, in_app_iff. simpl. tauto.
Qed.
Lemma firsts_in s l w : In w (firsts s l) -> In w l /\ ~ In (wd w) s.
Proof.
  revert s; induction l as [|v l IH]; intros s; cbn [firsts]; [tauto|]. destruct in_dec as [H|H].
  - intros K. apply IH in K. simpl. tauto.
  - intros [->|K]; [simpl; tauto|]. apply IH in K. simpl in *. tauto.
Qed.
Lemma firsts_nodup s l : NoDup (map wd (firsts s l)).
Proof.
  revert s; induction l as [|v l IH]; intros s; cbn [firsts]; [constructor|]. destruct in_dec as [H|H]; [apply IH|]. simpl. constructor; [|apply IH].
  intros K. apply in_map_iff in K as (w & E & K). apply firsts_in in K as (_ & K). apply K. rewrite E. simpl. tauto.
Qed.
Lemma firsts_all s l d : In d (map wd l) -> ~ In d s -> In d (map wd (firsts s l)).
Proof.
  revert s; induction l as [|v l IH]; intros s; [simpl; tauto|]. cbn [firsts map]. intros [<-|K] N.
  - destruct in_dec; [contradiction|]. simpl. tauto.
  - destruct in_dec as [H|H]; [apply IH; assumption|]. simpl. destruct (in_dec doodson_dec d [wd v]) as [X|X]; [simpl in X; tauto|]. right. apply IH; [exact K|]. simpl in *. tauto.
Qed.
(** [firsts] keeps, of each number, the first *)
Lemma firsts_first l i w : nth_error l i = Some w -> (forall j v, (j < i)%nat -> nth_error l j = Some v -> wd v <> wd w) -> forall s, ~ In (wd w) s -> In w (firsts s l).
Proof.
  revert i; induction l as [|v l IH]; intros [|i] E F s N; cbn [nth_error] in E; try discriminate; cbn [firsts].
  - injection E as ->. destruct in_dec; [contradiction|]. simpl. tauto.
  - assert (K : forall s, ~ In (wd w) s -> In w (firsts s l)) by (intros; apply (IH i); [exact E| |assumption]; intros j u L; apply (F (S j)); lia).
    destruct in_dec; [apply K, N|]. right. apply K. simpl. intros [X|X]; [|tauto]. exact (F O v ltac:(lia) eq_refl X).
Qed.
Lemma max_degree_spec a : let (n, m) := max_atlas_degree a in
  (forall w, In w a -> sdeg (wcos w) <= n /\ sord (wcos w) <= m) /\ 0 <= n /\ 0 <= m /\
  (n = 0 \/ exists w, In w a /\ sdeg (wcos w) = n) /\ (m = 0 \/ exists w, In w a /\ sord (wcos w) = m).
Proof.
  assert (X : forall a x y, let (n, m) := fold_left (fun acc w => (Z.max (fst acc) (sdeg (wcos w)), Z.max (snd acc) (sord (wcos w)))) a (x, y) in
    (forall w, In w a -> sdeg (wcos w) <= n /\ sord (wcos w) <= m) /\ x <= n /\ y <= m /\ (n = x \/ exists w, In w a /\ sdeg (wcos w) = n) /\ (m = y \/ exists w, In w a /\ sord (wcos w) = m)).
  { clear a. induction a as [|w a IH]; intros x y; cbn [fold_left].
    - repeat split; try lia; simpl; tauto.
    - specialize (IH (Z.max x (sdeg (wcos w))) (Z.max y (sord (wcos w)))). cbn [fst snd] in *. destruct fold_left as (n, m). destruct IH as (A & B & C & D & E). repeat split.
      + intros. destruct H as [<-|H]; [lia|apply A, H].
      + destruct H as [<-|H]; [lia|apply A, H].
      + lia.
      + lia.
      + destruct D as [D|(v & I & D)]; [|right; exists v; simpl; tauto]. destruct (Z.max_spec x (sdeg (wcos w))) as [(L & M)|(L & M)]; [right; exists w; simpl; split; [tauto|lia]|left; lia].
      + destruct E as [E|(v & I & E)]; [|right; exists v; simpl; tauto]. destruct (Z.max_spec y (sord (wcos w))) as [(L & M)|(L & M)]; [right; exists w; simpl; split; [tauto|lia]|left; lia]. }
  apply (X a 0 0).
Qed.

(** ** names *)
Lemma back_ok s n p : back s n = Ok p <-> (p <= n)%nat /\ nth p s 0 = 95 /\ forall j, (p < j <= n)%nat -> nth j s 0 <> 95.
Proof.
  induction n as [|n IH]; cbn [back].
  - destruct (Z.eqb_spec (nth 0 s 0) 95) as [E|E]; split; try discriminate.
    + intros H; injection H as <-. repeat split; auto. lia.
    + intros (L & _). f_equal. lia.
    + intros (L & K & _). replace p with O in K by lia. contradiction.
  - destruct (Z.eqb_spec (nth (S n) s 0) 95) as [E|E].
    + split; [intros H; injection H as <-; repeat split; auto; lia|]. intros (L & K & F). destruct (Nat.eq_dec p (S n)) as [->|]; [reflexivity|]. exfalso. apply (F (S n)); [lia|exact E].
    + rewrite IH. split; intros (L & K & F); repeat split; auto; try lia.
      * intros j J. destruct (Nat.eq_dec j (S n)) as [->|]; [exact E|apply F; lia].
      * destruct (Nat.eq_dec p (S n)) as [->|]; [contradiction|lia].
      * intros j J. apply F. lia.
Qed.
Lemma back_total s n : (exists p, back s n = Ok p) \/ back s n = UB.
Proof. induction n as [|n IH]; cbn [back]; destruct (_ =? 95); eauto. Qed.
Lemma back_app a b k : (k <= length b)%nat -> ~ In 95 (firstn k b) -> back (a ++ [95] ++ b) (length a + k) = Ok (length a).
Proof.
  intros L N. apply back_ok. split; [lia|]. split.
  - rewrite app_nth2, Nat.sub_diag by lia. reflexivity.
  - intros j J E. rewrite app_nth2 in E by lia. replace (j - length a)%nat with (S (j - length a - 1)) in E by lia. cbn [app nth] in E. apply N.
    rewrite <- E. assert (K : nth (j - length a - 1) b 0 = nth (j - length a - 1) (firstn k b) 0).
    { rewrite <- (firstn_skipn k b) at 1. apply app_nth1. rewrite firstn_length. lia. }
    rewrite K. apply nth_In. rewrite firstn_length. lia.
Qed.

Lemma prefix_iff w s : prefix w s = true <-> exists r, s = (w ++ r)%list.
Proof.
  revert s; induction w as [|a w IH]; intros s; cbn [prefix].
  - split; [intros _; exists s; reflexivity|reflexivity].
  - destruct s as [|b s]; [split; [discriminate|intros (r & H); discriminate]|]. rewrite andb_true_iff, Z.eqb_eq, IH. split.
    + intros (<- & r & ->). exists r. reflexivity.
    + intros (r & H). cbn [app] in H. injection H as <- ->. split; [reflexivity|exists r; reflexivity].
Qed.
Lemma skipn_app_exact {X} (a b : list X) : skipn (length a) (a ++ b) = b.
Proof. rewrite skipn_app, Nat.sub_diag, skipn_all. reflexivity. Qed.
Lemma firstn_app_exact {X} (a b : list X) : firstn (length a) (a ++ b) = a.
Proof. rewrite firstn_app, Nat.sub_diag, firstn_all. apply app_nil_r. Qed.
Lemma tag_length t : length (tag_text t) = 3%nat.
Proof. unfold tag_text. destruct (t =? 115); reflexivity. Qed.

(** what the constructor accepts *)
Definition shape (s m D w : list Z) (sep t : Z) : Prop :=
  s = (m ++ [95] ++ D ++ [95] ++ w ++ [sep] ++ tag_text t ++ chars ".gfc")%list /\ ~ In 95 D /\ ~ In 95 w /\ is_tag t.

Lemma parse_shape s m D w sep t : shape s m D w sep t -> parse_gname s =
  (if (16 <? length w)%nat then UB else
   d <- from_chars (D ++ [95] ++ w ++ [sep] ++ tag_text t ++ chars ".gfc" ++ [0])%list ;;
   match d with None => Ok None | Some d => if (48 <? length m)%nat then UB else Ok (Some (mkG m d w t)) end).
Proof.
  intros (E & ND & NW & T). pose proof (tag_length t) as LT.
  assert (L : Z.of_nat (length s) = Z.of_nat (length m + length D + length w) + 10) by (subst s; rewrite !app_length; simpl; lia).
  unfold parse_gname, same_at, back_from. rewrite L.
  assert (A4 : skipn (length m + length D + length w + 6) s = chars ".gfc").
  { subst s. set (x := (m ++ [95] ++ D ++ [95] ++ w ++ [sep] ++ tag_text t)%list). replace (m ++ [95] ++ D ++ [95] ++ w ++ [sep] ++ tag_text t ++ chars ".gfc")%list with (x ++ chars ".gfc")%list by (unfold x; rewrite <- !app_assoc; reflexivity).
    replace (length m + length D + length w + 6)%nat with (length x) by (unfold x; rewrite !app_length; simpl; lia). apply skipn_app_exact. }
  assert (A7 : skipn (length m + length D + length w + 3) s = (tag_text t ++ chars ".gfc")%list).
  { subst s. set (x := (m ++ [95] ++ D ++ [95] ++ w ++ [sep])%list). replace (m ++ [95] ++ D ++ [95] ++ w ++ [sep] ++ tag_text t ++ chars ".gfc")%list with (x ++ tag_text t ++ chars ".gfc")%list by (unfold x; rewrite <- !app_assoc; reflexivity).
    replace (length m + length D + length w + 3)%nat with (length x) by (unfold x; rewrite !app_length; simpl; lia). apply skipn_app_exact. }
  assert (B1 : back s (length m + length D + 1 + length w) = Ok (length m + length D + 1)%nat).
  { replace s with ((m ++ [95] ++ D) ++ [95] ++ (w ++ [sep] ++ tag_text t ++ chars ".gfc"))%list by (subst s; rewrite <- !app_assoc; reflexivity).
    replace (length m + length D + 1)%nat with (length (m ++ [95] ++ D)) by (rewrite !app_length; simpl; lia). apply back_app; [rewrite app_length; lia|]. rewrite firstn_app_exact. exact NW. }
  assert (B2 : back s (length m + length D) = Ok (length m)).
  { subst s. apply back_app; [rewrite app_length; lia|]. rewrite firstn_app_exact. exact ND. }
  destruct (Z.ltb_spec (Z.of_nat (length m + length D + length w) + 10 - 4) 0) as [X|_]; [lia|]. cbn [bind].
  destruct (Z.ltb_spec (Z.of_nat (length m + length D + length w) + 10 - 7) 0) as [X|_]; [lia|]. cbn [bind].
  destruct (Z.ltb_spec (Z.of_nat (length m + length D + length w) + 10 - 9) 0) as [X|_]; [lia|]. cbn [bind].
  replace (Z.to_nat (Z.of_nat (length m + length D + length w) + 10 - 4)) with (length m + length D + length w + 6)%nat by lia. rewrite A4.
  replace (Z.to_nat (Z.of_nat (length m + length D + length w) + 10 - 7)) with (length m + length D + length w + 3)%nat by lia. rewrite A7.
  replace (Z.to_nat (Z.of_nat (length m + length D + length w) + 10 - 9)) with (length m + length D + 1 + length w)%nat by lia. rewrite B1. cbn [bind].
  replace (Z.of_nat (length m + length D + length w) + 10 - 9 - Z.of_nat (length m + length D + 1)) with (Z.of_nat (length w)) by lia.
  destruct (Nat.ltb_spec 16 (length w)) as [W|W]; destruct (Z.ltb_spec 16 (Z.of_nat (length w))) as [W'|W']; try lia; [reflexivity|].
  destruct (Z.ltb_spec (Z.of_nat (length m + length D + 1) - 1) 0) as [X|_]; [lia|].
  replace (Z.to_nat (Z.of_nat (length m + length D + 1) - 1)) with (length m + length D)%nat by lia. rewrite B2. cbn [bind].
  assert (C1 : skipn (Z.to_nat (Z.of_nat (length m) + 1)) (s ++ [0]) = (D ++ [95] ++ w ++ [sep] ++ tag_text t ++ chars ".gfc" ++ [0])%list).
  { replace (s ++ [0])%list with ((m ++ [95]) ++ (D ++ [95] ++ w ++ [sep] ++ tag_text t ++ chars ".gfc" ++ [0]))%list by (subst s; rewrite <- !app_assoc; reflexivity).
    replace (Z.to_nat (Z.of_nat (length m) + 1)) with (length (m ++ [95])) by (rewrite app_length; simpl; lia). apply skipn_app_exact. }
  rewrite C1. destruct (from_chars _) as [[d|]| | |]; try reflexivity. cbn [bind].
  destruct (Nat.ltb_spec 48 (length m)) as [M|M]; destruct (Z.ltb_spec 48 (Z.of_nat (length m))) as [M'|M']; try lia; [reflexivity|].
  assert (C2 : firstn (Z.to_nat (Z.of_nat (length w))) (skipn (Z.to_nat (Z.of_nat (length m + length D + 1) + 1)) s) = w).
  { replace s with ((m ++ [95] ++ D ++ [95]) ++ (w ++ [sep] ++ tag_text t ++ chars ".gfc"))%list by (subst s; rewrite <- !app_assoc; reflexivity).
    replace (Z.to_nat (Z.of_nat (length m + length D + 1) + 1)) with (length (m ++ [95] ++ D ++ [95])) by (rewrite !app_length; simpl; lia). rewrite skipn_app_exact.
    replace (Z.to_nat (Z.of_nat (length w))) with (length w) by lia. apply firstn_app_exact. }
  assert (C3 : firstn (Z.to_nat (Z.of_nat (length m))) s = m) by (rewrite Nat2Z.id; subst s; apply firstn_app_exact).
  rewrite C2, C3. destruct T as [-> | ->]; reflexivity.
Qed.

(** conversely *)
Lemma not_in_95 (l : list Z) (p n : nat) (s : list Z) : (forall j, (p < j <= n)%nat -> nth j s 0 <> 95) -> l = firstn (n - p) (skipn (p + 1) s) -> (n < length s)%nat -> ~ In 95 l.
Proof.
  intros F -> L H. apply In_nth with (d := 0) in H as (k & K & E). rewrite firstn_length, skipn_length in K.
  assert (Y : nth k (firstn (n - p) (skipn (p + 1) s)) 0 = nth (p + 1 + k) s 0).
  { rewrite <- (firstn_skipn (p + 1) s) at 2. rewrite app_nth2; rewrite firstn_length; [|lia]. replace (p + 1 + k - Nat.min (p + 1) (length s))%nat with k by lia.
    rewrite <- (firstn_skipn (n - p) (skipn (p + 1) s)) at 2. rewrite app_nth1; [reflexivity|]. rewrite firstn_length, skipn_length. lia. }
  rewrite Y in E. apply (F (p + 1 + k)%nat); [lia|exact E].
Qed.
Lemma split_at (s : list Z) p : (p < length s)%nat -> s = (firstn p s ++ [nth p s 0] ++ skipn (p + 1) s)%list.
Proof.
  revert s; induction p as [|p IH]; intros [|c s] H; cbn [length] in H; try lia; [reflexivity|].
  cbn [firstn nth Nat.add skipn app]. f_equal. apply IH. lia.
Qed.
Lemma parse_some s g : parse_gname s = Ok (Some g) -> exists D sep, shape s (gmodel g) D (gwave g) sep (gtag g).
Proof.
  unfold parse_gname, same_at, back_from. set (sz := Z.of_nat (length s)).
  destruct (sz - 4 <? 0) eqn:E1; [discriminate|]. cbn [bind]. destruct (sz - 7 <? 0) eqn:E2; [discriminate|]. cbn [bind]. destruct (sz - 9 <? 0) eqn:E3; [discriminate|].
  apply Z.ltb_ge in E3.
  destruct (back s (Z.to_nat (sz - 9))) as [p| | |] eqn:B1; try discriminate. cbn [bind]. apply back_ok in B1 as (P1 & P2 & P3).
  destruct (16 <? sz - 9 - Z.of_nat p) eqn:EW; [discriminate|].
  destruct (Z.of_nat p - 1 <? 0) eqn:E4; [discriminate|]. apply Z.ltb_ge in E4.
  destruct (back s (Z.to_nat (Z.of_nat p - 1))) as [q| | |] eqn:B2; try discriminate. cbn [bind]. apply back_ok in B2 as (Q1 & Q2 & Q3).
  destruct (from_chars _) as [[d|]| | |] eqn:FC; try discriminate. cbn [bind]. destruct (48 <? Z.of_nat q); [discriminate|].
  set (ext := prefix (chars ".gfc") (skipn (Z.to_nat (sz - 4)) s)). set (sn := prefix (chars "sin") (skipn (Z.to_nat (sz - 7)) s)). set (cs := prefix (chars "cos") (skipn (Z.to_nat (sz - 7)) s)).
  destruct (ext && (sn || cs)) eqn:EX; [|discriminate]. intros H; injection H as <-. cbn [gmodel gwave gtag].
  apply andb_true_iff in EX as (EX & ET). unfold ext in EX. apply prefix_iff in EX as (r & EX).
  assert (LS : length s = Z.to_nat sz) by (unfold sz; lia).
  assert (r = []). { apply (f_equal (@length Z)) in EX. rewrite skipn_length, app_length in EX. change (length (chars ".gfc")) with 4%nat in EX. destruct r; [reflexivity|simpl in EX; lia]. } subst r. rewrite app_nil_r in EX.
  assert (TT : skipn (Z.to_nat (sz - 7)) s = (tag_text (if sn then 115 else 99) ++ chars ".gfc")%list /\ is_tag (if sn then 115 else 99)).
  { assert (K : forall w r, length w = 3%nat -> skipn (Z.to_nat (sz - 7)) s = (w ++ r)%list -> r = chars ".gfc").
    { intros w r0 L0 K. rewrite <- EX. replace (Z.to_nat (sz - 4)) with (3 + Z.to_nat (sz - 7))%nat by lia.
      assert (Y : forall (l : list Z) a b, skipn (a + b) l = skipn a (skipn b l)). { clear. intros l a b. revert l. induction b; intros l; [rewrite Nat.add_0_r; reflexivity|]. rewrite Nat.add_succ_r. destruct l; [rewrite !skipn_nil; reflexivity|]. cbn [skipn]. apply IHb. }
      rewrite Y, K, <- L0. symmetry. apply skipn_app_exact. }
    apply orb_true_iff in ET. unfold sn in *. destruct (prefix (chars "sin") (skipn (Z.to_nat (sz - 7)) s)) eqn:ES.
    - apply prefix_iff in ES as (r & ES). rewrite ES. rewrite (K (chars "sin") r eq_refl ES). split; [reflexivity|left; reflexivity].
    - destruct ET as [ET|ET]; [discriminate|]. unfold cs in ET. apply prefix_iff in ET as (r & ET). rewrite ET. rewrite (K (chars "cos") r eq_refl ET). split; [reflexivity|right; reflexivity]. }
  destruct TT as (TT & IT). set (t := if sn then 115 else 99) in *.
  assert (NW : nth p s 0 = 95 /\ nth q s 0 = 95) by tauto.
  exists (firstn (p - 1 - q) (skipn (q + 1) s)), (nth (Z.to_nat (sz - 8)) s 0).
  split.
  - rewrite (split_at s q) at 1 by lia. rewrite Q2. rewrite Nat2Z.id. f_equal. f_equal.
    replace (p - 1 - q)%nat with (p - (q + 1))%nat by lia.
    assert (X1 : skipn (q + 1) s = (firstn (p - (q + 1)) (skipn (q + 1) s) ++ [95] ++ skipn (p + 1) s)%list).
    { rewrite <- P2. rewrite (split_at (skipn (q + 1) s) (p - (q + 1))) at 1 by (rewrite skipn_length; lia). f_equal. f_equal.
      - f_equal. rewrite <- (firstn_skipn (q + 1) s) at 2. rewrite app_nth2; rewrite firstn_length; [|lia]. f_equal. lia.
      - assert (Y : forall (l : list Z) a b, skipn (a + b) l = skipn a (skipn b l)). { clear. intros l a b. revert l. induction b; intros l; [rewrite Nat.add_0_r; reflexivity|]. rewrite Nat.add_succ_r. destruct l; [rewrite !skipn_nil; reflexivity|]. cbn [skipn]. apply IHb. }
        rewrite <- Y. f_equal. lia. }
    rewrite X1 at 1. f_equal. f_equal.
    replace (Z.to_nat (Z.of_nat p + 1)) with (p + 1)%nat by lia. set (n := (Z.to_nat (sz - 8))). replace (Z.to_nat (sz - 9 - Z.of_nat p)) with (n - (p + 1))%nat by lia.
    rewrite (split_at (skipn (p + 1) s) (n - (p + 1))) at 1 by (rewrite skipn_length; lia). f_equal. f_equal.
    + f_equal. rewrite <- (firstn_skipn (p + 1) s) at 2. rewrite app_nth2; rewrite firstn_length; [|lia]. f_equal. lia.
    + rewrite <- TT. assert (Y : forall (l : list Z) a b, skipn (a + b) l = skipn a (skipn b l)). { clear. intros l a b. revert l. induction b; intros l; [rewrite Nat.add_0_r; reflexivity|]. rewrite Nat.add_succ_r. destruct l; [rewrite !skipn_nil; reflexivity|]. cbn [skipn]. apply IHb. }
      rewrite <- Y. f_equal. lia.
  - split; [|split; [|exact IT]].
    + apply (not_in_95 _ q (p - 1) s); [intros j J; apply Q3; lia|reflexivity|lia].
    + apply (not_in_95 _ p (Z.to_nat (sz - 9)) s); [exact P3| |lia].
      replace (Z.to_nat (Z.of_nat p + 1)) with (p + 1)%nat by lia. replace (Z.to_nat (sz - 9 - Z.of_nat p)) with (Z.to_nat (sz - 9) - p)%nat by lia. reflexivity.
Qed.
