(** Proofs about merging AOD1B files. *)
From Coq Require Import Ascii String ZArith List Bool Lia.
From Verif Require Import Base CString FromChars PyModel AodMergeModel AodMergeSpec PyProofs.
Import ListNotations.
Open Scope Z_scope.

(** ** reading *)
Lemma END_chars : one_line END /\ begins_solid END /\ ends_solid END /\ ~ In 58 END.
Proof.
  split; [unfold END, chars; cbn; repeat constructor; discriminate|]. split; [intros c r H; injection H as <- _; unfold white; cbn; lia|].
  split; [apply ends_rev; intros c r H; vm_compute in H; injection H as <- _; unfold white; lia|]. vm_compute. intuition discriminate.
Qed.
Lemma entry_shape kv l : entry kv l -> exists m, l = m ++ [10] /\ one_line m /\ In 58 m.
Proof.
  intros (fill & b1 & b2 & -> & G0 & G1 & G2 & K & _ & _ & V & _). exists (fst kv ++ fill ++ 58 :: b1 ++ snd kv ++ b2). split; [repeat (rewrite <- ?app_assoc; cbn [app]); reflexivity|].
  split; [|apply in_or_app; right; apply in_or_app; right; left; reflexivity]. apply Forall_app. split; [exact K|]. apply Forall_app. split; [apply gap_line, G0|]. constructor; [discriminate|]. repeat (apply Forall_app; split); [apply gap_line, G1|exact V|apply gap_line, G2].
Qed.
Lemma entry_not_end kv l : entry kv l -> text_eqb (strip l) END = false.
Proof.
  intros H. destruct (entry_shape kv l H) as (m & -> & _ & I). apply text_eqb_neq. intros E. apply (proj2 (proj2 (proj2 END_chars))). rewrite <- E. apply strip_in; [apply in_or_app; left; exact I|]. unfold white. lia.
Qed.
Lemma entry_split kv l : entry kv l -> exists k v, split1 58 l = Some (k, v) /\ rstrip k = fst kv /\ strip v = snd kv.
Proof.
  intros (fill & b1 & b2 & -> & G0 & G1 & G2 & K & NC & EK & V & BV & EV). exists (fst kv ++ fill), (b1 ++ snd kv ++ b2 ++ [10]). split; [|split].
  - rewrite app_assoc. apply split1_first. apply Forall_app. split; [exact NC|]. eapply Forall_impl; [|exact G0]. cbn. intros c [W _]. unfold white in W. lia.
  - rewrite rstrip_white by apply gap_white, G0. apply rstrip_solid, EK.
  - apply strip_between; [apply gap_white, G1| |exact BV|exact EV]. apply Forall_app. split; [apply gap_white, G2|constructor; [exact newline_white|constructor]].
Qed.
Lemma ending_shape e : ending e -> exists m, e = m ++ [10] /\ one_line m /\ strip e = END.
Proof.
  intros (b1 & b2 & -> & G1 & G2). destruct END_chars as (O & B & E & _). exists (b1 ++ chars "END OF HEADER" ++ b2). split; [repeat rewrite <- app_assoc; reflexivity|].
  split; [repeat (apply Forall_app; split); [apply gap_line, G1|exact O|apply gap_line, G2]|]. apply strip_between; [apply gap_white, G1| |exact B|exact E]. apply Forall_app. split; [apply gap_white, G2|constructor; [exact newline_white|constructor]].
Qed.
Lemma lines_entries hdr ls t : Forall2 entry hdr ls -> lines (concat ls ++ t) = ls ++ lines t.
Proof.
  induction 1 as [|kv l hdr ls H _ IH]; [reflexivity|]. destruct (entry_shape kv l H) as (m & -> & O & _). cbn [concat app]. rewrite <- !app_assoc. cbn [app]. rewrite lines_cons by exact O. rewrite IH. reflexivity.
Qed.
Lemma file_lines text hdr data : is_file text hdr data -> exists ls e, lines text = ls ++ e :: lines data /\ Forall2 entry hdr ls /\ ending e /\ NoDup (map fst hdr).
Proof.
  intros (ls & e & -> & F & E & ND). exists ls, e. split; [|split; [exact F|split; assumption]]. rewrite (lines_entries hdr) by exact F. destruct (ending_shape e E) as (m & -> & O & _). rewrite <- app_assoc. cbn [app]. rewrite lines_cons by exact O. reflexivity.
Qed.
Lemma read_entries hdr ls e r d : Forall2 entry hdr ls -> ending e -> NoDup (map fst (d ++ hdr)) -> read_header (ls ++ e :: r) d = Val (d ++ hdr).
Proof.
  intros F. revert d. induction F as [|kv l hdr ls H F IH]; intros d E ND.
  - cbn. destruct (ending_shape e E) as (_ & _ & _ & ->). rewrite text_eqb_refl, app_nil_r. reflexivity.
  - cbn [app read_header]. rewrite (entry_not_end kv l H). destruct (entry_split kv l H) as (k & v & -> & -> & ->). rewrite dset_new.
    + destruct kv as [k' v']. cbn [fst snd] in *. rewrite (IH (d ++ [(k', v')]) E); rewrite <- app_assoc; [reflexivity|exact ND].
    + rewrite map_app in ND. cbn [map] in ND. apply NoDup_remove_2 in ND. intros I. apply ND, in_or_app. left. exact I.
Qed.
Lemma cat_entries hdr ls e r : Forall2 entry hdr ls -> ending e -> cat (ls ++ e :: r) = Val (concat r).
Proof.
  intros F E. induction F as [|kv l hdr ls H F IH]; cbn [app cat]; [destruct (ending_shape e E) as (_ & _ & _ & ->); rewrite text_eqb_refl; reflexivity|]. rewrite (entry_not_end kv l H). exact IH.
Qed.
Lemma read_file text hdr data : is_file text hdr data -> read_header (lines text) [] = Val hdr /\ cat (lines text) = Val data /\ NoDup (map fst hdr).
Proof.
  intros H. destruct (file_lines text hdr data H) as (ls & e & -> & F & E & ND). split; [exact (read_entries hdr ls e (lines data) [] F E ND)|]. split; [|exact ND]. rewrite (cat_entries hdr) by assumption. rewrite lines_concat. reflexivity.
Qed.

(** ** dates of observations *)
Lemma take_date_app mask d rest : Forall2 (fun m c => if m =? 48 then digit c else c = m) mask d -> take_date mask (d ++ rest) = Some d.
Proof.
  induction 1 as [|m c mask d H _ IH]; [destruct rest; reflexivity|]. cbn [app take_date]. rewrite IH. destruct (m =? 48); [rewrite (proj2 (dig_digit c) H); reflexivity|]. subst. rewrite Z.eqb_refl. reflexivity.
Qed.
Lemma take_date_sound mask s d : take_date mask s = Some d -> exists rest, s = d ++ rest /\ Forall2 (fun m c => if m =? 48 then digit c else c = m) mask d.
Proof.
  revert s d. induction mask as [|m mask IH]; intros s d H; [cbn in H; injection H as <-; exists s; split; [reflexivity|constructor]|]. destruct s as [|c s]; [discriminate|]. cbn [take_date] in H.
  destruct (if m =? 48 then is_dig c else m =? c) eqn:E; [|discriminate]. destruct (take_date mask s) as [d'|] eqn:T; [|discriminate]. injection H as <-. destruct (IH s d' T) as (rest & -> & F). exists rest. split; [reflexivity|].
  constructor; [|exact F]. destruct (m =? 48); [apply dig_digit, E|apply Z.eqb_eq in E; symmetry; exact E].
Qed.
Lemma before_paren_complete a c b s : Forall digit a -> c <> 10 -> Forall digit b -> Forall (fun c => c = 32) s -> before_paren (a ++ c :: b ++ s) = true.
Proof.
  intros A C B S. unfold before_paren. assert (D : forall x, Forall digit x -> Forall (fun c => is_dig c = true) x) by (intros x; apply Forall_impl; intros y; apply dig_digit).
  assert (HS : forall x, Forall digit x -> take_digits (x ++ s) = (x, s)). { intros x X. apply take_digits_app; [apply D, X|]. destruct s as [|y s]; [exact I|]. inversion S; subst. reflexivity. }
  destruct (is_dig c) eqn:E.
  - replace (a ++ c :: b ++ s) with ((a ++ c :: b) ++ s) by (rewrite <- app_assoc; reflexivity). rewrite HS by (apply Forall_app; split; [exact A|constructor; [apply dig_digit, E|exact B]]).
    destruct s as [|y s]; [destruct a; reflexivity|]. inversion S as [|? ? -> S']; subst. cbn [Z.eqb negb andb]. destruct (take_digits s) as [d r] eqn:T. apply take_digits_spec in T as (-> & _ & _). apply Forall_app in S' as [_ S']. cbn [snd].
    apply forallb_forall. intros x X. rewrite Forall_forall in S'. rewrite (S' x X). reflexivity.
  - rewrite take_digits_app; [|apply D, A|exact E]. rewrite (proj2 (Z.eqb_neq c 10) C), HS by exact B. cbn [snd negb andb]. apply forallb_forall. intros x X. rewrite Forall_forall in S. rewrite (S x X). reflexivity.
Qed.
Lemma before_paren_sound p : before_paren p = true -> exists a c b s, p = a ++ c :: b ++ s /\ Forall digit a /\ c <> 10 /\ Forall digit b /\ Forall (fun c => c = 32) s.
Proof.
  unfold before_paren. destruct (take_digits p) as [d r] eqn:T. apply take_digits_spec in T as (-> & F & X). assert (D : forall x, Forall (fun c => is_dig c = true) x -> Forall digit x) by (intros x; apply Forall_impl; intros y; apply dig_digit).
  destruct r as [|c r].
  - destruct d as [|c d] using rev_ind; [discriminate|]. intros _. apply D in F. apply Forall_app in F as [F G]. inversion G as [|? ? H _]; subst. exists d, c, [], []. split; [rewrite !app_nil_r; reflexivity|]. split; [exact F|]. split; [unfold digit in H; lia|]. split; constructor.
  - intros H. apply andb_true_iff in H as [N H]. apply negb_true_iff, Z.eqb_neq in N. destruct (take_digits r) as [b s] eqn:T. apply take_digits_spec in T as (-> & G & _). cbn [snd] in H. exists d, c, b, s. split; [reflexivity|]. split; [apply D, F|]. split; [exact N|]. split; [apply D, G|].
    apply Forall_forall. intros x I. rewrite forallb_forall in H. apply Z.eqb_eq, H, I.
Qed.
Lemma no_date x y : Forall (fun c => digit c \/ c = 32) x -> take_date date_mask (x ++ 40 :: y) = None.
Proof.
  intros F. destruct (take_date date_mask (x ++ 40 :: y)) as [d|] eqn:T; [exfalso|reflexivity]. destruct (take_date_sound _ _ _ T) as (rest & E & D). clear T.
  change date_mask with ([48; 48; 48; 48; 45] ++ [48; 48; 45; 48; 48; 32; 48; 48; 58; 48; 48; 58; 48; 48]) in D. apply Forall2_app_inv_l in D as (d1 & d2 & D & _ & ->).
  do 4 (inversion D as [|? ? ? ? H D']; subst; clear D; rename D' into D; cbn in H; unfold digit in H; destruct F as [|? ? ? F]; cbn in E; injection E as ? E; [subst; lia|]; clear H; subst).
  inversion D as [|? ? ? ? H D']; subst. cbn in H. destruct F as [|? ? G F]; cbn in E; injection E as ? E; [lia|]. unfold digit in G. lia.
Qed.
Lemma match_obs_sound pre s d : match_obs pre s = Some d -> exists p rest, s = p ++ 40 :: d ++ rest /\ before_paren (pre ++ p) = true /\ date_text d.
Proof.
  revert pre. induction s as [|c s IH]; intros pre H; [discriminate|]. cbn [match_obs] in H.
  destruct ((c =? 40) && before_paren pre) eqn:E.
  - apply andb_true_iff in E as [E B]. apply Z.eqb_eq in E. subst c. destruct (take_date date_mask s) as [d'|] eqn:T.
    + injection H as ->. destruct (take_date_sound _ _ _ T) as (rest & -> & F). exists [], rest. split; [reflexivity|]. split; [rewrite app_nil_r; exact B|exact F].
    + destruct (IH _ H) as (p & rest & -> & B' & D). exists (40 :: p), rest. split; [reflexivity|]. split; [rewrite <- app_assoc in B'; exact B'|exact D].
  - destruct (IH _ H) as (p & rest & -> & B' & D). exists (c :: p), rest. split; [reflexivity|]. split; [rewrite <- app_assoc in B'; exact B'|exact D].
Qed.
Lemma match_obs_complete x pre d rest : before_paren (pre ++ x) = true -> date_text d -> (forall x1 x2, x = x1 ++ 40 :: x2 -> take_date date_mask (x2 ++ 40 :: d ++ rest) = None) ->
  match_obs pre (x ++ 40 :: d ++ rest) = Some d.
Proof.
  revert pre. induction x as [|c x IH]; intros pre B D N.
  - rewrite app_nil_r in B. cbn [app match_obs]. rewrite Z.eqb_refl, B. cbn [andb]. unfold date_mask. rewrite take_date_app by exact D. reflexivity.
  - cbn [app match_obs]. assert (G : (if (c =? 40) && before_paren pre then take_date date_mask (x ++ 40 :: d ++ rest) else None) = None).
    { destruct ((c =? 40) && before_paren pre) eqn:E; [|reflexivity]. apply andb_true_iff in E as [E _]. apply Z.eqb_eq in E. subst c. apply (N [] x). reflexivity. }
    rewrite G. apply IH; [rewrite <- app_assoc; exact B|exact D|]. intros x1 x2 ->. apply (N (c :: x1) x2). reflexivity.
Qed.
Lemma match_obs_iff v d : match_obs [] v = Some d <-> obs_text v d.
Proof.
  split.
  - intros H. destruct (match_obs_sound [] v d H) as (p & rest & -> & B & D). cbn [app] in B. destruct (before_paren_sound p B) as (a & c & b & s & -> & A & C & BB & S). exists a, c, b, s, rest. split; [repeat (rewrite <- app_assoc; cbn [app]); reflexivity|]. repeat (split; [assumption|]). exact D.
  - intros (a & c & b & s & rest & -> & A & C & B & S & D). replace (a ++ c :: b ++ s ++ 40 :: d ++ rest) with ((a ++ c :: b ++ s) ++ 40 :: d ++ rest) by (repeat (rewrite <- app_assoc; cbn [app]); reflexivity).
    apply match_obs_complete; [apply before_paren_complete; assumption|exact D|]. intros x1 x2 E.
    assert (BS : Forall (fun c => digit c \/ c = 32) (b ++ s)). { apply Forall_app. split; [eapply Forall_impl; [|exact B]; cbn; tauto|eapply Forall_impl; [|exact S]; cbn; tauto]. }
    assert (AD : forall a x1, Forall digit a -> a ++ c :: b ++ s = x1 ++ 40 :: x2 -> x2 = b ++ s \/ exists y, b ++ s = y ++ 40 :: x2).
    { clear - BS. induction a as [|z a IH]; intros [|w x1] A E; cbn in E; injection E as E1 E2.
      - left. symmetry. exact E2.
      - right. exists x1. exact E2.
      - exfalso. inversion A as [|? ? H _]; subst. unfold digit in H. lia.
      - inversion A; subst. apply (IH x1); assumption. }
    destruct (AD a x1 A E) as [->|(y & Y)]; [apply no_date, BS|]. exfalso. rewrite Y in BS. apply Forall_app in BS as [_ BS]. inversion BS as [|? ? H _]; subst. unfold digit in H. lia.
Qed.
