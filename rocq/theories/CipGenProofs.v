(** Proofs about CipGenModel. *)
From Coq Require Import Reals ZArith List Bool Lia Lra Permutation Sorted.
From Verif Require Import Base PyModel CipRow CipSpec CipModel CipProofs CipTabScript CipTabXY CipGenModel CipGenSpec.
Import ListNotations.

Lemma zs_same_ok a : forall b, zs_same a b = true <-> a = b.
Proof.
  induction a as [|x a IH]; intros [|y b]; cbn [zs_same]; try (split; [discriminate|discriminate]); [tauto|].
  rewrite andb_true_iff, Z.eqb_eq, IH. split; [intros [-> ->]; reflexivity|intros [= -> ->]; auto].
Qed.

(** ** entries *)
Definition side (c : component) (g : group) : list plrow := match c with CX => gx g | CY => gy g end.
Definition entry (ls : list Z) (p : plrow) : term := (Z.to_nat (ppow p), mkRow (psin p) (pcos p) (ls ++ pmult p)).
Definition ent (c : component) (dl : list group) : list term := flat_map (fun g => map (entry (gls g)) (side c g)) dl.
Definition good (p : plrow) : Prop := (0 <= ppow p <= 4)%Z /\ length (pmult p) = 9%nat /\ (sumpl p = 0%Z -> forallb (Z.eqb 0) (pmult p) = true).
Definition wf (g : group) : Prop := length (gls g) = 5%nat /\ Forall good (gx g ++ gy g) /\ gx g ++ gy g <> [].

Section Gen.
  Variable le : plrow -> plrow -> bool.
  Lemma insert_perm t l : forall m, insert le t l = Some m -> Permutation m (t :: l).
  Proof.
    induction l as [|v r IH]; intros m; cbn [insert]; [discriminate|]. destruct (_ <? _)%Z; [intros [= <-]; reflexivity|]. destruct (_ && _); [intros [= <-]; reflexivity|].
    destruct (insert le t r) as [k|]; [|discriminate]. intros [= <-]. rewrite (IH k eq_refl). apply perm_swap.
  Qed.
  Lemma append_perm t l m : append_planetary le t l = Val m -> Permutation m (t :: l).
  Proof.
    unfold append_planetary. destruct l as [|v r]; [intros [= <-]; reflexivity|]. destruct (insert le t (v :: r)) as [k|] eqn:E; cbn [ofopt]; [|discriminate]. intros [= <-]. exact (insert_perm _ _ _ E).
  Qed.
  Lemma append_to_perm c t g g' : append_to le c t g = Val g' -> gls g' = gls g /\ Permutation (side c g') (t :: side c g) /\ (forall d, is c d = false -> side d g' = side d g).
  Proof.
    unfold append_to. destruct c.
    - destruct (append_planetary le t (gx g)) as [x|e|] eqn:E; cbn [pbind]; try discriminate. intros [= <-]. split; [reflexivity|]. split; [exact (append_perm _ _ _ E)|]. intros [|]; [discriminate|reflexivity].
    - destruct (append_planetary le t (gy g)) as [x|e|] eqn:E; cbn [pbind]; try discriminate. intros [= <-]. split; [reflexivity|]. split; [exact (append_perm _ _ _ E)|]. intros [|]; [reflexivity|discriminate].
  Qed.
  Lemma both_sides c t g g' : append_to le c t g = Val g' -> Permutation (gx g' ++ gy g') (t :: gx g ++ gy g).
  Proof.
    intros H. destruct (append_to_perm _ _ _ _ H) as (_ & P & O). destruct c.
    - cbn [side] in P. rewrite P. pose proof (O CY eq_refl) as Q. cbn [side] in Q. rewrite Q. reflexivity.
    - cbn [side] in P. pose proof (O CX eq_refl) as Q. cbn [side] in Q. rewrite Q, P. symmetry. apply Permutation_middle.
  Qed.
  Lemma wf_append c t g g' : good t -> length (gls g) = 5%nat -> Forall good (gx g ++ gy g) -> append_to le c t g = Val g' -> wf g'.
  Proof.
    intros G L A H. pose proof (both_sides _ _ _ _ H) as P. destruct (append_to_perm _ _ _ _ H) as (E & _). split; [congruence|]. split.
    - eapply Permutation_Forall; [symmetry; exact P|]. constructor; assumption.
    - intros N. rewrite N in P. apply Permutation_nil in P. discriminate P.
  Qed.
  Lemma add_ok c ls t : good t -> length ls = 5%nat -> forall dl dl', add le c ls t dl = Val dl' -> Forall wf dl -> NoDup (map gls dl) ->
    Permutation (ent c dl') (entry ls t :: ent c dl) /\ (forall d, is c d = false -> ent d dl' = ent d dl) /\ Forall wf dl' /\ NoDup (map gls dl') /\ (map gls dl' = map gls dl \/ map gls dl' = map gls dl ++ [ls] /\ ~ In ls (map gls dl)).
  Proof.
    intros G L. induction dl as [|g rest IH]; intros dl' H W N; cbn [add] in H.
    - destruct (append_to le c t (mkG ls [] [])) as [g'|e|] eqn:E; cbn [pbind] in H; try discriminate. injection H as <-. destruct (append_to_perm _ _ _ _ E) as (A & P & O). cbn [gls] in A.
      split; [|split; [|split; [|split]]].
      + unfold ent. cbn [flat_map]. rewrite app_nil_r, A. rewrite P. destruct c; reflexivity.
      + intros d D. unfold ent. cbn [flat_map]. rewrite (O d D). destruct d; reflexivity.
      + constructor; [|constructor]. apply (wf_append c t (mkG ls [] [])); [exact G|exact L|constructor|exact E].
      + cbn. constructor; [tauto|constructor].
      + right. cbn [map app]. rewrite A. split; [reflexivity|intros []].
    - inversion W as [|? ? W1 W2]; subst. cbn [map] in N. inversion N as [|? ? N1 N2]; subst. destruct (zs_same (gls g) ls) eqn:S.
      + apply zs_same_ok in S. destruct (append_to le c t g) as [g'|e|] eqn:E; cbn [pbind] in H; try discriminate. injection H as <-. destruct (append_to_perm _ _ _ _ E) as (A & P & O). destruct W1 as (W1 & W3 & W4).
        split; [|split; [|split; [|split]]].
        * unfold ent. cbn [flat_map]. rewrite A, S, P. reflexivity.
        * intros d D. unfold ent. cbn [flat_map]. rewrite A, (O d D). reflexivity.
        * constructor; [|exact W2]. apply (wf_append c t g); assumption.
        * cbn [map]. rewrite A. constructor; assumption.
        * left. cbn [map]. rewrite A. reflexivity.
      + destruct (add le c ls t rest) as [rest'|e|] eqn:E; cbn [pbind] in H; try discriminate. injection H as <-. destruct (IH _ eq_refl W2 N2) as (P & O & X & Y & Z).
        assert (S' : gls g <> ls) by (intros Q; apply (zs_same_ok (gls g) ls) in Q; congruence).
        split; [|split; [|split; [|split]]].
        * unfold ent in *. cbn [flat_map]. rewrite P. symmetry. apply Permutation_middle.
        * intros d D. unfold ent in *. cbn [flat_map]. rewrite (O d D). reflexivity.
        * constructor; assumption.
        * cbn [map]. constructor; [|exact Y]. destruct Z as [-> | [-> _]]; [exact N1|]. rewrite in_app_iff. cbn [In]. intros [Q|[Q|[]]]; [tauto|congruence].
        * cbn [map]. destruct Z as [-> | [-> Z]]; [left; reflexivity|right]. split; [reflexivity|]. cbn [In]. intros [Q|Q]; [congruence|tauto].
  Qed.
  Lemma line_ok r p : (0 <= p <= 4)%Z -> length (mult r) = 14%nat -> good (snd (line2kv r p)) /\ length (fst (line2kv r p)) = 5%nat /\ entry (fst (line2kv r p)) (snd (line2kv r p)) = (Z.to_nat p, r).
  Proof.
    intros P L. unfold line2kv, good, entry. cbn [fst snd ppow pmult sumpl psin pcos]. split; [|split].
    - split; [exact P|]. split; [rewrite skipn_length, L; reflexivity|]. generalize (skipn 5 (mult r)). clear. intros l. 
      assert (Q : forall l : list Z, (0 <= fold_right (fun z a => Z.abs z + a) 0 l)%Z) by (clear; induction l; cbn [fold_right]; lia).
      induction l as [|z l IH]; cbn [fold_right forallb]; [reflexivity|]. intros H. pose proof (Q l). rewrite andb_true_iff. split; [apply Z.eqb_eq; lia|apply IH; lia].
    - rewrite firstn_length, L. reflexivity.
    - rewrite firstn_skipn. destruct r. reflexivity.
  Qed.
  Lemma str2dct_ok c p : (0 <= p <= 4)%Z -> forall tab dl dl', Forall (fun r => length (mult r) = 14%nat) tab -> str2dct le tab c p dl = Val dl' -> Forall wf dl -> NoDup (map gls dl) ->
    Permutation (ent c dl') (map (pair (Z.to_nat p)) tab ++ ent c dl) /\ (forall d, is c d = false -> ent d dl' = ent d dl) /\ Forall wf dl' /\ NoDup (map gls dl').
  Proof.
    intros P. induction tab as [|r tab IH]; intros dl dl' L H W N; cbn [str2dct] in H.
    - injection H as <-. split; [reflexivity|]. split; [reflexivity|]. split; assumption.
    - inversion L as [|? ? L1 L2]; subst. destruct (line2kv r p) as [ls t] eqn:K. pose proof (line_ok r p P L1) as (G & Q & E). rewrite K in G, Q, E. cbn [fst snd] in G, Q, E.
      destruct (add le c ls t dl) as [d1|e|] eqn:A; cbn [pbind] in H; try discriminate. destruct (add_ok c ls t G Q dl d1 A W N) as (P1 & O1 & W1 & N1 & _).
      destruct (IH d1 dl' L2 H W1 N1) as (P2 & O2 & W2 & N2). split; [|split; [|split; assumption]].
      + rewrite P2, P1, E. cbn [map app]. symmetry. apply Permutation_middle.
      + intros d D. rewrite (O2 d D). exact (O1 d D).
  Qed.
  Definition all_terms (c : component) (l : list (list row * component * Z)) : list term := flat_map (fun x => let '(tab, d, p) := x in if is c d then map (pair (Z.to_nat p)) tab else []) l.
  Lemma calls_ok : forall l dl dl', proper l -> calls le l dl = Val dl' -> Forall wf dl -> NoDup (map gls dl) ->
    (forall c, Permutation (ent c dl') (all_terms c l ++ ent c dl)) /\ Forall wf dl' /\ NoDup (map gls dl').
  Proof.
    induction l as [|[[tab d] p] l IH]; intros dl dl' Pr H W N; cbn [calls] in H.
    - injection H as <-. split; [reflexivity|]. split; assumption.
    - inversion Pr as [|? ? P0 P3]; subst. cbn in P0. destruct P0 as [P1 P2]. destruct (str2dct le tab d p dl) as [d1|e|] eqn:S; cbn [pbind] in H; try discriminate.
      destruct (str2dct_ok d p P1 tab dl d1 P2 S W N) as (A & B & C & D). destruct (IH d1 dl' P3 H C D) as (X & Y & Z). split; [|split; assumption].
      intros c. rewrite X. unfold all_terms. cbn [flat_map]. fold (all_terms c l). destruct (is c d) eqn:E.
      + assert (c = d) by (destruct c, d; [reflexivity|discriminate|discriminate|reflexivity]). subst c. rewrite A, <- app_assoc. rewrite Permutation_app_swap_app. reflexivity.
      + rewrite (B c) by (destruct c, d; [discriminate|reflexivity|reflexivity|discriminate]). reflexivity.
  Qed.
  (** ** sorting *)
  Variable lt : group -> group -> bool.
  Lemma put_perm g l : Permutation (put lt g l) (g :: l).
  Proof. induction l as [|h r IH]; cbn [put]; [reflexivity|]. destruct (lt g h); [reflexivity|]. rewrite IH. apply perm_swap. Qed.
  Lemma sorted_perm l : Permutation (sorted lt l) l.
  Proof.
    unfold sorted. assert (H : forall l a, Permutation (fold_left (fun a g => put lt g a) l a) (l ++ a)).
    { clear. induction l as [|g l IH]; intros a; cbn [fold_left]; [reflexivity|]. rewrite IH, put_perm. symmetry. apply Permutation_middle. }
    rewrite H, app_nil_r. reflexivity.
  Qed.
End Gen.
Lemma ent_perm c a b : Permutation a b -> Permutation (ent c a) (ent c b).
Proof. intros H. apply Permutation_flat_map, H. Qed.

(** ** the arrays *)
Lemma plan_rows_ok ls l : forall rest, Forall good l -> plan_rows (length l) ls (l ++ rest) = Some (map (entry ls) l, rest).
Proof.
  induction l as [|p l IH]; intros rest H; cbn [length plan_rows app map]; [reflexivity|]. inversion H as [|? ? (A & B & C) D]; subst.
  replace ((0 <=? ppow p)%Z && (ppow p <=? 4)%Z) with true by (symmetry; apply andb_true_iff; split; apply Z.leb_le; lia). rewrite B, Nat.eqb_refl. cbn [andb].
  replace (negb (sumpl p =? 0)%Z || forallb (Z.eqb 0) (pmult p)) with true; [rewrite (IH _ D); reflexivity|]. destruct (Z.eqb_spec (sumpl p) 0) as [E|E]; cbn [negb orb]; [rewrite (C E)|]; reflexivity.
Qed.
Lemma plan_ok l : Forall wf l -> plan (fst (carrays l)) (snd (carrays l)) = Some (ent CX l, ent CY l, []).
Proof.
  unfold carrays. cbn [fst snd]. induction l as [|g l IH]; intros W; cbn [map flat_map plan]; [reflexivity|]. inversion W as [|? ? (A & B & C) D]; subst. cbn [fmult fnx fny]. rewrite A. cbn [Nat.eqb negb].
  apply Forall_app in B. destruct B as [B1 B2]. rewrite !Nat2Z.id, <- app_assoc, (plan_rows_ok _ _ _ B1), (plan_rows_ok _ _ _ B2), (IH D). reflexivity.
Qed.
Open Scope R_scope.
Lemma poisson_terms c F t l : poisson c l F t = sum_terms F t (all_terms c l).
Proof.
  unfold poisson, all_terms. induction l as [|[[tab d] p] l IH]; cbn [map flat_map]; [reflexivity|]. rewrite sum_app, <- IH. unfold total at 1. cbn [fold_right]. fold total. f_equal. destruct (is c d); [|reflexivity].
  clear. unfold sum_terms. rewrite map_map. unfold value. cbn [fst snd]. rewrite <- (map_map (wave F) (Rmult (t ^ Z.to_nat p))). symmetry. apply total_scale.
Qed.
Theorem generated le lt l fs pl F t : proper l -> generate le lt l [] = Val (fs, pl) -> length F = 14%nat ->
  walk fs F (tpow t) pl 0 0 = Ok (poisson CX l F t, poisson CY l F t, []).
Proof.
  intros P H HF. unfold generate in H. destruct (calls le l []) as [dl|e|] eqn:C; cbn [pbind] in H; try discriminate. injection H as <- <-.
  destruct (calls_ok le l [] dl P C (Forall_nil _) (NoDup_nil _)) as (A & W & N). pose proof (sorted_perm lt dl) as S.
  pose proof (plan_ok (sorted lt dl) (Permutation_Forall (Permutation_sym S) W)) as K. change (map _ (sorted lt dl)) with (fst (carrays (sorted lt dl))). change (flat_map _ (sorted lt dl)) with (snd (carrays (sorted lt dl))).
  rewrite (walk_ok F t HF _ _ _ _ _ 0 0 K). rewrite !poisson_terms. do 3 f_equal; rewrite ?Rplus_0_l; apply sum_perm; rewrite (ent_perm _ _ _ S), (A _); unfold ent; cbn [flat_map]; rewrite app_nil_r; reflexivity.
Qed.
Theorem grouped le lt l fs pl : proper l -> generate le lt l [] = Val (fs, pl) -> NoDup (map fmult fs) /\ Forall (fun f => (0 <= fnx f)%Z /\ (0 <= fny f)%Z /\ (0 < fnx f + fny f)%Z) fs /\
  length pl = length (lines l).
Proof.
  intros P H. unfold generate in H. destruct (calls le l []) as [dl|e|] eqn:C; cbn [pbind] in H; try discriminate. injection H as <- <-.
  destruct (calls_ok le l [] dl P C (Forall_nil _) (NoDup_nil _)) as (A & W & N). pose proof (sorted_perm lt dl) as S. split; [|split].
  - rewrite map_map. cbn [fmult]. eapply Permutation_NoDup; [apply Permutation_map; symmetry; exact S|exact N].
  - apply Forall_map. eapply Forall_impl; [|exact (Permutation_Forall (Permutation_sym S) W)]. intros g (_ & _ & X). cbn [fnx fny]. destruct (gx g) as [|? ?], (gy g) as [|? ?]; cbn [app] in X; [congruence|cbn [length]; lia..].
  - transitivity (length (ent CX dl) + length (ent CY dl))%nat.
    + transitivity (length (flat_map (fun g => gx g ++ gy g) dl)); [apply Permutation_length, Permutation_flat_map, S|]. clear. unfold ent. induction dl as [|g dl IH]; cbn [flat_map]; [reflexivity|]. rewrite !app_length, !map_length, IH. cbn [side]. lia.
    + rewrite (Permutation_length (A CX)), (Permutation_length (A CY)). unfold ent at 1 2. cbn [flat_map]. rewrite !app_nil_r. clear. unfold all_terms, lines. induction l as [|[[tab d] p] l IH]; cbn [flat_map]; [reflexivity|].
      rewrite !app_length, map_length, <- IH. destruct d; cbn [is]; rewrite !map_length; cbn [length]; [symmetry; apply Nat.add_assoc|apply Nat.add_shuffle3].
Qed.

(** ** when the assertion holds *)
Section Ready.
  Variable le : plrow -> plrow -> bool.
  Definition step : Type := component * (list Z * plrow).
  Definition steps (l : list (list row * component * Z)) : list step := map (fun x => let '(c, r, p) := x in (c, line2kv r p)) (lines l).
  Fixpoint go (s : list step) (dl : list group) : py (list group) :=
    match s with [] => Val dl | (c, (ls, t)) :: rest => let* dl' := add le c ls t dl in go rest dl' end.
  Lemma go_app a : forall b dl, go (a ++ b) dl = let* d := go a dl in go b d.
  Proof. induction a as [|[c [ls t]] a IH]; intros b dl; cbn [go app pbind]; [reflexivity|]. destruct (add le c ls t dl); cbn [pbind]; [apply IH|reflexivity|reflexivity]. Qed.
  Lemma str2dct_go c p tab : forall dl, str2dct le tab c p dl = go (map (fun r => (c, line2kv r p)) tab) dl.
  Proof. induction tab as [|r tab IH]; intros dl; cbn [str2dct map go]; [reflexivity|]. destruct (line2kv r p) as [ls t]. destruct (add le c ls t dl); cbn [pbind]; [apply IH|reflexivity|reflexivity]. Qed.
  Lemma calls_go l : forall dl, calls le l dl = go (steps l) dl.
  Proof.
    induction l as [|[[tab c] p] l IH]; intros dl; cbn [calls]; [reflexivity|]. unfold steps, lines. cbn [flat_map]. rewrite map_app, map_map, go_app, str2dct_go. fold (lines l). fold (steps l).
    destruct (go _ dl); cbn [pbind]; [apply IH|reflexivity|reflexivity].
  Qed.
  Definition ordered (a b : step) : Prop :=
    let '(c, (l, t)) := a in let '(d, (m, s)) := b in c = d -> l = m -> (ppow t < ppow s)%Z \/ ppow t = ppow s /\ le s t = true.
  Definition from (done : list step) (dl : list group) : Prop := forall g c p, In g dl -> In p (side c g) -> In (c, (gls g, p)) done.
  Lemma append_ready c t g done : (forall p, In p (side c g) -> In (c, (gls g, p)) done) -> (forall a, In a done -> ordered a (c, (gls g, t))) ->
    exists g', append_to le c t g = Val g' /\ gls g' = gls g /\ side c g' = t :: side c g /\ forall d, is c d = false -> side d g' = side d g.
  Proof.
    intros H O. assert (A : append_planetary le t (side c g) = Val (t :: side c g)).
    { unfold append_planetary. destruct (side c g) as [|v r] eqn:S; [reflexivity|]. pose proof (O _ (H v (or_introl eq_refl)) eq_refl eq_refl) as Q. cbn [insert].
      destruct Q as [Q|[Q1 Q2]]; [rewrite (proj2 (Z.ltb_lt _ _) Q); reflexivity|]. rewrite Q1, Z.ltb_irrefl, Z.eqb_refl, Q2. reflexivity. }
    unfold append_to. destruct c; cbn [side] in *; rewrite A; cbn [pbind]; (eexists; split; [reflexivity|]; split; [reflexivity|]; split; [reflexivity|]); intros [|]; try discriminate; reflexivity.
  Qed.
  Lemma add_ready c ls t done : (forall a, In a done -> ordered a (c, (ls, t))) -> forall dl, from done dl -> exists dl', add le c ls t dl = Val dl' /\ from ((c, (ls, t)) :: done) dl'.
  Proof.
    intros O. assert (K : forall g g', (forall d p, In p (side d g) -> In (d, (gls g, p)) done) -> gls g = ls -> gls g' = gls g -> side c g' = t :: side c g -> (forall d, is c d = false -> side d g' = side d g) ->
      forall d p, In p (side d g') -> In (d, (gls g', p)) ((c, (ls, t)) :: done)).
    { intros g g' H G A B C d p I. rewrite A. destruct (is c d) eqn:E.
      - assert (c = d) by (destruct c, d; [reflexivity|discriminate|discriminate|reflexivity]). subst d. rewrite B in I. destruct I as [<-|I]; [left; rewrite G; reflexivity|right; exact (H c p I)].
      - rewrite (C d E) in I. right. exact (H d p I). }
    induction dl as [|g rest IH]; intros Fr; cbn [add].
    - destruct (append_ready c t (mkG ls [] []) done) as (g' & A & B & C & D); [intros p; destruct c; intros []|exact O|]. rewrite A. cbn [pbind]. eexists. split; [reflexivity|].
      intros h d p [<-|[]] I. apply (K (mkG ls [] []) g'); try assumption; [|reflexivity]. intros d' p'. destruct d'; intros [].
    - destruct (zs_same (gls g) ls) eqn:S.
      + apply zs_same_ok in S. destruct (append_ready c t g done) as (g' & A & B & C & D); [intros p I; apply Fr; [left; reflexivity|exact I]|rewrite S; exact O|]. rewrite A. cbn [pbind]. eexists. split; [reflexivity|].
        intros h d p [<-|I] J; [|right; apply Fr; [right; exact I|exact J]]. apply (K g g'); try assumption. intros d' p' I'. apply Fr; [left; reflexivity|exact I'].
      + destruct IH as (rest' & A & B); [intros h d p I J; apply Fr; [right; exact I|exact J]|]. rewrite A. cbn [pbind]. eexists. split; [reflexivity|].
        intros h d p [<-|I] J; [right; apply Fr; [left; reflexivity|exact J]|apply B; assumption].
  Qed.
  Lemma go_ready s : forall done dl, ForallOrdPairs ordered s -> (forall a b, In a done -> In b s -> ordered a b) -> from done dl -> exists dl', go s dl = Val dl'.
  Proof.
    induction s as [|[c [ls t]] s IH]; intros done dl F H Fr; cbn [go]; [eexists; reflexivity|]. inversion F as [|? ? F1 F2]; subst. rewrite Forall_forall in F1.
    destruct (add_ready c ls t done (fun a I => H a _ I (or_introl eq_refl)) dl Fr) as (d1 & A & B). rewrite A. cbn [pbind]. apply (IH ((c, (ls, t)) :: done) d1 F2); [|exact B].
    intros a b [<-|I] J; [exact (F1 b J)|exact (H a b I (or_intror J))].
  Qed.
End Ready.
Lemma pairs_map {A B} (f : A -> B) (P : A -> A -> Prop) (Q : B -> B -> Prop) l : (forall a b, P a b -> Q (f a) (f b)) -> ForallOrdPairs P l -> ForallOrdPairs Q (map f l).
Proof. intros H F. induction F as [|a l F1 F2 IH]; cbn [map]; constructor; [|exact IH]. apply Forall_map. eapply Forall_impl; [|exact F1]. intros b. apply H. Qed.
Theorem never_asserts lt l : decreasing smaller l -> exists fs pl, generate amp_le lt l [] = Val (fs, pl).
Proof.
  intros D. unfold generate. rewrite calls_go. destruct (go_ready amp_le (steps l) [] []) as (dl & E).
  - unfold steps. eapply pairs_map; [|exact D]. intros [[c r] p] [[d s] q] H. unfold ordered, line2kv. intros C L. destruct (H C L) as [X|[X Y]]; [left; exact X|right]. split; [exact X|]. unfold amp_le, amp2. cbn [psin pcos]. apply Z.leb_le. exact Y.
  - intros a b [].
  - intros g c p [].
  - rewrite E. cbn [pbind]. unfold carrays. eexists. eexists. reflexivity.
Qed.

(** ** the order of the output *)
Definition rank (g : group) : Z * Z := (minj g, maxampl g).
Definition not_after (a b : group) : Prop := (minj a < minj b \/ minj a = minj b /\ maxampl a <= maxampl b)%Z.
Lemma before_spec a b : before a b = true <-> (minj a < minj b \/ minj a = minj b /\ maxampl a < maxampl b)%Z.
Proof.
  unfold before. destruct (Z.ltb_spec (minj b) (minj a)) as [H|H]; [split; [discriminate|lia]|]. destruct (Z.eqb_spec (minj a) (minj b)) as [E|E]; [rewrite Z.ltb_lt; lia|]. split; [lia|reflexivity].
Qed.
Lemma before_false a b : before a b = false -> not_after b a.
Proof. intros H. pose proof (before_spec a b) as S. rewrite H in S. unfold not_after. assert (~ (minj a < minj b \/ minj a = minj b /\ maxampl a < maxampl b)%Z) by (intros K; apply S in K; discriminate). lia. Qed.
Lemma put_sorted g l : StronglySorted not_after l -> StronglySorted not_after (put before g l).
Proof.
  induction l as [|h r IH]; intros H; cbn [put]; [constructor; constructor|]. inversion H as [|? ? H1 H2]; subst. destruct (before g h) eqn:B.
  - apply before_spec in B. assert (N : not_after g h) by (unfold not_after; lia). constructor; [exact H|]. constructor; [exact N|]. eapply Forall_impl; [|exact H2]. unfold not_after in *. intros x X. lia.
  - constructor; [exact (IH H1)|]. eapply Permutation_Forall; [symmetry; apply put_perm|]. constructor; [exact (before_false _ _ B)|exact H2].
Qed.
Lemma sorted_sorted l : StronglySorted not_after (sorted before l).
Proof.
  unfold sorted. assert (H : forall l a, StronglySorted not_after a -> StronglySorted not_after (fold_left (fun a g => put before g a) l a)); [|apply H; constructor].
  clear. induction l as [|g l IH]; intros a S; cbn [fold_left]; [exact S|]. apply IH, put_sorted, S.
Qed.

(** ** the program *)
Lemma main_arrays : main = Val (XyLunSol, XyPln).
Proof. vm_compute. reflexivity. Qed.
Lemma main_proper : proper main_calls.
Proof.
  assert (H : forallb (fun x => let '(tab, _, p) := x in (0 <=? p)%Z && (p <=? 4)%Z && forallb (fun r => Nat.eqb (length (mult r)) 14) tab) main_calls = true) by (vm_compute; reflexivity).
  rewrite forallb_forall in H. apply Forall_forall. intros [[tab c] p] I. specialize (H _ I). cbn beta iota in H. apply andb_true_iff in H. destruct H as [H1 H2]. apply andb_true_iff in H1. rewrite !Z.leb_le in H1. split; [exact H1|].
  rewrite forallb_forall in H2. apply Forall_forall. intros r J. apply Nat.eqb_eq, H2, J.
Qed.
Lemma x_tables : X_tables = map (@rev row) [xj0; xj1; xj2; xj3; xj4].
Proof. vm_compute. reflexivity. Qed.
Lemma y_tables : Y_tables = map (@rev row) [yj0; yj1; yj2; yj3; yj4].
Proof. vm_compute. reflexivity. Qed.
Lemma main_digits : Forall (fun x => let '(tab, _, _) := x in Forall (fun r => (Z.abs (csin r) < 10 ^ 10)%Z /\ (Z.abs (ccos r) < 10 ^ 10)%Z) tab) main_calls.
Proof.
  assert (H : forallb (fun x => let '(tab, _, _) := x in forallb (fun r => (Z.abs (csin r) <? 10 ^ 10)%Z && (Z.abs (ccos r) <? 10 ^ 10)%Z) tab) main_calls = true) by (vm_compute; reflexivity).
  rewrite forallb_forall in H. apply Forall_forall. intros [[tab c] p] I. specialize (H _ I). cbn beta iota in H. rewrite forallb_forall in H. apply Forall_forall. intros r J. specialize (H r J). apply andb_true_iff in H. rewrite !Z.ltb_lt in H. exact H.
Qed.
Lemma fold_min l : forall a m, (forall p, In p l -> (m <= ppow p)%Z) -> (m <= a)%Z -> (a = m \/ exists p, In p l /\ ppow p = m) -> fold_left (fun m p => if (ppow p <? m)%Z then ppow p else m) l a = m.
Proof.
  induction l as [|q l IH]; intros a m H L X; cbn [fold_left]; [destruct X as [X|(p & [] & _)]; exact X|]. pose proof (H q (or_introl eq_refl)) as Q. apply IH; [intros p I; apply H; right; exact I|destruct (Z.ltb_spec (ppow q) a); lia|].
  destruct X as [X|(p & [<-|I] & E)]; [left|left|right; exists p; split; assumption]; destruct (Z.ltb_spec (ppow q) a); lia.
Qed.
Lemma fold_max l : forall a m, (forall p, In p l -> (amp2 p <= m)%Z) -> (a <= m)%Z -> (a = m \/ exists p, In p l /\ amp2 p = m) -> fold_left (fun m p => if (m <? amp2 p)%Z then amp2 p else m) l a = m.
Proof.
  induction l as [|q l IH]; intros a m H L X; cbn [fold_left]; [destruct X as [X|(p & [] & _)]; exact X|]. pose proof (H q (or_introl eq_refl)) as Q. apply IH; [intros p I; apply H; right; exact I|destruct (Z.ltb_spec a (amp2 q)); lia|].
  destruct X as [X|(p & [<-|I] & E)]; [left|left|right; exists p; split; assumption]; destruct (Z.ltb_spec a (amp2 q)); lia.
Qed.
Lemma minj_ok g m : (m <= 100)%Z -> lowest (gx g ++ gy g) m -> minj g = m.
Proof. intros M (H1 & H2). apply fold_min; [exact H2|exact M|right; exact H1]. Qed.
Lemma maxampl_ok g m : largest (gx g ++ gy g) m -> maxampl g = m.
Proof. intros (H1 & H2). apply fold_max; [exact H2| |right; exact H1]. destruct H1 as (p & I & <-). unfold square. nia. Qed.
Lemma carrays_ok l : carrays l = arrays (map (fun g => (gls g, gx g, gy g)) l).
Proof. unfold carrays, arrays. rewrite !map_map, flat_map_concat_map. reflexivity. Qed.
Theorem in_order le l fs pl : proper l -> generate le before l [] = Val (fs, pl) -> exists gs, (fs, pl) = arrays gs /\ ForallOrdPairs rises gs.
Proof.
  intros P H. unfold generate in H. destruct (calls le l []) as [dl|e|] eqn:C; cbn [pbind] in H; try discriminate. injection H as <- <-.
  destruct (calls_ok le l [] dl P C (Forall_nil _) (NoDup_nil _)) as (A & W & N). pose proof (sorted_perm before dl) as S.
  exists (map (fun g => (gls g, gx g, gy g)) (sorted before dl)). split; [exact (carrays_ok _)|].
  assert (B : forall g, In g (sorted before dl) -> forall m, lowest (gx g ++ gy g) m -> (m <= 100)%Z).
  { intros g I m ((p & J & <-) & _). rewrite Forall_forall in W. pose proof (W g (Permutation_in _ S I)) as (_ & G & _). rewrite Forall_forall in G. destruct (G p J) as (K & _). lia. }
  pose proof (sorted_sorted dl) as T. revert B T. generalize (sorted before dl). intros q. induction q as [|g q IH]; intros B T; cbn [map]; constructor.
  - inversion T as [|? ? _ T2]; subst. rewrite Forall_forall in T2. apply Forall_map, Forall_forall. intros h J m n x y H1 H2 H3 H4. pose proof (T2 h J) as R. unfold not_after in R.
    rewrite (minj_ok g m), (minj_ok h n), (maxampl_ok g x), (maxampl_ok h y) in R; try assumption; [apply (B h); [right; exact J|exact H2]|apply (B g); [left; reflexivity|exact H1]].
  - inversion T; subst. apply IH; [intros h J; apply B; right; exact J|assumption].
Qed.

(** ** the series of the code are those of the tables of the script *)
Open Scope R_scope.
Lemma total_rev l : total (rev l) = total l.
Proof. assert (H : forall a b, total (a ++ b) = total a + total b). { induction a as [|x a IH]; intros b; unfold total in *; cbn [app fold_right]; [lra|rewrite IH; lra]. } induction l as [|x l IH]; [reflexivity|]. cbn [rev]. rewrite H, IH. unfold total. cbn [fold_right]. lra. Qed.
Lemma series_main F t : series X_tables F t = poisson CX main_calls F t /\ series Y_tables F t = poisson CY main_calls F t.
Proof.
  assert (H : forall a b c d e, series (map (@rev row) [a; b; c; d; e]) F t = t ^ 0 * total (map (wave F) a) + (t ^ 1 * total (map (wave F) b) + (t ^ 2 * total (map (wave F) c) + (t ^ 3 * total (map (wave F) d) + (t ^ 4 * total (map (wave F) e) + 0))))).
  { intros a b c d e. unfold series. cbn [map series_from]. rewrite !map_rev, !total_rev. reflexivity. }
  rewrite x_tables, y_tables, !H. unfold poisson, main_calls. cbn [map is].
  change (Z.to_nat 0) with 0%nat. change (Z.to_nat 1) with 1%nat. change (Z.to_nat 2) with 2%nat. change (Z.to_nat 3) with 3%nat. change (Z.to_nat 4) with 4%nat.
  generalize (total (map (wave F) xj0)), (total (map (wave F) xj1)), (total (map (wave F) xj2)), (total (map (wave F) xj3)), (total (map (wave F) xj4)), (total (map (wave F) yj0)), (total (map (wave F) yj1)), (total (map (wave F) yj2)), (total (map (wave F) yj3)), (total (map (wave F) yj4)).
  intros. unfold total. cbn [fold_right]. split; lra.
Qed.
