From Coq Require Import Ascii String ZArith List Bool Lia.
From Verif Require Import Base CString PyModel AodMergeSpec PyProofs HdrModel HdrSpec.
Import ListNotations.
Open Scope Z_scope.

Lemma endswith_ok e s : endswith e s = true <-> exists a, s = (a ++ e)%list.
Proof.
  unfold endswith. rewrite text_eqb_eq. split.
  - intros E. exists (firstn (length s - length e) s). rewrite E at 2. symmetry. apply firstn_skipn.
  - intros (a & ->). rewrite app_length. replace (length a + length e - length e)%nat with (length a + 0)%nat by lia. rewrite skipn_app, skipn_all2 by lia. replace (length a + 0 - length a)%nat with 0%nat by lia. reflexivity.
Qed.
Lemma endswith_header f : endswith (chars ".h") f = true <-> header f. Proof. apply endswith_ok. Qed.
Lemma not_header f : endswith (chars ".h") f = false -> ~ header f. Proof. intros E H. apply endswith_header in H. congruence. Qed.
Lemma backup_plain n : ~ header (backup n).
Proof.
  intros (a & E). unfold backup in E. change (chars ".cvers") with ([46; 99; 118; 101; 114] ++ [115])%list in E. change (chars ".h") with ([46] ++ [104])%list in E.
  rewrite !app_assoc in E. apply app_inj_tail in E. destruct E as (_ & E). discriminate.
Qed.
Lemma backup_inj a b : backup a = backup b -> a = b. Proof. apply app_inv_tail. Qed.
Lemma header_backup f n : header f -> f <> backup n. Proof. intros H ->. exact (backup_plain n H). Qed.
Lemma put_same i n e : put i n e n = e. Proof. unfold put. rewrite text_eqb_refl. reflexivity. Qed.
Lemma put_other i n e m : m <> n -> put i n e m = i m. Proof. intros N. unfold put. rewrite (text_eqb_neq m n N). reflexivity. Qed.

(** one file *)
Lemma convert_ok d f s : header f -> inc d f = Some (File s) -> inc d (backup f) <> Some Dir ->
  exists d', convert true d f = (d', None) /\ inc d' f = Some (File (wrap s)) /\ inc d' (backup f) = Some (File s) /\ scratch d' = None /\
    forall m, m <> f -> m <> backup f -> inc d' m = inc d m.
Proof.
  intros H E B. unfold convert. rewrite (proj2 (endswith_header f) H), E. cbv zeta. fold (backup f).
  assert (N : backup f <> f) by (intros Q; exact (header_backup f f H (eq_sym Q))).
  exists (mkD (put (put (put (inc d) (backup f) (Some (File s))) f None) f (Some (File (wrap s)))) None). split; [destruct (inc d (backup f)) as [[|]|]; [reflexivity|contradiction|reflexivity]|].
  cbn [inc scratch]. split; [apply put_same|]. split; [rewrite !put_other by exact N; apply put_same|]. split; [reflexivity|]. intros m A C. rewrite !put_other by assumption. reflexivity.
Qed.
Lemma run_ok order : forall d, NoDup order -> (forall f, In f order -> header f -> (exists s, inc d f = Some (File s)) /\ inc d (backup f) <> Some Dir) ->
  exists d', run true d order = (d', None) /\
    (forall f s, In f order -> header f -> inc d f = Some (File s) -> inc d' f = Some (File (wrap s)) /\ inc d' (backup f) = Some (File s)) /\
    (forall m, (forall f, In f order -> header f -> m <> f /\ m <> backup f) -> inc d' m = inc d m) /\
    (scratch d = None -> scratch d' = None).
Proof.
  induction order as [|f r IH]; intros d ND P.
  - exists d. split; [reflexivity|]. split; [intros f s []|]. split; [reflexivity|trivial].
  - inversion ND as [|? ? NI ND']; subst. cbn [run]. destruct (endswith (chars ".h") f) eqn:EH.
    + apply endswith_header in EH. destruct (P f (or_introl eq_refl) EH) as ((s & E) & B). destruct (convert_ok d f s EH E B) as (d1 & E1 & F1 & F2 & F3 & F4). rewrite E1.
      assert (K : forall g, In g r -> header g -> inc d1 g = inc d g /\ inc d1 (backup g) = inc d (backup g)).
      { intros g G HG. assert (NE : g <> f) by (intros ->; contradiction). split; apply F4; [exact NE|exact (header_backup g f HG)|exact (fun Q => header_backup f g EH (eq_sym Q))|exact (fun Q => NE (backup_inj _ _ Q))]. }
      destruct (IH d1 ND') as (d2 & R1 & R2 & R3 & R4). { intros g G HG. destruct (K g G HG) as (-> & ->). exact (P g (or_intror G) HG). }
      exists d2. split; [exact R1|]. split; [|split; [|intros _; exact (R4 F3)]].
      * intros g t [<- | G] HG EG; [|apply R2; [exact G|exact HG|rewrite (proj1 (K g G HG)); exact EG]]. assert (t = s) by congruence. subst t.
        rewrite !R3; [split; [exact F1|exact F2]| |]; intros g G HG'; assert (NE : g <> f) by (intros ->; contradiction); split.
        { exact (fun Q => header_backup g f HG' (eq_sym Q)). } { exact (fun Q => NE (eq_sym (backup_inj _ _ Q))). } { exact (fun Q => NE (eq_sym Q)). } { exact (header_backup f g EH). }
      * intros m M. rewrite R3 by (intros g G HG; exact (M g (or_intror G) HG)). destruct (M f (or_introl eq_refl) EH) as (A & C). exact (F4 m A C).
    + assert (EC : convert true d f = (d, None)) by (unfold convert; rewrite EH; reflexivity). rewrite EC. apply not_header in EH.
      destruct (IH d ND') as (d2 & R1 & R2 & R3 & R4). { intros g G HG. exact (P g (or_intror G) HG). }
      exists d2. split; [exact R1|]. split; [|split; [|exact R4]].
      * intros g t [<- | G] HG EG; [contradiction|exact (R2 g t G HG EG)].
      * intros m M. apply R3. intros g G HG. exact (M g (or_intror G) HG).
Qed.

(** the text *)
Lemma lines_text s : Forall2 (fun l t => (l = t ++ [10] \/ l = t)%list) (lines s) (text_lines s).
Proof.
  induction s as [|c s IH]; [constructor|]. cbn [lines text_lines]. destruct (c =? 10) eqn:E; [constructor; [left; reflexivity|exact IH]|].
  inversion IH as [|l t ls ts H T]; subst; constructor; auto. destruct H as [-> | ->]; [left|right]; reflexivity.
Qed.
Lemma text_one_line s : Forall one_line (text_lines s).
Proof.
  induction s as [|c s IH]; [constructor|]. cbn [text_lines]. destruct (c =? 10) eqn:E; [constructor; [constructor|exact IH]|]. apply Z.eqb_neq in E.
  destruct (text_lines s) as [|l r]; [constructor; [constructor; [exact E|constructor]|constructor]|]. inversion IH; subst. constructor; [constructor; assumption|assumption].
Qed.
Lemma strip_ends s : ends_solid (strip s).
Proof. apply ends_rev. unfold strip, rstrip. rewrite rev_involutive. apply lstrip_begins. Qed.
Lemma strip_trimmed l : trimmed l (strip l).
Proof. destruct (strip_parts l) as (b1 & b2 & E & A & B). exists b1, b2. exact (conj E (conj A (conj B (conj (strip_begins l) (strip_ends l))))). Qed.
Lemma strip_newline t : strip (t ++ [10]) = strip t.
Proof.
  destruct (strip_parts t) as (b1 & b2 & E & A & B). rewrite E at 1. rewrite <- !app_assoc. apply strip_between; [exact A| |apply strip_begins|apply strip_ends].
  apply Forall_app. split; [exact B|]. constructor; [exact newline_white|constructor].
Qed.
Lemma strip_one_line t : one_line t -> one_line (strip t).
Proof. intros O. destruct (strip_parts t) as (b1 & b2 & E & _). unfold one_line in *. rewrite E in O. apply Forall_app in O. destruct O as (_ & O). apply Forall_app in O. exact (proj1 O). Qed.
Lemma wrap_body s t : text_lines (concat (map (fun l => print (strip l)) (lines s)) ++ t) = (map strip (text_lines s) ++ text_lines t)%list.
Proof.
  pose proof (lines_text s) as F. pose proof (text_one_line s) as O. induction F as [|l x ls ts H _ IH]; [reflexivity|]. inversion O; subst. cbn [map concat]. unfold print at 1. rewrite <- !app_assoc.
  replace (strip l) with (strip x) by (destruct H as [-> | ->]; [symmetry; apply strip_newline|reflexivity]). cbn [app]. rewrite text_lines_cons by (apply strip_one_line; assumption). rewrite IH by assumption. reflexivity.
Qed.
Lemma wrap_lines s : text_lines (wrap s) = block (map strip (text_lines s)).
Proof.
  unfold wrap. transitivity ([chars "#ifdef __cplusplus"; chars "extern ""C"" {"; chars "#endif"; []] ++ text_lines (concat (map (fun l => print (strip l)) (lines s)) ++ print tail))%list.
  - generalize (concat (map (fun l => print (strip l)) (lines s)) ++ print tail)%list. intros r. reflexivity.
  - rewrite wrap_body. reflexivity.
Qed.
Lemma wrap_block s : in_block s (wrap s).
Proof. exists (map strip (text_lines s)). split; [apply wrap_lines|]. induction (text_lines s); constructor; [apply strip_trimmed|assumption]. Qed.
