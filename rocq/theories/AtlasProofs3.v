From Coq Require Import Ascii String Reals ZArith List Bool Lia.
From Verif Require Import Base CString FromChars DoodsonModel DoodsonSpec DoodsonProofs IcgemModel AtlasModel AtlasSpec AtlasProofs AtlasProofs2.
Import ListNotations.
Open Scope Z_scope.

Lemma nodup_app {X} (a b : list X) : NoDup a -> NoDup b -> (forall x, In x a -> ~ In x b) -> NoDup (a ++ b).
Proof.
  induction 1 as [|x a N F IH]; intros B D; [exact B|]. cbn [app]. constructor; [rewrite in_app_iff; intros [K|K]; [exact (N K)|exact (D x (or_introl eq_refl) K)]|]. apply IH; [exact B|]. intros y I. apply D. right. exact I.
Qed.
Lemma set_nth_wd a i f : (forall w, wd (f w) = wd w) -> map wd (set_nth a i f) = map wd a.
Proof. intros H. revert i; induction a as [|w a IH]; intros [|i]; cbn [set_nth map]; rewrite ?H, ?IH; reflexivity. Qed.
Lemma set_nth_in a d f w' : NoDup (map wd a) -> (forall w, wd (f w) = wd w) -> In d (map wd a) -> In w' (set_nth a (find_tidal_wave a d) f) ->
  (exists w, In w a /\ wd w = d /\ w' = f w) \/ (wd w' <> d /\ In w' a).
Proof.
  intros N H. induction a as [|w a IH]; [simpl; tauto|]. cbn [map] in N. apply NoDup_cons_iff in N as (N1 & N2). cbn [find_tidal_wave]. destruct (eqb (wd w) d) eqn:E; cbn [set_nth].
  - apply eqb_true in E. intros _ [<-|K]; [left; exists w; simpl; tauto|]. right. split; [|simpl; tauto]. intros X. apply N1. rewrite E, <- X. apply in_map, K.
  - assert (W : wd w <> d) by (intros X; apply eqb_true in X; congruence). intros [X|X]; [contradiction|]. intros [<-|K]; [right; simpl; tauto|].
    destruct (IH N2 X K) as [(v & I & Y)|(Y & I)]; [left; exists v; simpl; tauto|right; simpl; tauto].
Qed.

Section Groops.
  Variable gfc : list Z -> Z -> Z -> res (option (list Z * option stokes)).
  Variable dir : list Z.
  Variables N M : Z.
  Definition content (f : list Z) (cs : stokes) : Prop := exists name, gfc (dir ++ [47] ++ f)%list N M = Ok (Some (name, Some cs)).
  Notation dec := (in_dec doodson_dec).

  Definition upd_part (t : Z) (cs : stokes) (w : wave) : wave := if t =? 115 then mkW (wd w) (wname w) (wcos w) cs else mkW (wd w) (wname w) cs (wsin w).
  Lemma upd_part_spec t cs w : is_tag t -> wd (upd_part t cs w) = wd w /\ wname (upd_part t cs w) = wname w /\ part t (upd_part t cs w) = cs /\ part (other t) (upd_part t cs w) = part (other t) w.
  Proof. intros [-> | ->]; cbn; auto. Qed.

  Lemma add_file_some st f st' : NoDup (map wd (ga st)) -> add_file gfc dir N M st f = Ok (Some st') -> exists g cs,
    parse_gname f = Ok (Some g) /\ content f cs /\ is_tag (gtag g) /\
    map wd (ga st') = (map wd (ga st) ++ (if dec (gd g) (map wd (ga st)) then [] else [gd g]))%list /\
    forall w', In w' (ga st') ->
      (wd w' = gd g /\ part (gtag g) w' = cs /\
         ((exists w, In w (ga st) /\ wd w = gd g /\ part (other (gtag g)) w' = part (other (gtag g)) w /\ wname w' = wname w) \/
          (~ In (gd g) (map wd (ga st)) /\ exists n m, part (other (gtag g)) w' = fresh n m /\ wname w' = gwave g))) \/
      (wd w' <> gd g /\ In w' (ga st)).
  Proof.
    intros ND. unfold add_file. destruct (parse_gname f) as [[g|]| | |] eqn:P; try discriminate. cbn [bind]. apply parse_iff in P as P'. destruct P' as ((Dx & jk & sp & P1 & P2 & P3 & P4 & P5 & T) & PM & PW).
    set (i := find_tidal_wave (ga st) (gd g)). destruct (Nat.eqb_spec i (length (ga st))) as [E|E].
    - unfold as_string at 1. destruct (Z.of_nat (length (gwave g)) <? 16); [|discriminate]. cbn [bind]. set (n := if N <? 0 then gcd st else N). set (m := if M <? 0 then gco st else M).
      unfold append_new. change (find_tidal_wave (ga st) (gd g)) with i. rewrite E, Nat.eqb_refl. cbn [negb option_map fst].
      unfold as_string. destruct (_ <? 248); [|discriminate]. cbn [bind]. destruct (gfc _ N M) as [[[name [cs|]]|]| | |] eqn:G; cbn [bind]; try discriminate; destruct (_ <? 64); try discriminate; cbn [bind]; try discriminate.
      intros H; injection H as <-. cbn [ga]. exists g, cs. split; [reflexivity|]. split; [exists name; exact G|]. split; [exact T|].
      assert (NI : ~ In (gd g) (map wd (ga st))) by (apply find_absent; exact E).
      change (fun w => if gtag g =? 115 then mkW (wd w) (wname w) (wcos w) cs else mkW (wd w) (wname w) cs (wsin w)) with (upd_part (gtag g) cs).
      assert (UW : forall w, wd (upd_part (gtag g) cs w) = wd w) by (intros; apply upd_part_spec, T).
      split.
      + rewrite set_nth_wd by exact UW. rewrite map_app. destruct dec; [contradiction|reflexivity].
      + assert (FI : length (ga st) = find_tidal_wave (ga st ++ [new_wave (gd g) (gwave g) n m]) (gd g)).
        { clear - NI. induction (ga st) as [|w a IH]; cbn [app find_tidal_wave length].
          - cbn. replace (eqb (gd g) (gd g)) with true by (symmetry; apply eqb_true; reflexivity). reflexivity.
          - destruct (eqb (wd w) (gd g)) eqn:E; [apply eqb_true in E; simpl in NI; tauto|]. f_equal. apply IH. simpl in NI. tauto. }
        intros w' I. rewrite FI in I. apply set_nth_in in I.
        * destruct I as [(w & I & W & ->)|(W & I)].
          -- left. apply in_app_iff in I as [I|[<-|[]]]; [exfalso; apply NI; rewrite <- W; apply in_map, I|]. destruct (upd_part_spec (gtag g) cs (new_wave (gd g) (gwave g) n m) T) as (U1 & U2 & U3 & U4).
             rewrite U1, U2, U3, U4. split; [reflexivity|]. split; [reflexivity|]. right. split; [exact NI|]. exists n, m. split; [|reflexivity]. unfold part. destruct (_ =? 115); reflexivity.
          -- right. split; [exact W|]. apply in_app_iff in I as [I|[<-|[]]]; [exact I|]. exfalso. apply W. reflexivity.
        * rewrite map_app. cbn. apply nodup_app; [exact ND|repeat constructor; simpl; tauto|]. intros d K [<-|[]]. exact (NI K).
        * exact UW.
        * rewrite map_app, in_app_iff. right. left. reflexivity.
    - cbn [bind]. unfold as_string. destruct (_ <? 248); [|discriminate]. cbn [bind]. destruct (gfc _ N M) as [[[name [cs|]]|]| | |] eqn:G; cbn [bind]; try discriminate; destruct (_ <? 64); try discriminate; cbn [bind]; try discriminate.
      intros H; injection H as <-. cbn [ga]. exists g, cs. split; [reflexivity|]. split; [exists name; exact G|]. split; [exact T|].
      assert (NI : In (gd g) (map wd (ga st))) by (destruct (dec (gd g) (map wd (ga st))) as [|X]; [assumption|]; apply find_absent in X; contradiction).
      change (fun w => if gtag g =? 115 then mkW (wd w) (wname w) (wcos w) cs else mkW (wd w) (wname w) cs (wsin w)) with (upd_part (gtag g) cs).
      assert (UW : forall w, wd (upd_part (gtag g) cs w) = wd w) by (intros; apply upd_part_spec, T).
      split.
      + rewrite set_nth_wd by exact UW. destruct dec; [symmetry; apply app_nil_r|contradiction].
      + intros w' I. apply set_nth_in in I; [|exact ND|exact UW|exact NI]. destruct I as [(w & I & W & ->)|(W & I)]; [left|right; tauto].
        destruct (upd_part_spec (gtag g) cs w T) as (U1 & U2 & U3 & U4). rewrite U1, U2, U3, U4. split; [exact W|]. split; [reflexivity|]. left. exists w. tauto.
  Qed.

  (** after the files [l] *)
  Record built (l : list (list Z)) (a : atlas) : Prop := {
    b_nodup : NoDup (map wd a);
    b_numbers : exists gs, Forall2 (fun f g => parse_gname f = Ok (Some g)) l gs /\ map wd a = first_numbers [] (map gd gs);
    b_name : forall w, In w a -> exists l1 f l2 g, l = (l1 ++ f :: l2)%list /\ parse_gname f = Ok (Some g) /\ gd g = wd w /\ gwave g = wname w /\ (forall f' g', In f' l1 -> parse_gname f' = Ok (Some g') -> gd g' <> wd w);
    b_part : forall w t, In w a -> is_tag t ->
      (exists l1 f l2 g, l = (l1 ++ f :: l2)%list /\ parse_gname f = Ok (Some g) /\ gd g = wd w /\ gtag g = t /\ content f (part t w) /\
         (forall f' g', In f' l2 -> parse_gname f' = Ok (Some g') -> ~ (gd g' = wd w /\ gtag g' = t))) \/
      ((forall f g, In f l -> parse_gname f = Ok (Some g) -> ~ (gd g = wd w /\ gtag g = t)) /\ exists n m, part t w = fresh n m) }.

  Lemma first_numbers_snoc l d s : first_numbers s (l ++ [d]) = (first_numbers s l ++ (if dec d (s ++ first_numbers s l) then [] else [d]))%list.
  Proof.
    revert s; induction l as [|x l IH]; intros s; cbn [app first_numbers].
    - rewrite app_nil_r. destruct (dec d s); reflexivity.
    - destruct (dec x s) as [H|H]; [apply IH|]. rewrite IH. cbn [app]. f_equal.
      repeat match goal with |- context [dec d ?A] => let K := fresh in destruct (dec d A) as [K|K]; simpl in K; rewrite in_app_iff in K; simpl in K end; reflexivity || (exfalso; tauto).
  Qed.
  Lemma is_tag_dec t t' : is_tag t -> is_tag t' -> t' = t \/ t' = other t.
  Proof. intros [-> | ->] [-> | ->]; cbn; auto. Qed.

  Lemma built_step l st f st' : built l (ga st) -> add_file gfc dir N M st f = Ok (Some st') -> built (l ++ [f]) (ga st').
  Proof.
    intros B H. destruct (add_file_some _ _ _ (b_nodup _ _ B) H) as (g & cs & P & C & T & E & W).
    assert (ND' : NoDup (map wd (ga st'))).
    { rewrite E. destruct dec as [|K]; [rewrite app_nil_r; apply (b_nodup _ _ B)|]. apply nodup_app; [apply (b_nodup _ _ B)|repeat constructor; simpl; tauto|]. intros d X [<-|[]]. exact (K X). }
    constructor; [exact ND'| | |].
    - destruct (b_numbers _ _ B) as (gs & F & EN). exists (gs ++ [g])%list. split; [apply Forall2_app; [exact F|repeat constructor; exact P]|]. rewrite map_app. cbn [map]. rewrite first_numbers_snoc, <- EN. exact E.
    - intros w I. destruct (W w I) as [(D & PT & K)|(D & I')].
      + destruct K as [(v & I' & DV & _ & NM)|(NI & n & m & _ & NM)].
        * destruct (b_name _ _ B v I') as (l1 & f0 & l2 & g0 & -> & P0 & G0 & N0 & F0). exists l1, f0, (l2 ++ [f])%list, g0. rewrite <- app_assoc. cbn [app]. rewrite D, <- DV, NM. auto.
        * exists l, f, [], g. split; [reflexivity|]. split; [exact P|]. split; [symmetry; exact D|]. split; [symmetry; exact NM|]. intros f' g' I' P' X. apply NI. rewrite <- D, <- X.
          destruct (b_numbers _ _ B) as (gs & F & EN). rewrite EN. assert (G : In g' gs). { clear - F I' P'. induction F as [|x y xs ys Q F IH]; [destruct I'|]. destruct I' as [<-|I']; [left; congruence|right; apply IH, I']. }
          assert (Y : forall l s d, In d l -> ~ In d s -> In d (first_numbers s l)). { clear. induction l as [|x l IH]; intros s d; [simpl; tauto|]. cbn [first_numbers]. intros [->|I'] NS; destruct (dec _ s) as [J|J]; try contradiction; [left; reflexivity|apply IH; assumption|]. destruct (dec d [x]) as [[->|[]]|J']; [left; reflexivity|]. right. apply IH; [exact I'|]. simpl in *. tauto. }
          apply Y; [apply in_map, G|simpl; tauto].
      + destruct (b_name _ _ B w I') as (l1 & f0 & l2 & g0 & -> & R). exists l1, f0, (l2 ++ [f])%list, g0. rewrite <- app_assoc. cbn [app]. tauto.
    - intros w t I TT. destruct (W w I) as [(D & PT & K)|(D & I')].
      + destruct (is_tag_dec _ _ T TT) as [-> | ->].
        * left. exists l, f, [], g. split; [reflexivity|]. split; [exact P|]. split; [symmetry; exact D|]. split; [reflexivity|]. rewrite PT. split; [exact C|]. intros ? ? [].
        * assert (OD : gtag g <> other (gtag g)) by (destruct T as [-> | ->]; cbn; lia).
          destruct K as [(v & I' & DV & PO & _)|(NI & n & m & PO & _)].
          -- destruct (b_part _ _ B v _ I' TT) as [(l1 & f0 & l2 & g0 & -> & P0 & G0 & T0 & C0 & F0)|(F0 & n & m & E0)].
             ++ left. exists l1, f0, (l2 ++ [f])%list, g0. rewrite <- app_assoc. cbn [app]. rewrite D, <- DV, PO. repeat (split; [assumption || reflexivity|]). intros f' g' J P'. apply in_app_iff in J as [J|[<-|[]]]; [rewrite DV in *; exact (F0 _ _ J P')|].
                assert (g' = g) by congruence. subst. tauto.
             ++ right. split; [|exists n, m; congruence]. intros f' g' J P'. apply in_app_iff in J as [J|[<-|[]]]; [rewrite D, <- DV; exact (F0 _ _ J P')|]. assert (g' = g) by congruence. subst. tauto.
          -- right. split; [|exists n, m; exact PO]. intros f' g' J P'. apply in_app_iff in J as [J|[<-|[]]]; [|assert (g' = g) by congruence; subst; tauto].
             intros (X & _). apply NI. rewrite <- D, <- X. destruct (b_numbers _ _ B) as (gs & F & EN). rewrite EN. assert (G : In g' gs). { clear - F J P'. induction F as [|x y xs ys Q F IH]; [destruct J|]. destruct J as [<-|I']; [left; congruence|right; apply IH, I']. }
             assert (Y : forall l s d, In d l -> ~ In d s -> In d (first_numbers s l)). { clear. induction l as [|x l IH]; intros s d; [simpl; tauto|]. cbn [first_numbers]. intros [->|I'] NS; destruct (dec _ s) as [J|J]; try contradiction; [left; reflexivity|apply IH; assumption|]. destruct (dec d [x]) as [[->|[]]|J']; [left; reflexivity|]. right. apply IH; [exact I'|]. simpl in *. tauto. }
             apply Y; [apply in_map, G|simpl; tauto].
      + destruct (b_part _ _ B w t I' TT) as [(l1 & f0 & l2 & g0 & -> & P0 & G0 & T0 & C0 & F0)|(F0 & R)].
        * left. exists l1, f0, (l2 ++ [f])%list, g0. rewrite <- app_assoc. cbn [app]. repeat (split; [assumption || reflexivity|]). intros f' g' J P'. apply in_app_iff in J as [J|[<-|[]]]; [exact (F0 _ _ J P')|]. assert (g' = g) by congruence. subst. intros (X & _). congruence.
        * right. split; [|exact R]. intros f' g' J P'. apply in_app_iff in J as [J|[<-|[]]]; [exact (F0 _ _ J P')|]. assert (g' = g) by congruence. subst. intros (X & _). congruence.
  Qed.
  Lemma built_all l l' st st' : built l (ga st) -> add_files gfc dir N M st l' = Ok (Some st') -> built (l ++ l') (ga st').
  Proof.
    revert l st; induction l' as [|f l' IH]; intros l st B; cbn [add_files].
    - intros H; injection H as <-. rewrite app_nil_r. exact B.
    - destruct (add_file gfc dir N M st f) as [[st1|]| | |] eqn:E; try discriminate. cbn [bind]. intros H. replace (l ++ f :: l')%list with ((l ++ [f]) ++ l')%list by (rewrite <- app_assoc; reflexivity). apply (IH _ st1); [|exact H]. exact (built_step _ _ _ _ B E).
  Qed.
  Lemma built_nil : built [] [].
  Proof. constructor; [constructor|exists []; split; [constructor|reflexivity]|intros w []|intros w t []]. Qed.
  Lemma groops_built lines a nm : groops_atlas gfc dir N M lines = Ok (Some (a, nm)) -> exists l, lines = Some l /\ resolve_file_list l <> [] /\ validate_file_list (resolve_file_list l) = Ok 0 /\ built (resolve_file_list l) a.
  Proof.
    unfold groops_atlas. destruct lines as [l|]; [|discriminate]. destruct (resolve_file_list l) as [|f0 fl] eqn:R; [discriminate|]. destruct (Z.odd _); [discriminate|].
    destruct (validate_file_list (f0 :: fl)) as [c| | |] eqn:V; try discriminate. cbn [bind]. destruct (Z.eqb_spec c 0) as [->|]; [|discriminate]. cbn [negb].
    set (st0 := mkGst _ _ _ _). destruct (add_files gfc dir N M st0 (f0 :: fl)) as [[st|]| | |] eqn:A; try discriminate. cbn [bind]. intros H; injection H as <- <-.
    exists l. rewrite R. split; [reflexivity|]. split; [discriminate|]. split; [exact V|]. apply (built_all [] _ st0); [exact built_nil|exact A].
  Qed.

  (** success when every file can be read *)
  Definition readable (f : list Z) : Prop := (Z.of_nat (length (dir ++ [47] ++ f)) < 248) /\ exists name cs, gfc (dir ++ [47] ++ f)%list N M = Ok (Some (name, Some cs)) /\ Z.of_nat (length name) < 64.
  Lemma add_file_total st f g : parse_gname f = Ok (Some g) -> (length (gwave g) < 16)%nat -> readable f -> exists st', add_file gfc dir N M st f = Ok (Some st').
  Proof.
    intros P W (L & name & cs & G & LN). unfold add_file. rewrite P. cbn [bind]. unfold append_new. unfold as_string.
    replace (Z.of_nat (length (gwave g)) <? 16) with true by (symmetry; apply Z.ltb_lt; lia).
    apply Z.ltb_lt in L. apply Z.ltb_lt in LN.
    destruct (Nat.eqb (find_tidal_wave (ga st) (gd g)) (length (ga st))); cbn [bind negb option_map fst]; rewrite L; cbn [bind]; rewrite G; cbn [bind]; rewrite LN; cbn [bind]; eexists; reflexivity.
  Qed.
  Lemma add_files_total l st : (forall f, In f l -> exists g, parse_gname f = Ok (Some g) /\ (length (gwave g) < 16)%nat) -> Forall readable l -> exists st', add_files gfc dir N M st l = Ok (Some st').
  Proof.
    revert st; induction l as [|f l IH]; intros st H F; cbn [add_files]; [eexists; reflexivity|]. apply Forall_cons_iff in F as (F1 & F2).
    destruct (H f (or_introl eq_refl)) as (g & P & W). destruct (add_file_total st f g P W F1) as (st1 & ->). cbn [bind]. apply IH; [intros f' I; apply H; right; exact I|exact F2].
  Qed.
  Lemma groops_total l : resolve_file_list l <> [] -> validate_file_list (resolve_file_list l) = Ok 0 -> Forall readable (resolve_file_list l) -> exists a nm, groops_atlas gfc dir N M (Some l) = Ok (Some (a, nm)).
  Proof.
    intros NE V F. unfold groops_atlas. pose proof (resolve_even l) as EV. destruct (resolve_file_list l) as [|f0 fl] eqn:R; [contradiction|]. rewrite EV, V. cbn [bind Z.eqb negb].
    set (st0 := mkGst _ _ _ _). destruct (add_files_total (f0 :: fl) st0) as (st & ->); [|exact F|].
    - intros f I. apply validate_ok in V as (_ & V). destruct (V f I) as (m & d & w & t & f' & L & NM & _). assert (LL : (length m < 48)%nat /\ (length w < 16)%nat) by (destruct NM as (? & ? & (? & ? & ?) & ?); tauto).
      exists (mkG m d w t). rewrite (parse_loosely _ _ _ _ _ L). destruct (Nat.ltb_spec 16 (length w)); [lia|]. destruct (Nat.ltb_spec 48 (length m)); [lia|]. split; [reflexivity|]. cbn. tauto.
    - cbn [bind]. exists (ga st), (gnm st). reflexivity.
  Qed.
  (** the same in terms of the file names *)
  Lemma tells_parse f d t g : parse_gname f = Ok (Some g) -> (tells f d t <-> gd g = d /\ gtag g = t).
  Proof.
    intros P. split.
    - intros (m & w & L). rewrite (parse_loosely _ _ _ _ _ L) in P. destruct (16 <? length w)%nat; [discriminate|]. destruct (48 <? length m)%nat; [discriminate|]. injection P as <-. auto.
    - intros (<- & <-). apply parse_iff in P as (L & _). exists (gmodel g), (gwave g). exact L.
  Qed.
  Lemma built_parse l a f : built l a -> In f l -> exists g, parse_gname f = Ok (Some g).
  Proof. intros B I. destruct (b_numbers _ _ B) as (gs & F & _). clear B. induction F as [|x y xs ys Q F IH]; [destruct I|]. destruct I as [<-|I]; [eauto|apply IH, I]. Qed.
  Lemma built_tells l a w t : built l a -> In w a -> is_tag t ->
    (exists l1 f l2, l = (l1 ++ f :: l2)%list /\ tells f (wd w) t /\ content f (part t w) /\ forall f', In f' l2 -> ~ tells f' (wd w) t) \/
    ((forall f, In f l -> ~ tells f (wd w) t) /\ exists n m, part t w = fresh n m).
  Proof.
    intros B I T. destruct (b_part _ _ B w t I T) as [(l1 & f & l2 & g & E & P & G & TG & C & F)|(F & R)].
    - left. exists l1, f, l2. split; [exact E|]. split; [apply (tells_parse _ _ _ _ P); tauto|]. split; [exact C|]. intros f' J X. destruct (built_parse l a f' B) as (g' & P'); [rewrite E; apply in_or_app; right; right; exact J|].
      apply (F _ _ J P'). apply (tells_parse _ _ _ _ P'), X.
    - right. split; [|exact R]. intros f J X. destruct (built_parse l a f B J) as (g & P). apply (F _ _ J P). apply (tells_parse _ _ _ _ P), X.
  Qed.
  Lemma built_number l a d : built l a -> (In d (map wd a) <-> exists f t, In f l /\ tells f d t).
  Proof.
    intros B. split.
    - intros K. apply in_map_iff in K as (w & <- & I). destruct (b_name _ _ B w I) as (l1 & f & l2 & g & -> & P & G & _). exists f, (gtag g). split; [apply in_or_app; right; left; reflexivity|]. apply (tells_parse _ _ _ _ P). tauto.
    - intros (f & t & J & X). destruct (b_numbers _ _ B) as (gs & F & EN). rewrite EN. destruct (built_parse l a f B J) as (g & P). apply (tells_parse _ _ _ _ P) in X as (<- & _).
      assert (G : In g gs). { clear - F J P. induction F as [|x y xs ys Q F IH]; [destruct J|]. destruct J as [<-|I']; [left; congruence|right; apply IH, I']. }
      assert (Y : forall l s d, In d l -> ~ In d s -> In d (first_numbers s l)). { clear. induction l as [|x l IH]; intros s d; [simpl; tauto|]. cbn [first_numbers]. intros [->|I'] NS; destruct (dec _ s) as [J|J]; try contradiction; [left; reflexivity|apply IH; assumption|]. destruct (dec d [x]) as [[->|[]]|J']; [left; reflexivity|]. right. apply IH; [exact I'|]. simpl in *. tauto. }
      apply Y; [apply in_map, G|simpl; tauto].
  Qed.
End Groops.
