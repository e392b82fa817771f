(** Proofs about downloading AOD1B files. *)
From Coq Require Import Ascii String ZArith List Bool Lia.
From Verif Require Import Base CString PyModel AodMergeSpec PyProofs AodGetModel AodGetSpec.
Import ListNotations.
Open Scope Z_scope.

Lemma replace_skip x lit new p s : ~ In x p -> replace (x :: lit) new (p ++ s) = p ++ replace (x :: lit) new s.
Proof.
  unfold replace. induction p as [|c p IH]; intros N; [reflexivity|]. cbn [app replace_from]. change (length (x :: lit)) with (S (length lit)). cbn [firstn text_eqb]. rewrite (proj2 (Z.eqb_neq x c)) by (intros ->; apply N; left; reflexivity). cbn [andb]. rewrite IH; [reflexivity|]. intros I. apply N. right. exact I.
Qed.
Lemma numeric_not c s : numeric s -> c < 45 \/ c = 46 \/ 57 < c -> ~ In c s.
Proof. intros N C I. unfold numeric in N. rewrite Forall_forall in N. specialize (N c I). lia. Qed.
Lemma str_numeric n : numeric (str_int n).
Proof.
  assert (P : forall m, 0 <= m -> numeric (str_int m)). { intros m M. destruct (str_int_decimal m M) as (_ & F & _). eapply Forall_impl; [|exact F]. intros c H. left. exact H. }
  destruct (Z.ltb_spec n 0) as [L|L]; [|apply P, L]. unfold str_int. rewrite (proj2 (Z.ltb_lt n 0) L). constructor; [right; reflexivity|]. specialize (P (- n) ltac:(lia)). unfold str_int in P. rewrite (proj2 (Z.ltb_ge (- n) 0)) in P by lia. rewrite Z.abs_opp in P. exact P.
Qed.
Lemma two_numeric n : numeric (two n).
Proof. unfold two. destruct ((0 <=? n) && (n <? 10)); [constructor; [left; lia|apply str_numeric]|apply str_numeric]. Qed.
Lemma two_value n : 0 <= n < 100 -> exists a b, two n = [a; b] /\ digit a /\ digit b /\ n = 10 * (a - 48) + (b - 48).
Proof.
  intros H. assert (X : forallb (fun n => match two n with [a; b] => (48 <=? a) && (a <=? 57) && (48 <=? b) && (b <=? 57) && (n =? 10 * (a - 48) + (b - 48)) | _ => false end) (map Z.of_nat (seq 0 100)) = true) by reflexivity.
  rewrite forallb_forall in X. specialize (X n). assert (I : In n (map Z.of_nat (seq 0 100))) by (apply in_map_iff; exists (Z.to_nat n); split; [lia|apply in_seq; lia]). specialize (X I). destruct (two n) as [|a [|b [|]]]; try discriminate. exists a, b. split; [reflexivity|].
  apply andb_true_iff in X as [X E]. apply andb_true_iff in X as [X B2]. apply andb_true_iff in X as [X B1]. apply andb_true_iff in X as [A1 A2]. unfold digit. lia.
Qed.
Lemma pathjoin_dir dir c f : c <> 47 -> dir <> [] -> (forall r, dir <> r ++ [47]) -> pathjoin dir (c :: f) = in_dir dir (c :: f).
Proof.
  intros C NE NS. unfold in_dir. change (chars "/" ++ c :: f) with (47 :: c :: f). unfold pathjoin. assert (Y : match rev dir with [] => c :: f | 47 :: _ => dir ++ c :: f | _ => dir ++ 47 :: c :: f end = dir ++ 47 :: c :: f).
  { destruct (rev dir) as [|e r] eqn:R; [exfalso; apply NE; rewrite <- (rev_involutive dir), R; reflexivity|]. assert (E : e <> 47) by (intros ->; apply (NS (rev r)); rewrite <- (rev_involutive dir), R; reflexivity).
    destruct e as [|p|p]; try reflexivity. do 6 (destruct p as [p|p|]; try reflexivity). exfalso. apply E. reflexivity. }
  rewrite Y. destruct c as [|p|p]; try reflexivity. do 6 (destruct p as [p|p|]; try reflexivity). exfalso. apply C. reflexivity.
Qed.
Lemma tail_skip (a e : list Z) : length e = 3%nat -> skipn (length (a ++ e) - 3) (a ++ e) = e /\ firstn (length (a ++ e) - 3) (a ++ e) = a.
Proof. intros L. rewrite app_length, L. replace (length a + 3 - 3)%nat with (length a) by lia. rewrite skipn_app, skipn_all, firstn_app, firstn_all, Nat.sub_diag. cbn. rewrite app_nil_r. split; reflexivity. Qed.

Lemma put_here d f s : put d f s f = Some s. Proof. unfold put. rewrite text_eqb_refl. reflexivity. Qed.
Lemma put_other d f s g : g <> f -> put d f s g = d g. Proof. intros N. unfold put. rewrite text_eqb_neq by exact N. reflexivity. Qed.
Lemma present_some d f : present d f = true <-> d f <> None.
Proof. unfold present. destruct (d f); split; congruence. Qed.
Lemma present_none d f : present d f = false <-> d f = None.
Proof. unfold present. destruct (d f); split; congruence. Qed.

Section Get.
  Variables day_text year_text : Z -> list Z.
  Variable retr : list Z -> list Z -> option (list Z).
  Variable connect : list Z -> list Z -> bool.
  Variable gunzip : list Z -> option (list Z).
  Variable out : list Z.
  Variable rl : Z.
  Hypothesis DT : forall t, numeric (day_text t).
  Hypothesis YT : forall t, numeric (year_text t).
  Hypothesis NE : out <> [].
  Hypothesis NS : forall r, out <> r ++ [47].
  Notation F t := (in_dir out (compressed (day_text t) (two rl))).
  Notation P t := (in_dir out (product (day_text t) (two rl))).
  Notation fetched t := (retr (directory (year_text t) (two rl)) (compressed (day_text t) (two rl))).
  Notation reachable t := (connect server (directory (year_text t) (two rl))).

  Lemma name_is t : product_name day_text year_text false rl t = Val (compressed (day_text t) (two rl), directory (year_text t) (two rl), server).
  Proof.
    unfold product_name. do 2 f_equal. f_equal.
    - change (replace (chars "DATE") (day_text t) (chars "AOD1B_DATE_X_RL.asc.gz")) with (chars "AOD1B_" ++ day_text t ++ chars "_X_RL.asc.gz"). change (chars "RL") with (82 :: [76]).
      rewrite replace_skip by (vm_compute; intuition discriminate). rewrite replace_skip by (apply numeric_not; [apply DT|lia]). unfold compressed, product. rewrite <- !app_assoc. do 2 f_equal.
    - change (replace (chars "YYYY") (year_text t) (chars "/grace/Level-1B/GFZ/AOD/RLNN/YYYY")) with (chars "/grace/Level-1B/GFZ/AOD/RLNN/" ++ year_text t ++ []). change (chars "NN") with (78 :: [78]).
      change (chars "/grace/Level-1B/GFZ/AOD/RLNN/") with (chars "/grace/Level-1B/GFZ/AOD/RL" ++ chars "NN/"). rewrite <- app_assoc. rewrite replace_skip by (vm_compute; intuition discriminate). unfold directory. f_equal.
      change (chars "NN/" ++ year_text t ++ []) with (78 :: 78 :: chars "/" ++ year_text t ++ []). unfold replace. cbn [replace_from length firstn text_eqb Z.eqb Pos.eqb andb Nat.sub]. f_equal. change (replace_from [78; 78] (two rl) 0 (chars "/" ++ year_text t ++ [])) with (replace [78; 78] (two rl) (chars "/" ++ year_text t ++ [])).
      rewrite replace_skip by (vm_compute; intuition discriminate). rewrite replace_skip by (apply numeric_not; [apply YT|lia]). change (replace [78; 78] (two rl) []) with (@nil Z). rewrite app_nil_r. reflexivity.
  Qed.
  Lemma nogz_is t : nogz (compressed (day_text t) (two rl)) = product (day_text t) (two rl).
  Proof.
    unfold nogz, compressed, product. change (chars ".gz") with (46 :: [103; 122]). rewrite <- !app_assoc. rewrite replace_skip by (vm_compute; intuition discriminate). rewrite replace_skip by (apply numeric_not; [apply DT|lia]). rewrite replace_skip by (vm_compute; intuition discriminate).
    rewrite replace_skip by (apply numeric_not; [apply two_numeric|lia]). do 4 f_equal.
  Qed.
  Lemma full_is t : pathjoin out (compressed (day_text t) (two rl)) = F t.
  Proof. unfold compressed, product. change (chars "AOD1B_") with (65 :: chars "OD1B_"). cbn [app]. apply pathjoin_dir; [discriminate|exact NE|exact NS]. Qed.
  Lemma plain_is t : pathjoin out (product (day_text t) (two rl)) = P t.
  Proof. unfold product. change (chars "AOD1B_") with (65 :: chars "OD1B_"). cbn [app]. apply pathjoin_dir; [discriminate|exact NE|exact NS]. Qed.
  Lemma F_P t : F t = P t ++ chars ".gz". Proof. unfold in_dir, compressed. rewrite <- !app_assoc. reflexivity. Qed.
  Lemma gz_F t : gz (F t) = true /\ but3 (F t) = P t.
  Proof. rewrite F_P. unfold gz, but3. destruct (tail_skip (P t) (chars ".gz") eq_refl) as [-> ->]. split; [apply text_eqb_refl|reflexivity]. Qed.
  Lemma P_tail t : exists a, P t = a ++ chars "asc".
  Proof. exists (out ++ chars "/" ++ chars "AOD1B_" ++ day_text t ++ chars "_X_" ++ two rl ++ chars "."). unfold in_dir, product. rewrite <- !app_assoc. reflexivity. Qed.
  Lemma gz_P t : gz (P t) = false.
  Proof. destruct (P_tail t) as (a & ->). unfold gz. rewrite (proj1 (tail_skip a (chars "asc") eq_refl)). reflexivity. Qed.
  Lemma F_not_P t u : F t <> P u.
  Proof. rewrite F_P. destruct (P_tail u) as (a & ->). intros E. apply (f_equal (@rev Z)) in E. rewrite !rev_app_distr in E. vm_compute in E. discriminate. Qed.
  Lemma P_inj t u : P t = P u -> day_text t = day_text u.
  Proof. unfold in_dir, product. intros E. apply app_inv_head in E. apply app_inv_head in E. apply app_inv_head in E. apply app_inv_tail in E. exact E. Qed.
  Lemma F_inj t u : F t = F u -> day_text t = day_text u.
  Proof. rewrite !F_P. intros E. apply app_inv_tail in E. apply P_inj, E. Qed.

  Notation one_day := (one_day day_text year_text retr connect gunzip).
  Notation days := (days day_text year_text retr connect gunzip).
  Notation main := (main day_text year_text retr connect gunzip).

  (** one day, in terms of its two files *)
  Definition decomp (dcmp : bool) (t : Z) (d : files) : files * py unit :=
    if dcmp then match d (F t) with None => (d, Raise OSError) | Some z => match gunzip z with Some s => (put d (P t) s, Val tt) | None => (put d (P t) [], Raise OSError) end end else (d, Val tt).
  Lemma one_day_is dcmp t d : one_day false dcmp rl out t d =
    if present d (F t) then decomp dcmp t d else if present d (P t) then (d, Val tt) else
    if negb (reachable t) then (d, Raise OSError) else match fetched t with None => (put d (F t) [], Raise OSError) | Some s => decomp dcmp t (put d (F t) s) end.
  Proof.
    unfold AodGetModel.one_day. rewrite name_is, nogz_is, full_is, plain_is. destruct (gz_F t) as [GF BF]. unfold decomp. destruct (present d (F t)) eqn:PF; cbn [orb].
    - cbn iota. rewrite PF. cbn [negb andb]. rewrite GF, BF. cbn [andb]. destruct dcmp; reflexivity.
    - destruct (present d (P t)) eqn:PP; cbn iota.
      + rewrite PP. cbn [negb andb]. rewrite gz_P. reflexivity.
      + unfold ftpget. rewrite full_is. destruct (reachable t); cbn [negb]; [|reflexivity]. destruct (fetched t) as [s|]; [|reflexivity]. unfold present at 1. rewrite put_here. cbn [negb andb]. rewrite GF, BF. cbn [andb]. destruct dcmp; reflexivity.
  Qed.
  Lemma decomp_ok dcmp t d d' : decomp dcmp t d = (d', Val tt) -> d (F t) <> None -> (forall f, f <> P t -> d' f = d f) /\ (d (P t) <> None -> d' (P t) <> None) /\ (dcmp = true -> exists z s, d (F t) = Some z /\ gunzip z = Some s /\ d' (P t) = Some s) /\ (dcmp = false -> d' = d).
  Proof.
    unfold decomp. destruct dcmp; intros H N.
    - destruct (d (F t)) as [z|]; [|contradiction]. destruct (gunzip z) as [s|] eqn:G; [|discriminate]. injection H as <-. split; [intros f X; apply put_other, X|]. split; [intros _; rewrite put_here; discriminate|]. split; [intros _; exists z, s; split; [reflexivity|split; [exact G|apply put_here]]|discriminate].
    - injection H as <-. split; [reflexivity|]. split; [tauto|]. split; [discriminate|reflexivity].
  Qed.
  Lemma day_ok dcmp t d d' : one_day false dcmp rl out t d = (d', Val tt) ->
    (d' (F t) <> None \/ d' (P t) <> None) /\ (dcmp = true -> d' (P t) <> None) /\ (forall f, f <> F t -> f <> P t -> d' f = d f) /\ (forall f, d f <> None -> d' f <> None) /\
    (d (F t) = None -> d (P t) = None -> exists z, fetched t = Some z /\ d' (F t) = Some z /\ (dcmp = true -> exists s, gunzip z = Some s /\ d' (P t) = Some s)) /\
    (d (F t) <> None -> d' (F t) = d (F t)).
  Proof.
    rewrite one_day_is. destruct (present d (F t)) eqn:PF.
    - apply present_some in PF. intros H. destruct (decomp_ok dcmp t d d' H PF) as (O & KP & C & _). assert (E : d' (F t) = d (F t)) by (apply O, F_not_P). split; [left; rewrite E; exact PF|].
      split; [intros D; destruct (C D) as (z & s & _ & _ & E'); rewrite E'; discriminate|]. split; [intros f _ N; exact (O f N)|]. split; [intros f N; destruct (list_eq_dec Z.eq_dec f (P t)) as [->|X]; [exact (KP N)|rewrite (O f X); exact N]|]. split; [intros N; contradiction|intros _; exact E].
    - apply present_none in PF. destruct (present d (P t)) eqn:PP.
      + apply present_some in PP. intros H. injection H as <-. split; [right; exact PP|]. split; [intros _; exact PP|]. split; [reflexivity|]. split; [tauto|]. split; [intros _ N; contradiction|intros N; contradiction].
      + apply present_none in PP. destruct (reachable t); cbn [negb]; [|discriminate]. destruct (fetched t) as [z|]; [|discriminate]. intros H. assert (N : put d (F t) z (F t) <> None) by (rewrite put_here; discriminate). destruct (decomp_ok dcmp t _ d' H N) as (O & KP & C & _).
        assert (E : d' (F t) = Some z) by (rewrite (O _ (F_not_P t t)); apply put_here). split; [left; rewrite E; discriminate|]. split; [intros D; destruct (C D) as (x & s & _ & _ & E'); rewrite E'; discriminate|].
        split; [intros f X Y; rewrite (O f Y); apply put_other, X|]. split; [intros f X; destruct (list_eq_dec Z.eq_dec f (P t)) as [->|Y]; [contradiction|]; rewrite (O f Y); destruct (list_eq_dec Z.eq_dec f (F t)) as [->|W]; [rewrite put_here; discriminate|rewrite put_other by exact W; exact X]|].
        split; [|intros X; contradiction]. intros _ _. exists z. split; [reflexivity|]. split; [exact E|]. intros D. destruct (C D) as (x & s & EX & G & EP). rewrite put_here in EX. injection EX as <-. exists s. split; [exact G|exact EP].
  Qed.
  Lemma days_ok n dcmp t d d' : days n false dcmp rl out t d = (d', Val tt) ->
    (forall u, t <= u < t + Z.of_nat n -> (d' (F u) <> None \/ d' (P u) <> None) /\ (dcmp = true -> d' (P u) <> None)) /\
    (forall f, (forall u, t <= u < t + Z.of_nat n -> f <> F u /\ f <> P u) -> d' f = d f) /\ (forall f, d f <> None -> d' f <> None).
  Proof.
    revert t d. induction n as [|n IH]; intros t d H; cbn [AodGetModel.days] in H.
    - injection H as <-. split; [intros u U; lia|]. split; [reflexivity|tauto].
    - destruct (one_day false dcmp rl out t d) as [d1 [[]| |]] eqn:O; try discriminate. destruct (day_ok dcmp t d d1 O) as (A & B & C & K & _). destruct (IH (t + 1) d1 H) as (A' & C' & K'). split; [|split].
      + intros u U. destruct (Z.eq_dec u t) as [->|N]; [split; [destruct A as [A|A]; [left|right]; apply K', A|intros D; apply K', B, D]|apply A'; lia].
      + intros f X. rewrite C' by (intros u U; apply X; lia). apply C; apply (X t); lia.
      + intros f N. apply K', K, N.
  Qed.
  Lemma days_content n dcmp t d d' u : (forall a b, t <= a < t + Z.of_nat n -> t <= b < t + Z.of_nat n -> day_text a = day_text b -> a = b) -> days n false dcmp rl out t d = (d', Val tt) -> t <= u < t + Z.of_nat n -> d (F u) = None -> d (P u) = None ->
    exists z, fetched u = Some z /\ d' (F u) = Some z /\ (dcmp = true -> exists s, gunzip z = Some s /\ d' (P u) = Some s).
  Proof.
    revert t d. induction n as [|n IH]; intros t d INJ H U NF NP; [lia|]. cbn [AodGetModel.days] in H. destruct (one_day false dcmp rl out t d) as [d1 [[]| |]] eqn:O; try discriminate. destruct (day_ok dcmp t d d1 O) as (_ & _ & C & _ & Z1 & _). destruct (days_ok n dcmp (t + 1) d1 d' H) as (_ & C' & _).
    destruct (Z.eq_dec u t) as [->|N].
    - destruct (Z1 NF NP) as (z & E & EF & EP). assert (X : forall f, f = F t \/ f = P t -> d' f = d1 f).
      { intros f FF. apply C'. intros v V. assert (D : day_text t <> day_text v) by (intros E'; assert (t = v) by (apply INJ; [lia|lia|exact E']); lia). destruct FF as [->| ->]; split.
        - intros E'. apply D, F_inj, E'.
        - apply F_not_P.
        - intros E'. symmetry in E'. exact (F_not_P v t E').
        - intros E'. apply D, P_inj, E'. }
      exists z. split; [exact E|]. rewrite (X (F t)) by tauto. split; [exact EF|]. intros D. rewrite (X (P t)) by tauto. exact (EP D).
    - assert (D : day_text u <> day_text t) by (intros E'; assert (u = t) by (apply INJ; [lia|lia|exact E']); lia).
      apply (IH (t + 1) d1); [intros a b A B; apply INJ; lia|exact H|lia| |]; rewrite C; try assumption.
      + intros E. apply D, F_inj, E.
      + apply F_not_P.
      + intros E. symmetry in E. exact (F_not_P t u E).
      + intros E. apply D, P_inj, E.
  Qed.
  (** nothing goes wrong *)
  Lemma days_complete n dcmp t d : (forall u, t <= u < t + Z.of_nat n -> reachable u = true /\ fetched u <> None) -> (forall z, dcmp = true -> gunzip z <> None) -> exists d', days n false dcmp rl out t d = (d', Val tt).
  Proof.
    intros R G. revert t d R. induction n as [|n IH]; intros t d R; [exists d; reflexivity|]. cbn [AodGetModel.days].
    assert (X : exists d1, one_day false dcmp rl out t d = (d1, Val tt)).
    { assert (DC : forall e, e (F t) <> None -> exists d1, decomp dcmp t e = (d1, Val tt)). { intros e N. unfold decomp. destruct dcmp; [|exists e; reflexivity]. destruct (e (F t)) as [z|]; [|contradiction]. specialize (G z eq_refl). destruct (gunzip z) as [s|]; [|contradiction]. eexists. reflexivity. }
      rewrite one_day_is. destruct (present d (F t)) eqn:PF; [apply DC, present_some, PF|]. destruct (present d (P t)); [exists d; reflexivity|]. destruct (R t ltac:(lia)) as (-> & N). cbn [negb]. destruct (fetched t) as [s|]; [|contradiction]. apply DC. rewrite put_here. discriminate. }
    destruct X as (d1 & ->). apply IH. intros u U. apply R. lia.
  Qed.
  Lemma days_tidal n dcmp t d : (0 < n)%nat -> days n true dcmp rl out t d = (d, Raise NameError).
  Proof. destruct n; [lia|reflexivity]. Qed.
  Lemma days_skip n t d : (forall u, t <= u < t + Z.of_nat n -> d (F u) <> None \/ d (P u) <> None) -> days n false false rl out t d = (d, Val tt).
  Proof.
    revert t. induction n as [|n IH]; intros t H; [reflexivity|]. cbn [AodGetModel.days]. rewrite one_day_is. assert (X : present d (F t) = true \/ present d (P t) = true) by (destruct (H t ltac:(lia)); [left|right]; apply present_some; assumption).
    destruct (present d (F t)); [cbn [decomp]; apply IH; intros u U; apply H; lia|]. destruct X as [X|X]; [discriminate|]. rewrite X. apply IH. intros u U. apply H. lia.
  Qed.
End Get.
