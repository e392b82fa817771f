From Coq Require Import Reals ZArith List Bool Lia Lra.
From Verif Require Import Base CheckModel CheckSpec.
Import ListNotations.
Open Scope Z_scope.

Section Loop.
  Variables (E O A R P V ST : Type) (eqb : E -> E -> bool).
  Hypothesis eqb_spec : forall a b, eqb a b = true <-> a = b.
  Variable call : nat -> ST -> E * O -> option P -> option R -> option ST.
  Variable value : ST -> E * O -> option P -> option R -> V.
  Variable debug : bool.
  Notation pass := (pass E O A R P V ST eqb call value debug). Notation loop := (loop E O A R P V ST eqb call value debug).
  Notation epochs := (epochs E O A R P V ST).
  Notation relation := (ST -> E * O -> E * A -> option (E * R) -> option (E * P) -> ST -> V -> Prop).
  Definition describes (ss : list stage) (one : relation) : Prop := forall st i accs rots eops,
    (forall st' out, pass ss st i accs rots eops None None = Ok (None, st', out) <->
       exists a accs' v, accs = a :: accs' /\ fst a = fst i /\ out = [(fst i, snd a, v)] /\ one st i a (hd_error rots) (hd_error eops) st' v) /\
    (forall c st' out, pass ss st i accs rots eops None None = Ok (Some c, st', out) -> c <> 0 /\ out = []).
  Lemma loop_epochs ss one : describes ss one -> forall orb st accs rots eops lines, loop ss orb st accs rots eops = Ok (0, lines) <-> epochs one st orb accs rots eops lines.
  Proof.
    intros D. induction orb as [|i orb IH]; intros st accs rots eops lines; cbn [CheckModel.loop].
    - split; [intros H; injection H as <-; constructor|intros H; inversion H; reflexivity].
    - destruct (D st i accs rots eops) as (D1 & D2). split.
      + intros H. destruct (pass ss st i accs rots eops None None) as [((c, st'), out)| | |] eqn:X; try discriminate. cbn [bind] in H. destruct c as [c|].
        * destruct (D2 c st' out eq_refl) as (N & _). congruence.
        * destruct (proj1 (D1 st' out) eq_refl) as (a & accs' & v & -> & F & -> & G). cbn [tl] in H. destruct (loop ss orb st' accs' (tl rots) (tl eops)) as [(c, out')| | |] eqn:Y; try discriminate. cbn [bind] in H. injection H as -> <-.
          cbn [app]. apply next with (st' := st'); [exact F|exact G|]. apply IH. exact Y.
      + intros H. inversion H as [|? ? ? a accs' ? ? st' v lines' F G N]; subst. rewrite (proj2 (D1 st' [(fst i, snd a, v)])); [|exists a, accs', v; auto]. cbn [bind tl]. rewrite (proj2 (IH st' accs' (tl rots) (tl eops) lines') N). reflexivity.
  Qed.
  Lemma eqb_no e e' : negb (eqb e e') = false <-> e = e'. Proof. rewrite negb_false_iff. apply eqb_spec. Qed.
  Lemma assert_no e e' : debug && negb (eqb e e') = false <-> (debug = true -> e = e').
  Proof. destruct debug; cbn [andb]; [rewrite eqb_no; split; auto|split; [discriminate|reflexivity]]. Qed.
  (** the end of the passes *)
  Lemma reference st i accs rots eops p r : 
    (forall st' out, pass [Reference] st i accs rots eops p r = Ok (None, st', out) <-> exists a accs', accs = a :: accs' /\ fst a = fst i /\ st' = st /\ out = [(fst i, snd a, value st i p r)]) /\
    (forall c st' out, pass [Reference] st i accs rots eops p r = Ok (Some c, st', out) -> c <> 0 /\ out = []).
  Proof.
    cbn [CheckModel.pass]. destruct accs as [|(e, x) accs]; [split; [intros st' out; split; [discriminate|intros (a & accs' & N & _); discriminate]|discriminate]|].
    destruct (negb (eqb e (fst i))) eqn:X.
    - split; [|intros c st' out H; injection H as <- _ <-; split; [discriminate|reflexivity]]. intros st' out. split; [discriminate|]. intros (a & accs' & N & F & _). injection N as <- _. cbn [fst] in F. apply eqb_no in F. congruence.
    - apply eqb_no in X. cbn [bind]. split; [|discriminate]. intros st' out. split.
      + intros H. injection H as <- <-. exists (e, x), accs. auto.
      + intros (a & accs' & N & F & -> & ->). injection N as <- _. reflexivity.
  Qed.
  Lemma describes_03 : describes [Call 0 2; Reference] (one_03 E O A R P V ST call value).
  Proof.
    intros st i accs rots eops. change (pass [Call 0 2; Reference] st i accs rots eops None None) with (match call 0 st i None None with None => Ok (Some 2, st, []) | Some st' => pass [Reference] st' i accs rots eops None None end).
    destruct (call 0 st i None None) as [s1|] eqn:C.
    - destruct (reference s1 i accs rots eops None None) as (D1 & D2). split; [|exact D2]. intros st' out. rewrite D1. split.
      + intros (a & accs' & -> & F & -> & ->). exists a, accs', (value s1 i None None). repeat split; auto.
      + intros (a & accs' & v & -> & F & -> & (G & ->)). rewrite C in G. injection G as ->. exists a, accs'. auto.
    - split; [|intros c st' out H; injection H as <- _ <-; split; [discriminate|reflexivity]]. intros st' out. split; [discriminate|]. intros (a & accs' & v & _ & _ & _ & G & _). congruence.
  Qed.
  Lemma pass_call k c ss st i accs rots eops p r : pass (Call k c :: ss) st i accs rots eops p r = match call k st i p r with None => Ok (Some c, st, []) | Some st' => pass ss st' i accs rots eops p r end.
  Proof. reflexivity. Qed.
  Lemma pass_rotary ss st i accs rots eops p r : pass (Rotary :: ss) st i accs rots eops p r = match rots with [] => UB | (e, x) :: _ => if debug && negb (eqb e (fst i)) then Abort else pass ss st i accs rots eops p (Some x) end.
  Proof. reflexivity. Qed.
  Lemma pass_eops ss st i accs rots eops p r : pass (Eops :: ss) st i accs rots eops p r = match eops with [] => UB | (e, x) :: _ => if debug && negb (eqb e (fst i)) then Abort else pass ss st i accs rots eops (Some x) r end.
  Proof. reflexivity. Qed.
  Ltac none := split; [intros st' out; split; [discriminate|intros (a & accs' & v & _ & _ & _ & G); exfalso]|try (intros c st' out H; injection H as <- _ <-; split; [discriminate|reflexivity]); try discriminate].
  Lemma of_epoch_cons {X} (i : E * O) e (x y : X) (l : list (E * X)) : of_epoch E O debug i (hd_error ((e, x) :: l)) y <-> x = y /\ (debug = true -> e = fst i).
  Proof. split; [intros (e' & H & K); injection H as -> ->; auto|intros (-> & K); exists e; auto]. Qed.
  Lemma of_epoch_nil {X} (i : E * O) (y : X) : ~ of_epoch E O debug i (hd_error []) y.
  Proof. intros (e & H & _). discriminate. Qed.
  Lemma describes_09 : describes [Call 0 1; Rotary; Reference] (one_09 E O A R P V ST call value debug).
  Proof.
    intros st i accs rots eops. rewrite pass_call. destruct (call 0 st i None None) as [s1|] eqn:C; [|none; destruct G as (x & _ & G & _); congruence]. rewrite pass_rotary.
    destruct rots as [|(e, x) rots]; [none; destruct G as (x & G & _); exact (of_epoch_nil _ _ G)|]. destruct (debug && negb (eqb e (fst i))) eqn:X.
    - none. destruct G as (y & G & _). apply of_epoch_cons in G. destruct G as (_ & G). pose proof (proj2 (assert_no _ _) G). congruence.
    - pose proof (proj1 (assert_no _ _) X) as X2; clear X. destruct (reference s1 i accs ((e, x) :: rots) eops None (Some x)) as (D1 & D2). split; [|exact D2]. intros st' out. rewrite D1. split.
      + intros (a & accs' & -> & F & -> & ->). exists a, accs', (value s1 i None (Some x)). split; [reflexivity|]. split; [exact F|]. split; [reflexivity|]. exists x. split; [apply of_epoch_cons; auto|]. auto.
      + intros (a & accs' & v & -> & F & -> & (y & G & K & ->)). apply of_epoch_cons in G. destruct G as (-> & _). rewrite C in K. injection K as ->. exists a, accs'. auto.
  Qed.
  Lemma describes_08 : describes [Call 0 1; Call 1 1; Rotary; Reference] (one_08 E O A R P V ST call value debug).
  Proof.
    intros st i accs rots eops. rewrite pass_call. destruct (call 0 st i None None) as [s1|] eqn:C; [|none; destruct G as (x & st1 & _ & G & _); congruence].
    rewrite pass_call. destruct (call 1 s1 i None None) as [s2|] eqn:C2; [|none; destruct G as (x & st1 & _ & G & G2 & _); congruence]. rewrite pass_rotary.
    destruct rots as [|(e, x) rots]; [none; destruct G as (x & st1 & G & _); exact (of_epoch_nil _ _ G)|]. destruct (debug && negb (eqb e (fst i))) eqn:X.
    - none. destruct G as (y & st1 & G & _). apply of_epoch_cons in G. destruct G as (_ & G). pose proof (proj2 (assert_no _ _) G). congruence.
    - pose proof (proj1 (assert_no _ _) X) as X2; clear X. destruct (reference s2 i accs ((e, x) :: rots) eops None (Some x)) as (D1 & D2). split; [|exact D2]. intros st' out. rewrite D1. split.
      + intros (a & accs' & -> & F & -> & ->). exists a, accs', (value s2 i None (Some x)). split; [reflexivity|]. split; [exact F|]. split; [reflexivity|]. exists x, s1. split; [apply of_epoch_cons; auto|]. auto.
      + intros (a & accs' & v & -> & F & -> & (y & st1 & G & K & K2 & ->)). apply of_epoch_cons in G. destruct G as (-> & _). rewrite C in K. injection K as <-. rewrite C2 in K2. injection K2 as ->. exists a, accs'. auto.
  Qed.
  Lemma describes_04 : describes [Rotary; Call 0 2; Call 1 2; Reference] (one_04 E O A R P V ST call value debug).
  Proof.
    intros st i accs rots eops. rewrite pass_rotary. destruct rots as [|(e, x) rots]; [none; destruct G as (x & st1 & G & _); exact (of_epoch_nil _ _ G)|]. destruct (debug && negb (eqb e (fst i))) eqn:X.
    { none. destruct G as (y & st1 & G & _). apply of_epoch_cons in G. destruct G as (_ & G). pose proof (proj2 (assert_no _ _) G). congruence. }
    pose proof (proj1 (assert_no _ _) X) as X2; clear X. rewrite pass_call. destruct (call 0 st i None (Some x)) as [s1|] eqn:C; [|none; destruct G as (y & st1 & Y & G & _); apply of_epoch_cons in Y; destruct Y as (-> & _); congruence].
    rewrite pass_call. destruct (call 1 s1 i None (Some x)) as [s2|] eqn:C2; [|none; destruct G as (y & st1 & Y & G & G2 & _); apply of_epoch_cons in Y; destruct Y as (-> & _); congruence].
    destruct (reference s2 i accs ((e, x) :: rots) eops None (Some x)) as (D1 & D2). split; [|exact D2]. intros st' out. rewrite D1. split.
    + intros (a & accs' & -> & F & -> & ->). exists a, accs', (value s2 i None (Some x)). split; [reflexivity|]. split; [exact F|]. split; [reflexivity|]. exists x, s1. split; [apply of_epoch_cons; auto|]. auto.
    + intros (a & accs' & v & -> & F & -> & (y & st1 & G & K & K2 & ->)). apply of_epoch_cons in G. destruct G as (-> & _). rewrite C in K. injection K as <-. rewrite C2 in K2. injection K2 as ->. exists a, accs'. auto.
  Qed.
  Lemma describes_05 : describes [Eops; Call 0 1; Rotary; Reference] (one_05 E O A R P V ST call value debug).
  Proof.
    intros st i accs rots eops. rewrite pass_eops. destruct eops as [|(e, y) eops]; [none; destruct G as (x & y & _ & G & _); exact (of_epoch_nil _ _ G)|]. destruct (debug && negb (eqb e (fst i))) eqn:Y.
    { none. destruct G as (x & y' & _ & G & _). apply of_epoch_cons in G. destruct G as (_ & G). pose proof (proj2 (assert_no _ _) G). congruence. }
    pose proof (proj1 (assert_no _ _) Y) as Y2; clear Y. rewrite pass_call. destruct (call 0 st i (Some y) None) as [s1|] eqn:C; [|none; destruct G as (x & y' & _ & Z & G & _); apply of_epoch_cons in Z; destruct Z as (-> & _); congruence].
    rewrite pass_rotary. destruct rots as [|(e', x) rots]; [none; destruct G as (x & y' & G & _); exact (of_epoch_nil _ _ G)|]. destruct (debug && negb (eqb e' (fst i))) eqn:X.
    { none. destruct G as (x' & y' & G & _). apply of_epoch_cons in G. destruct G as (_ & G). pose proof (proj2 (assert_no _ _) G). congruence. }
    pose proof (proj1 (assert_no _ _) X) as X2; clear X. destruct (reference s1 i accs ((e', x) :: rots) ((e, y) :: eops) (Some y) (Some x)) as (D1 & D2). split; [|exact D2]. intros st' out. rewrite D1. split.
    + intros (a & accs' & -> & F & -> & ->). exists a, accs', (value s1 i (Some y) (Some x)). split; [reflexivity|]. split; [exact F|]. split; [reflexivity|]. exists x, y. split; [apply of_epoch_cons; auto|]. split; [apply of_epoch_cons; auto|]. auto.
    + intros (a & accs' & v & -> & F & -> & (x' & y' & G & G' & K & ->)). apply of_epoch_cons in G. destruct G as (-> & _). apply of_epoch_cons in G'. destruct G' as (-> & _). rewrite C in K. injection K as ->. exists a, accs'. auto.
  Qed.
  Lemma describes_06 : describes [Eops; Call 0 1; Call 1 1; Rotary; Reference] (one_06 E O A R P V ST call value debug).
  Proof.
    intros st i accs rots eops. rewrite pass_eops. destruct eops as [|(e, y) eops]; [none; destruct G as (x & y & st1 & _ & G & _); exact (of_epoch_nil _ _ G)|]. destruct (debug && negb (eqb e (fst i))) eqn:Y.
    { none. destruct G as (x & y' & st1 & _ & G & _). apply of_epoch_cons in G. destruct G as (_ & G). pose proof (proj2 (assert_no _ _) G). congruence. }
    pose proof (proj1 (assert_no _ _) Y) as Y2; clear Y. rewrite pass_call. destruct (call 0 st i (Some y) None) as [s1|] eqn:C; [|none; destruct G as (x & y' & st1 & _ & Z & G & _); apply of_epoch_cons in Z; destruct Z as (-> & _); congruence].
    rewrite pass_call. destruct (call 1 s1 i (Some y) None) as [s2|] eqn:C2; [|none; destruct G as (x & y' & st1 & _ & Z & G & G2 & _); apply of_epoch_cons in Z; destruct Z as (-> & _); congruence].
    rewrite pass_rotary. destruct rots as [|(e', x) rots]; [none; destruct G as (x & y' & st1 & G & _); exact (of_epoch_nil _ _ G)|]. destruct (debug && negb (eqb e' (fst i))) eqn:X.
    { none. destruct G as (x' & y' & st1 & G & _). apply of_epoch_cons in G. destruct G as (_ & G). pose proof (proj2 (assert_no _ _) G). congruence. }
    pose proof (proj1 (assert_no _ _) X) as X2; clear X. destruct (reference s2 i accs ((e', x) :: rots) ((e, y) :: eops) (Some y) (Some x)) as (D1 & D2). split; [|exact D2]. intros st' out. rewrite D1. split.
    + intros (a & accs' & -> & F & -> & ->). exists a, accs', (value s2 i (Some y) (Some x)). split; [reflexivity|]. split; [exact F|]. split; [reflexivity|]. exists x, y, s1. split; [apply of_epoch_cons; auto|]. split; [apply of_epoch_cons; auto|]. auto.
    + intros (a & accs' & v & -> & F & -> & (x' & y' & st1 & G & G' & K & K2 & ->)). apply of_epoch_cons in G. destruct G as (-> & _). apply of_epoch_cons in G'. destruct G' as (-> & _). rewrite C in K. injection K as <-. rewrite C2 in K2. injection K2 as ->. exists a, accs'. auto.
  Qed.
  (** after records that agree *)
  Lemma loop_after ss one pre : describes ss one -> forall st accs rots eops lines, epochs one st pre accs rots eops lines -> forall post, exists st',
    loop ss (pre ++ post) st accs rots eops = bind (loop ss post st' (skipn (length pre) accs) (skipn (length pre) rots) (skipn (length pre) eops)) (fun p => Ok (fst p, lines ++ snd p)).
  Proof.
    intros D. induction pre as [|i pre IH]; intros st accs rots eops lines H post.
    - inversion H; subst. exists st. cbn [app length skipn]. destruct (loop ss post st accs rots eops) as [(c, out)| | |]; reflexivity.
    - inversion H as [|? ? ? a accs' ? ? st' v lines' F G N]; subst. destruct (IH st' accs' (tl rots) (tl eops) lines' N post) as (st2 & K). exists st2. cbn [app CheckModel.loop length]. destruct (D st i (a :: accs') rots eops) as (D1 & _).
      rewrite (proj2 (D1 st' [(fst i, snd a, v)])); [|exists a, accs', v; auto]. cbn [bind tl]. rewrite K.
      assert (S1 : forall X (l : list X) n, skipn n (tl l) = skipn (S n) l) by (intros X [|x l] n; [rewrite !skipn_nil; reflexivity|reflexivity]). rewrite <- !S1. cbn [tl].
      match goal with |- context [CheckModel.loop ?a1 ?a2 ?a3 ?a4 ?a5 ?a6 ?a7 ?a8 ?a9 ?b1 ?b2 ?b3 ?b4 ?b5 ?b6 ?b7 ?b8] => destruct (CheckModel.loop a1 a2 a3 a4 a5 a6 a7 a8 a9 b1 b2 b3 b4 b5 b6 b7 b8) as [(c, out)| | |] end; reflexivity.
  Qed.
End Loop.
