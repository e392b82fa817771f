(** Claim C80: a COST-G check program ends with code 0 exactly when every orbit record has a reference record of the same epoch at the same place
    and all calls succeed; it has then printed one line for every orbit record, with the reference and the result computed from the
    records of this epoch; the times passed on are in the scales that the library expects. *)
From Coq Require Import Reals ZArith List Bool Lia Lra.
From Verif Require Import Base CheckModel CheckSpec CheckProofs.
Import ListNotations.
Open Scope Z_scope.

Section Loop.
  Variables (E O A R P V ST : Type) (eqb : E -> E -> bool).
  Hypothesis eqb_spec : forall a b, eqb a b = true <-> a = b.
  Variable call : nat -> ST -> E * O -> option P -> option R -> option ST.
  Variable value : ST -> E * O -> option P -> option R -> V.
  Variable debug : bool.
  Notation check := (check E O A R P V ST eqb call value debug).
  Notation epochs := (epochs E O A R P V ST).

  Theorem c80_check_03 : forall orb st accs rots eops lines, check check_03 orb st accs rots eops = Ok (0, lines) <-> epochs (one_03 E O A R P V ST call value) st orb accs rots eops lines.
  Proof. intros. unfold CheckModel.check. cbn [first check_03 andb stages]. apply loop_epochs, describes_03, eqb_spec. Qed.
  Theorem c80_check_04 : forall orb st accs rots eops lines, check check_04 orb st accs rots eops = Ok (0, lines) <-> orb <> [] /\ epochs (one_04 E O A R P V ST call value debug) st orb accs rots eops lines.
  Proof.
    intros. unfold CheckModel.check. cbn [first check_04 andb stages]. destruct orb as [|i orb]; [split; [discriminate|intros (N & _); congruence]|].
    rewrite (loop_epochs E O A R P V ST eqb call value debug _ (one_04 E O A R P V ST call value debug)); [split; [intros H; split; [discriminate|exact H]|tauto]|]. apply describes_04, eqb_spec.
  Qed.
  Theorem c80_check_05 : forall orb st accs rots eops lines, check check_05 orb st accs rots eops = Ok (0, lines) <-> epochs (one_05 E O A R P V ST call value debug) st orb accs rots eops lines.
  Proof. intros. unfold CheckModel.check. cbn [first check_05 andb stages]. apply loop_epochs, describes_05, eqb_spec. Qed.
  Theorem c80_check_06 : forall orb st accs rots eops lines, check check_06 orb st accs rots eops = Ok (0, lines) <-> epochs (one_06 E O A R P V ST call value debug) st orb accs rots eops lines.
  Proof. intros. unfold CheckModel.check. cbn [first check_06 andb stages]. apply loop_epochs, describes_06, eqb_spec. Qed.
  Theorem c80_check_07 : forall orb st accs rots eops lines, check check_07 orb st accs rots eops = Ok (0, lines) <-> epochs (one_03 E O A R P V ST call value) st orb accs rots eops lines.
  Proof. exact c80_check_03. Qed.
  Theorem c80_check_08 : forall orb st accs rots eops lines, check check_08 orb st accs rots eops = Ok (0, lines) <-> epochs (one_08 E O A R P V ST call value debug) st orb accs rots eops lines.
  Proof. intros. unfold CheckModel.check. cbn [first check_08 andb stages]. apply loop_epochs, describes_08, eqb_spec. Qed.
  Theorem c80_check_09 : forall orb st accs rots eops lines, check check_09 orb st accs rots eops = Ok (0, lines) <-> orb <> [] /\ epochs (one_09 E O A R P V ST call value debug) st orb accs rots eops lines.
  Proof.
    intros. unfold CheckModel.check. cbn [first check_09 andb stages]. destruct orb as [|i orb]; [split; [discriminate|intros (N & _); congruence]|].
    rewrite (loop_epochs E O A R P V ST eqb call value debug _ (one_09 E O A R P V ST call value debug)); [split; [intros H; split; [discriminate|exact H]|tauto]|]. apply describes_09, eqb_spec.
  Qed.
  Theorem c80_check_11 : forall orb st accs rots eops lines, check check_11 orb st accs rots eops = Ok (0, lines) <-> orb <> [] /\ epochs (one_09 E O A R P V ST call value debug) st orb accs rots eops lines.
  Proof. exact c80_check_09. Qed.

  (** One line for every orbit record, in order, with its epoch and the reference of the same number and epoch. *)
  Theorem c80_lines : forall one st orb accs rots eops lines, epochs one st orb accs rots eops lines ->
    length lines = length orb /\ map (fun l => fst (fst l)) lines = map fst orb /\ map fst orb = firstn (length orb) (map fst accs) /\ map (fun l => snd (fst l)) lines = firstn (length orb) (map snd accs).
  Proof.
    induction 1 as [|st i orb a accs rots eops st' v lines F G H (L & M & N & K)]; [repeat split|]. cbn [length map firstn fst snd]. rewrite L, M, N, F, K. repeat split.
  Qed.
  Theorem c80_determined : forall one : ST -> E * O -> E * A -> option (E * R) -> option (E * P) -> ST -> V -> Prop, (forall st i a r p st1 v1 st2 v2, one st i a r p st1 v1 -> one st i a r p st2 v2 -> st1 = st2 /\ v1 = v2) ->
    forall st orb accs rots eops l l', epochs one st orb accs rots eops l -> epochs one st orb accs rots eops l' -> l = l'.
  Proof.
    intros one D st orb accs rots eops l l' H. revert l'. induction H as [|st i orb a accs rots eops st' v lines F G H IH]; intros l' H'; inversion H' as [|? ? ? ? ? ? ? st2 v2 lines2 F2 G2 H2]; subst; [reflexivity|].
    destruct (D _ _ _ _ _ _ _ _ _ G G2) as (-> & ->). f_equal. apply IH, H2.
  Qed.
  (** A reference of another epoch: exit code 1, after the lines of the epochs ahead. *)
  Theorem c80_mismatch : forall pre i post st accs rots eops lines a rest, epochs (one_03 E O A R P V ST call value) st pre accs rots eops lines ->
    (forall k st, call k st i None None <> None) -> skipn (length pre) accs = a :: rest -> fst a <> fst i -> check check_03 (pre ++ i :: post) st accs rots eops = Ok (1, lines).
  Proof.
    intros pre i post st accs rots eops lines a rest H T S F. unfold CheckModel.check. cbn [first check_03 andb stages]. destruct (loop_after E O A R P V ST eqb call value debug _ _ pre (describes_03 E O A R P V ST eqb eqb_spec call value debug) st accs rots eops lines H (i :: post)) as (st' & K).
    rewrite K, S. cbn [CheckModel.loop CheckModel.pass]. specialize (T 0%nat st'). destruct (call 0%nat st' i None None) as [s1|]; [|congruence]. destruct a as (e, x). cbn [fst] in F. replace (eqb e (fst i)) with false; [cbn [negb bind fst snd]; rewrite app_nil_r; reflexivity|]. symmetry. apply not_true_is_false. rewrite eqb_spec. exact F.
  Qed.
  (** References that end early are read behind their end; so are rotations and EOPs. *)
  Theorem c80_short_refuted : forall pre i post st accs rots eops lines, epochs (one_03 E O A R P V ST call value) st pre accs rots eops lines ->
    (forall k st, call k st i None None <> None) -> length accs = length pre -> check check_03 (pre ++ i :: post) st accs rots eops = UB.
  Proof.
    intros pre i post st accs rots eops lines H T S. unfold CheckModel.check. cbn [first check_03 andb stages]. destruct (loop_after E O A R P V ST eqb call value debug _ _ pre (describes_03 E O A R P V ST eqb eqb_spec call value debug) st accs rots eops lines H (i :: post)) as (st' & K).
    rewrite K, <- S, skipn_all. cbn [CheckModel.loop CheckModel.pass]. specialize (T 0%nat st'). destruct (call 0%nat st' i None None) as [s1|]; [|congruence]. reflexivity.
  Qed.
  Theorem c80_short_rotation_refuted : forall pre i post st accs rots eops lines, epochs (one_04 E O A R P V ST call value debug) st pre accs rots eops lines ->
    length rots = length pre -> check check_04 (pre ++ i :: post) st accs rots eops = UB.
  Proof.
    intros pre i post st accs rots eops lines H S. unfold CheckModel.check. cbn [first check_04 andb stages]. replace (match pre ++ i :: post with [] => true | _ => false end) with false by (destruct pre; reflexivity).
    destruct (loop_after E O A R P V ST eqb call value debug _ _ pre (describes_04 E O A R P V ST eqb eqb_spec call value debug) st accs rots eops lines H (i :: post)) as (st' & K). rewrite K, <- S, (skipn_all rots). reflexivity.
  Qed.
  Theorem c80_short_eops_refuted : forall pre i post st accs rots eops lines, epochs (one_05 E O A R P V ST call value debug) st pre accs rots eops lines ->
    length eops = length pre -> check check_05 (pre ++ i :: post) st accs rots eops = UB.
  Proof.
    intros pre i post st accs rots eops lines H S. unfold CheckModel.check. cbn [first check_05 andb stages].
    destruct (loop_after E O A R P V ST eqb call value debug _ _ pre (describes_05 E O A R P V ST eqb eqb_spec call value debug) st accs rots eops lines H (i :: post)) as (st' & K). rewrite K, <- S, (skipn_all eops). reflexivity.
  Qed.
  (** An orbit file without records: some programs read its first record. *)
  Theorem c80_empty_refuted : forall st accs rots eops, Forall (fun p => check p [] st accs rots eops = UB) [check_04; check_09; check_11] /\ Forall (fun p => check p [] st accs rots eops = Ok (0, [])) [check_03; check_05; check_06; check_07; check_08].
  Proof. intros. split; repeat constructor. Qed.
  (** References behind the last orbit record are never compared. *)
  Theorem c80_surplus_refuted : forall one st orb accs rots eops lines more, epochs one st orb accs rots eops lines -> epochs one st orb (accs ++ more) rots eops lines.
  Proof. induction 1; [constructor|]. cbn [app]. econstructor; eassumption. Qed.
End Loop.

(** Without asserts, the rotation of another epoch is used: exit code 0. *)
Theorem c80_ndebug_refuted : check Z Z Z Z Z Z unit Z.eqb (fun _ s _ _ _ => Some s) (fun _ i _ r => match r with Some x => snd i * x | None => 0 end) false check_09 [(7, 5)] tt [(7, 1)] [(8, 3)] [] = Ok (0, [(7, 1, 15)]) /\
  check Z Z Z Z Z Z unit Z.eqb (fun _ s _ _ _ => Some s) (fun _ i _ r => match r with Some x => snd i * x | None => 0 end) true check_09 [(7, 5)] tt [(7, 1)] [(8, 3)] [] = Abort.
Proof. split; reflexivity. Qed.

(** Terrestrial Time and UT1, for every GPS epoch. *)
Theorem c80_times : forall leap dut1 t, tt_arg t = tt_of t /\ ut1_04 leap dut1 t = ut1_of leap dut1 t /\ ut1_09 leap dut1 t = ut1_of leap dut1 t.
Proof. intros. unfold tt_arg, tt_of, tai_of, ut1_04, ut1_09, ut1_of, tt2ut1, tai2ut1, tai2tt, gps2tai, tai_of. split; [reflexivity|]. split; [reflexivity|]. replace (t + 19 + 32.184 - 32.184)%R with (t + 19)%R by lra. reflexivity. Qed.
(** The UT1 of check_11 is 51.184 s early: GPS time is passed for TT. *)
Theorem c80_ut1_refuted : forall leap dut1 t, leap (t - 32.184)%R = leap (tai_of t) -> (ut1_11 leap dut1 t = ut1_of leap dut1 t - 51.184)%R.
Proof. intros leap dut1 t H. unfold ut1_11, ut1_of, tt2ut1, tai2ut1. rewrite H. unfold tai_of. lra. Qed.

Example c80_nonvacuous : epochs Z Z Z Z Z Z unit (one_06 Z Z Z Z Z Z unit (fun _ s _ _ _ => Some s) (fun _ i p r => match r, p with Some x, Some y => snd i * x + y | _, _ => 0 end) true) tt [(7, 5); (8, 6)] [(7, 1); (8, 2)] [(7, 3); (8, 4)] [(7, 10); (8, 20)] [(7, 1, 25); (8, 2, 44)].
Proof. apply (c80_check_06 Z Z Z Z Z Z unit Z.eqb Z.eqb_eq). reflexivity. Qed.
Example c80_mismatch_nonvacuous : check Z Z Z Z Z Z unit Z.eqb (fun _ s _ _ _ => Some s) (fun _ i _ _ => snd i) true check_03 [(7, 5); (8, 6)] tt [(7, 1); (9, 2)] [] [] = Ok (1, [(7, 1, 5)]).
Proof. reflexivity. Qed.
Print Assumptions c80_check_03.
Print Assumptions c80_check_04.
Print Assumptions c80_check_05.
Print Assumptions c80_check_06.
Print Assumptions c80_check_07.
Print Assumptions c80_check_08.
Print Assumptions c80_check_09.
Print Assumptions c80_check_11.
Print Assumptions c80_lines.
Print Assumptions c80_determined.
Print Assumptions c80_mismatch.
Print Assumptions c80_short_refuted.
Print Assumptions c80_short_rotation_refuted.
Print Assumptions c80_short_eops_refuted.
Print Assumptions c80_empty_refuted.
Print Assumptions c80_surplus_refuted.
Print Assumptions c80_ndebug_refuted.
Print Assumptions c80_times.
Print Assumptions c80_ut1_refuted.
