From Coq Require Import Ascii String Reals ZArith List Bool Lia Lra.
From Verif Require Import Base CString PyModel AodMergeSpec PyProofs TestSuiteSpec TestSuiteProofs Sp3Model Sp3Spec Sp3Proofs.
Import ListNotations.
Open Scope Z_scope.

(** ** C93: the states of a satellite in an Sp3 file *)
(** a header, and epochs with or without the satellite: one state, in metres and seconds, for every epoch that has it *)
Theorem c93_states fl date text sat h ls sts : capitals sat -> lines text = (h ++ ls)%list -> Forall (other_line sat) h -> epochs fl date sat ls sts -> states fl date text sat = Val sts.
Proof. intros C E H P. unfold states. rewrite upper_capitals, E, ex_others by assumption. apply ex_epochs. exact P. Qed.
(** small letters serve as well *)
Theorem c93_case fl date text a b : Forall2 same_letter a b -> states fl date text a = states fl date text b.
Proof. intros S. unfold states. rewrite (upper_same a b S). reflexivity. Qed.
(** a velocity without any epoch or position before it: the script stops *)
Theorem c93_unbound fl date text sat h v u r : capitals sat -> lines text = (h ++ v :: r)%list -> Forall (other_line sat) h -> velocity_line fl sat v u -> states fl date text sat = Raise NameError.
Proof. intros C E H V. unfold states. rewrite upper_capitals, E, ex_others, (ex_velocity fl date sat v u _ _ _ V) by assumption. reflexivity. Qed.
(** less than three numbers: the script stops *)
Theorem c93_short fl date text sat h e t a l r w0 ws : capitals sat -> lines text = (h ++ [e] ++ a ++ [l] ++ r)%list -> Forall (other_line sat) h -> epoch_line fl date e t -> Forall (other_line sat) a ->
  begins_with (80 :: sat) l \/ begins_with (86 :: sat) l -> words_of l (w0 :: ws) -> (length ws < 3)%nat -> states fl date text sat = Raise ValueError.
Proof.
  intros C E H EP A B W L. unfold states. rewrite upper_capitals, E, ex_others by assumption. cbn [app]. rewrite (ex_epoch fl date sat e t _ _ _ EP), ex_others by assumption.
  assert (T : forall k, three fl k l = Raise ValueError).
  { intros k. unfold three. rewrite (words_complete _ _ W). cbn [skipn]. rewrite firstn_all2 by lia.
    destruct ws as [|a1 [|a2 [|a3 ws]]]; [reflexivity| | |cbn in L; lia]; cbn [each]; destruct (fl a1); try reflexivity. cbn [ofopt pbind]. destruct (fl a2); reflexivity. }
  cbn [extract]. destruct B as [B|B].
  - rewrite (startswith_not (chars "* ")) by exact (other_first 80 42 sat l ltac:(lia) B _). rewrite (proj2 (startswith_ok (chars "P" ++ sat) l) B), T. reflexivity.
  - rewrite (startswith_not (chars "* ")) by exact (other_first 86 42 sat l ltac:(lia) B _). rewrite (startswith_not (chars "P" ++ sat)) by exact (other_first 86 80 sat l ltac:(lia) B _).
    rewrite (proj2 (startswith_ok (chars "V" ++ sat) l) B), T. reflexivity.
Qed.
(** an epoch with a velocity only takes the position of the epoch before *)
Theorem c93_stale_refuted fl date text sat h e1 t1 p x v1 u1 e2 t2 v2 u2 : capitals sat -> lines text = (h ++ [e1; p; v1; e2; v2])%list -> Forall (other_line sat) h ->
  epoch_line fl date e1 t1 -> position_line fl sat p x -> velocity_line fl sat v1 u1 -> epoch_line fl date e2 t2 -> velocity_line fl sat v2 u2 ->
  states fl date text sat = Val [(t1, x, u1); (t2, x, u2)].
Proof.
  intros C E H E1 P V1 E2 V2. unfold states. rewrite upper_capitals, E, ex_others by assumption.
  rewrite (ex_epoch fl date sat e1 t1 _ _ _ E1), (ex_position fl date sat p x _ _ _ P), (ex_velocity fl date sat v1 u1 _ _ _ V1), (ex_epoch fl date sat e2 t2 _ _ _ E2), (ex_velocity fl date sat v2 u2 _ _ _ V2). reflexivity.
Qed.
(** the lines of a satellite whose name begins with the one asked for are taken for its own *)
Theorem c93_prefix_refuted fl date text sat more h e t p x v u p' x' v' u' : capitals sat -> lines text = (h ++ [e; p; v; p'; v'])%list -> Forall (other_line sat) h ->
  epoch_line fl date e t -> position_line fl sat p x -> velocity_line fl sat v u -> position_line fl (sat ++ more) p' x' -> velocity_line fl (sat ++ more) v' u' ->
  states fl date text sat = Val [(t, x, u); (t, x', u')].
Proof.
  assert (T : forall c k l w, triple_line fl (sat ++ more) c k l w -> triple_line fl sat c k l w).
  { intros c k l w ((r & ->) & Q). split; [exists (more ++ r)%list; cbn [app]; rewrite <- app_assoc; reflexivity|exact Q]. }
  intros C E H E1 P V P' V'. apply T in P', V'. unfold states. rewrite upper_capitals, E, ex_others by assumption.
  rewrite (ex_epoch fl date sat e t _ _ _ E1), (ex_position fl date sat p x _ _ _ P), (ex_velocity fl date sat v u _ _ _ V), (ex_position fl date sat p' x' _ _ _ P'), (ex_velocity fl date sat v' u' _ _ _ V'). reflexivity.
Qed.

(** a file with one epoch *)
Definition newline (s : string) : list Z := (chars s ++ [10])%list.
Definition example_text : list Z := (newline "#dV2023" ++ newline "*  2023 7 19 0 5 30" ++ newline "PL40 0 0 0" ++ newline "PL51 1 2 3" ++ newline "EP" ++ newline "VL51 1 2 3 4" ++ newline "EOF")%list.
Definition example_fl (w : list Z) : option R := match parse_int w with Some n => Some (IZR n) | None => None end.
Definition example_date (ns : list Z) (s : R) : py R := Val (IZR (nth 2 ns 0%Z) + s)%R.
Example c93_nonvacuous : capitals (chars "L51") /\ exists h ls, lines example_text = (h ++ ls)%list /\ Forall (other_line (chars "L51")) h /\
  epochs example_fl example_date (chars "L51") ls [((19 + 30)%R, (1000 * 1, 1000 * 2, 1000 * 3)%R, (1 / 10 * 1, 1 / 10 * 2, 1 / 10 * 3)%R)].
Proof.
  assert (O : forall l, startswith (chars "* ") l = false -> startswith (chars "PL51") l = false -> startswith (chars "VL51") l = false -> other_line (chars "L51") l).
  { intros l A B C. split; [|split]; intros Q; apply startswith_ok in Q; [rewrite Q in A|change (80 :: chars "L51") with (chars "PL51") in Q; rewrite Q in B|change (86 :: chars "L51") with (chars "VL51") in Q; rewrite Q in C]; discriminate. }
  split; [change (capitals [76; 53; 49]); repeat apply Forall_cons; try apply Forall_nil; unfold lower; lia|]. exists [newline "#dV2023"], [newline "*  2023 7 19 0 5 30"; newline "PL40 0 0 0"; newline "PL51 1 2 3"; newline "EP"; newline "VL51 1 2 3 4"; newline "EOF"].
  split; [reflexivity|]. split; [constructor; [apply O; reflexivity|constructor]|].
  apply (epochs_state example_fl example_date (chars "L51") (newline "*  2023 7 19 0 5 30") (19 + 30) [newline "PL40 0 0 0"] (newline "PL51 1 2 3") _ [newline "EP"] (newline "VL51 1 2 3 4") _ [newline "EOF"] [] []).
  - split; [apply startswith_ok; reflexivity|]. exists (chars "*"), [chars "2023"; chars "7"; chars "19"; chars "0"; chars "5"], (chars "30"), [], [2023; 7; 19; 0; 5], 30%R.
    split; [apply words_iff; reflexivity|]. split; [reflexivity|]. split; [|split; reflexivity]. assert (D : forall w n, w <> [] -> forallb (fun c => (48 <=? c) && (c <=? 57)) w = true -> FromChars.digits_val w = n -> decimal_text w n).
    { intros w n A B E. split; [exact A|]. split; [|exact E]. apply Forall_forall. intros c I. rewrite forallb_forall in B. specialize (B c I). apply andb_true_iff in B as (B1 & B2). apply Z.leb_le in B1, B2. split; assumption. }
    repeat (apply Forall2_cons; [apply D; [discriminate|reflexivity|reflexivity]|]). apply Forall2_nil.
  - constructor; [apply O; reflexivity|constructor].
  - split; [apply startswith_ok; reflexivity|]. exists (chars "PL51"), (chars "1"), (chars "2"), (chars "3"), [], 1%R, 2%R, 3%R. split; [apply words_iff; reflexivity|]. repeat split; reflexivity.
  - constructor; [apply O; reflexivity|constructor].
  - split; [apply startswith_ok; reflexivity|]. exists (chars "VL51"), (chars "1"), (chars "2"), (chars "3"), [chars "4"], 1%R, 2%R, 3%R. split; [apply words_iff; reflexivity|]. repeat split; reflexivity.
  - constructor; [apply O; reflexivity|constructor].
  - constructor.
Qed.
Print Assumptions c93_states.
Print Assumptions c93_case.
Print Assumptions c93_unbound.
Print Assumptions c93_short.
Print Assumptions c93_stale_refuted.
Print Assumptions c93_prefix_refuted.
