From Coq Require Import Ascii String Reals ZArith List Bool Lia Lra.
From Verif Require Import Base CString PyModel AodMergeSpec PyProofs TestSuiteSpec TestSuiteProofs Sp3Model Sp3Proofs EopPlotModel EopPlotSpec EopPlotProofs CmdPltModel CmdPltSpec CmdPltProofs.
Import ListNotations.
Open Scope Z_scope.

(** ** C96: the input of the script that plots the comparison of accelerations *)
(** a title and lines: all data lines in order, if there are two at least *)
Theorem c96_titled fl text l s ls xs : float_like fl -> made_of text (l :: ls) -> title_line l s -> file (data_line fl) (no_data fl) ls xs ->
  plot_input fl text = if (length xs <=? 1)%nat then Raise (Exit 1) else Val (map shown xs, Some s).
Proof.
  intros FL M T F. unfold plot_input. rewrite (lines_made text _ M), (read_title fl l s ls None T), (read_file fl FL ls xs (Some s) F). cbn [pbind]. rewrite map_length.
  destruct (Nat.leb_spec (length xs) 1), (Z.leb_spec (Z.of_nat (length xs)) 1); try reflexivity; lia.
Qed.
(** the same without a title *)
Theorem c96_plain fl text ls xs : float_like fl -> made_of text ls -> file (data_line fl) (no_data fl) ls xs -> plot_input fl text = if (length xs <=? 1)%nat then Raise (Exit 1) else Val (map shown xs, None).
Proof.
  intros FL M F. unfold plot_input. rewrite (lines_made text _ M), (read_file fl FL ls xs None F). cbn [pbind]. rewrite map_length.
  destruct (Nat.leb_spec (length xs) 1), (Z.leb_spec (Z.of_nat (length xs)) 1); try reflexivity; lia.
Qed.

Lemma no_char c ws : forallb (fun w => forallb (fun x => negb (x =? c)) w) ws = true -> Forall (fun w => ~ In c w) ws.
Proof. intros H. apply Forall_forall. intros w I J. rewrite forallb_forall in H. specialize (H w I). rewrite forallb_forall in H. specialize (H c J). rewrite Z.eqb_refl in H. discriminate H. Qed.
(** whole numbers *)
Definition example_fl (w : list Z) : option R := match parse_int w with Some n => Some (IZR n) | None => None end.
Lemma example_float : float_like example_fl.
Proof.
  split; [reflexivity|]. intros w. unfold example_fl. assert (E : strip (w ++ [10]) = strip w); [|unfold parse_int; rewrite E; reflexivity].
  unfold strip. assert (N : Forall white [10]) by (constructor; [apply newline_white|constructor]). destruct (lstrip w) as [|c r] eqn:L.
  - destruct (lstrip_suffix w) as (b & B & W). rewrite L, app_nil_r in B. subst b. rewrite lstrip_white by exact W. reflexivity.
  - assert (Q : lstrip (w ++ [10]) = lstrip w ++ [10]).
    { destruct (lstrip_suffix w) as (b & B & W). rewrite B at 1. rewrite <- app_assoc, lstrip_white by exact W. apply lstrip_solid. rewrite L. intros d q H. injection H as <- _. pose proof (lstrip_begins w) as S. rewrite L in S. exact (S c r eq_refl). }
    rewrite Q, rstrip_white by exact N. rewrite L. reflexivity.
Qed.
Definition one (s : string) : list Z := chars s ++ [10].
(** false: later epochs are plotted later; the day is ignored *)
Theorem c96_days_refuted : ~ (forall fl text ls xs rows title, float_like fl -> made_of text ls -> file (data_line fl) (no_data fl) ls xs -> plot_input fl text = Val (rows, title) ->
  forall i j, (i < j < length xs)%nat -> (nth 0 (nth i xs []) 0 < nth 0 (nth j xs []) 0 -> fst (fst (nth i rows (0, (0, 0, 0), (0, 0, 0)))) < fst (fst (nth j rows (0, (0, 0, 0), (0, 0, 0)))))%R).
Proof.
  intros H. pose (a := one "54832 86395 1 2 3 1 2 3"). pose (b := one "54833 0 1 2 3 1 2 3"). pose (xs := [[54832; 86395; 1; 2; 3; 1; 2; 3]; [54833; 0; 1; 2; 3; 1; 2; 3]]%R).
  assert (M : made_of (a ++ b) [a; b]). { split; [unfold a, b; cbn [concat]; rewrite app_nil_r; reflexivity|]. constructor; [|constructor; [|constructor]]; eexists; (split; [reflexivity|]); repeat (constructor; [discriminate|]); constructor. }
  assert (F : file (data_line example_fl) (no_data example_fl) [a; b] xs).
  { apply file_row; [|apply file_row; [|apply file_end]]; (split; [split; intros (r & E); discriminate E|]); (split; [reflexivity|]).
    - exists (map chars ["54832"; "86395"; "1"; "2"; "3"; "1"; "2"; "3"]%string). split; [reflexivity|]. split; [apply no_char; reflexivity|]. repeat constructor.
    - exists (map chars ["54833"; "0"; "1"; "2"; "3"; "1"; "2"; "3"]%string). split; [reflexivity|]. split; [apply no_char; reflexivity|]. repeat constructor. }
  pose proof (c96_plain example_fl _ _ _ example_float M F) as P. cbn [length Nat.leb xs] in P. specialize (H example_fl _ _ _ _ _ example_float M F P 0%nat 1%nat ltac:(cbn; lia)). cbn in H. lra.
Qed.
(** false: blanks between the numbers make no difference *)
Theorem c96_blanks_refuted : exists fl p q, float_like fl /\ plot_row fl (p ++ [32] ++ q ++ [10]) <> None /\ plot_row fl (p ++ [32; 32] ++ q ++ [10]) = None.
Proof. exists example_fl, (chars "54832"), (chars "0 1 2 3 1 2 3"). split; [exact example_float|]. split; [discriminate|reflexivity]. Qed.
Example c96_nonvacuous : exists l s ls xs, title_line l s /\ s <> [] /\ file (data_line example_fl) (no_data example_fl) ls xs /\ length ls = 3%nat /\ length xs = 2%nat /\ made_of (concat (l :: ls)) (l :: ls).
Proof.
  exists (one "#title Pole Tide"), (chars "Pole Tide"), [one "54832 0 1 2 3 1 2 3"; one "nothing"; one "54832 5 4 5 6 4 5 6"], [[54832; 0; 1; 2; 3; 1; 2; 3]; [54832; 5; 4; 5; 6; 4; 5; 6]]%R.
  split. { exists [32], []. split; [reflexivity|]. split; [constructor; [split; [left; reflexivity|discriminate]|constructor]|]. split; [constructor|]. split; [intros c r E; assert (C : c = 80) by (change (chars "Pole Tide") with (80 :: chars "ole Tide") in E; congruence); unfold white; lia|].
    split; [|cbn; intuition discriminate]. intros r c E. change (chars "Pole Tide") with (chars "Pole Tid" ++ [101]) in E. apply app_inj_tail in E as (_ & C). unfold white. lia. }
  split; [discriminate|]. split.
  { apply file_row; [|apply file_other; [|apply file_row; [|apply file_end]]].
    - split; [split; intros (r & E); discriminate E|]. split; [reflexivity|]. exists (map chars ["54832"; "0"; "1"; "2"; "3"; "1"; "2"; "3"]%string). split; [reflexivity|]. split; [apply no_char; reflexivity|]. repeat constructor.
    - right. exists [chars "nothing"]. split; [reflexivity|]. split; [discriminate|]. split; [apply no_char; reflexivity|]. split; [split; intros (r & E); discriminate E|]. left. discriminate.
    - split; [split; intros (r & E); discriminate E|]. split; [reflexivity|]. exists (map chars ["54832"; "5"; "4"; "5"; "6"; "4"; "5"; "6"]%string). split; [reflexivity|]. split; [apply no_char; reflexivity|]. repeat constructor. }
  split; [reflexivity|]. split; [reflexivity|]. split; [reflexivity|].
  repeat apply Forall_cons; try apply Forall_nil; eexists; (split; [reflexivity|]); repeat (constructor; [discriminate|]); constructor.
Qed.
Print Assumptions c96_titled.
Print Assumptions c96_plain.
Print Assumptions c96_days_refuted.
Print Assumptions c96_blanks_refuted.
