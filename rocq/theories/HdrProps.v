From Coq Require Import Ascii String ZArith List Bool Lia.
From Verif Require Import Base CString PyModel AodMergeSpec PyProofs HdrModel HdrSpec HdrProofs.
Import ListNotations.
Open Scope Z_scope.

(** ** C92: the script that makes C headers usable from C++ *)
(** one run, the names in any order: every header is in a block, its text as it was in the backup, all else untouched *)
Theorem c92_run d order : listing (inc d) order -> plain (inc d) -> scratch d = None ->
  exists d', run true d order = (d', None) /\ wrapped_dir (inc d) (inc d') /\ scratch d' = None.
Proof.
  intros (ND & L) P S. assert (Q : forall f, In f order -> header f -> (exists s, inc d f = Some (File s)) /\ inc d (backup f) <> Some Dir).
  { intros f I H. apply L in I. destruct (P f H) as (A & B). split; [|exact B]. destruct (inc d f) as [[s|]|]; [exists s; reflexivity|contradiction|contradiction]. }
  destruct (run_ok order d ND Q) as (d' & R1 & R2 & R3 & R4). exists d'. split; [exact R1|]. split; [|exact (R4 S)]. split.
  - intros n s H E. assert (I : In n order) by (apply L; rewrite E; discriminate). destruct (R2 n s I H E) as (A & B). split; [exact B|]. exists (wrap s). exact (conj A (wrap_block s)).
  - intros m M. apply R3. intros f I H. exact (M f H (proj1 (L f) I)).
Qed.
(** the result does not depend on the order in which the names are listed *)
Theorem c92_order d order order' : listing (inc d) order -> listing (inc d) order' -> plain (inc d) ->
  exists a b, run true d order = (a, None) /\ run true d order' = (b, None) /\ forall n, inc a n = inc b n.
Proof.
  intros (ND & L) (ND' & L') P.
  assert (Q : forall o, (forall n, In n o <-> inc d n <> None) -> forall f, In f o -> header f -> (exists s, inc d f = Some (File s)) /\ inc d (backup f) <> Some Dir).
  { intros o Lo f I H. apply Lo in I. destruct (P f H) as (A & B). split; [|exact B]. destruct (inc d f) as [[s|]|]; [exists s; reflexivity|contradiction|contradiction]. }
  destruct (run_ok order d ND (Q order L)) as (a & A1 & A2 & A3 & _). destruct (run_ok order' d ND' (Q order' L')) as (b & B1 & B2 & B3 & _). exists a, b. split; [exact A1|]. split; [exact B1|]. intros n.
  assert (D : (exists f, In f order /\ header f /\ (n = f \/ n = backup f)) \/ (forall f, In f order -> header f -> n <> f /\ n <> backup f)).
  { clear. induction order as [|g r IH]; [right; intros f []|]. destruct IH as [(f & I & H & E)|N]; [left; exists f; split; [right; exact I|exact (conj H E)]|].
    destruct (endswith (chars ".h") g) eqn:E. 2: { right. intros f [<- | I] H; [exfalso; exact (not_header g E H)|exact (N f I H)]. }
    apply endswith_header in E. destruct (text_eqb_spec n g) as [->|N1]; [left; exists g; split; [left; reflexivity|split; [exact E|left; reflexivity]]|].
    destruct (text_eqb_spec n (backup g)) as [->|N2]; [left; exists g; split; [left; reflexivity|split; [exact E|right; reflexivity]]|].
    right. intros f [<- | I] H; [split; assumption|exact (N f I H)]. }
  destruct D as [(f & I & H & E)|N].
  - destruct (proj1 (Q order L f I H)) as (s & Es). assert (I' : In f order') by (apply L'; rewrite Es; discriminate). destruct (A2 f s I H Es) as (X1 & X2). destruct (B2 f s I' H Es) as (Y1 & Y2). destruct E as [-> | ->]; congruence.
  - rewrite A3 by exact N. rewrite B3; [reflexivity|]. intros f I' H. apply N; [|exact H]. apply L, L'. exact I'.
Qed.
(** a second run puts the block into a block and replaces the backup by the first block *)
Theorem c92_twice_refuted d order d1 order1 : listing (inc d) order -> plain (inc d) -> run true d order = (d1, None) -> listing (inc d1) order1 ->
  exists d2, run true d1 order1 = (d2, None) /\ forall n s, header n -> inc d n = Some (File s) ->
    exists t u, in_block s t /\ in_block t u /\ inc d2 n = Some (File u) /\ inc d2 (backup n) = Some (File t).
Proof.
  intros L P R L1.
  destruct L as (ND & L). assert (Q : forall f, In f order -> header f -> (exists s, inc d f = Some (File s)) /\ inc d (backup f) <> Some Dir).
  { intros f I H. apply L in I. destruct (P f H) as (A & B). split; [|exact B]. destruct (inc d f) as [[s|]|]; [exists s; reflexivity|contradiction|contradiction]. }
  destruct (run_ok order d ND Q) as (d' & R1 & R2 & R3 & _). assert (d' = d1) by congruence. subst d'.
  assert (K : forall f, header f -> (exists s, inc d f = Some (File s) /\ inc d1 f = Some (File (wrap s)) /\ inc d1 (backup f) = Some (File s)) \/ (inc d f = None /\ inc d1 f = None)).
  { intros f H. destruct (P f H) as (A & _). destruct (inc d f) as [[s|]|] eqn:E; [left; exists s|contradiction|right].
    - split; [reflexivity|]. apply R2; [apply L; rewrite E; discriminate|exact H|exact E].
    - split; [reflexivity|]. rewrite R3; [exact E|]. intros g I G. split; [intros ->; apply L in I; contradiction|exact (header_backup f g H)]. }
  destruct L1 as (ND1 & L1). destruct (run_ok order1 d1 ND1) as (d2 & S1 & S2 & _).
  { intros f I H. apply L1 in I. destruct (K f H) as [(s & _ & E1 & E2)|(_ & E1)]; [|contradiction]. split; [exists (wrap s); exact E1|rewrite E2; discriminate]. }
  exists d2. split; [exact S1|]. intros n s H E. destruct (K n H) as [(s' & E0 & E1 & _)|(E0 & _)]; [|congruence]. assert (s' = s) by congruence. subst s'.
  exists (wrap s), (wrap (wrap s)). split; [apply wrap_block|]. split; [apply wrap_block|]. apply S2; [apply L1; rewrite E1; discriminate|exact H|exact E1].
Qed.
(** the original is lost: two directories that differ in a header are the same after two runs *)
Definition one_header (s : list Z) : disk := mkD (fun n => if text_eqb n (chars "a.h") then Some (File s) else None) None.
Definition listed : list (list Z) := [chars "a.h"; chars "a.h.cvers"].
Theorem c92_lost_refuted : exists s t a b, s <> t /\ (run true (one_header s) [chars "a.h"]) = (a, None) /\ (run true (one_header t) [chars "a.h"]) = (b, None) /\
  listing (inc a) listed /\ listing (inc b) listed /\ inc a (chars "a.h.cvers") = Some (File s) /\ inc b (chars "a.h.cvers") = Some (File t) /\
  forall n, inc (fst (run true a listed)) n = inc (fst (run true b listed)) n.
Proof.
  assert (LI : forall s, listing (inc (fst (run true (one_header s) [chars "a.h"]))) listed).
  { intros s. split; [repeat constructor; cbn; intuition discriminate|]. intros n. cbn [run]. unfold convert. change (endswith (chars ".h") (chars "a.h")) with true.
    assert (E1 : inc (one_header s) (chars "a.h") = Some (File s)) by reflexivity. rewrite E1. assert (E2 : inc (one_header s) (chars "a.h" ++ chars ".cvers") = None) by reflexivity. cbv zeta. rewrite E2. cbn [fst inc]. unfold put, one_header. cbn [inc].
    change (chars "a.h" ++ chars ".cvers")%list with (chars "a.h.cvers"). unfold listed. destruct (text_eqb_spec n (chars "a.h")) as [->|N1]; [split; [discriminate|left; reflexivity]|].
    destruct (text_eqb_spec n (chars "a.h.cvers")) as [->|N2]; [split; [discriminate|right; left; reflexivity]|]. split; [intros [E|[E|[]]]; congruence|congruence]. }
  exists (chars "x"), (chars " x"), (fst (run true (one_header (chars "x")) [chars "a.h"])), (fst (run true (one_header (chars " x")) [chars "a.h"])).
  split; [discriminate|]. split; [reflexivity|]. split; [reflexivity|]. split; [apply LI|]. split; [apply LI|]. split; [reflexivity|]. split; [reflexivity|]. intros n.
  destruct (text_eqb_spec n (chars "a.h")) as [->|N1]; [reflexivity|]. destruct (text_eqb_spec n (chars "a.h.cvers")) as [->|N2]; [reflexivity|].
  assert (Z : forall s, inc (fst (run true (fst (run true (one_header s) [chars "a.h"])) listed)) n = None); [|rewrite !Z; reflexivity].
  intros s. destruct (run_ok [chars "a.h"] (one_header s)) as (a & A1 & A2 & A3 & _); [repeat constructor; cbn; tauto|intros f [<- | []] _; split; [exists s; reflexivity|discriminate]|].
  assert (H : header (chars "a.h")) by (exists (chars "a"); reflexivity). destruct (A2 _ s (or_introl eq_refl) H eq_refl) as (B1 & B2).
  rewrite A1. cbn [fst]. destruct (run_ok listed a) as (b & C1 & C2 & C3 & _); [repeat constructor; cbn; intuition discriminate| |].
  { intros f [<- | [<- | []]] G; [split; [eexists; exact B1|rewrite B2; discriminate]|exfalso; exact (backup_plain (chars "a.h") G)]. }
  assert (NB : forall f, In f [chars "a.h"] -> header f -> n <> f /\ n <> backup f) by (intros f [<- | []] _; split; [exact N1|exact N2]).
  rewrite C1. cbn [fst]. rewrite C3 by (intros f [<- | [<- | []]] G; [split; [exact N1|exact N2]|exfalso; exact (backup_plain (chars "a.h") G)]). rewrite A3 by exact NB.
  unfold one_header. cbn [inc]. rewrite (text_eqb_neq n _ N1). reflexivity.
Qed.
(** between file systems the first header is gone: only the backup is left *)
Theorem c92_file_system_refuted d f r s : header f -> inc d f = Some (File s) -> inc d (backup f) <> Some Dir ->
  exists d', run false d (f :: r) = (d', Some OSError) /\ inc d' f = None /\ inc d' (backup f) = Some (File s) /\ exists t, scratch d' = Some t /\ in_block s t.
Proof.
  intros H E B. exists (mkD (put (put (inc d) (backup f) (Some (File s))) f None) (Some (wrap s))). cbn [run]. unfold convert. rewrite (proj2 (endswith_header f) H), E. cbv zeta. fold (backup f).
  split; [destruct (inc d (backup f)) as [[|]|]; [reflexivity|contradiction|reflexivity]|]. cbn [inc scratch]. split; [apply put_same|]. split; [rewrite put_other by (intros Q; exact (header_backup f f H (eq_sym Q))); apply put_same|].
  exists (wrap s). exact (conj eq_refl (wrap_block s)).
Qed.
(** a directory with the name of a header ends the run; the headers after it stay as they are *)
Theorem c92_directory_refuted same d f r : header f -> inc d f = Some Dir -> exists d', run same d (f :: r) = (d', Some OSError) /\ forall n, inc d' n = inc d n.
Proof. intros H E. eexists. cbn [run]. unfold convert. rewrite (proj2 (endswith_header f) H), E. split; [reflexivity|reflexivity]. Qed.

(** a directory with two headers, a backup from before and another file *)
Definition example_dir : disk := mkD (fun n =>
  if text_eqb n (chars "a.h") then Some (File (chars "  int f();")) else if text_eqb n (chars "b.h") then Some (File []) else
  if text_eqb n (chars "b.h.cvers") then Some (File (chars "old")) else if text_eqb n (chars "readme") then Some (File (chars "text")) else None) None.
Definition example_order : list (list Z) := [chars "readme"; chars "b.h"; chars "a.h"; chars "b.h.cvers"].
Example c92_nonvacuous : listing (inc example_dir) example_order /\ plain (inc example_dir) /\ scratch example_dir = None /\
  inc (fst (run true example_dir example_order)) (chars "a.h.cvers") = Some (File (chars "  int f();")) /\ inc (fst (run true example_dir example_order)) (chars "b.h.cvers") = Some (File []) /\
  inc (fst (run true example_dir example_order)) (chars "a.h") = Some (File (concat (map (fun l => l ++ [10]) (block [chars "int f();"])))).
Proof.
  split. { split; [repeat constructor; cbn; intuition discriminate|]. intros n. unfold example_dir, example_order. cbn [inc].
    destruct (text_eqb_spec n (chars "a.h")) as [->|N1]; [split; [discriminate|right; right; left; reflexivity]|]. destruct (text_eqb_spec n (chars "b.h")) as [->|N2]; [split; [discriminate|right; left; reflexivity]|].
    destruct (text_eqb_spec n (chars "b.h.cvers")) as [->|N3]; [split; [discriminate|do 3 right; left; reflexivity]|]. destruct (text_eqb_spec n (chars "readme")) as [->|N4]; [split; [discriminate|left; reflexivity]|].
    split; [intros [E|[E|[E|[E|[]]]]]; congruence|congruence]. }
  split. { intros n _. unfold example_dir. cbn [inc]. split; repeat match goal with |- context [if ?b then _ else _] => destruct b end; discriminate. }
  repeat split; reflexivity.
Qed.
Print Assumptions c92_run.
Print Assumptions c92_order.
Print Assumptions c92_twice_refuted.
Print Assumptions c92_lost_refuted.
Print Assumptions c92_file_system_refuted.
Print Assumptions c92_directory_refuted.
