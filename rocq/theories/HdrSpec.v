(** What C92 talks about. *)
From Coq Require Import Ascii String ZArith List.
From Verif Require Import Base CString AodMergeSpec HdrModel.
Import ListNotations.
Open Scope Z_scope.

Definition header (n : list Z) : Prop := exists a, n = (a ++ chars ".h")%list.
Definition backup (n : list Z) : list Z := (n ++ chars ".cvers")%list.
(** a listing: every name once *)
Definition listing (i : list Z -> option entry) (order : list (list Z)) : Prop := NoDup order /\ forall n, In n order <-> i n <> None.
(** headers are files, and no backup would replace a directory *)
Definition plain (i : list Z -> option entry) : Prop := forall n, header n -> i n <> Some Dir /\ i (backup n) <> Some Dir.
(** a line without the white space around it *)
Definition trimmed (l m : list Z) : Prop := exists b1 b2, l = (b1 ++ m ++ b2)%list /\ Forall white b1 /\ Forall white b2 /\ begins_solid m /\ ends_solid m.
(** the lines of a text in a block *)
Definition block (ls : list (list Z)) : list (list Z) :=
  ([chars "#ifdef __cplusplus"; chars "extern ""C"" {"; chars "#endif"; []] ++ ls ++ [chars "    #ifdef __cplusplus"; chars "}"; chars "#endif"; []])%list.
Definition in_block (s t : list Z) : Prop := exists ls, text_lines t = block ls /\ Forall2 trimmed (text_lines s) ls.
(** the directory afterwards *)
Definition wrapped_dir (i i' : list Z -> option entry) : Prop :=
  (forall n s, header n -> i n = Some (File s) -> i' (backup n) = Some (File s) /\ exists t, i' n = Some (File t) /\ in_block s t) /\
  (forall m, (forall n, header n -> i n <> None -> m <> n /\ m <> backup n) -> i' m = i m).
