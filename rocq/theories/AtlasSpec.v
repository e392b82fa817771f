(** What is expected of tide atlases and of GROOPS file names, lists and matrices. *)
From Coq Require Import Ascii String Reals ZArith List Bool.
From Verif Require Import Base CString FromChars DoodsonModel DoodsonSpec IcgemModel IcgemSpec AtlasModel.
Import ListNotations.
Open Scope Z_scope.

Definition doodson_dec (a b : doodson) : {a = b} + {a <> b}.
Proof. decide equality; apply Z.eq_dec. Defined.

(** requests to append; a refused one leaves the atlas as it is (the exception is caught by the caller) *)
Definition request (a : atlas) (w : wave) : atlas := match append_wave a w with Some (a', _) => a' | None => a end.
(** the first wave of each Doodson number, in order *)
Fixpoint firsts (seen : list doodson) (l : list wave) : list wave :=
  match l with
  | [] => []
  | w :: t => if in_dec doodson_dec (wd w) seen then firsts seen t else w :: firsts (wd w :: seen) t
  end.

(** the documented pattern, tide_atlas_groops.cpp:268: <model name>_<doodson>_<name>_<cos/sin>.gfc *)
Definition tag_text (t : Z) : list Z := if t =? 115 then chars "sin" else chars "cos".
Definition pattern (m D w : list Z) (t : Z) : list Z := (m ++ [95] ++ D ++ [95] ++ w ++ [95] ++ tag_text t ++ chars ".gfc")%list.
(** upper-case notation of a Doodson number *)
Definition upper_text (D : list Z) (d : doodson) : Prop := length D = 7%nat /\ text_denotes D d /\ Forall (fun c => ~ (97 <= c <= 122)) D.
Definition is_tag (t : Z) : Prop := t = 115 \/ t = 99.
(** names the data structure has room for *)
Definition legal (m w : list Z) (t : Z) : Prop := (length m < 48)%nat /\ (length w < 16)%nat /\ ~ In 95 w /\ is_tag t.
Definition other (t : Z) : Z := if t =? 115 then 99 else 115.

(** "f is the name of the file with these parts", written the way the library writes names *)
Definition names (f m : list Z) (d : doodson) (w : list Z) (t : Z) : Prop := exists D, upper_text D d /\ legal m w t /\ f = pattern m D w t.
(** companions: same parts, other tag *)
Definition companion (f f' : list Z) : Prop := exists m d w t, names f m d w t /\ names f' m d w (other t).

(** a text line holding numbers: blank-separated words; more words may follow *)
Definition number_line {A} (scan : list Z -> option A * list Z) (line : list Z) (vs : list A) : Prop := exists ws rest,
  columns line (ws ++ rest) /\ Forall2 (fun w v => scan w = (Some v, [])) ws vs.

(** the looser form the library reads: characters after the Doodson number and any separator before the tag *)
Definition loosely (f m : list Z) (d : doodson) (w : list Z) (t : Z) : Prop := exists D junk sep,
  f = (m ++ [95] ++ (D ++ junk) ++ [95] ++ w ++ [sep] ++ tag_text t ++ chars ".gfc")%list /\
  length D = 7%nat /\ text_denotes D d /\ ~ In 95 junk /\ ~ In 95 w /\ is_tag t.

(** the Doodson numbers in order of first appearance *)
Fixpoint first_numbers (seen l : list doodson) : list doodson :=
  match l with
  | [] => []
  | d :: t => if in_dec doodson_dec d seen then first_numbers seen t else d :: first_numbers (d :: seen) t
  end.
Definition part (t : Z) (w : wave) : stokes := if t =? 115 then wsin w else wcos w.
(** the file name f tells Doodson number d and tag t; wave name w *)
Definition tells (f : list Z) (d : doodson) (t : Z) : Prop := exists m w, loosely f m d w t.
Definition tells_name (f : list Z) (d : doodson) (w : list Z) : Prop := exists m t, loosely f m d w t.
