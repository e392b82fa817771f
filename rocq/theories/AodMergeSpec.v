(** Specification of AOD1B files as bin/mergeAod1b.py sees them. *)
From Coq Require Import Ascii String ZArith List Bool.
From Verif Require Import Base CString FromChars.
Import ListNotations.
Open Scope Z_scope.

Definition white (c : Z) : Prop := c = 32 \/ 9 <= c <= 13 \/ 28 <= c <= 31.
Definition gap (s : list Z) : Prop := Forall (fun c => white c /\ c <> 10) s.
Definition one_line (s : list Z) : Prop := Forall (fun c => c <> 10) s.
(** no white space at the end; at the beginning *)
Definition ends_solid (s : list Z) : Prop := forall r c, s = r ++ [c] -> ~ white c.
Definition begins_solid (s : list Z) : Prop := forall c r, s = c :: r -> ~ white c.
Definition begins_with (lit s : list Z) : Prop := exists r, s = lit ++ r.

(** ** files: lines with a label, a colon and a value, a line that ends the header, and data *)
Definition entry (kv : list Z * list Z) (line : list Z) : Prop := exists fill b1 b2,
  line = fst kv ++ fill ++ 58 :: b1 ++ snd kv ++ b2 ++ [10] /\ gap fill /\ gap b1 /\ gap b2 /\
  one_line (fst kv) /\ Forall (fun c => c <> 58) (fst kv) /\ ends_solid (fst kv) /\ one_line (snd kv) /\ begins_solid (snd kv) /\ ends_solid (snd kv).
Definition ending (line : list Z) : Prop := exists b1 b2, line = b1 ++ chars "END OF HEADER" ++ b2 ++ [10] /\ gap b1 /\ gap b2.
Definition is_file (text : list Z) (hdr : list (list Z * list Z)) (data : list Z) : Prop := exists ls e,
  text = concat ls ++ e ++ data /\ Forall2 entry hdr ls /\ ending e /\ NoDup (map fst hdr).

(** ** dates of observations: digits, a character, digits, blanks, and the date in parentheses *)
Definition digit (c : Z) : Prop := 48 <= c <= 57.
Definition date_text (d : list Z) : Prop := Forall2 (fun m c => if m =? 48 then digit c else c = m) (chars "0000-00-00 00:00:00") d.
Definition obs_text (v d : list Z) : Prop := exists a c b s rest,
  v = a ++ c :: b ++ s ++ 40 :: d ++ rest /\ Forall digit a /\ c <> 10 /\ Forall digit b /\ Forall (fun c => c = 32) s /\ date_text d.
Definition decimal_text (w : list Z) (n : Z) : Prop := w <> [] /\ Forall digit w /\ digits_val w = n.

Definition first_key : list Z := chars "TIME FIRST OBS(SEC PAST EPOCH)".
Definition last_key : list Z := chars "TIME LAST OBS(SEC PAST EPOCH)".
Definition epoch_key : list Z := chars "TIME EPOCH (GPS TIME)".
Definition records_key : list Z := chars "NUMBER OF DATA RECORDS".
Definition sets_key : list Z := chars "NUMBER OF DATA SETS".
(** entries that differ from file to file *)
Definition varying : list (list Z) :=
  [first_key; last_key; chars "PRODUCT START CREATE TIME(UTC)"; chars "PRODUCT END CREATE TIME(UTC)"; chars "FILESIZE (BYTES)"; chars "FILENAME"].

Section Dates.
  Variable strptime : list Z -> option Z.
  Definition observed (k : list Z) (hdr : list (list Z * list Z)) (t : Z) : Prop := exists v d, In (k, v) hdr /\ obs_text v d /\ strptime d = Some t.
  (** a file on disk with its header, data, and the times of the first and the last observation *)
  Variable disk : list Z -> option (list Z).
  Definition stored (f : list Z) (h : list (list Z * list Z)) (data : list Z) (t1 t2 : Z) : Prop :=
    (exists text, disk f = Some text /\ is_file text h data) /\ observed first_key h t1 /\ observed last_key h t2 /\ t1 <= t2.
End Dates.

(** ** the lines of a text as the C++ library reads them, and whether the last one ends with a newline *)
Fixpoint text_lines (s : list Z) : list (list Z) :=
  match s with
  | [] => []
  | c :: t => if c =? 10 then [] :: text_lines t else match text_lines t with [] => [[c]] | l :: r => (c :: l) :: r end
  end.
Definition terminated (s : list Z) : bool := match rev s with c :: _ => c =? 10 | [] => true end.

(** ** the header of two files merged: the one of the first, but the last observation is the one of the second and the counts are added *)
Definition contains (lit s : list Z) : Prop := exists p r, s = p ++ lit ++ r.
Definition agree (ha hb : list (list Z * list Z)) : Prop := forall k v, In (k, v) ha -> ~ In k varying -> In (k, v) hb.
Definition merged_entry (span : Z) (date : list Z) (records sets : Z) (e m : list Z * list Z) : Prop :=
  fst m = fst e /\
  (fst e = last_key -> exists w, decimal_text w span /\ snd m = w ++ chars ".000000 (" ++ date ++ chars ")") /\
  (fst e = records_key -> decimal_text (snd m) records) /\
  (fst e = sets_key -> decimal_text (snd m) sets) /\
  (fst e <> last_key -> fst e <> records_key -> fst e <> sets_key -> snd m = snd e).
