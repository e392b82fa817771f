(** Merging AOD1B files: bin/mergeAod1b.py. Conventions in PyModel; messages are not modelled, and no input file is the scratch file '.aod1bdata'. *)
From Coq Require Import Ascii String ZArith List Bool.
From Verif Require Import Base CString FromChars PyModel.
Import ListNotations.
Open Scope Z_scope.

Definition END : list Z := chars "END OF HEADER".
Definition FIRST : list Z := chars "TIME FIRST OBS(SEC PAST EPOCH)".
Definition LAST : list Z := chars "TIME LAST OBS(SEC PAST EPOCH)".
Definition EPOCH : list Z := chars "TIME EPOCH (GPS TIME)".
Definition RECORDS : list Z := chars "NUMBER OF DATA RECORDS".
Definition SETS : list Z := chars "NUMBER OF DATA SETS".

(** readAod1bHeader: lines 16-27 *)
Fixpoint read_header (ls : list (list Z)) (d : dict) : py dict :=
  match ls with
  | [] => Val d
  | l :: r =>
      if text_eqb (strip l) END then Val d else
      match split1 58 l with
      | None => Raise IndexError
      | Some (k, v) => read_header r (dset d (rstrip k) (strip v))
      end
  end.
(** catAod1bData: lines 29-36; readline at the end of the file gives the empty string for ever *)
Fixpoint cat (ls : list (list Z)) : py (list Z) :=
  match ls with [] => Forever | l :: r => if text_eqb (strip l) END then Val (concat r) else cat r end.

(** re.match(r'[0-9]*.[0-9]* *\(([0-9]{4}-[0-9]{2}-[0-9]{2} [0-9]{2}:[0-9]{2}:[0-9]{2})', val)[1]: lines 46, 50 *)
Definition date_mask : list Z := chars "0000-00-00 00:00:00".
Fixpoint take_date (mask s : list Z) : option (list Z) :=
  match mask, s with
  | [], _ => Some []
  | m :: mask', c :: s' => if (if m =? 48 then is_dig c else m =? c) then match take_date mask' s' with Some d => Some (c :: d) | None => None end else None
  | _ :: _, [] => None
  end.
Definition before_paren (p : list Z) : bool :=
  let (d, r) := take_digits p in
  match r with
  | [] => match d with [] => false | _ => true end
  | c :: r' => negb (c =? 10) && forallb (fun c => c =? 32) (snd (take_digits r'))
  end.
Fixpoint match_obs (pre s : list Z) : option (list Z) :=
  match s with
  | [] => None
  | c :: t =>
      match (if (c =? 40) && before_paren pre then take_date date_mask t else None) with
      | Some d => Some d
      | None => match_obs (pre ++ [c]) t
      end
  end.

Section Merge.
  (** datetime.strptime and strftime with "%Y-%m-%d %H:%M:%S": seconds; None: ValueError. Texts of files by name *)
  Variable strptime : list Z -> option Z.
  Variable strftime : Z -> list Z.
  Variable disk : list Z -> option (list Z).

  (** class Aod1b: lines 38-87 *)
  Record aod := mkA { fn : list Z; dct : dict }.
  Definition construct (f : list Z) : py aod :=
    let* text := ofopt OSError (disk f) in
    let* d := read_header (lines text) [] in
    Val (mkA f d).
  Definition item (a : aod) (k : list Z) : py (list Z) := ofopt KeyError (dget (dct a) k).
  Definition timeEpoch (a : aod) : py Z := let* v := item a EPOCH in ofopt ValueError (strptime v).
  Definition obs (k : list Z) (a : aod) : py Z :=
    let* v := item a k in
    let* d := ofopt TypeError (match_obs [] v) in
    ofopt ValueError (strptime d).
  Definition firstObs : aod -> py Z := obs FIRST.
  Definition lastObs : aod -> py Z := obs LAST.
  Definition number_in (k : list Z) (a : aod) : py Z := let* v := item a k in ofopt ValueError (parse_int v).
  Definition numDataSets : aod -> py Z := number_in SETS.
  Definition numDataRecords : aod -> py Z := number_in RECORDS.
  (** headersMatch: lines 58-64 *)
  Definition exempt : list (list Z) :=
    [FIRST; LAST; chars "PRODUCT START CREATE TIME(UTC)"; chars "PRODUCT END CREATE TIME(UTC)"; chars "FILESIZE (BYTES)"; chars "FILENAME"].
  Fixpoint match_items (d : dict) (other : dict) : py bool :=
    match d with
    | [] => Val true
    | (k, v) :: r =>
        if existsb (text_eqb k) exempt then match_items r other else
        let* w := ofopt KeyError (dget other k) in
        if text_eqb v w then match_items r other else Val false
    end.
  Definition headersMatch (a b : aod) : py bool := match_items (dct a) (dct b).
  (** merge: lines 65-78. total_seconds is a whole number; microsec * 1e-6 with six decimals, rounding left out *)
  Definition merge (self other : aod) : py (option aod) :=
    let* m := headersMatch self other in
    if negb m then Val None else
    let* a := firstObs self in
    let* b := firstObs other in
    let (first, second) := if b <? a then (other, self) else (self, other) in
    let* l := lastObs first in
    let* s := firstObs second in
    if negb (l <? s) then Raise AssertionError else
    let* e := lastObs second in
    let* t := timeEpoch first in
    let d := dset (dct self) LAST (str_int (e - t) ++ chars ".000000 (" ++ strftime e ++ chars ")") in
    let* r1 := numDataRecords first in
    let* r2 := numDataRecords second in
    let d := dset d RECORDS (32 :: str_int (r1 + r2)) in
    let* n1 := numDataSets first in
    let* n2 := numDataSets second in
    Val (Some (mkA (fn self) (dset d SETS (32 :: str_int (n1 + n2))))).
  (** isPriorTo, __lt__: lines 79-81 *)
  Definition prior (a b : aod) : py bool := let* l := lastObs a in let* f := firstObs b in Val (l <? f).
  (** dump: lines 82-84 *)
  Definition dump (a : aod) : list Z := concat (map (fun kv => pad 30 (fst kv) ++ chars ": " ++ snd kv ++ [10]) (dct a)).

  (** sortAod1bFileList: lines 86-90; sorted as insertion sort that compares as the standard one does, new < old; with files that overlap
      the order of other algorithms may differ *)
  Fixpoint insert (x : aod) (l : list aod) : py (list aod) :=
    match l with
    | [] => Val [x]
    | y :: r => let* c := prior x y in if c then Val (x :: l) else let* r' := insert x r in Val (y :: r')
    end.
  Fixpoint insert_all (l acc : list aod) : py (list aod) :=
    match l with [] => Val acc | x :: r => let* acc := insert x acc in insert_all r acc end.
  Fixpoint construct_all (fs : list (list Z)) : py (list aod) :=
    match fs with [] => Val [] | f :: r => let* a := construct f in let* l := construct_all r in Val (a :: l) end.
  Definition sort_files (fs : list (list Z)) : py (list (list Z)) :=
    let* l := construct_all fs in
    let* s := insert_all l [] in
    Val (map fn s).

  (** lines 126-131 *)
  Definition data_of (f : list Z) : py (list Z) := let* text := ofopt OSError (disk f) in cat (lines text).
  Fixpoint merge_all (fs : list (list Z)) (merged : option aod) (out : list Z) : py (option aod * list Z) :=
    match fs with
    | [] => Val (merged, out)
    | f :: r =>
        match merged with
        | None => Raise AttributeError
        | Some m =>
            let* a := construct f in
            let* m := merge m a in
            let* s := data_of f in
            merge_all r m (out ++ s)
        end
    end.
  Definition output_name (out_dir f : list Z) : list Z := pathjoin out_dir (replace (chars ".asc") (chars ".merged.asc") f).
  (** lines 121-137: name and text of the file written; argparse makes sure of one file at least *)
  Definition main (files : list (list Z)) (out_dir : list Z) : py (list Z * list Z) :=
    let* sfiles := sort_files files in
    match sfiles with
    | [] => Raise IndexError
    | f :: r =>
        let* m := construct f in
        let* s := data_of f in
        let* (merged, out) := merge_all r (Some m) s in
        match merged with
        | None => Raise AttributeError
        | Some m => Val (output_name out_dir f, dump m ++ out)
        end
    end.
End Merge.
