(** AOD1B file header: src/lib/aod1b/aod1b_read_header.cpp, src/lib/aod1b/aod1b.cpp, include/aod1b.hpp:68-150.
    Conventions for lines and pointers as in AodBlockModel; the line before the buffer is out of bounds. *)
From Coq Require Import Ascii String Reals ZArith List Bool.
From Verif Require Import Base CString FromChars FundModel Aod1bModel AodBlockModel.
Import ListNotations.
Open Scope Z_scope.

(** ** header_field *)
(** aod1b_read_header.cpp:10-18: text behind the first ':' and the blanks after it; without ':' the terminator is passed *)
Fixpoint after_colon (p : list Z) : option (list Z) :=
  match p with [] => None | c :: t => if c =? 58 then Some t else after_colon t end.
Definition field1 (p : list Z) : res (list Z) :=
  match after_colon p with None => UB | Some w => Ok (skip_blanks w) end.
(** lines 19-33: searching backwards, text behind the last ':' and the blanks after it, and its size without trailing
    blanks. The labels in front of [p] hold no ':' and do not end in a blank, so that without ':' in [p] the search leaves
    the line. *)
Fixpoint after_last (p : list Z) : option (list Z) :=
  match p with
  | [] => None
  | c :: t => match after_last t with Some w => Some w | None => if c =? 58 then Some t else None end
  end.
Definition trailing (p : list Z) : Z := Z.of_nat (length p) - Z.of_nat (length (skip_blanks (rev p))).
Definition field2 (p : list Z) : res (list Z * Z) :=
  match after_last p with None => UB | Some w => let r := skip_blanks w in Ok (r, Z.of_nat (length r) - trailing p) end.
(** std::isdigit loop, lines 126-127, 163-164: passes the terminator if there is no digit *)
Fixpoint to_digit (p : list Z) : res (list Z) :=
  match p with [] => UB | c :: t => d <- isdigit c ;; if d then Ok p else to_digit t end.
(** lines 122, 159: static_cast<int64>(sec * 1e9), rounding of the product left out *)
Definition to_ns (sec : R) : res Z :=
  let n := trunc (sec * 1e9) in if (- 2 ^ 63 <=? n) && (n <? 2 ^ 63) then Ok n else UB.

Section Head.
  (** tidal waves; dso::find_wave_entry on a name *)
  Variable W : Type.
  Variable find_wave_entry : list Z -> option W.
  (** dso::from_char, None: exception; gps2tt; first day of a year; dates as nanoseconds *)
  Variable from_char : list Z -> option Z.
  Variable gps2tt : Z -> Z.
  Variable year_start : Z -> Z.
  Variable sdbl : list Z -> option R * list Z.

  (** include/aod1b.hpp:113-147 without the file name; offsets 0, 20, 40, 60, 64 of the 80 characters of charArena *)
  Record head := mkHead { charArena : list Z; file_type : Z; file_format : Z; num_header_records : Z; num_data_records : Z; max_degree : Z;
    coeff_errors : Z; coeff_normalized : Z; cGM : R; cRe : R; cflat : R; comega : R; num_data_sets : Z;
    time_epoch : Z; first_epoch : Z; last_epoch : Z; mwave : W }.
  Definition set_arena v h := mkHead v (file_type h) (file_format h) (num_header_records h) (num_data_records h) (max_degree h) (coeff_errors h) (coeff_normalized h) (cGM h) (cRe h) (cflat h) (comega h) (num_data_sets h) (time_epoch h) (first_epoch h) (last_epoch h) (mwave h).
  Definition set_file_type v h := mkHead (charArena h) v (file_format h) (num_header_records h) (num_data_records h) (max_degree h) (coeff_errors h) (coeff_normalized h) (cGM h) (cRe h) (cflat h) (comega h) (num_data_sets h) (time_epoch h) (first_epoch h) (last_epoch h) (mwave h).
  Definition set_file_format v h := mkHead (charArena h) (file_type h) v (num_header_records h) (num_data_records h) (max_degree h) (coeff_errors h) (coeff_normalized h) (cGM h) (cRe h) (cflat h) (comega h) (num_data_sets h) (time_epoch h) (first_epoch h) (last_epoch h) (mwave h).
  Definition set_num_header_records v h := mkHead (charArena h) (file_type h) (file_format h) v (num_data_records h) (max_degree h) (coeff_errors h) (coeff_normalized h) (cGM h) (cRe h) (cflat h) (comega h) (num_data_sets h) (time_epoch h) (first_epoch h) (last_epoch h) (mwave h).
  Definition set_num_data_records v h := mkHead (charArena h) (file_type h) (file_format h) (num_header_records h) v (max_degree h) (coeff_errors h) (coeff_normalized h) (cGM h) (cRe h) (cflat h) (comega h) (num_data_sets h) (time_epoch h) (first_epoch h) (last_epoch h) (mwave h).
  Definition set_max_degree v h := mkHead (charArena h) (file_type h) (file_format h) (num_header_records h) (num_data_records h) v (coeff_errors h) (coeff_normalized h) (cGM h) (cRe h) (cflat h) (comega h) (num_data_sets h) (time_epoch h) (first_epoch h) (last_epoch h) (mwave h).
  Definition set_coeff_errors v h := mkHead (charArena h) (file_type h) (file_format h) (num_header_records h) (num_data_records h) (max_degree h) v (coeff_normalized h) (cGM h) (cRe h) (cflat h) (comega h) (num_data_sets h) (time_epoch h) (first_epoch h) (last_epoch h) (mwave h).
  Definition set_coeff_normalized v h := mkHead (charArena h) (file_type h) (file_format h) (num_header_records h) (num_data_records h) (max_degree h) (coeff_errors h) v (cGM h) (cRe h) (cflat h) (comega h) (num_data_sets h) (time_epoch h) (first_epoch h) (last_epoch h) (mwave h).
  Definition set_GM v h := mkHead (charArena h) (file_type h) (file_format h) (num_header_records h) (num_data_records h) (max_degree h) (coeff_errors h) (coeff_normalized h) v (cRe h) (cflat h) (comega h) (num_data_sets h) (time_epoch h) (first_epoch h) (last_epoch h) (mwave h).
  Definition set_Re v h := mkHead (charArena h) (file_type h) (file_format h) (num_header_records h) (num_data_records h) (max_degree h) (coeff_errors h) (coeff_normalized h) (cGM h) v (cflat h) (comega h) (num_data_sets h) (time_epoch h) (first_epoch h) (last_epoch h) (mwave h).
  Definition set_flat v h := mkHead (charArena h) (file_type h) (file_format h) (num_header_records h) (num_data_records h) (max_degree h) (coeff_errors h) (coeff_normalized h) (cGM h) (cRe h) v (comega h) (num_data_sets h) (time_epoch h) (first_epoch h) (last_epoch h) (mwave h).
  Definition set_omega v h := mkHead (charArena h) (file_type h) (file_format h) (num_header_records h) (num_data_records h) (max_degree h) (coeff_errors h) (coeff_normalized h) (cGM h) (cRe h) (cflat h) v (num_data_sets h) (time_epoch h) (first_epoch h) (last_epoch h) (mwave h).
  Definition set_num_data_sets v h := mkHead (charArena h) (file_type h) (file_format h) (num_header_records h) (num_data_records h) (max_degree h) (coeff_errors h) (coeff_normalized h) (cGM h) (cRe h) (cflat h) (comega h) v (time_epoch h) (first_epoch h) (last_epoch h) (mwave h).
  Definition set_time_epoch v h := mkHead (charArena h) (file_type h) (file_format h) (num_header_records h) (num_data_records h) (max_degree h) (coeff_errors h) (coeff_normalized h) (cGM h) (cRe h) (cflat h) (comega h) (num_data_sets h) v (first_epoch h) (last_epoch h) (mwave h).
  Definition set_first_epoch v h := mkHead (charArena h) (file_type h) (file_format h) (num_header_records h) (num_data_records h) (max_degree h) (coeff_errors h) (coeff_normalized h) (cGM h) (cRe h) (cflat h) (comega h) (num_data_sets h) (time_epoch h) v (last_epoch h) (mwave h).
  Definition set_last_epoch v h := mkHead (charArena h) (file_type h) (file_format h) (num_header_records h) (num_data_records h) (max_degree h) (coeff_errors h) (coeff_normalized h) (cGM h) (cRe h) (cflat h) (comega h) (num_data_sets h) (time_epoch h) (first_epoch h) v (mwave h).
  Definition set_wave v h := mkHead (charArena h) (file_type h) (file_format h) (num_header_records h) (num_data_records h) (max_degree h) (coeff_errors h) (coeff_normalized h) (cGM h) (cRe h) (cflat h) (comega h) (num_data_sets h) (time_epoch h) (first_epoch h) (last_epoch h) v.

  (** what a line leads to: next line with so many errors, return 1 at once, or break *)
  Inductive step := Go (error : Z) (h : head) | Ret (h : head) | Stop.
  Definition handler := list Z -> head -> res step.

  (** ** the branches of lines 55-341; [k]: where header_field starts to search *)
  (** lines 55-58, 98-105, 203-216: memcpy into the arena; a negative size is a huge one *)
  Definition text (k : nat) (off : nat) : handler := fun line h =>
    p <- drop k line ;;
    ' (r, sz) <- field2 p ;;
    if sz <? 0 then UB else
    a <- write_at (charArena h) off (firstn (Z.to_nat sz) r) ;;
    Ok (Go 0 (set_arena a h)).
  (** lines 62-91, 185-194, 217-226, 306-315 *)
  Definition integer (k : nat) (set : Z -> head -> head) : handler := fun line h =>
    p <- drop k line ;;
    v <- field1 p ;;
    Ok (match scan_i32 v with (Some n, _) => Go 0 (set n h) | (None, _) => Go 1 h end).
  (** lines 266-305 *)
  Definition real (k : nat) (set : R -> head -> head) : handler := fun line h =>
    p <- drop k line ;;
    v <- field1 p ;;
    Ok (match sdbl v with (Some x, _) => Go 0 (set x h) | (None, _) => Go 1 h end).
  (** lines 227-265; the assert is active *)
  Definition yesno (k : nat) (set : Z -> head -> head) : handler := fun line h =>
    p <- drop k line ;;
    ' (r, sz) <- field2 p ;;
    if sz =? 2 then (if starts (chars "NO") r then Ok (Go 0 (set 0 h)) else Abort)
    else if sz =? 3 then (if starts (chars "YES") r then Ok (Go 0 (set 1 h)) else Abort)
    else Ok (Go 1 h).
  (** lines 106-110; an exception leaves a noexcept function *)
  Definition epoch (k : nat) : handler := fun line h =>
    p <- drop k line ;;
    v <- field1 p ;;
    match from_char v with None => Abort | Some t => Ok (Go 0 (set_time_epoch (gps2tt t) h)) end.
  (** lines 111-134, 148-171; sec is not initialised: undefined when it is not read; add_seconds returns the sum *)
  Definition observation (k : nat) (set : Z -> head -> head) : handler := fun line h =>
    p <- drop k line ;;
    v <- field1 p ;;
    let (sec, ptr) := sdbl v in
    match sec with
    | None => UB
    | Some x =>
        isec <- to_ns x ;;
        let e := time_epoch h + isec in
        let h := set e h in
        q <- to_digit ptr ;;
        match from_char q with
        | None => Abort
        | Some t => Ok (if gps2tt t =? e then Go 0 h else Ret h)
        end
    end.
  (** lines 135-147, 172-184; year is not initialised *)
  Definition year (k : nat) (set : Z -> head -> head) : handler := fun line h =>
    p <- drop k line ;;
    v <- field1 p ;;
    match scan_i32 v with (Some y, _) => Ok (Go 0 (set (year_start y) h)) | (None, _) => UB end.
  (** lines 318-332: buf has eight characters; a null pointer is dereferenced when there is no such wave *)
  Definition tide (k : nat) : handler := fun line h =>
    p <- drop k line ;;
    ' (r, sz) <- field2 p ;;
    if (sz <? 0) || (7 <? sz) then UB else
    match find_wave_entry (firstn (Z.to_nat sz) r) with None => UB | Some w => Ok (Go 0 (set_wave w h)) end.
  Definition ignore : handler := fun _ h => Ok (Go 0 h).

  Definition branches : list (list Z * handler) :=
    [(chars "PRODUCER AGENCY", text 15 0);
     (chars "PRODUCER INSTITUTION", ignore);
     (chars "FILE TYPE ipAOD1BF", integer 18 set_file_type);
     (chars "FILE FORMAT 0=BINARY 1=ASCII", integer 28 set_file_format);
     (chars "NUMBER OF HEADER RECORDS", integer 24 set_num_header_records);
     (chars "SOFTWARE VERSION", ignore);
     (chars "SOFTWARE LINK TIME", ignore);
     (chars "REFERENCE DOCUMENTATION", ignore);
     (chars "SATELLITE NAME", text 14 20);
     (chars "SENSOR NAME", text 11 40);
     (chars "TIME EPOCH (GPS TIME)", epoch 21);
     (chars "TIME FIRST OBS(SEC PAST EPOCH)", observation 30 set_first_epoch);
     (chars "TIME FIRST OBS (YEAR START)", year 27 set_first_epoch);
     (chars "TIME LAST OBS(SEC PAST EPOCH)", observation 29 set_last_epoch);
     (chars "TIME LAST OBS (YEAR END)", year 24 set_last_epoch);
     (chars "NUMBER OF DATA RECORDS", integer 22 set_num_data_records);
     (chars "PRODUCT START CREATE TIME(UTC)", ignore);
     (chars "PRODUCT END CREATE TIME(UTC)", ignore);
     (chars "FILESIZE (BYTES)", ignore);
     (chars "FILENAME", ignore);
     (chars "PROCESS LEVEL (1A OR 1B)", text 24 60);
     (chars "PRESSURE TYPE (SP OR VI)", text 24 64);
     (chars "PRESSURE TYPE (ATM OR OCN)", text 26 64);
     (chars "MAXIMUM DEGREE", integer 14 set_max_degree);
     (chars "COEFFICIENTS ERRORS (YES/NO)", yesno 28 set_coeff_errors);
     (chars "COEFF. NORMALIZED (YES/NO)", yesno 26 set_coeff_normalized);
     (chars "CONSTANT GM [M^3/S^2]", real 21 set_GM);
     (chars "CONSTANT A [M]", real 22 set_Re);
     (chars "CONSTANT FLAT [-]", real 17 set_flat);
     (chars "CONSTANT OMEGA [RAD/S]", real 17 set_omega);
     (chars "NUMBER OF DATA SETS", integer 17 set_num_data_sets);
     (chars "DATA FORMAT (N,M,C,S)", ignore);
     (chars "PARTIAL TIDE", tide 12);
     (chars "END OF HEADER", fun _ _ => Ok Stop)].
  (** the chain of else if; an unknown line is an error *)
  Fixpoint choose (bs : list (list Z * handler)) (line : list Z) (h : head) : res step :=
    match bs with
    | [] => Ok (Go 1 h)
    | (lit, f) :: bs' => if starts lit line then f line h else choose bs' line h
    end.

  (** lines 54-354; [n] lines may still be looked at *)
  Fixpoint read_loop (n : nat) (s : ifs) (h : head) : res (Z * head) :=
    let (line, s') := igetline MAXL s in
    if ifail s' then Ok (1, h) else
    match n with
    | O => Ok (1, h)
    | S k =>
        r <- choose branches line h ;;
        match r with
        | Go e h' => if e =? 0 then read_loop k s' h' else Ok (1, h')
        | Ret h' => Ok (1, h')
        | Stop => Ok (if good s' then 0 else 1, h)
        end
    end.
  (** lines 36-53 for a file that can be opened *)
  Definition read_header (file : list (list Z)) (term : bool) (h : head) : res (Z * head) :=
    read_loop 99 (seek0 file term (mkI file term false false)) h.

  (** ** src/lib/aod1b/aod1b.cpp *)
  (** an object: file name and header *)
  Record aod1b := mkAod { mfn : list Z; hd : head }.
  (** lines 5-17: the arena is cleared, the other members hold anything ([h]); Abort: throws *)
  Definition construct (disk : list Z -> option (list (list Z) * bool)) (fn : list Z) (h : head) : res aod1b :=
    let h := set_arena (repeat 0 80) h in
    match disk fn with
    | None => Abort
    | Some (file, term) => ' (e, h') <- read_header file term h ;; if e =? 0 then Ok (mkAod fn h') else Abort
    end.
  (** member by member, lines 21-37 and 64-84; memcpy of 80 characters *)
  Definition copy_members (a : head) (b : head) : head :=
    mkHead (firstn 80 (charArena b) ++ skipn 80 (charArena a)) (file_type b) (file_format b) (num_header_records b) (num_data_records b) (max_degree b) (coeff_errors b) (coeff_normalized b)
      (cGM b) (cRe b) (cflat b) (comega b) (num_data_sets b) (time_epoch b) (first_epoch b) (last_epoch b) (mwave b).
  (** lines 19-39; [raw]: the storage of the new object *)
  Definition copy (raw : head) (b : aod1b) : aod1b := mkAod (mfn b) (copy_members raw (hd b)).
  (** lines 41-61: new object and source; std::string is empty after the move *)
  Definition move (raw : head) (b : aod1b) : aod1b * aod1b := (mkAod (mfn b) (copy_members raw (hd b)), mkAod [] (hd b)).
  (** lines 63-86 and 88-111; [same]: this == &other *)
  Definition assign (same : bool) (a b : aod1b) : aod1b := if same then a else mkAod (mfn b) (copy_members (hd a) (hd b)).
  Definition move_assign (same : bool) (a b : aod1b) : aod1b * aod1b :=
    if same then (a, a) else (mkAod (mfn b) (copy_members (hd a) (hd b)), mkAod [] (hd b)).
End Head.
