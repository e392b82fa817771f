(** Tide atlases and GROOPS tide models: include/tide_atlas.hpp, src/lib/tide_atlas.cpp, src/lib/tidal_constituent.cpp,
    src/lib/tide_atlas_groops.cpp *)
From Coq Require Import Ascii String Reals ZArith List Bool.
From Verif Require Import Base CString FromChars DoodsonModel IcgemModel.
Import ListNotations.
Open Scope Z_scope.

(** a StokesCoeffs object as seen from outside; None: its coefficients were never assigned *)
Record stokes := mkStokes { sdeg : Z; sord : Z; sval : option coeffs }.
(** include/stokes_coefficients.hpp:134-136 *)
Definition fresh (n m : Z) : stokes := mkStokes n (if 0 <? m then m else n) None.

(** include/tide_atlas.hpp:34-65 TidalConstituent; period and height of the wave are left out *)
Record wave := mkW { wd : doodson; wname : list Z; wcos : stokes; wsin : stokes }.
(** src/lib/tidal_constituent.cpp:8-11 *)
Definition new_wave (d : doodson) (name : list Z) (n m : Z) : wave := mkW d name (fresh n m) (fresh n m).
(** include/tide_atlas.hpp:75: mwaves *)
Definition atlas := list wave.

(** src/lib/tide_atlas.cpp:3-11, 13-21: position of the iterator, the length for end() *)
Fixpoint find_tidal_wave (a : atlas) (d : doodson) : nat :=
  match a with
  | [] => O
  | w :: t => if eqb (wd w) d then O else S (find_tidal_wave t d)
  end.
(** src/lib/tide_atlas.cpp:23-36; None: std::runtime_error *)
Definition append_wave (a : atlas) (w : wave) : option (atlas * nat) :=
  if negb (Nat.eqb (find_tidal_wave a (wd w)) (length a)) then None
  else let a' := (a ++ [w])%list in Some (a', (length a' - 1)%nat).
(** src/lib/tide_atlas.cpp:38-53 *)
Definition append_new (a : atlas) (d : doodson) (name : list Z) (n m : Z) : option (atlas * nat) :=
  if negb (Nat.eqb (find_tidal_wave a d) (length a)) then None
  else let a' := (a ++ [new_wave d name n m])%list in Some (a', (length a' - 1)%nat).
(** include/tide_atlas.hpp:80-88, 89-95 *)
Definition max_atlas_degree (a : atlas) : Z * Z :=
  fold_left (fun acc w => (Z.max (fst acc) (sdeg (wcos w)), Z.max (snd acc) (sord (wcos w)))) a (0, 0).

(** ** GROOPS file names: src/lib/tide_atlas_groops.cpp:235-318 *)
(** characters of _model[48] and _constituentName[16] that were copied; _sinCos: 'c' or 's' *)
Record gname := mkG { gmodel : list Z; gd : doodson; gwave : list Z; gtag : Z }.
(** a character array of n elements read as a string: it must have room for the terminator *)
Definition as_string (n : Z) (s : list Z) : res (list Z) := if Z.of_nat (length s) <? n then Ok s else UB.
Definition toupper (c : Z) : Z := if (97 <=? c) && (c <=? 122) then c - 32 else c.

(** lines 241-264 *)
Definition compile (g : gname) (model : option (list Z)) (dood : option doodson) (wv : option (list Z)) (sincos : Z) : res (list Z) :=
  m <- match model with None => as_string 48 (gmodel g) | Some m => Ok m end ;;
  let d := match dood with None => gd g | Some d => d end in
  buf <- c_str (str_bytes d true ++ repeat 0 9) ;;
  w <- match wv with None => as_string 16 (gwave g) | Some w => Ok w end ;;
  as_string 124 (m ++ [95] ++ map toupper buf ++ [95] ++ w ++ [95] ++ (if sincos =? 99 then chars "sin" else chars "cos") ++ chars ".gfc")%list.

(** lines 291-292, 300-301: from position n downwards; the start of the array is not checked *)
Fixpoint back (s : list Z) (n : nat) : res nat :=
  if nth n s 0 =? 95 then Ok n else match n with O => UB | S k => back s k end.
Definition back_from (s : list Z) (i : Z) : res Z :=
  if i <? 0 then UB else p <- back s (Z.to_nat i) ;; Ok (Z.of_nat p).
(** std::strncmp(fn + at, w, strlen(w)) == 0 *)
Definition same_at (s : list Z) (i : Z) (w : list Z) : res bool :=
  if i <? 0 then UB else Ok (prefix w (skipn (Z.to_nat i) s)).
(** lines 266-317 for the string [s]; None: an exception *)
Definition parse_gname (s : list Z) : res (option gname) :=
  let sz := Z.of_nat (length s) in
  ext <- same_at s (sz - 4) (chars ".gfc") ;;
  sn <- same_at s (sz - 7) (chars "sin") ;;
  cs <- same_at s (sz - 7) (chars "cos") ;;
  p <- back_from s (sz - 9) ;;
  if 16 <? sz - 9 - p then UB else
  let nm := firstn (Z.to_nat (sz - 9 - p)) (skipn (Z.to_nat (p + 1)) s) in
  q <- back_from s (p - 1) ;;
  d <- from_chars (skipn (Z.to_nat (q + 1)) (s ++ [0])%list) ;;
  match d with
  | None => Ok None
  | Some d =>
      if 48 <? q then UB else
      if ext && (sn || cs) then Ok (Some (mkG (firstn (Z.to_nat q) s) d nm (if sn then 115 else 99))) else Ok None
  end.

(** ** file lists *)
(** lines 61-90 on a file that can be opened: the lines, without their ends *)
Fixpoint span_word (s : list Z) : list Z * list Z :=
  match s with
  | c :: t => if c =? 32 then ([], s) else let (w, r) := span_word t in (c :: w, r)
  | [] => ([], [])
  end.
Fixpoint resolve_file_list (lines : list (list Z)) : list (list Z) :=
  match lines with
  | [] => []
  | line :: rest =>
      if 511 <? Z.of_nat (length line) then []
      else
        let (a, r) := span_word (skip_blanks line) in
        let (b, _) := span_word (skip_blanks r) in
        a :: b :: resolve_file_list rest
  end.

Definition mem (x : list Z) (l : list (list Z)) : bool := existsb (list_eqb x) l.
Fixpoint distinct (l : list (list Z)) : bool :=
  match l with [] => true | x :: t => negb (mem x t) && distinct t end.
(** lines 335-349; the function is noexcept *)
Fixpoint validate_loop (all l : list (list Z)) : res Z :=
  match l with
  | [] => Ok 0
  | f :: t =>
      g <- parse_gname f ;;
      match g with
      | None => Abort
      | Some g =>
          fr <- compile g None None None (if gtag g =? 115 then 99 else 115) ;;
          if mem fr all then validate_loop all t else Ok 2
      end
  end.
(** lines 326-351 *)
Definition validate_file_list (l : list (list Z)) : res Z :=
  if negb (distinct l) then Ok 1 else validate_loop l l.

(** ** the atlas: lines 355-461 *)
Section Groops.
  (** Icgem(path) followed by parse_data: None: the constructor throws; otherwise the model name and, if parse_data
      returns 0, the coefficients read *)
  Variable gfc : list Z -> Z -> Z -> res (option (list Z * option stokes)).
  Variable dir : list Z.
  Variables max_degree max_order : Z.

  Fixpoint set_nth (a : atlas) (i : nat) (f : wave -> wave) : atlas :=
    match a, i with
    | [], _ => []
    | w :: t, O => f w :: t
    | w :: t, S k => w :: set_nth t k f
    end.
  (** atlas, tmp_name, cmaxdeg, cmaxord *)
  Record gst := mkGst { ga : atlas; gnm : list Z; gcd : Z; gco : Z }.
  (** lines 395-455, one file; None: an exception *)
  Definition add_file (st : gst) (f : list Z) : res (option gst) :=
    g <- parse_gname f ;;
    match g with
    | None => Ok None
    | Some g =>
        let i := find_tidal_wave (ga st) (gd g) in
        a <- (if Nat.eqb i (length (ga st))
              then w <- as_string 16 (gwave g) ;;
                   Ok (option_map fst (append_new (ga st) (gd g) w (if max_degree <? 0 then gcd st else max_degree)
                                                  (if max_order <? 0 then gco st else max_order)))
              else Ok (Some (ga st))) ;;
        match a with
        | None => Ok None
        | Some a =>
            path <- as_string 248 (dir ++ [47] ++ f)%list ;;
            r <- gfc path max_degree max_order ;;
            match r with
            | None => Ok None
            | Some (name, cs) =>
                name <- as_string 64 name ;;
                match cs with
                | None => Ok None
                | Some cs =>
                    let a' := set_nth a i (fun w => if gtag g =? 115 then mkW (wd w) (wname w) (wcos w) cs
                                                    else mkW (wd w) (wname w) cs (wsin w)) in
                    Ok (Some (mkGst a' name (if gcd st <? sdeg cs then sdeg cs else gcd st) (if gco st <? sord cs then sord cs else gco st)))
                end
            end
        end
    end.
  Fixpoint add_files (st : gst) (l : list (list Z)) : res (option gst) :=
    match l with
    | [] => Ok (Some st)
    | f :: t => r <- add_file st f ;; match r with None => Ok None | Some st' => add_files st' t end
    end.
  (** lines 355-461; the list of lines of the file list, None if it cannot be opened. Result: the atlas and its name.
      The even-size test (368) cannot fail. *)
  Definition groops_atlas (list_lines : option (list (list Z))) : res (option (atlas * list Z)) :=
    let fl := match list_lines with None => [] | Some l => resolve_file_list l end in
    match fl with
    | [] => Ok None
    | _ =>
        if Z.odd (Z.of_nat (length fl)) then Ok None else
        c <- validate_file_list fl ;;
        if negb (c =? 0) then Ok None else
        r <- add_files (mkGst [] [] (if max_degree <? 0 then 120 else max_degree) (if max_order <? 0 then 120 else max_order)) fl ;;
        match r with None => Ok None | Some st => Ok (Some (ga st, gnm st)) end
    end.
End Groops.

(** the ICGEM reader in the place of [gfc]: the lines of the file at a path *)
Definition icgem_gfc (sdbl : list Z -> option R * list Z) mkdate MIN MAX years (fs : list Z -> option (list (list Z))) (path : list Z) (n m : Z)
  : res (option (list Z * option stokes)) :=
  match fs path with
  | None => Ok None
  | Some lines =>
      ' (code, h, data) <- parse_header sdbl lines ;;
      if negb (code =? 0) then Ok None else
      ' (code, d, o, cs) <- parse_data sdbl mkdate MIN MAX years (hv2 h) (herr h) (hmax h) n m MIN data ;;
      Ok (Some (hname h, if code =? 0 then Some (mkStokes d o (Some cs)) else None))
  end.

(** ** Doodson and admittance matrices *)
(** lines 115-119: n numbers; values (None: not assigned), error count *)
Fixpoint numbers {A} (scan : list Z -> option A * list Z) (n : nat) (s : list Z) : list (option A) * Z :=
  match n with
  | O => ([], 0)
  | S k => let (v, r) := scan (skip_blanks s) in let (vs, e) := numbers scan k r in (v :: vs, cnt v + e)
  end.
(** lines 107-130: rows and error; a line of 124 characters or more ends the loop like the end of the file *)
Fixpoint doodson_rows (lines : list (list Z)) (error : Z) : list (list (option Z)) * Z :=
  match lines with
  | [] => ([], error)
  | line :: rest =>
      if (123 <? Z.of_nat (length line)) || negb (error =? 0) then ([], error)
      else let (r, e) := numbers scan_i32 6 line in let (rs, e') := doodson_rows rest (error + e) in (r :: rs, e')
  end.
(** lines 98-139; no rows: failure *)
Definition parse_doodson (lines : option (list (list Z))) : list (list (option Z)) :=
  match lines with
  | None => []
  | Some l => let (rs, e) := doodson_rows l 0 in if e =? 0 then rs else []
  end.

Section Admittance.
  Variable sdbl : list Z -> option R * list Z.
  (** lines 181-209: rows read so far (newest last), error, stream failure before the end of the file. Dense matrix:
      mat(row, col) has an active assertion on the indices (eigen_assert); from_chars writes straight into it. *)
  Fixpoint admittance_rows (k f : nat) (lines : list (list Z)) (done : list (list (option R))) (error : Z) : res (option (list (list (option R)) * Z * bool)) :=
    match lines with
    | [] => Ok (Some (done, error, false))
    | line :: rest =>
        if (Z.of_nat (f + 1) * 27 - 1 <? Z.of_nat (length line)) then Ok (Some (done, error, true))
        else if negb (error =? 0) then Ok (Some (done, error, false))
        else if (k <? length done)%nat then Ok None
        else if (length done =? k)%nat && (0 <? f)%nat then Abort
        else let (r, e) := numbers sdbl f line in admittance_rows k f rest (done ++ [r])%list (error + e)
    end.
  (** lines 146-233: a k x f matrix (cells never assigned: None), or None: the empty matrix *)
  Definition parse_admittance (k f : nat) (lines : option (list (list Z))) : res (option (list (list (option R)))) :=
    match lines with
    | None => Ok None
    | Some l =>
        r <- admittance_rows k f l [] 0 ;;
        match r with
        | None => Ok None
        | Some (done, error, bad) =>
            if negb (error =? 0) || bad then Ok None
            else Ok (Some (done ++ repeat (repeat None f) (k - length done))%list)
        end
    end.
  (** lines 463-496: Doodson matrix and admittance matrix for an atlas of k waves; None: an exception. The empty matrix
      has no columns. *)
  Definition read_model (k : nat) (f002 f003 : option (list (list Z))) : res (option (list (list (option Z)) * list (list (option R)))) :=
    let D := parse_doodson f002 in
    match D with
    | [] => Ok None
    | _ =>
        A <- parse_admittance k (length D) f003 ;;
        match A with None => Ok None | Some A => Ok (Some (D, A)) end
    end.
End Admittance.
